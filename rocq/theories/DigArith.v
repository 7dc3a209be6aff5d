(** Arithmetic on numbers written with digits in base 64, lowest first, by
    tables: the certificates about curve parameters are checked with it, by the
    kernel's own reduction.  The types have no parameters, to make this fast.
    Nothing here models /repo. *)
From Coq Require Import ZArith Znumtheory Zpow_facts List Lia Bool.
From Verif Require Import ZpTheory.
Import ListNotations.
Open Scope Z_scope.

Inductive dig : Set := x0 | x1 | x2 | x3 | x4 | x5 | x6 | x7 | x8 | x9 | x10 | x11 | x12 | x13 | x14 | x15 | x16 | x17 | x18 | x19 | x20 | x21 | x22 | x23 | x24 | x25 | x26 | x27 | x28 | x29 | x30 | x31 | x32 | x33 | x34 | x35 | x36 | x37 | x38 | x39 | x40 | x41 | x42 | x43 | x44 | x45 | x46 | x47 | x48 | x49 | x50 | x51 | x52 | x53 | x54 | x55 | x56 | x57 | x58 | x59 | x60 | x61 | x62 | x63.
(** The sum of two digits, and two digits. *)
Inductive sum2 : Set := s0 | s1 | s2 | s3 | s4 | s5 | s6 | s7 | s8 | s9 | s10 | s11 | s12 | s13 | s14 | s15 | s16 | s17 | s18 | s19 | s20 | s21 | s22 | s23 | s24 | s25 | s26 | s27 | s28 | s29 | s30 | s31 | s32 | s33 | s34 | s35 | s36 | s37 | s38 | s39 | s40 | s41 | s42 | s43 | s44 | s45 | s46 | s47 | s48 | s49 | s50 | s51 | s52 | s53 | s54 | s55 | s56 | s57 | s58 | s59 | s60 | s61 | s62 | s63 | s64 | s65 | s66 | s67 | s68 | s69 | s70 | s71 | s72 | s73 | s74 | s75 | s76 | s77 | s78 | s79 | s80 | s81 | s82 | s83 | s84 | s85 | s86 | s87 | s88 | s89 | s90 | s91 | s92 | s93 | s94 | s95 | s96 | s97 | s98 | s99 | s100 | s101 | s102 | s103 | s104 | s105 | s106 | s107 | s108 | s109 | s110 | s111 | s112 | s113 | s114 | s115 | s116 | s117 | s118 | s119 | s120 | s121 | s122 | s123 | s124 | s125 | s126.
Inductive dd : Set := DD (h l : dig).
(** Carry and digit. *)
Inductive cd : Set := C0 (d : dig) | C1 (d : dig).
Inductive num : Set := NE | NC (d : dig) (n : num).
(** v + c, for each product v of two digits. *)
Definition m0 (c : sum2) : dd := match c with s0 => DD x0 x0 | s1 => DD x0 x1 | s2 => DD x0 x2 | s3 => DD x0 x3 | s4 => DD x0 x4 | s5 => DD x0 x5 | s6 => DD x0 x6 | s7 => DD x0 x7 | s8 => DD x0 x8 | s9 => DD x0 x9 | s10 => DD x0 x10 | s11 => DD x0 x11 | s12 => DD x0 x12 | s13 => DD x0 x13 | s14 => DD x0 x14 | s15 => DD x0 x15 | s16 => DD x0 x16 | s17 => DD x0 x17 | s18 => DD x0 x18 | s19 => DD x0 x19 | s20 => DD x0 x20 | s21 => DD x0 x21 | s22 => DD x0 x22 | s23 => DD x0 x23 | s24 => DD x0 x24 | s25 => DD x0 x25 | s26 => DD x0 x26 | s27 => DD x0 x27 | s28 => DD x0 x28 | s29 => DD x0 x29 | s30 => DD x0 x30 | s31 => DD x0 x31 | s32 => DD x0 x32 | s33 => DD x0 x33 | s34 => DD x0 x34 | s35 => DD x0 x35 | s36 => DD x0 x36 | s37 => DD x0 x37 | s38 => DD x0 x38 | s39 => DD x0 x39 | s40 => DD x0 x40 | s41 => DD x0 x41 | s42 => DD x0 x42 | s43 => DD x0 x43 | s44 => DD x0 x44 | s45 => DD x0 x45 | s46 => DD x0 x46 | s47 => DD x0 x47 | s48 => DD x0 x48 | s49 => DD x0 x49 | s50 => DD x0 x50 | s51 => DD x0 x51 | s52 => DD x0 x52 | s53 => DD x0 x53 | s54 => DD x0 x54 | s55 => DD x0 x55 | s56 => DD x0 x56 | s57 => DD x0 x57 | s58 => DD x0 x58 | s59 => DD x0 x59 | s60 => DD x0 x60 | s61 => DD x0 x61 | s62 => DD x0 x62 | s63 => DD x0 x63 | s64 => DD x1 x0 | s65 => DD x1 x1 | s66 => DD x1 x2 | s67 => DD x1 x3 | s68 => DD x1 x4 | s69 => DD x1 x5 | s70 => DD x1 x6 | s71 => DD x1 x7 | s72 => DD x1 x8 | s73 => DD x1 x9 | s74 => DD x1 x10 | s75 => DD x1 x11 | s76 => DD x1 x12 | s77 => DD x1 x13 | s78 => DD x1 x14 | s79 => DD x1 x15 | s80 => DD x1 x16 | s81 => DD x1 x17 | s82 => DD x1 x18 | s83 => DD x1 x19 | s84 => DD x1 x20 | s85 => DD x1 x21 | s86 => DD x1 x22 | s87 => DD x1 x23 | s88 => DD x1 x24 | s89 => DD x1 x25 | s90 => DD x1 x26 | s91 => DD x1 x27 | s92 => DD x1 x28 | s93 => DD x1 x29 | s94 => DD x1 x30 | s95 => DD x1 x31 | s96 => DD x1 x32 | s97 => DD x1 x33 | s98 => DD x1 x34 | s99 => DD x1 x35 | s100 => DD x1 x36 | s101 => DD x1 x37 | s102 => DD x1 x38 | s103 => DD x1 x39 | s104 => DD x1 x40 | s105 => DD x1 x41 | s106 => DD x1 x42 | s107 => DD x1 x43 | s108 => DD x1 x44 | s109 => DD x1 x45 | s110 => DD x1 x46 | s111 => DD x1 x47 | s112 => DD x1 x48 | s113 => DD x1 x49 | s114 => DD x1 x50 | s115 => DD x1 x51 | s116 => DD x1 x52 | s117 => DD x1 x53 | s118 => DD x1 x54 | s119 => DD x1 x55 | s120 => DD x1 x56 | s121 => DD x1 x57 | s122 => DD x1 x58 | s123 => DD x1 x59 | s124 => DD x1 x60 | s125 => DD x1 x61 | s126 => DD x1 x62 end.
Definition m1 (c : sum2) : dd := match c with s0 => DD x0 x1 | s1 => DD x0 x2 | s2 => DD x0 x3 | s3 => DD x0 x4 | s4 => DD x0 x5 | s5 => DD x0 x6 | s6 => DD x0 x7 | s7 => DD x0 x8 | s8 => DD x0 x9 | s9 => DD x0 x10 | s10 => DD x0 x11 | s11 => DD x0 x12 | s12 => DD x0 x13 | s13 => DD x0 x14 | s14 => DD x0 x15 | s15 => DD x0 x16 | s16 => DD x0 x17 | s17 => DD x0 x18 | s18 => DD x0 x19 | s19 => DD x0 x20 | s20 => DD x0 x21 | s21 => DD x0 x22 | s22 => DD x0 x23 | s23 => DD x0 x24 | s24 => DD x0 x25 | s25 => DD x0 x26 | s26 => DD x0 x27 | s27 => DD x0 x28 | s28 => DD x0 x29 | s29 => DD x0 x30 | s30 => DD x0 x31 | s31 => DD x0 x32 | s32 => DD x0 x33 | s33 => DD x0 x34 | s34 => DD x0 x35 | s35 => DD x0 x36 | s36 => DD x0 x37 | s37 => DD x0 x38 | s38 => DD x0 x39 | s39 => DD x0 x40 | s40 => DD x0 x41 | s41 => DD x0 x42 | s42 => DD x0 x43 | s43 => DD x0 x44 | s44 => DD x0 x45 | s45 => DD x0 x46 | s46 => DD x0 x47 | s47 => DD x0 x48 | s48 => DD x0 x49 | s49 => DD x0 x50 | s50 => DD x0 x51 | s51 => DD x0 x52 | s52 => DD x0 x53 | s53 => DD x0 x54 | s54 => DD x0 x55 | s55 => DD x0 x56 | s56 => DD x0 x57 | s57 => DD x0 x58 | s58 => DD x0 x59 | s59 => DD x0 x60 | s60 => DD x0 x61 | s61 => DD x0 x62 | s62 => DD x0 x63 | s63 => DD x1 x0 | s64 => DD x1 x1 | s65 => DD x1 x2 | s66 => DD x1 x3 | s67 => DD x1 x4 | s68 => DD x1 x5 | s69 => DD x1 x6 | s70 => DD x1 x7 | s71 => DD x1 x8 | s72 => DD x1 x9 | s73 => DD x1 x10 | s74 => DD x1 x11 | s75 => DD x1 x12 | s76 => DD x1 x13 | s77 => DD x1 x14 | s78 => DD x1 x15 | s79 => DD x1 x16 | s80 => DD x1 x17 | s81 => DD x1 x18 | s82 => DD x1 x19 | s83 => DD x1 x20 | s84 => DD x1 x21 | s85 => DD x1 x22 | s86 => DD x1 x23 | s87 => DD x1 x24 | s88 => DD x1 x25 | s89 => DD x1 x26 | s90 => DD x1 x27 | s91 => DD x1 x28 | s92 => DD x1 x29 | s93 => DD x1 x30 | s94 => DD x1 x31 | s95 => DD x1 x32 | s96 => DD x1 x33 | s97 => DD x1 x34 | s98 => DD x1 x35 | s99 => DD x1 x36 | s100 => DD x1 x37 | s101 => DD x1 x38 | s102 => DD x1 x39 | s103 => DD x1 x40 | s104 => DD x1 x41 | s105 => DD x1 x42 | s106 => DD x1 x43 | s107 => DD x1 x44 | s108 => DD x1 x45 | s109 => DD x1 x46 | s110 => DD x1 x47 | s111 => DD x1 x48 | s112 => DD x1 x49 | s113 => DD x1 x50 | s114 => DD x1 x51 | s115 => DD x1 x52 | s116 => DD x1 x53 | s117 => DD x1 x54 | s118 => DD x1 x55 | s119 => DD x1 x56 | s120 => DD x1 x57 | s121 => DD x1 x58 | s122 => DD x1 x59 | s123 => DD x1 x60 | s124 => DD x1 x61 | s125 => DD x1 x62 | s126 => DD x1 x63 end.
Definition m2 (c : sum2) : dd := match c with s0 => DD x0 x2 | s1 => DD x0 x3 | s2 => DD x0 x4 | s3 => DD x0 x5 | s4 => DD x0 x6 | s5 => DD x0 x7 | s6 => DD x0 x8 | s7 => DD x0 x9 | s8 => DD x0 x10 | s9 => DD x0 x11 | s10 => DD x0 x12 | s11 => DD x0 x13 | s12 => DD x0 x14 | s13 => DD x0 x15 | s14 => DD x0 x16 | s15 => DD x0 x17 | s16 => DD x0 x18 | s17 => DD x0 x19 | s18 => DD x0 x20 | s19 => DD x0 x21 | s20 => DD x0 x22 | s21 => DD x0 x23 | s22 => DD x0 x24 | s23 => DD x0 x25 | s24 => DD x0 x26 | s25 => DD x0 x27 | s26 => DD x0 x28 | s27 => DD x0 x29 | s28 => DD x0 x30 | s29 => DD x0 x31 | s30 => DD x0 x32 | s31 => DD x0 x33 | s32 => DD x0 x34 | s33 => DD x0 x35 | s34 => DD x0 x36 | s35 => DD x0 x37 | s36 => DD x0 x38 | s37 => DD x0 x39 | s38 => DD x0 x40 | s39 => DD x0 x41 | s40 => DD x0 x42 | s41 => DD x0 x43 | s42 => DD x0 x44 | s43 => DD x0 x45 | s44 => DD x0 x46 | s45 => DD x0 x47 | s46 => DD x0 x48 | s47 => DD x0 x49 | s48 => DD x0 x50 | s49 => DD x0 x51 | s50 => DD x0 x52 | s51 => DD x0 x53 | s52 => DD x0 x54 | s53 => DD x0 x55 | s54 => DD x0 x56 | s55 => DD x0 x57 | s56 => DD x0 x58 | s57 => DD x0 x59 | s58 => DD x0 x60 | s59 => DD x0 x61 | s60 => DD x0 x62 | s61 => DD x0 x63 | s62 => DD x1 x0 | s63 => DD x1 x1 | s64 => DD x1 x2 | s65 => DD x1 x3 | s66 => DD x1 x4 | s67 => DD x1 x5 | s68 => DD x1 x6 | s69 => DD x1 x7 | s70 => DD x1 x8 | s71 => DD x1 x9 | s72 => DD x1 x10 | s73 => DD x1 x11 | s74 => DD x1 x12 | s75 => DD x1 x13 | s76 => DD x1 x14 | s77 => DD x1 x15 | s78 => DD x1 x16 | s79 => DD x1 x17 | s80 => DD x1 x18 | s81 => DD x1 x19 | s82 => DD x1 x20 | s83 => DD x1 x21 | s84 => DD x1 x22 | s85 => DD x1 x23 | s86 => DD x1 x24 | s87 => DD x1 x25 | s88 => DD x1 x26 | s89 => DD x1 x27 | s90 => DD x1 x28 | s91 => DD x1 x29 | s92 => DD x1 x30 | s93 => DD x1 x31 | s94 => DD x1 x32 | s95 => DD x1 x33 | s96 => DD x1 x34 | s97 => DD x1 x35 | s98 => DD x1 x36 | s99 => DD x1 x37 | s100 => DD x1 x38 | s101 => DD x1 x39 | s102 => DD x1 x40 | s103 => DD x1 x41 | s104 => DD x1 x42 | s105 => DD x1 x43 | s106 => DD x1 x44 | s107 => DD x1 x45 | s108 => DD x1 x46 | s109 => DD x1 x47 | s110 => DD x1 x48 | s111 => DD x1 x49 | s112 => DD x1 x50 | s113 => DD x1 x51 | s114 => DD x1 x52 | s115 => DD x1 x53 | s116 => DD x1 x54 | s117 => DD x1 x55 | s118 => DD x1 x56 | s119 => DD x1 x57 | s120 => DD x1 x58 | s121 => DD x1 x59 | s122 => DD x1 x60 | s123 => DD x1 x61 | s124 => DD x1 x62 | s125 => DD x1 x63 | s126 => DD x2 x0 end.
Definition m3 (c : sum2) : dd := match c with s0 => DD x0 x3 | s1 => DD x0 x4 | s2 => DD x0 x5 | s3 => DD x0 x6 | s4 => DD x0 x7 | s5 => DD x0 x8 | s6 => DD x0 x9 | s7 => DD x0 x10 | s8 => DD x0 x11 | s9 => DD x0 x12 | s10 => DD x0 x13 | s11 => DD x0 x14 | s12 => DD x0 x15 | s13 => DD x0 x16 | s14 => DD x0 x17 | s15 => DD x0 x18 | s16 => DD x0 x19 | s17 => DD x0 x20 | s18 => DD x0 x21 | s19 => DD x0 x22 | s20 => DD x0 x23 | s21 => DD x0 x24 | s22 => DD x0 x25 | s23 => DD x0 x26 | s24 => DD x0 x27 | s25 => DD x0 x28 | s26 => DD x0 x29 | s27 => DD x0 x30 | s28 => DD x0 x31 | s29 => DD x0 x32 | s30 => DD x0 x33 | s31 => DD x0 x34 | s32 => DD x0 x35 | s33 => DD x0 x36 | s34 => DD x0 x37 | s35 => DD x0 x38 | s36 => DD x0 x39 | s37 => DD x0 x40 | s38 => DD x0 x41 | s39 => DD x0 x42 | s40 => DD x0 x43 | s41 => DD x0 x44 | s42 => DD x0 x45 | s43 => DD x0 x46 | s44 => DD x0 x47 | s45 => DD x0 x48 | s46 => DD x0 x49 | s47 => DD x0 x50 | s48 => DD x0 x51 | s49 => DD x0 x52 | s50 => DD x0 x53 | s51 => DD x0 x54 | s52 => DD x0 x55 | s53 => DD x0 x56 | s54 => DD x0 x57 | s55 => DD x0 x58 | s56 => DD x0 x59 | s57 => DD x0 x60 | s58 => DD x0 x61 | s59 => DD x0 x62 | s60 => DD x0 x63 | s61 => DD x1 x0 | s62 => DD x1 x1 | s63 => DD x1 x2 | s64 => DD x1 x3 | s65 => DD x1 x4 | s66 => DD x1 x5 | s67 => DD x1 x6 | s68 => DD x1 x7 | s69 => DD x1 x8 | s70 => DD x1 x9 | s71 => DD x1 x10 | s72 => DD x1 x11 | s73 => DD x1 x12 | s74 => DD x1 x13 | s75 => DD x1 x14 | s76 => DD x1 x15 | s77 => DD x1 x16 | s78 => DD x1 x17 | s79 => DD x1 x18 | s80 => DD x1 x19 | s81 => DD x1 x20 | s82 => DD x1 x21 | s83 => DD x1 x22 | s84 => DD x1 x23 | s85 => DD x1 x24 | s86 => DD x1 x25 | s87 => DD x1 x26 | s88 => DD x1 x27 | s89 => DD x1 x28 | s90 => DD x1 x29 | s91 => DD x1 x30 | s92 => DD x1 x31 | s93 => DD x1 x32 | s94 => DD x1 x33 | s95 => DD x1 x34 | s96 => DD x1 x35 | s97 => DD x1 x36 | s98 => DD x1 x37 | s99 => DD x1 x38 | s100 => DD x1 x39 | s101 => DD x1 x40 | s102 => DD x1 x41 | s103 => DD x1 x42 | s104 => DD x1 x43 | s105 => DD x1 x44 | s106 => DD x1 x45 | s107 => DD x1 x46 | s108 => DD x1 x47 | s109 => DD x1 x48 | s110 => DD x1 x49 | s111 => DD x1 x50 | s112 => DD x1 x51 | s113 => DD x1 x52 | s114 => DD x1 x53 | s115 => DD x1 x54 | s116 => DD x1 x55 | s117 => DD x1 x56 | s118 => DD x1 x57 | s119 => DD x1 x58 | s120 => DD x1 x59 | s121 => DD x1 x60 | s122 => DD x1 x61 | s123 => DD x1 x62 | s124 => DD x1 x63 | s125 => DD x2 x0 | s126 => DD x2 x1 end.
Definition m4 (c : sum2) : dd := match c with s0 => DD x0 x4 | s1 => DD x0 x5 | s2 => DD x0 x6 | s3 => DD x0 x7 | s4 => DD x0 x8 | s5 => DD x0 x9 | s6 => DD x0 x10 | s7 => DD x0 x11 | s8 => DD x0 x12 | s9 => DD x0 x13 | s10 => DD x0 x14 | s11 => DD x0 x15 | s12 => DD x0 x16 | s13 => DD x0 x17 | s14 => DD x0 x18 | s15 => DD x0 x19 | s16 => DD x0 x20 | s17 => DD x0 x21 | s18 => DD x0 x22 | s19 => DD x0 x23 | s20 => DD x0 x24 | s21 => DD x0 x25 | s22 => DD x0 x26 | s23 => DD x0 x27 | s24 => DD x0 x28 | s25 => DD x0 x29 | s26 => DD x0 x30 | s27 => DD x0 x31 | s28 => DD x0 x32 | s29 => DD x0 x33 | s30 => DD x0 x34 | s31 => DD x0 x35 | s32 => DD x0 x36 | s33 => DD x0 x37 | s34 => DD x0 x38 | s35 => DD x0 x39 | s36 => DD x0 x40 | s37 => DD x0 x41 | s38 => DD x0 x42 | s39 => DD x0 x43 | s40 => DD x0 x44 | s41 => DD x0 x45 | s42 => DD x0 x46 | s43 => DD x0 x47 | s44 => DD x0 x48 | s45 => DD x0 x49 | s46 => DD x0 x50 | s47 => DD x0 x51 | s48 => DD x0 x52 | s49 => DD x0 x53 | s50 => DD x0 x54 | s51 => DD x0 x55 | s52 => DD x0 x56 | s53 => DD x0 x57 | s54 => DD x0 x58 | s55 => DD x0 x59 | s56 => DD x0 x60 | s57 => DD x0 x61 | s58 => DD x0 x62 | s59 => DD x0 x63 | s60 => DD x1 x0 | s61 => DD x1 x1 | s62 => DD x1 x2 | s63 => DD x1 x3 | s64 => DD x1 x4 | s65 => DD x1 x5 | s66 => DD x1 x6 | s67 => DD x1 x7 | s68 => DD x1 x8 | s69 => DD x1 x9 | s70 => DD x1 x10 | s71 => DD x1 x11 | s72 => DD x1 x12 | s73 => DD x1 x13 | s74 => DD x1 x14 | s75 => DD x1 x15 | s76 => DD x1 x16 | s77 => DD x1 x17 | s78 => DD x1 x18 | s79 => DD x1 x19 | s80 => DD x1 x20 | s81 => DD x1 x21 | s82 => DD x1 x22 | s83 => DD x1 x23 | s84 => DD x1 x24 | s85 => DD x1 x25 | s86 => DD x1 x26 | s87 => DD x1 x27 | s88 => DD x1 x28 | s89 => DD x1 x29 | s90 => DD x1 x30 | s91 => DD x1 x31 | s92 => DD x1 x32 | s93 => DD x1 x33 | s94 => DD x1 x34 | s95 => DD x1 x35 | s96 => DD x1 x36 | s97 => DD x1 x37 | s98 => DD x1 x38 | s99 => DD x1 x39 | s100 => DD x1 x40 | s101 => DD x1 x41 | s102 => DD x1 x42 | s103 => DD x1 x43 | s104 => DD x1 x44 | s105 => DD x1 x45 | s106 => DD x1 x46 | s107 => DD x1 x47 | s108 => DD x1 x48 | s109 => DD x1 x49 | s110 => DD x1 x50 | s111 => DD x1 x51 | s112 => DD x1 x52 | s113 => DD x1 x53 | s114 => DD x1 x54 | s115 => DD x1 x55 | s116 => DD x1 x56 | s117 => DD x1 x57 | s118 => DD x1 x58 | s119 => DD x1 x59 | s120 => DD x1 x60 | s121 => DD x1 x61 | s122 => DD x1 x62 | s123 => DD x1 x63 | s124 => DD x2 x0 | s125 => DD x2 x1 | s126 => DD x2 x2 end.
Definition m5 (c : sum2) : dd := match c with s0 => DD x0 x5 | s1 => DD x0 x6 | s2 => DD x0 x7 | s3 => DD x0 x8 | s4 => DD x0 x9 | s5 => DD x0 x10 | s6 => DD x0 x11 | s7 => DD x0 x12 | s8 => DD x0 x13 | s9 => DD x0 x14 | s10 => DD x0 x15 | s11 => DD x0 x16 | s12 => DD x0 x17 | s13 => DD x0 x18 | s14 => DD x0 x19 | s15 => DD x0 x20 | s16 => DD x0 x21 | s17 => DD x0 x22 | s18 => DD x0 x23 | s19 => DD x0 x24 | s20 => DD x0 x25 | s21 => DD x0 x26 | s22 => DD x0 x27 | s23 => DD x0 x28 | s24 => DD x0 x29 | s25 => DD x0 x30 | s26 => DD x0 x31 | s27 => DD x0 x32 | s28 => DD x0 x33 | s29 => DD x0 x34 | s30 => DD x0 x35 | s31 => DD x0 x36 | s32 => DD x0 x37 | s33 => DD x0 x38 | s34 => DD x0 x39 | s35 => DD x0 x40 | s36 => DD x0 x41 | s37 => DD x0 x42 | s38 => DD x0 x43 | s39 => DD x0 x44 | s40 => DD x0 x45 | s41 => DD x0 x46 | s42 => DD x0 x47 | s43 => DD x0 x48 | s44 => DD x0 x49 | s45 => DD x0 x50 | s46 => DD x0 x51 | s47 => DD x0 x52 | s48 => DD x0 x53 | s49 => DD x0 x54 | s50 => DD x0 x55 | s51 => DD x0 x56 | s52 => DD x0 x57 | s53 => DD x0 x58 | s54 => DD x0 x59 | s55 => DD x0 x60 | s56 => DD x0 x61 | s57 => DD x0 x62 | s58 => DD x0 x63 | s59 => DD x1 x0 | s60 => DD x1 x1 | s61 => DD x1 x2 | s62 => DD x1 x3 | s63 => DD x1 x4 | s64 => DD x1 x5 | s65 => DD x1 x6 | s66 => DD x1 x7 | s67 => DD x1 x8 | s68 => DD x1 x9 | s69 => DD x1 x10 | s70 => DD x1 x11 | s71 => DD x1 x12 | s72 => DD x1 x13 | s73 => DD x1 x14 | s74 => DD x1 x15 | s75 => DD x1 x16 | s76 => DD x1 x17 | s77 => DD x1 x18 | s78 => DD x1 x19 | s79 => DD x1 x20 | s80 => DD x1 x21 | s81 => DD x1 x22 | s82 => DD x1 x23 | s83 => DD x1 x24 | s84 => DD x1 x25 | s85 => DD x1 x26 | s86 => DD x1 x27 | s87 => DD x1 x28 | s88 => DD x1 x29 | s89 => DD x1 x30 | s90 => DD x1 x31 | s91 => DD x1 x32 | s92 => DD x1 x33 | s93 => DD x1 x34 | s94 => DD x1 x35 | s95 => DD x1 x36 | s96 => DD x1 x37 | s97 => DD x1 x38 | s98 => DD x1 x39 | s99 => DD x1 x40 | s100 => DD x1 x41 | s101 => DD x1 x42 | s102 => DD x1 x43 | s103 => DD x1 x44 | s104 => DD x1 x45 | s105 => DD x1 x46 | s106 => DD x1 x47 | s107 => DD x1 x48 | s108 => DD x1 x49 | s109 => DD x1 x50 | s110 => DD x1 x51 | s111 => DD x1 x52 | s112 => DD x1 x53 | s113 => DD x1 x54 | s114 => DD x1 x55 | s115 => DD x1 x56 | s116 => DD x1 x57 | s117 => DD x1 x58 | s118 => DD x1 x59 | s119 => DD x1 x60 | s120 => DD x1 x61 | s121 => DD x1 x62 | s122 => DD x1 x63 | s123 => DD x2 x0 | s124 => DD x2 x1 | s125 => DD x2 x2 | s126 => DD x2 x3 end.
Definition m6 (c : sum2) : dd := match c with s0 => DD x0 x6 | s1 => DD x0 x7 | s2 => DD x0 x8 | s3 => DD x0 x9 | s4 => DD x0 x10 | s5 => DD x0 x11 | s6 => DD x0 x12 | s7 => DD x0 x13 | s8 => DD x0 x14 | s9 => DD x0 x15 | s10 => DD x0 x16 | s11 => DD x0 x17 | s12 => DD x0 x18 | s13 => DD x0 x19 | s14 => DD x0 x20 | s15 => DD x0 x21 | s16 => DD x0 x22 | s17 => DD x0 x23 | s18 => DD x0 x24 | s19 => DD x0 x25 | s20 => DD x0 x26 | s21 => DD x0 x27 | s22 => DD x0 x28 | s23 => DD x0 x29 | s24 => DD x0 x30 | s25 => DD x0 x31 | s26 => DD x0 x32 | s27 => DD x0 x33 | s28 => DD x0 x34 | s29 => DD x0 x35 | s30 => DD x0 x36 | s31 => DD x0 x37 | s32 => DD x0 x38 | s33 => DD x0 x39 | s34 => DD x0 x40 | s35 => DD x0 x41 | s36 => DD x0 x42 | s37 => DD x0 x43 | s38 => DD x0 x44 | s39 => DD x0 x45 | s40 => DD x0 x46 | s41 => DD x0 x47 | s42 => DD x0 x48 | s43 => DD x0 x49 | s44 => DD x0 x50 | s45 => DD x0 x51 | s46 => DD x0 x52 | s47 => DD x0 x53 | s48 => DD x0 x54 | s49 => DD x0 x55 | s50 => DD x0 x56 | s51 => DD x0 x57 | s52 => DD x0 x58 | s53 => DD x0 x59 | s54 => DD x0 x60 | s55 => DD x0 x61 | s56 => DD x0 x62 | s57 => DD x0 x63 | s58 => DD x1 x0 | s59 => DD x1 x1 | s60 => DD x1 x2 | s61 => DD x1 x3 | s62 => DD x1 x4 | s63 => DD x1 x5 | s64 => DD x1 x6 | s65 => DD x1 x7 | s66 => DD x1 x8 | s67 => DD x1 x9 | s68 => DD x1 x10 | s69 => DD x1 x11 | s70 => DD x1 x12 | s71 => DD x1 x13 | s72 => DD x1 x14 | s73 => DD x1 x15 | s74 => DD x1 x16 | s75 => DD x1 x17 | s76 => DD x1 x18 | s77 => DD x1 x19 | s78 => DD x1 x20 | s79 => DD x1 x21 | s80 => DD x1 x22 | s81 => DD x1 x23 | s82 => DD x1 x24 | s83 => DD x1 x25 | s84 => DD x1 x26 | s85 => DD x1 x27 | s86 => DD x1 x28 | s87 => DD x1 x29 | s88 => DD x1 x30 | s89 => DD x1 x31 | s90 => DD x1 x32 | s91 => DD x1 x33 | s92 => DD x1 x34 | s93 => DD x1 x35 | s94 => DD x1 x36 | s95 => DD x1 x37 | s96 => DD x1 x38 | s97 => DD x1 x39 | s98 => DD x1 x40 | s99 => DD x1 x41 | s100 => DD x1 x42 | s101 => DD x1 x43 | s102 => DD x1 x44 | s103 => DD x1 x45 | s104 => DD x1 x46 | s105 => DD x1 x47 | s106 => DD x1 x48 | s107 => DD x1 x49 | s108 => DD x1 x50 | s109 => DD x1 x51 | s110 => DD x1 x52 | s111 => DD x1 x53 | s112 => DD x1 x54 | s113 => DD x1 x55 | s114 => DD x1 x56 | s115 => DD x1 x57 | s116 => DD x1 x58 | s117 => DD x1 x59 | s118 => DD x1 x60 | s119 => DD x1 x61 | s120 => DD x1 x62 | s121 => DD x1 x63 | s122 => DD x2 x0 | s123 => DD x2 x1 | s124 => DD x2 x2 | s125 => DD x2 x3 | s126 => DD x2 x4 end.
Definition m7 (c : sum2) : dd := match c with s0 => DD x0 x7 | s1 => DD x0 x8 | s2 => DD x0 x9 | s3 => DD x0 x10 | s4 => DD x0 x11 | s5 => DD x0 x12 | s6 => DD x0 x13 | s7 => DD x0 x14 | s8 => DD x0 x15 | s9 => DD x0 x16 | s10 => DD x0 x17 | s11 => DD x0 x18 | s12 => DD x0 x19 | s13 => DD x0 x20 | s14 => DD x0 x21 | s15 => DD x0 x22 | s16 => DD x0 x23 | s17 => DD x0 x24 | s18 => DD x0 x25 | s19 => DD x0 x26 | s20 => DD x0 x27 | s21 => DD x0 x28 | s22 => DD x0 x29 | s23 => DD x0 x30 | s24 => DD x0 x31 | s25 => DD x0 x32 | s26 => DD x0 x33 | s27 => DD x0 x34 | s28 => DD x0 x35 | s29 => DD x0 x36 | s30 => DD x0 x37 | s31 => DD x0 x38 | s32 => DD x0 x39 | s33 => DD x0 x40 | s34 => DD x0 x41 | s35 => DD x0 x42 | s36 => DD x0 x43 | s37 => DD x0 x44 | s38 => DD x0 x45 | s39 => DD x0 x46 | s40 => DD x0 x47 | s41 => DD x0 x48 | s42 => DD x0 x49 | s43 => DD x0 x50 | s44 => DD x0 x51 | s45 => DD x0 x52 | s46 => DD x0 x53 | s47 => DD x0 x54 | s48 => DD x0 x55 | s49 => DD x0 x56 | s50 => DD x0 x57 | s51 => DD x0 x58 | s52 => DD x0 x59 | s53 => DD x0 x60 | s54 => DD x0 x61 | s55 => DD x0 x62 | s56 => DD x0 x63 | s57 => DD x1 x0 | s58 => DD x1 x1 | s59 => DD x1 x2 | s60 => DD x1 x3 | s61 => DD x1 x4 | s62 => DD x1 x5 | s63 => DD x1 x6 | s64 => DD x1 x7 | s65 => DD x1 x8 | s66 => DD x1 x9 | s67 => DD x1 x10 | s68 => DD x1 x11 | s69 => DD x1 x12 | s70 => DD x1 x13 | s71 => DD x1 x14 | s72 => DD x1 x15 | s73 => DD x1 x16 | s74 => DD x1 x17 | s75 => DD x1 x18 | s76 => DD x1 x19 | s77 => DD x1 x20 | s78 => DD x1 x21 | s79 => DD x1 x22 | s80 => DD x1 x23 | s81 => DD x1 x24 | s82 => DD x1 x25 | s83 => DD x1 x26 | s84 => DD x1 x27 | s85 => DD x1 x28 | s86 => DD x1 x29 | s87 => DD x1 x30 | s88 => DD x1 x31 | s89 => DD x1 x32 | s90 => DD x1 x33 | s91 => DD x1 x34 | s92 => DD x1 x35 | s93 => DD x1 x36 | s94 => DD x1 x37 | s95 => DD x1 x38 | s96 => DD x1 x39 | s97 => DD x1 x40 | s98 => DD x1 x41 | s99 => DD x1 x42 | s100 => DD x1 x43 | s101 => DD x1 x44 | s102 => DD x1 x45 | s103 => DD x1 x46 | s104 => DD x1 x47 | s105 => DD x1 x48 | s106 => DD x1 x49 | s107 => DD x1 x50 | s108 => DD x1 x51 | s109 => DD x1 x52 | s110 => DD x1 x53 | s111 => DD x1 x54 | s112 => DD x1 x55 | s113 => DD x1 x56 | s114 => DD x1 x57 | s115 => DD x1 x58 | s116 => DD x1 x59 | s117 => DD x1 x60 | s118 => DD x1 x61 | s119 => DD x1 x62 | s120 => DD x1 x63 | s121 => DD x2 x0 | s122 => DD x2 x1 | s123 => DD x2 x2 | s124 => DD x2 x3 | s125 => DD x2 x4 | s126 => DD x2 x5 end.
Definition m8 (c : sum2) : dd := match c with s0 => DD x0 x8 | s1 => DD x0 x9 | s2 => DD x0 x10 | s3 => DD x0 x11 | s4 => DD x0 x12 | s5 => DD x0 x13 | s6 => DD x0 x14 | s7 => DD x0 x15 | s8 => DD x0 x16 | s9 => DD x0 x17 | s10 => DD x0 x18 | s11 => DD x0 x19 | s12 => DD x0 x20 | s13 => DD x0 x21 | s14 => DD x0 x22 | s15 => DD x0 x23 | s16 => DD x0 x24 | s17 => DD x0 x25 | s18 => DD x0 x26 | s19 => DD x0 x27 | s20 => DD x0 x28 | s21 => DD x0 x29 | s22 => DD x0 x30 | s23 => DD x0 x31 | s24 => DD x0 x32 | s25 => DD x0 x33 | s26 => DD x0 x34 | s27 => DD x0 x35 | s28 => DD x0 x36 | s29 => DD x0 x37 | s30 => DD x0 x38 | s31 => DD x0 x39 | s32 => DD x0 x40 | s33 => DD x0 x41 | s34 => DD x0 x42 | s35 => DD x0 x43 | s36 => DD x0 x44 | s37 => DD x0 x45 | s38 => DD x0 x46 | s39 => DD x0 x47 | s40 => DD x0 x48 | s41 => DD x0 x49 | s42 => DD x0 x50 | s43 => DD x0 x51 | s44 => DD x0 x52 | s45 => DD x0 x53 | s46 => DD x0 x54 | s47 => DD x0 x55 | s48 => DD x0 x56 | s49 => DD x0 x57 | s50 => DD x0 x58 | s51 => DD x0 x59 | s52 => DD x0 x60 | s53 => DD x0 x61 | s54 => DD x0 x62 | s55 => DD x0 x63 | s56 => DD x1 x0 | s57 => DD x1 x1 | s58 => DD x1 x2 | s59 => DD x1 x3 | s60 => DD x1 x4 | s61 => DD x1 x5 | s62 => DD x1 x6 | s63 => DD x1 x7 | s64 => DD x1 x8 | s65 => DD x1 x9 | s66 => DD x1 x10 | s67 => DD x1 x11 | s68 => DD x1 x12 | s69 => DD x1 x13 | s70 => DD x1 x14 | s71 => DD x1 x15 | s72 => DD x1 x16 | s73 => DD x1 x17 | s74 => DD x1 x18 | s75 => DD x1 x19 | s76 => DD x1 x20 | s77 => DD x1 x21 | s78 => DD x1 x22 | s79 => DD x1 x23 | s80 => DD x1 x24 | s81 => DD x1 x25 | s82 => DD x1 x26 | s83 => DD x1 x27 | s84 => DD x1 x28 | s85 => DD x1 x29 | s86 => DD x1 x30 | s87 => DD x1 x31 | s88 => DD x1 x32 | s89 => DD x1 x33 | s90 => DD x1 x34 | s91 => DD x1 x35 | s92 => DD x1 x36 | s93 => DD x1 x37 | s94 => DD x1 x38 | s95 => DD x1 x39 | s96 => DD x1 x40 | s97 => DD x1 x41 | s98 => DD x1 x42 | s99 => DD x1 x43 | s100 => DD x1 x44 | s101 => DD x1 x45 | s102 => DD x1 x46 | s103 => DD x1 x47 | s104 => DD x1 x48 | s105 => DD x1 x49 | s106 => DD x1 x50 | s107 => DD x1 x51 | s108 => DD x1 x52 | s109 => DD x1 x53 | s110 => DD x1 x54 | s111 => DD x1 x55 | s112 => DD x1 x56 | s113 => DD x1 x57 | s114 => DD x1 x58 | s115 => DD x1 x59 | s116 => DD x1 x60 | s117 => DD x1 x61 | s118 => DD x1 x62 | s119 => DD x1 x63 | s120 => DD x2 x0 | s121 => DD x2 x1 | s122 => DD x2 x2 | s123 => DD x2 x3 | s124 => DD x2 x4 | s125 => DD x2 x5 | s126 => DD x2 x6 end.
Definition m9 (c : sum2) : dd := match c with s0 => DD x0 x9 | s1 => DD x0 x10 | s2 => DD x0 x11 | s3 => DD x0 x12 | s4 => DD x0 x13 | s5 => DD x0 x14 | s6 => DD x0 x15 | s7 => DD x0 x16 | s8 => DD x0 x17 | s9 => DD x0 x18 | s10 => DD x0 x19 | s11 => DD x0 x20 | s12 => DD x0 x21 | s13 => DD x0 x22 | s14 => DD x0 x23 | s15 => DD x0 x24 | s16 => DD x0 x25 | s17 => DD x0 x26 | s18 => DD x0 x27 | s19 => DD x0 x28 | s20 => DD x0 x29 | s21 => DD x0 x30 | s22 => DD x0 x31 | s23 => DD x0 x32 | s24 => DD x0 x33 | s25 => DD x0 x34 | s26 => DD x0 x35 | s27 => DD x0 x36 | s28 => DD x0 x37 | s29 => DD x0 x38 | s30 => DD x0 x39 | s31 => DD x0 x40 | s32 => DD x0 x41 | s33 => DD x0 x42 | s34 => DD x0 x43 | s35 => DD x0 x44 | s36 => DD x0 x45 | s37 => DD x0 x46 | s38 => DD x0 x47 | s39 => DD x0 x48 | s40 => DD x0 x49 | s41 => DD x0 x50 | s42 => DD x0 x51 | s43 => DD x0 x52 | s44 => DD x0 x53 | s45 => DD x0 x54 | s46 => DD x0 x55 | s47 => DD x0 x56 | s48 => DD x0 x57 | s49 => DD x0 x58 | s50 => DD x0 x59 | s51 => DD x0 x60 | s52 => DD x0 x61 | s53 => DD x0 x62 | s54 => DD x0 x63 | s55 => DD x1 x0 | s56 => DD x1 x1 | s57 => DD x1 x2 | s58 => DD x1 x3 | s59 => DD x1 x4 | s60 => DD x1 x5 | s61 => DD x1 x6 | s62 => DD x1 x7 | s63 => DD x1 x8 | s64 => DD x1 x9 | s65 => DD x1 x10 | s66 => DD x1 x11 | s67 => DD x1 x12 | s68 => DD x1 x13 | s69 => DD x1 x14 | s70 => DD x1 x15 | s71 => DD x1 x16 | s72 => DD x1 x17 | s73 => DD x1 x18 | s74 => DD x1 x19 | s75 => DD x1 x20 | s76 => DD x1 x21 | s77 => DD x1 x22 | s78 => DD x1 x23 | s79 => DD x1 x24 | s80 => DD x1 x25 | s81 => DD x1 x26 | s82 => DD x1 x27 | s83 => DD x1 x28 | s84 => DD x1 x29 | s85 => DD x1 x30 | s86 => DD x1 x31 | s87 => DD x1 x32 | s88 => DD x1 x33 | s89 => DD x1 x34 | s90 => DD x1 x35 | s91 => DD x1 x36 | s92 => DD x1 x37 | s93 => DD x1 x38 | s94 => DD x1 x39 | s95 => DD x1 x40 | s96 => DD x1 x41 | s97 => DD x1 x42 | s98 => DD x1 x43 | s99 => DD x1 x44 | s100 => DD x1 x45 | s101 => DD x1 x46 | s102 => DD x1 x47 | s103 => DD x1 x48 | s104 => DD x1 x49 | s105 => DD x1 x50 | s106 => DD x1 x51 | s107 => DD x1 x52 | s108 => DD x1 x53 | s109 => DD x1 x54 | s110 => DD x1 x55 | s111 => DD x1 x56 | s112 => DD x1 x57 | s113 => DD x1 x58 | s114 => DD x1 x59 | s115 => DD x1 x60 | s116 => DD x1 x61 | s117 => DD x1 x62 | s118 => DD x1 x63 | s119 => DD x2 x0 | s120 => DD x2 x1 | s121 => DD x2 x2 | s122 => DD x2 x3 | s123 => DD x2 x4 | s124 => DD x2 x5 | s125 => DD x2 x6 | s126 => DD x2 x7 end.
Definition m10 (c : sum2) : dd := match c with s0 => DD x0 x10 | s1 => DD x0 x11 | s2 => DD x0 x12 | s3 => DD x0 x13 | s4 => DD x0 x14 | s5 => DD x0 x15 | s6 => DD x0 x16 | s7 => DD x0 x17 | s8 => DD x0 x18 | s9 => DD x0 x19 | s10 => DD x0 x20 | s11 => DD x0 x21 | s12 => DD x0 x22 | s13 => DD x0 x23 | s14 => DD x0 x24 | s15 => DD x0 x25 | s16 => DD x0 x26 | s17 => DD x0 x27 | s18 => DD x0 x28 | s19 => DD x0 x29 | s20 => DD x0 x30 | s21 => DD x0 x31 | s22 => DD x0 x32 | s23 => DD x0 x33 | s24 => DD x0 x34 | s25 => DD x0 x35 | s26 => DD x0 x36 | s27 => DD x0 x37 | s28 => DD x0 x38 | s29 => DD x0 x39 | s30 => DD x0 x40 | s31 => DD x0 x41 | s32 => DD x0 x42 | s33 => DD x0 x43 | s34 => DD x0 x44 | s35 => DD x0 x45 | s36 => DD x0 x46 | s37 => DD x0 x47 | s38 => DD x0 x48 | s39 => DD x0 x49 | s40 => DD x0 x50 | s41 => DD x0 x51 | s42 => DD x0 x52 | s43 => DD x0 x53 | s44 => DD x0 x54 | s45 => DD x0 x55 | s46 => DD x0 x56 | s47 => DD x0 x57 | s48 => DD x0 x58 | s49 => DD x0 x59 | s50 => DD x0 x60 | s51 => DD x0 x61 | s52 => DD x0 x62 | s53 => DD x0 x63 | s54 => DD x1 x0 | s55 => DD x1 x1 | s56 => DD x1 x2 | s57 => DD x1 x3 | s58 => DD x1 x4 | s59 => DD x1 x5 | s60 => DD x1 x6 | s61 => DD x1 x7 | s62 => DD x1 x8 | s63 => DD x1 x9 | s64 => DD x1 x10 | s65 => DD x1 x11 | s66 => DD x1 x12 | s67 => DD x1 x13 | s68 => DD x1 x14 | s69 => DD x1 x15 | s70 => DD x1 x16 | s71 => DD x1 x17 | s72 => DD x1 x18 | s73 => DD x1 x19 | s74 => DD x1 x20 | s75 => DD x1 x21 | s76 => DD x1 x22 | s77 => DD x1 x23 | s78 => DD x1 x24 | s79 => DD x1 x25 | s80 => DD x1 x26 | s81 => DD x1 x27 | s82 => DD x1 x28 | s83 => DD x1 x29 | s84 => DD x1 x30 | s85 => DD x1 x31 | s86 => DD x1 x32 | s87 => DD x1 x33 | s88 => DD x1 x34 | s89 => DD x1 x35 | s90 => DD x1 x36 | s91 => DD x1 x37 | s92 => DD x1 x38 | s93 => DD x1 x39 | s94 => DD x1 x40 | s95 => DD x1 x41 | s96 => DD x1 x42 | s97 => DD x1 x43 | s98 => DD x1 x44 | s99 => DD x1 x45 | s100 => DD x1 x46 | s101 => DD x1 x47 | s102 => DD x1 x48 | s103 => DD x1 x49 | s104 => DD x1 x50 | s105 => DD x1 x51 | s106 => DD x1 x52 | s107 => DD x1 x53 | s108 => DD x1 x54 | s109 => DD x1 x55 | s110 => DD x1 x56 | s111 => DD x1 x57 | s112 => DD x1 x58 | s113 => DD x1 x59 | s114 => DD x1 x60 | s115 => DD x1 x61 | s116 => DD x1 x62 | s117 => DD x1 x63 | s118 => DD x2 x0 | s119 => DD x2 x1 | s120 => DD x2 x2 | s121 => DD x2 x3 | s122 => DD x2 x4 | s123 => DD x2 x5 | s124 => DD x2 x6 | s125 => DD x2 x7 | s126 => DD x2 x8 end.
Definition m11 (c : sum2) : dd := match c with s0 => DD x0 x11 | s1 => DD x0 x12 | s2 => DD x0 x13 | s3 => DD x0 x14 | s4 => DD x0 x15 | s5 => DD x0 x16 | s6 => DD x0 x17 | s7 => DD x0 x18 | s8 => DD x0 x19 | s9 => DD x0 x20 | s10 => DD x0 x21 | s11 => DD x0 x22 | s12 => DD x0 x23 | s13 => DD x0 x24 | s14 => DD x0 x25 | s15 => DD x0 x26 | s16 => DD x0 x27 | s17 => DD x0 x28 | s18 => DD x0 x29 | s19 => DD x0 x30 | s20 => DD x0 x31 | s21 => DD x0 x32 | s22 => DD x0 x33 | s23 => DD x0 x34 | s24 => DD x0 x35 | s25 => DD x0 x36 | s26 => DD x0 x37 | s27 => DD x0 x38 | s28 => DD x0 x39 | s29 => DD x0 x40 | s30 => DD x0 x41 | s31 => DD x0 x42 | s32 => DD x0 x43 | s33 => DD x0 x44 | s34 => DD x0 x45 | s35 => DD x0 x46 | s36 => DD x0 x47 | s37 => DD x0 x48 | s38 => DD x0 x49 | s39 => DD x0 x50 | s40 => DD x0 x51 | s41 => DD x0 x52 | s42 => DD x0 x53 | s43 => DD x0 x54 | s44 => DD x0 x55 | s45 => DD x0 x56 | s46 => DD x0 x57 | s47 => DD x0 x58 | s48 => DD x0 x59 | s49 => DD x0 x60 | s50 => DD x0 x61 | s51 => DD x0 x62 | s52 => DD x0 x63 | s53 => DD x1 x0 | s54 => DD x1 x1 | s55 => DD x1 x2 | s56 => DD x1 x3 | s57 => DD x1 x4 | s58 => DD x1 x5 | s59 => DD x1 x6 | s60 => DD x1 x7 | s61 => DD x1 x8 | s62 => DD x1 x9 | s63 => DD x1 x10 | s64 => DD x1 x11 | s65 => DD x1 x12 | s66 => DD x1 x13 | s67 => DD x1 x14 | s68 => DD x1 x15 | s69 => DD x1 x16 | s70 => DD x1 x17 | s71 => DD x1 x18 | s72 => DD x1 x19 | s73 => DD x1 x20 | s74 => DD x1 x21 | s75 => DD x1 x22 | s76 => DD x1 x23 | s77 => DD x1 x24 | s78 => DD x1 x25 | s79 => DD x1 x26 | s80 => DD x1 x27 | s81 => DD x1 x28 | s82 => DD x1 x29 | s83 => DD x1 x30 | s84 => DD x1 x31 | s85 => DD x1 x32 | s86 => DD x1 x33 | s87 => DD x1 x34 | s88 => DD x1 x35 | s89 => DD x1 x36 | s90 => DD x1 x37 | s91 => DD x1 x38 | s92 => DD x1 x39 | s93 => DD x1 x40 | s94 => DD x1 x41 | s95 => DD x1 x42 | s96 => DD x1 x43 | s97 => DD x1 x44 | s98 => DD x1 x45 | s99 => DD x1 x46 | s100 => DD x1 x47 | s101 => DD x1 x48 | s102 => DD x1 x49 | s103 => DD x1 x50 | s104 => DD x1 x51 | s105 => DD x1 x52 | s106 => DD x1 x53 | s107 => DD x1 x54 | s108 => DD x1 x55 | s109 => DD x1 x56 | s110 => DD x1 x57 | s111 => DD x1 x58 | s112 => DD x1 x59 | s113 => DD x1 x60 | s114 => DD x1 x61 | s115 => DD x1 x62 | s116 => DD x1 x63 | s117 => DD x2 x0 | s118 => DD x2 x1 | s119 => DD x2 x2 | s120 => DD x2 x3 | s121 => DD x2 x4 | s122 => DD x2 x5 | s123 => DD x2 x6 | s124 => DD x2 x7 | s125 => DD x2 x8 | s126 => DD x2 x9 end.
Definition m12 (c : sum2) : dd := match c with s0 => DD x0 x12 | s1 => DD x0 x13 | s2 => DD x0 x14 | s3 => DD x0 x15 | s4 => DD x0 x16 | s5 => DD x0 x17 | s6 => DD x0 x18 | s7 => DD x0 x19 | s8 => DD x0 x20 | s9 => DD x0 x21 | s10 => DD x0 x22 | s11 => DD x0 x23 | s12 => DD x0 x24 | s13 => DD x0 x25 | s14 => DD x0 x26 | s15 => DD x0 x27 | s16 => DD x0 x28 | s17 => DD x0 x29 | s18 => DD x0 x30 | s19 => DD x0 x31 | s20 => DD x0 x32 | s21 => DD x0 x33 | s22 => DD x0 x34 | s23 => DD x0 x35 | s24 => DD x0 x36 | s25 => DD x0 x37 | s26 => DD x0 x38 | s27 => DD x0 x39 | s28 => DD x0 x40 | s29 => DD x0 x41 | s30 => DD x0 x42 | s31 => DD x0 x43 | s32 => DD x0 x44 | s33 => DD x0 x45 | s34 => DD x0 x46 | s35 => DD x0 x47 | s36 => DD x0 x48 | s37 => DD x0 x49 | s38 => DD x0 x50 | s39 => DD x0 x51 | s40 => DD x0 x52 | s41 => DD x0 x53 | s42 => DD x0 x54 | s43 => DD x0 x55 | s44 => DD x0 x56 | s45 => DD x0 x57 | s46 => DD x0 x58 | s47 => DD x0 x59 | s48 => DD x0 x60 | s49 => DD x0 x61 | s50 => DD x0 x62 | s51 => DD x0 x63 | s52 => DD x1 x0 | s53 => DD x1 x1 | s54 => DD x1 x2 | s55 => DD x1 x3 | s56 => DD x1 x4 | s57 => DD x1 x5 | s58 => DD x1 x6 | s59 => DD x1 x7 | s60 => DD x1 x8 | s61 => DD x1 x9 | s62 => DD x1 x10 | s63 => DD x1 x11 | s64 => DD x1 x12 | s65 => DD x1 x13 | s66 => DD x1 x14 | s67 => DD x1 x15 | s68 => DD x1 x16 | s69 => DD x1 x17 | s70 => DD x1 x18 | s71 => DD x1 x19 | s72 => DD x1 x20 | s73 => DD x1 x21 | s74 => DD x1 x22 | s75 => DD x1 x23 | s76 => DD x1 x24 | s77 => DD x1 x25 | s78 => DD x1 x26 | s79 => DD x1 x27 | s80 => DD x1 x28 | s81 => DD x1 x29 | s82 => DD x1 x30 | s83 => DD x1 x31 | s84 => DD x1 x32 | s85 => DD x1 x33 | s86 => DD x1 x34 | s87 => DD x1 x35 | s88 => DD x1 x36 | s89 => DD x1 x37 | s90 => DD x1 x38 | s91 => DD x1 x39 | s92 => DD x1 x40 | s93 => DD x1 x41 | s94 => DD x1 x42 | s95 => DD x1 x43 | s96 => DD x1 x44 | s97 => DD x1 x45 | s98 => DD x1 x46 | s99 => DD x1 x47 | s100 => DD x1 x48 | s101 => DD x1 x49 | s102 => DD x1 x50 | s103 => DD x1 x51 | s104 => DD x1 x52 | s105 => DD x1 x53 | s106 => DD x1 x54 | s107 => DD x1 x55 | s108 => DD x1 x56 | s109 => DD x1 x57 | s110 => DD x1 x58 | s111 => DD x1 x59 | s112 => DD x1 x60 | s113 => DD x1 x61 | s114 => DD x1 x62 | s115 => DD x1 x63 | s116 => DD x2 x0 | s117 => DD x2 x1 | s118 => DD x2 x2 | s119 => DD x2 x3 | s120 => DD x2 x4 | s121 => DD x2 x5 | s122 => DD x2 x6 | s123 => DD x2 x7 | s124 => DD x2 x8 | s125 => DD x2 x9 | s126 => DD x2 x10 end.
Definition m13 (c : sum2) : dd := match c with s0 => DD x0 x13 | s1 => DD x0 x14 | s2 => DD x0 x15 | s3 => DD x0 x16 | s4 => DD x0 x17 | s5 => DD x0 x18 | s6 => DD x0 x19 | s7 => DD x0 x20 | s8 => DD x0 x21 | s9 => DD x0 x22 | s10 => DD x0 x23 | s11 => DD x0 x24 | s12 => DD x0 x25 | s13 => DD x0 x26 | s14 => DD x0 x27 | s15 => DD x0 x28 | s16 => DD x0 x29 | s17 => DD x0 x30 | s18 => DD x0 x31 | s19 => DD x0 x32 | s20 => DD x0 x33 | s21 => DD x0 x34 | s22 => DD x0 x35 | s23 => DD x0 x36 | s24 => DD x0 x37 | s25 => DD x0 x38 | s26 => DD x0 x39 | s27 => DD x0 x40 | s28 => DD x0 x41 | s29 => DD x0 x42 | s30 => DD x0 x43 | s31 => DD x0 x44 | s32 => DD x0 x45 | s33 => DD x0 x46 | s34 => DD x0 x47 | s35 => DD x0 x48 | s36 => DD x0 x49 | s37 => DD x0 x50 | s38 => DD x0 x51 | s39 => DD x0 x52 | s40 => DD x0 x53 | s41 => DD x0 x54 | s42 => DD x0 x55 | s43 => DD x0 x56 | s44 => DD x0 x57 | s45 => DD x0 x58 | s46 => DD x0 x59 | s47 => DD x0 x60 | s48 => DD x0 x61 | s49 => DD x0 x62 | s50 => DD x0 x63 | s51 => DD x1 x0 | s52 => DD x1 x1 | s53 => DD x1 x2 | s54 => DD x1 x3 | s55 => DD x1 x4 | s56 => DD x1 x5 | s57 => DD x1 x6 | s58 => DD x1 x7 | s59 => DD x1 x8 | s60 => DD x1 x9 | s61 => DD x1 x10 | s62 => DD x1 x11 | s63 => DD x1 x12 | s64 => DD x1 x13 | s65 => DD x1 x14 | s66 => DD x1 x15 | s67 => DD x1 x16 | s68 => DD x1 x17 | s69 => DD x1 x18 | s70 => DD x1 x19 | s71 => DD x1 x20 | s72 => DD x1 x21 | s73 => DD x1 x22 | s74 => DD x1 x23 | s75 => DD x1 x24 | s76 => DD x1 x25 | s77 => DD x1 x26 | s78 => DD x1 x27 | s79 => DD x1 x28 | s80 => DD x1 x29 | s81 => DD x1 x30 | s82 => DD x1 x31 | s83 => DD x1 x32 | s84 => DD x1 x33 | s85 => DD x1 x34 | s86 => DD x1 x35 | s87 => DD x1 x36 | s88 => DD x1 x37 | s89 => DD x1 x38 | s90 => DD x1 x39 | s91 => DD x1 x40 | s92 => DD x1 x41 | s93 => DD x1 x42 | s94 => DD x1 x43 | s95 => DD x1 x44 | s96 => DD x1 x45 | s97 => DD x1 x46 | s98 => DD x1 x47 | s99 => DD x1 x48 | s100 => DD x1 x49 | s101 => DD x1 x50 | s102 => DD x1 x51 | s103 => DD x1 x52 | s104 => DD x1 x53 | s105 => DD x1 x54 | s106 => DD x1 x55 | s107 => DD x1 x56 | s108 => DD x1 x57 | s109 => DD x1 x58 | s110 => DD x1 x59 | s111 => DD x1 x60 | s112 => DD x1 x61 | s113 => DD x1 x62 | s114 => DD x1 x63 | s115 => DD x2 x0 | s116 => DD x2 x1 | s117 => DD x2 x2 | s118 => DD x2 x3 | s119 => DD x2 x4 | s120 => DD x2 x5 | s121 => DD x2 x6 | s122 => DD x2 x7 | s123 => DD x2 x8 | s124 => DD x2 x9 | s125 => DD x2 x10 | s126 => DD x2 x11 end.
Definition m14 (c : sum2) : dd := match c with s0 => DD x0 x14 | s1 => DD x0 x15 | s2 => DD x0 x16 | s3 => DD x0 x17 | s4 => DD x0 x18 | s5 => DD x0 x19 | s6 => DD x0 x20 | s7 => DD x0 x21 | s8 => DD x0 x22 | s9 => DD x0 x23 | s10 => DD x0 x24 | s11 => DD x0 x25 | s12 => DD x0 x26 | s13 => DD x0 x27 | s14 => DD x0 x28 | s15 => DD x0 x29 | s16 => DD x0 x30 | s17 => DD x0 x31 | s18 => DD x0 x32 | s19 => DD x0 x33 | s20 => DD x0 x34 | s21 => DD x0 x35 | s22 => DD x0 x36 | s23 => DD x0 x37 | s24 => DD x0 x38 | s25 => DD x0 x39 | s26 => DD x0 x40 | s27 => DD x0 x41 | s28 => DD x0 x42 | s29 => DD x0 x43 | s30 => DD x0 x44 | s31 => DD x0 x45 | s32 => DD x0 x46 | s33 => DD x0 x47 | s34 => DD x0 x48 | s35 => DD x0 x49 | s36 => DD x0 x50 | s37 => DD x0 x51 | s38 => DD x0 x52 | s39 => DD x0 x53 | s40 => DD x0 x54 | s41 => DD x0 x55 | s42 => DD x0 x56 | s43 => DD x0 x57 | s44 => DD x0 x58 | s45 => DD x0 x59 | s46 => DD x0 x60 | s47 => DD x0 x61 | s48 => DD x0 x62 | s49 => DD x0 x63 | s50 => DD x1 x0 | s51 => DD x1 x1 | s52 => DD x1 x2 | s53 => DD x1 x3 | s54 => DD x1 x4 | s55 => DD x1 x5 | s56 => DD x1 x6 | s57 => DD x1 x7 | s58 => DD x1 x8 | s59 => DD x1 x9 | s60 => DD x1 x10 | s61 => DD x1 x11 | s62 => DD x1 x12 | s63 => DD x1 x13 | s64 => DD x1 x14 | s65 => DD x1 x15 | s66 => DD x1 x16 | s67 => DD x1 x17 | s68 => DD x1 x18 | s69 => DD x1 x19 | s70 => DD x1 x20 | s71 => DD x1 x21 | s72 => DD x1 x22 | s73 => DD x1 x23 | s74 => DD x1 x24 | s75 => DD x1 x25 | s76 => DD x1 x26 | s77 => DD x1 x27 | s78 => DD x1 x28 | s79 => DD x1 x29 | s80 => DD x1 x30 | s81 => DD x1 x31 | s82 => DD x1 x32 | s83 => DD x1 x33 | s84 => DD x1 x34 | s85 => DD x1 x35 | s86 => DD x1 x36 | s87 => DD x1 x37 | s88 => DD x1 x38 | s89 => DD x1 x39 | s90 => DD x1 x40 | s91 => DD x1 x41 | s92 => DD x1 x42 | s93 => DD x1 x43 | s94 => DD x1 x44 | s95 => DD x1 x45 | s96 => DD x1 x46 | s97 => DD x1 x47 | s98 => DD x1 x48 | s99 => DD x1 x49 | s100 => DD x1 x50 | s101 => DD x1 x51 | s102 => DD x1 x52 | s103 => DD x1 x53 | s104 => DD x1 x54 | s105 => DD x1 x55 | s106 => DD x1 x56 | s107 => DD x1 x57 | s108 => DD x1 x58 | s109 => DD x1 x59 | s110 => DD x1 x60 | s111 => DD x1 x61 | s112 => DD x1 x62 | s113 => DD x1 x63 | s114 => DD x2 x0 | s115 => DD x2 x1 | s116 => DD x2 x2 | s117 => DD x2 x3 | s118 => DD x2 x4 | s119 => DD x2 x5 | s120 => DD x2 x6 | s121 => DD x2 x7 | s122 => DD x2 x8 | s123 => DD x2 x9 | s124 => DD x2 x10 | s125 => DD x2 x11 | s126 => DD x2 x12 end.
Definition m15 (c : sum2) : dd := match c with s0 => DD x0 x15 | s1 => DD x0 x16 | s2 => DD x0 x17 | s3 => DD x0 x18 | s4 => DD x0 x19 | s5 => DD x0 x20 | s6 => DD x0 x21 | s7 => DD x0 x22 | s8 => DD x0 x23 | s9 => DD x0 x24 | s10 => DD x0 x25 | s11 => DD x0 x26 | s12 => DD x0 x27 | s13 => DD x0 x28 | s14 => DD x0 x29 | s15 => DD x0 x30 | s16 => DD x0 x31 | s17 => DD x0 x32 | s18 => DD x0 x33 | s19 => DD x0 x34 | s20 => DD x0 x35 | s21 => DD x0 x36 | s22 => DD x0 x37 | s23 => DD x0 x38 | s24 => DD x0 x39 | s25 => DD x0 x40 | s26 => DD x0 x41 | s27 => DD x0 x42 | s28 => DD x0 x43 | s29 => DD x0 x44 | s30 => DD x0 x45 | s31 => DD x0 x46 | s32 => DD x0 x47 | s33 => DD x0 x48 | s34 => DD x0 x49 | s35 => DD x0 x50 | s36 => DD x0 x51 | s37 => DD x0 x52 | s38 => DD x0 x53 | s39 => DD x0 x54 | s40 => DD x0 x55 | s41 => DD x0 x56 | s42 => DD x0 x57 | s43 => DD x0 x58 | s44 => DD x0 x59 | s45 => DD x0 x60 | s46 => DD x0 x61 | s47 => DD x0 x62 | s48 => DD x0 x63 | s49 => DD x1 x0 | s50 => DD x1 x1 | s51 => DD x1 x2 | s52 => DD x1 x3 | s53 => DD x1 x4 | s54 => DD x1 x5 | s55 => DD x1 x6 | s56 => DD x1 x7 | s57 => DD x1 x8 | s58 => DD x1 x9 | s59 => DD x1 x10 | s60 => DD x1 x11 | s61 => DD x1 x12 | s62 => DD x1 x13 | s63 => DD x1 x14 | s64 => DD x1 x15 | s65 => DD x1 x16 | s66 => DD x1 x17 | s67 => DD x1 x18 | s68 => DD x1 x19 | s69 => DD x1 x20 | s70 => DD x1 x21 | s71 => DD x1 x22 | s72 => DD x1 x23 | s73 => DD x1 x24 | s74 => DD x1 x25 | s75 => DD x1 x26 | s76 => DD x1 x27 | s77 => DD x1 x28 | s78 => DD x1 x29 | s79 => DD x1 x30 | s80 => DD x1 x31 | s81 => DD x1 x32 | s82 => DD x1 x33 | s83 => DD x1 x34 | s84 => DD x1 x35 | s85 => DD x1 x36 | s86 => DD x1 x37 | s87 => DD x1 x38 | s88 => DD x1 x39 | s89 => DD x1 x40 | s90 => DD x1 x41 | s91 => DD x1 x42 | s92 => DD x1 x43 | s93 => DD x1 x44 | s94 => DD x1 x45 | s95 => DD x1 x46 | s96 => DD x1 x47 | s97 => DD x1 x48 | s98 => DD x1 x49 | s99 => DD x1 x50 | s100 => DD x1 x51 | s101 => DD x1 x52 | s102 => DD x1 x53 | s103 => DD x1 x54 | s104 => DD x1 x55 | s105 => DD x1 x56 | s106 => DD x1 x57 | s107 => DD x1 x58 | s108 => DD x1 x59 | s109 => DD x1 x60 | s110 => DD x1 x61 | s111 => DD x1 x62 | s112 => DD x1 x63 | s113 => DD x2 x0 | s114 => DD x2 x1 | s115 => DD x2 x2 | s116 => DD x2 x3 | s117 => DD x2 x4 | s118 => DD x2 x5 | s119 => DD x2 x6 | s120 => DD x2 x7 | s121 => DD x2 x8 | s122 => DD x2 x9 | s123 => DD x2 x10 | s124 => DD x2 x11 | s125 => DD x2 x12 | s126 => DD x2 x13 end.
Definition m16 (c : sum2) : dd := match c with s0 => DD x0 x16 | s1 => DD x0 x17 | s2 => DD x0 x18 | s3 => DD x0 x19 | s4 => DD x0 x20 | s5 => DD x0 x21 | s6 => DD x0 x22 | s7 => DD x0 x23 | s8 => DD x0 x24 | s9 => DD x0 x25 | s10 => DD x0 x26 | s11 => DD x0 x27 | s12 => DD x0 x28 | s13 => DD x0 x29 | s14 => DD x0 x30 | s15 => DD x0 x31 | s16 => DD x0 x32 | s17 => DD x0 x33 | s18 => DD x0 x34 | s19 => DD x0 x35 | s20 => DD x0 x36 | s21 => DD x0 x37 | s22 => DD x0 x38 | s23 => DD x0 x39 | s24 => DD x0 x40 | s25 => DD x0 x41 | s26 => DD x0 x42 | s27 => DD x0 x43 | s28 => DD x0 x44 | s29 => DD x0 x45 | s30 => DD x0 x46 | s31 => DD x0 x47 | s32 => DD x0 x48 | s33 => DD x0 x49 | s34 => DD x0 x50 | s35 => DD x0 x51 | s36 => DD x0 x52 | s37 => DD x0 x53 | s38 => DD x0 x54 | s39 => DD x0 x55 | s40 => DD x0 x56 | s41 => DD x0 x57 | s42 => DD x0 x58 | s43 => DD x0 x59 | s44 => DD x0 x60 | s45 => DD x0 x61 | s46 => DD x0 x62 | s47 => DD x0 x63 | s48 => DD x1 x0 | s49 => DD x1 x1 | s50 => DD x1 x2 | s51 => DD x1 x3 | s52 => DD x1 x4 | s53 => DD x1 x5 | s54 => DD x1 x6 | s55 => DD x1 x7 | s56 => DD x1 x8 | s57 => DD x1 x9 | s58 => DD x1 x10 | s59 => DD x1 x11 | s60 => DD x1 x12 | s61 => DD x1 x13 | s62 => DD x1 x14 | s63 => DD x1 x15 | s64 => DD x1 x16 | s65 => DD x1 x17 | s66 => DD x1 x18 | s67 => DD x1 x19 | s68 => DD x1 x20 | s69 => DD x1 x21 | s70 => DD x1 x22 | s71 => DD x1 x23 | s72 => DD x1 x24 | s73 => DD x1 x25 | s74 => DD x1 x26 | s75 => DD x1 x27 | s76 => DD x1 x28 | s77 => DD x1 x29 | s78 => DD x1 x30 | s79 => DD x1 x31 | s80 => DD x1 x32 | s81 => DD x1 x33 | s82 => DD x1 x34 | s83 => DD x1 x35 | s84 => DD x1 x36 | s85 => DD x1 x37 | s86 => DD x1 x38 | s87 => DD x1 x39 | s88 => DD x1 x40 | s89 => DD x1 x41 | s90 => DD x1 x42 | s91 => DD x1 x43 | s92 => DD x1 x44 | s93 => DD x1 x45 | s94 => DD x1 x46 | s95 => DD x1 x47 | s96 => DD x1 x48 | s97 => DD x1 x49 | s98 => DD x1 x50 | s99 => DD x1 x51 | s100 => DD x1 x52 | s101 => DD x1 x53 | s102 => DD x1 x54 | s103 => DD x1 x55 | s104 => DD x1 x56 | s105 => DD x1 x57 | s106 => DD x1 x58 | s107 => DD x1 x59 | s108 => DD x1 x60 | s109 => DD x1 x61 | s110 => DD x1 x62 | s111 => DD x1 x63 | s112 => DD x2 x0 | s113 => DD x2 x1 | s114 => DD x2 x2 | s115 => DD x2 x3 | s116 => DD x2 x4 | s117 => DD x2 x5 | s118 => DD x2 x6 | s119 => DD x2 x7 | s120 => DD x2 x8 | s121 => DD x2 x9 | s122 => DD x2 x10 | s123 => DD x2 x11 | s124 => DD x2 x12 | s125 => DD x2 x13 | s126 => DD x2 x14 end.
Definition m17 (c : sum2) : dd := match c with s0 => DD x0 x17 | s1 => DD x0 x18 | s2 => DD x0 x19 | s3 => DD x0 x20 | s4 => DD x0 x21 | s5 => DD x0 x22 | s6 => DD x0 x23 | s7 => DD x0 x24 | s8 => DD x0 x25 | s9 => DD x0 x26 | s10 => DD x0 x27 | s11 => DD x0 x28 | s12 => DD x0 x29 | s13 => DD x0 x30 | s14 => DD x0 x31 | s15 => DD x0 x32 | s16 => DD x0 x33 | s17 => DD x0 x34 | s18 => DD x0 x35 | s19 => DD x0 x36 | s20 => DD x0 x37 | s21 => DD x0 x38 | s22 => DD x0 x39 | s23 => DD x0 x40 | s24 => DD x0 x41 | s25 => DD x0 x42 | s26 => DD x0 x43 | s27 => DD x0 x44 | s28 => DD x0 x45 | s29 => DD x0 x46 | s30 => DD x0 x47 | s31 => DD x0 x48 | s32 => DD x0 x49 | s33 => DD x0 x50 | s34 => DD x0 x51 | s35 => DD x0 x52 | s36 => DD x0 x53 | s37 => DD x0 x54 | s38 => DD x0 x55 | s39 => DD x0 x56 | s40 => DD x0 x57 | s41 => DD x0 x58 | s42 => DD x0 x59 | s43 => DD x0 x60 | s44 => DD x0 x61 | s45 => DD x0 x62 | s46 => DD x0 x63 | s47 => DD x1 x0 | s48 => DD x1 x1 | s49 => DD x1 x2 | s50 => DD x1 x3 | s51 => DD x1 x4 | s52 => DD x1 x5 | s53 => DD x1 x6 | s54 => DD x1 x7 | s55 => DD x1 x8 | s56 => DD x1 x9 | s57 => DD x1 x10 | s58 => DD x1 x11 | s59 => DD x1 x12 | s60 => DD x1 x13 | s61 => DD x1 x14 | s62 => DD x1 x15 | s63 => DD x1 x16 | s64 => DD x1 x17 | s65 => DD x1 x18 | s66 => DD x1 x19 | s67 => DD x1 x20 | s68 => DD x1 x21 | s69 => DD x1 x22 | s70 => DD x1 x23 | s71 => DD x1 x24 | s72 => DD x1 x25 | s73 => DD x1 x26 | s74 => DD x1 x27 | s75 => DD x1 x28 | s76 => DD x1 x29 | s77 => DD x1 x30 | s78 => DD x1 x31 | s79 => DD x1 x32 | s80 => DD x1 x33 | s81 => DD x1 x34 | s82 => DD x1 x35 | s83 => DD x1 x36 | s84 => DD x1 x37 | s85 => DD x1 x38 | s86 => DD x1 x39 | s87 => DD x1 x40 | s88 => DD x1 x41 | s89 => DD x1 x42 | s90 => DD x1 x43 | s91 => DD x1 x44 | s92 => DD x1 x45 | s93 => DD x1 x46 | s94 => DD x1 x47 | s95 => DD x1 x48 | s96 => DD x1 x49 | s97 => DD x1 x50 | s98 => DD x1 x51 | s99 => DD x1 x52 | s100 => DD x1 x53 | s101 => DD x1 x54 | s102 => DD x1 x55 | s103 => DD x1 x56 | s104 => DD x1 x57 | s105 => DD x1 x58 | s106 => DD x1 x59 | s107 => DD x1 x60 | s108 => DD x1 x61 | s109 => DD x1 x62 | s110 => DD x1 x63 | s111 => DD x2 x0 | s112 => DD x2 x1 | s113 => DD x2 x2 | s114 => DD x2 x3 | s115 => DD x2 x4 | s116 => DD x2 x5 | s117 => DD x2 x6 | s118 => DD x2 x7 | s119 => DD x2 x8 | s120 => DD x2 x9 | s121 => DD x2 x10 | s122 => DD x2 x11 | s123 => DD x2 x12 | s124 => DD x2 x13 | s125 => DD x2 x14 | s126 => DD x2 x15 end.
Definition m18 (c : sum2) : dd := match c with s0 => DD x0 x18 | s1 => DD x0 x19 | s2 => DD x0 x20 | s3 => DD x0 x21 | s4 => DD x0 x22 | s5 => DD x0 x23 | s6 => DD x0 x24 | s7 => DD x0 x25 | s8 => DD x0 x26 | s9 => DD x0 x27 | s10 => DD x0 x28 | s11 => DD x0 x29 | s12 => DD x0 x30 | s13 => DD x0 x31 | s14 => DD x0 x32 | s15 => DD x0 x33 | s16 => DD x0 x34 | s17 => DD x0 x35 | s18 => DD x0 x36 | s19 => DD x0 x37 | s20 => DD x0 x38 | s21 => DD x0 x39 | s22 => DD x0 x40 | s23 => DD x0 x41 | s24 => DD x0 x42 | s25 => DD x0 x43 | s26 => DD x0 x44 | s27 => DD x0 x45 | s28 => DD x0 x46 | s29 => DD x0 x47 | s30 => DD x0 x48 | s31 => DD x0 x49 | s32 => DD x0 x50 | s33 => DD x0 x51 | s34 => DD x0 x52 | s35 => DD x0 x53 | s36 => DD x0 x54 | s37 => DD x0 x55 | s38 => DD x0 x56 | s39 => DD x0 x57 | s40 => DD x0 x58 | s41 => DD x0 x59 | s42 => DD x0 x60 | s43 => DD x0 x61 | s44 => DD x0 x62 | s45 => DD x0 x63 | s46 => DD x1 x0 | s47 => DD x1 x1 | s48 => DD x1 x2 | s49 => DD x1 x3 | s50 => DD x1 x4 | s51 => DD x1 x5 | s52 => DD x1 x6 | s53 => DD x1 x7 | s54 => DD x1 x8 | s55 => DD x1 x9 | s56 => DD x1 x10 | s57 => DD x1 x11 | s58 => DD x1 x12 | s59 => DD x1 x13 | s60 => DD x1 x14 | s61 => DD x1 x15 | s62 => DD x1 x16 | s63 => DD x1 x17 | s64 => DD x1 x18 | s65 => DD x1 x19 | s66 => DD x1 x20 | s67 => DD x1 x21 | s68 => DD x1 x22 | s69 => DD x1 x23 | s70 => DD x1 x24 | s71 => DD x1 x25 | s72 => DD x1 x26 | s73 => DD x1 x27 | s74 => DD x1 x28 | s75 => DD x1 x29 | s76 => DD x1 x30 | s77 => DD x1 x31 | s78 => DD x1 x32 | s79 => DD x1 x33 | s80 => DD x1 x34 | s81 => DD x1 x35 | s82 => DD x1 x36 | s83 => DD x1 x37 | s84 => DD x1 x38 | s85 => DD x1 x39 | s86 => DD x1 x40 | s87 => DD x1 x41 | s88 => DD x1 x42 | s89 => DD x1 x43 | s90 => DD x1 x44 | s91 => DD x1 x45 | s92 => DD x1 x46 | s93 => DD x1 x47 | s94 => DD x1 x48 | s95 => DD x1 x49 | s96 => DD x1 x50 | s97 => DD x1 x51 | s98 => DD x1 x52 | s99 => DD x1 x53 | s100 => DD x1 x54 | s101 => DD x1 x55 | s102 => DD x1 x56 | s103 => DD x1 x57 | s104 => DD x1 x58 | s105 => DD x1 x59 | s106 => DD x1 x60 | s107 => DD x1 x61 | s108 => DD x1 x62 | s109 => DD x1 x63 | s110 => DD x2 x0 | s111 => DD x2 x1 | s112 => DD x2 x2 | s113 => DD x2 x3 | s114 => DD x2 x4 | s115 => DD x2 x5 | s116 => DD x2 x6 | s117 => DD x2 x7 | s118 => DD x2 x8 | s119 => DD x2 x9 | s120 => DD x2 x10 | s121 => DD x2 x11 | s122 => DD x2 x12 | s123 => DD x2 x13 | s124 => DD x2 x14 | s125 => DD x2 x15 | s126 => DD x2 x16 end.
Definition m19 (c : sum2) : dd := match c with s0 => DD x0 x19 | s1 => DD x0 x20 | s2 => DD x0 x21 | s3 => DD x0 x22 | s4 => DD x0 x23 | s5 => DD x0 x24 | s6 => DD x0 x25 | s7 => DD x0 x26 | s8 => DD x0 x27 | s9 => DD x0 x28 | s10 => DD x0 x29 | s11 => DD x0 x30 | s12 => DD x0 x31 | s13 => DD x0 x32 | s14 => DD x0 x33 | s15 => DD x0 x34 | s16 => DD x0 x35 | s17 => DD x0 x36 | s18 => DD x0 x37 | s19 => DD x0 x38 | s20 => DD x0 x39 | s21 => DD x0 x40 | s22 => DD x0 x41 | s23 => DD x0 x42 | s24 => DD x0 x43 | s25 => DD x0 x44 | s26 => DD x0 x45 | s27 => DD x0 x46 | s28 => DD x0 x47 | s29 => DD x0 x48 | s30 => DD x0 x49 | s31 => DD x0 x50 | s32 => DD x0 x51 | s33 => DD x0 x52 | s34 => DD x0 x53 | s35 => DD x0 x54 | s36 => DD x0 x55 | s37 => DD x0 x56 | s38 => DD x0 x57 | s39 => DD x0 x58 | s40 => DD x0 x59 | s41 => DD x0 x60 | s42 => DD x0 x61 | s43 => DD x0 x62 | s44 => DD x0 x63 | s45 => DD x1 x0 | s46 => DD x1 x1 | s47 => DD x1 x2 | s48 => DD x1 x3 | s49 => DD x1 x4 | s50 => DD x1 x5 | s51 => DD x1 x6 | s52 => DD x1 x7 | s53 => DD x1 x8 | s54 => DD x1 x9 | s55 => DD x1 x10 | s56 => DD x1 x11 | s57 => DD x1 x12 | s58 => DD x1 x13 | s59 => DD x1 x14 | s60 => DD x1 x15 | s61 => DD x1 x16 | s62 => DD x1 x17 | s63 => DD x1 x18 | s64 => DD x1 x19 | s65 => DD x1 x20 | s66 => DD x1 x21 | s67 => DD x1 x22 | s68 => DD x1 x23 | s69 => DD x1 x24 | s70 => DD x1 x25 | s71 => DD x1 x26 | s72 => DD x1 x27 | s73 => DD x1 x28 | s74 => DD x1 x29 | s75 => DD x1 x30 | s76 => DD x1 x31 | s77 => DD x1 x32 | s78 => DD x1 x33 | s79 => DD x1 x34 | s80 => DD x1 x35 | s81 => DD x1 x36 | s82 => DD x1 x37 | s83 => DD x1 x38 | s84 => DD x1 x39 | s85 => DD x1 x40 | s86 => DD x1 x41 | s87 => DD x1 x42 | s88 => DD x1 x43 | s89 => DD x1 x44 | s90 => DD x1 x45 | s91 => DD x1 x46 | s92 => DD x1 x47 | s93 => DD x1 x48 | s94 => DD x1 x49 | s95 => DD x1 x50 | s96 => DD x1 x51 | s97 => DD x1 x52 | s98 => DD x1 x53 | s99 => DD x1 x54 | s100 => DD x1 x55 | s101 => DD x1 x56 | s102 => DD x1 x57 | s103 => DD x1 x58 | s104 => DD x1 x59 | s105 => DD x1 x60 | s106 => DD x1 x61 | s107 => DD x1 x62 | s108 => DD x1 x63 | s109 => DD x2 x0 | s110 => DD x2 x1 | s111 => DD x2 x2 | s112 => DD x2 x3 | s113 => DD x2 x4 | s114 => DD x2 x5 | s115 => DD x2 x6 | s116 => DD x2 x7 | s117 => DD x2 x8 | s118 => DD x2 x9 | s119 => DD x2 x10 | s120 => DD x2 x11 | s121 => DD x2 x12 | s122 => DD x2 x13 | s123 => DD x2 x14 | s124 => DD x2 x15 | s125 => DD x2 x16 | s126 => DD x2 x17 end.
Definition m20 (c : sum2) : dd := match c with s0 => DD x0 x20 | s1 => DD x0 x21 | s2 => DD x0 x22 | s3 => DD x0 x23 | s4 => DD x0 x24 | s5 => DD x0 x25 | s6 => DD x0 x26 | s7 => DD x0 x27 | s8 => DD x0 x28 | s9 => DD x0 x29 | s10 => DD x0 x30 | s11 => DD x0 x31 | s12 => DD x0 x32 | s13 => DD x0 x33 | s14 => DD x0 x34 | s15 => DD x0 x35 | s16 => DD x0 x36 | s17 => DD x0 x37 | s18 => DD x0 x38 | s19 => DD x0 x39 | s20 => DD x0 x40 | s21 => DD x0 x41 | s22 => DD x0 x42 | s23 => DD x0 x43 | s24 => DD x0 x44 | s25 => DD x0 x45 | s26 => DD x0 x46 | s27 => DD x0 x47 | s28 => DD x0 x48 | s29 => DD x0 x49 | s30 => DD x0 x50 | s31 => DD x0 x51 | s32 => DD x0 x52 | s33 => DD x0 x53 | s34 => DD x0 x54 | s35 => DD x0 x55 | s36 => DD x0 x56 | s37 => DD x0 x57 | s38 => DD x0 x58 | s39 => DD x0 x59 | s40 => DD x0 x60 | s41 => DD x0 x61 | s42 => DD x0 x62 | s43 => DD x0 x63 | s44 => DD x1 x0 | s45 => DD x1 x1 | s46 => DD x1 x2 | s47 => DD x1 x3 | s48 => DD x1 x4 | s49 => DD x1 x5 | s50 => DD x1 x6 | s51 => DD x1 x7 | s52 => DD x1 x8 | s53 => DD x1 x9 | s54 => DD x1 x10 | s55 => DD x1 x11 | s56 => DD x1 x12 | s57 => DD x1 x13 | s58 => DD x1 x14 | s59 => DD x1 x15 | s60 => DD x1 x16 | s61 => DD x1 x17 | s62 => DD x1 x18 | s63 => DD x1 x19 | s64 => DD x1 x20 | s65 => DD x1 x21 | s66 => DD x1 x22 | s67 => DD x1 x23 | s68 => DD x1 x24 | s69 => DD x1 x25 | s70 => DD x1 x26 | s71 => DD x1 x27 | s72 => DD x1 x28 | s73 => DD x1 x29 | s74 => DD x1 x30 | s75 => DD x1 x31 | s76 => DD x1 x32 | s77 => DD x1 x33 | s78 => DD x1 x34 | s79 => DD x1 x35 | s80 => DD x1 x36 | s81 => DD x1 x37 | s82 => DD x1 x38 | s83 => DD x1 x39 | s84 => DD x1 x40 | s85 => DD x1 x41 | s86 => DD x1 x42 | s87 => DD x1 x43 | s88 => DD x1 x44 | s89 => DD x1 x45 | s90 => DD x1 x46 | s91 => DD x1 x47 | s92 => DD x1 x48 | s93 => DD x1 x49 | s94 => DD x1 x50 | s95 => DD x1 x51 | s96 => DD x1 x52 | s97 => DD x1 x53 | s98 => DD x1 x54 | s99 => DD x1 x55 | s100 => DD x1 x56 | s101 => DD x1 x57 | s102 => DD x1 x58 | s103 => DD x1 x59 | s104 => DD x1 x60 | s105 => DD x1 x61 | s106 => DD x1 x62 | s107 => DD x1 x63 | s108 => DD x2 x0 | s109 => DD x2 x1 | s110 => DD x2 x2 | s111 => DD x2 x3 | s112 => DD x2 x4 | s113 => DD x2 x5 | s114 => DD x2 x6 | s115 => DD x2 x7 | s116 => DD x2 x8 | s117 => DD x2 x9 | s118 => DD x2 x10 | s119 => DD x2 x11 | s120 => DD x2 x12 | s121 => DD x2 x13 | s122 => DD x2 x14 | s123 => DD x2 x15 | s124 => DD x2 x16 | s125 => DD x2 x17 | s126 => DD x2 x18 end.
Definition m21 (c : sum2) : dd := match c with s0 => DD x0 x21 | s1 => DD x0 x22 | s2 => DD x0 x23 | s3 => DD x0 x24 | s4 => DD x0 x25 | s5 => DD x0 x26 | s6 => DD x0 x27 | s7 => DD x0 x28 | s8 => DD x0 x29 | s9 => DD x0 x30 | s10 => DD x0 x31 | s11 => DD x0 x32 | s12 => DD x0 x33 | s13 => DD x0 x34 | s14 => DD x0 x35 | s15 => DD x0 x36 | s16 => DD x0 x37 | s17 => DD x0 x38 | s18 => DD x0 x39 | s19 => DD x0 x40 | s20 => DD x0 x41 | s21 => DD x0 x42 | s22 => DD x0 x43 | s23 => DD x0 x44 | s24 => DD x0 x45 | s25 => DD x0 x46 | s26 => DD x0 x47 | s27 => DD x0 x48 | s28 => DD x0 x49 | s29 => DD x0 x50 | s30 => DD x0 x51 | s31 => DD x0 x52 | s32 => DD x0 x53 | s33 => DD x0 x54 | s34 => DD x0 x55 | s35 => DD x0 x56 | s36 => DD x0 x57 | s37 => DD x0 x58 | s38 => DD x0 x59 | s39 => DD x0 x60 | s40 => DD x0 x61 | s41 => DD x0 x62 | s42 => DD x0 x63 | s43 => DD x1 x0 | s44 => DD x1 x1 | s45 => DD x1 x2 | s46 => DD x1 x3 | s47 => DD x1 x4 | s48 => DD x1 x5 | s49 => DD x1 x6 | s50 => DD x1 x7 | s51 => DD x1 x8 | s52 => DD x1 x9 | s53 => DD x1 x10 | s54 => DD x1 x11 | s55 => DD x1 x12 | s56 => DD x1 x13 | s57 => DD x1 x14 | s58 => DD x1 x15 | s59 => DD x1 x16 | s60 => DD x1 x17 | s61 => DD x1 x18 | s62 => DD x1 x19 | s63 => DD x1 x20 | s64 => DD x1 x21 | s65 => DD x1 x22 | s66 => DD x1 x23 | s67 => DD x1 x24 | s68 => DD x1 x25 | s69 => DD x1 x26 | s70 => DD x1 x27 | s71 => DD x1 x28 | s72 => DD x1 x29 | s73 => DD x1 x30 | s74 => DD x1 x31 | s75 => DD x1 x32 | s76 => DD x1 x33 | s77 => DD x1 x34 | s78 => DD x1 x35 | s79 => DD x1 x36 | s80 => DD x1 x37 | s81 => DD x1 x38 | s82 => DD x1 x39 | s83 => DD x1 x40 | s84 => DD x1 x41 | s85 => DD x1 x42 | s86 => DD x1 x43 | s87 => DD x1 x44 | s88 => DD x1 x45 | s89 => DD x1 x46 | s90 => DD x1 x47 | s91 => DD x1 x48 | s92 => DD x1 x49 | s93 => DD x1 x50 | s94 => DD x1 x51 | s95 => DD x1 x52 | s96 => DD x1 x53 | s97 => DD x1 x54 | s98 => DD x1 x55 | s99 => DD x1 x56 | s100 => DD x1 x57 | s101 => DD x1 x58 | s102 => DD x1 x59 | s103 => DD x1 x60 | s104 => DD x1 x61 | s105 => DD x1 x62 | s106 => DD x1 x63 | s107 => DD x2 x0 | s108 => DD x2 x1 | s109 => DD x2 x2 | s110 => DD x2 x3 | s111 => DD x2 x4 | s112 => DD x2 x5 | s113 => DD x2 x6 | s114 => DD x2 x7 | s115 => DD x2 x8 | s116 => DD x2 x9 | s117 => DD x2 x10 | s118 => DD x2 x11 | s119 => DD x2 x12 | s120 => DD x2 x13 | s121 => DD x2 x14 | s122 => DD x2 x15 | s123 => DD x2 x16 | s124 => DD x2 x17 | s125 => DD x2 x18 | s126 => DD x2 x19 end.
Definition m22 (c : sum2) : dd := match c with s0 => DD x0 x22 | s1 => DD x0 x23 | s2 => DD x0 x24 | s3 => DD x0 x25 | s4 => DD x0 x26 | s5 => DD x0 x27 | s6 => DD x0 x28 | s7 => DD x0 x29 | s8 => DD x0 x30 | s9 => DD x0 x31 | s10 => DD x0 x32 | s11 => DD x0 x33 | s12 => DD x0 x34 | s13 => DD x0 x35 | s14 => DD x0 x36 | s15 => DD x0 x37 | s16 => DD x0 x38 | s17 => DD x0 x39 | s18 => DD x0 x40 | s19 => DD x0 x41 | s20 => DD x0 x42 | s21 => DD x0 x43 | s22 => DD x0 x44 | s23 => DD x0 x45 | s24 => DD x0 x46 | s25 => DD x0 x47 | s26 => DD x0 x48 | s27 => DD x0 x49 | s28 => DD x0 x50 | s29 => DD x0 x51 | s30 => DD x0 x52 | s31 => DD x0 x53 | s32 => DD x0 x54 | s33 => DD x0 x55 | s34 => DD x0 x56 | s35 => DD x0 x57 | s36 => DD x0 x58 | s37 => DD x0 x59 | s38 => DD x0 x60 | s39 => DD x0 x61 | s40 => DD x0 x62 | s41 => DD x0 x63 | s42 => DD x1 x0 | s43 => DD x1 x1 | s44 => DD x1 x2 | s45 => DD x1 x3 | s46 => DD x1 x4 | s47 => DD x1 x5 | s48 => DD x1 x6 | s49 => DD x1 x7 | s50 => DD x1 x8 | s51 => DD x1 x9 | s52 => DD x1 x10 | s53 => DD x1 x11 | s54 => DD x1 x12 | s55 => DD x1 x13 | s56 => DD x1 x14 | s57 => DD x1 x15 | s58 => DD x1 x16 | s59 => DD x1 x17 | s60 => DD x1 x18 | s61 => DD x1 x19 | s62 => DD x1 x20 | s63 => DD x1 x21 | s64 => DD x1 x22 | s65 => DD x1 x23 | s66 => DD x1 x24 | s67 => DD x1 x25 | s68 => DD x1 x26 | s69 => DD x1 x27 | s70 => DD x1 x28 | s71 => DD x1 x29 | s72 => DD x1 x30 | s73 => DD x1 x31 | s74 => DD x1 x32 | s75 => DD x1 x33 | s76 => DD x1 x34 | s77 => DD x1 x35 | s78 => DD x1 x36 | s79 => DD x1 x37 | s80 => DD x1 x38 | s81 => DD x1 x39 | s82 => DD x1 x40 | s83 => DD x1 x41 | s84 => DD x1 x42 | s85 => DD x1 x43 | s86 => DD x1 x44 | s87 => DD x1 x45 | s88 => DD x1 x46 | s89 => DD x1 x47 | s90 => DD x1 x48 | s91 => DD x1 x49 | s92 => DD x1 x50 | s93 => DD x1 x51 | s94 => DD x1 x52 | s95 => DD x1 x53 | s96 => DD x1 x54 | s97 => DD x1 x55 | s98 => DD x1 x56 | s99 => DD x1 x57 | s100 => DD x1 x58 | s101 => DD x1 x59 | s102 => DD x1 x60 | s103 => DD x1 x61 | s104 => DD x1 x62 | s105 => DD x1 x63 | s106 => DD x2 x0 | s107 => DD x2 x1 | s108 => DD x2 x2 | s109 => DD x2 x3 | s110 => DD x2 x4 | s111 => DD x2 x5 | s112 => DD x2 x6 | s113 => DD x2 x7 | s114 => DD x2 x8 | s115 => DD x2 x9 | s116 => DD x2 x10 | s117 => DD x2 x11 | s118 => DD x2 x12 | s119 => DD x2 x13 | s120 => DD x2 x14 | s121 => DD x2 x15 | s122 => DD x2 x16 | s123 => DD x2 x17 | s124 => DD x2 x18 | s125 => DD x2 x19 | s126 => DD x2 x20 end.
Definition m23 (c : sum2) : dd := match c with s0 => DD x0 x23 | s1 => DD x0 x24 | s2 => DD x0 x25 | s3 => DD x0 x26 | s4 => DD x0 x27 | s5 => DD x0 x28 | s6 => DD x0 x29 | s7 => DD x0 x30 | s8 => DD x0 x31 | s9 => DD x0 x32 | s10 => DD x0 x33 | s11 => DD x0 x34 | s12 => DD x0 x35 | s13 => DD x0 x36 | s14 => DD x0 x37 | s15 => DD x0 x38 | s16 => DD x0 x39 | s17 => DD x0 x40 | s18 => DD x0 x41 | s19 => DD x0 x42 | s20 => DD x0 x43 | s21 => DD x0 x44 | s22 => DD x0 x45 | s23 => DD x0 x46 | s24 => DD x0 x47 | s25 => DD x0 x48 | s26 => DD x0 x49 | s27 => DD x0 x50 | s28 => DD x0 x51 | s29 => DD x0 x52 | s30 => DD x0 x53 | s31 => DD x0 x54 | s32 => DD x0 x55 | s33 => DD x0 x56 | s34 => DD x0 x57 | s35 => DD x0 x58 | s36 => DD x0 x59 | s37 => DD x0 x60 | s38 => DD x0 x61 | s39 => DD x0 x62 | s40 => DD x0 x63 | s41 => DD x1 x0 | s42 => DD x1 x1 | s43 => DD x1 x2 | s44 => DD x1 x3 | s45 => DD x1 x4 | s46 => DD x1 x5 | s47 => DD x1 x6 | s48 => DD x1 x7 | s49 => DD x1 x8 | s50 => DD x1 x9 | s51 => DD x1 x10 | s52 => DD x1 x11 | s53 => DD x1 x12 | s54 => DD x1 x13 | s55 => DD x1 x14 | s56 => DD x1 x15 | s57 => DD x1 x16 | s58 => DD x1 x17 | s59 => DD x1 x18 | s60 => DD x1 x19 | s61 => DD x1 x20 | s62 => DD x1 x21 | s63 => DD x1 x22 | s64 => DD x1 x23 | s65 => DD x1 x24 | s66 => DD x1 x25 | s67 => DD x1 x26 | s68 => DD x1 x27 | s69 => DD x1 x28 | s70 => DD x1 x29 | s71 => DD x1 x30 | s72 => DD x1 x31 | s73 => DD x1 x32 | s74 => DD x1 x33 | s75 => DD x1 x34 | s76 => DD x1 x35 | s77 => DD x1 x36 | s78 => DD x1 x37 | s79 => DD x1 x38 | s80 => DD x1 x39 | s81 => DD x1 x40 | s82 => DD x1 x41 | s83 => DD x1 x42 | s84 => DD x1 x43 | s85 => DD x1 x44 | s86 => DD x1 x45 | s87 => DD x1 x46 | s88 => DD x1 x47 | s89 => DD x1 x48 | s90 => DD x1 x49 | s91 => DD x1 x50 | s92 => DD x1 x51 | s93 => DD x1 x52 | s94 => DD x1 x53 | s95 => DD x1 x54 | s96 => DD x1 x55 | s97 => DD x1 x56 | s98 => DD x1 x57 | s99 => DD x1 x58 | s100 => DD x1 x59 | s101 => DD x1 x60 | s102 => DD x1 x61 | s103 => DD x1 x62 | s104 => DD x1 x63 | s105 => DD x2 x0 | s106 => DD x2 x1 | s107 => DD x2 x2 | s108 => DD x2 x3 | s109 => DD x2 x4 | s110 => DD x2 x5 | s111 => DD x2 x6 | s112 => DD x2 x7 | s113 => DD x2 x8 | s114 => DD x2 x9 | s115 => DD x2 x10 | s116 => DD x2 x11 | s117 => DD x2 x12 | s118 => DD x2 x13 | s119 => DD x2 x14 | s120 => DD x2 x15 | s121 => DD x2 x16 | s122 => DD x2 x17 | s123 => DD x2 x18 | s124 => DD x2 x19 | s125 => DD x2 x20 | s126 => DD x2 x21 end.
Definition m24 (c : sum2) : dd := match c with s0 => DD x0 x24 | s1 => DD x0 x25 | s2 => DD x0 x26 | s3 => DD x0 x27 | s4 => DD x0 x28 | s5 => DD x0 x29 | s6 => DD x0 x30 | s7 => DD x0 x31 | s8 => DD x0 x32 | s9 => DD x0 x33 | s10 => DD x0 x34 | s11 => DD x0 x35 | s12 => DD x0 x36 | s13 => DD x0 x37 | s14 => DD x0 x38 | s15 => DD x0 x39 | s16 => DD x0 x40 | s17 => DD x0 x41 | s18 => DD x0 x42 | s19 => DD x0 x43 | s20 => DD x0 x44 | s21 => DD x0 x45 | s22 => DD x0 x46 | s23 => DD x0 x47 | s24 => DD x0 x48 | s25 => DD x0 x49 | s26 => DD x0 x50 | s27 => DD x0 x51 | s28 => DD x0 x52 | s29 => DD x0 x53 | s30 => DD x0 x54 | s31 => DD x0 x55 | s32 => DD x0 x56 | s33 => DD x0 x57 | s34 => DD x0 x58 | s35 => DD x0 x59 | s36 => DD x0 x60 | s37 => DD x0 x61 | s38 => DD x0 x62 | s39 => DD x0 x63 | s40 => DD x1 x0 | s41 => DD x1 x1 | s42 => DD x1 x2 | s43 => DD x1 x3 | s44 => DD x1 x4 | s45 => DD x1 x5 | s46 => DD x1 x6 | s47 => DD x1 x7 | s48 => DD x1 x8 | s49 => DD x1 x9 | s50 => DD x1 x10 | s51 => DD x1 x11 | s52 => DD x1 x12 | s53 => DD x1 x13 | s54 => DD x1 x14 | s55 => DD x1 x15 | s56 => DD x1 x16 | s57 => DD x1 x17 | s58 => DD x1 x18 | s59 => DD x1 x19 | s60 => DD x1 x20 | s61 => DD x1 x21 | s62 => DD x1 x22 | s63 => DD x1 x23 | s64 => DD x1 x24 | s65 => DD x1 x25 | s66 => DD x1 x26 | s67 => DD x1 x27 | s68 => DD x1 x28 | s69 => DD x1 x29 | s70 => DD x1 x30 | s71 => DD x1 x31 | s72 => DD x1 x32 | s73 => DD x1 x33 | s74 => DD x1 x34 | s75 => DD x1 x35 | s76 => DD x1 x36 | s77 => DD x1 x37 | s78 => DD x1 x38 | s79 => DD x1 x39 | s80 => DD x1 x40 | s81 => DD x1 x41 | s82 => DD x1 x42 | s83 => DD x1 x43 | s84 => DD x1 x44 | s85 => DD x1 x45 | s86 => DD x1 x46 | s87 => DD x1 x47 | s88 => DD x1 x48 | s89 => DD x1 x49 | s90 => DD x1 x50 | s91 => DD x1 x51 | s92 => DD x1 x52 | s93 => DD x1 x53 | s94 => DD x1 x54 | s95 => DD x1 x55 | s96 => DD x1 x56 | s97 => DD x1 x57 | s98 => DD x1 x58 | s99 => DD x1 x59 | s100 => DD x1 x60 | s101 => DD x1 x61 | s102 => DD x1 x62 | s103 => DD x1 x63 | s104 => DD x2 x0 | s105 => DD x2 x1 | s106 => DD x2 x2 | s107 => DD x2 x3 | s108 => DD x2 x4 | s109 => DD x2 x5 | s110 => DD x2 x6 | s111 => DD x2 x7 | s112 => DD x2 x8 | s113 => DD x2 x9 | s114 => DD x2 x10 | s115 => DD x2 x11 | s116 => DD x2 x12 | s117 => DD x2 x13 | s118 => DD x2 x14 | s119 => DD x2 x15 | s120 => DD x2 x16 | s121 => DD x2 x17 | s122 => DD x2 x18 | s123 => DD x2 x19 | s124 => DD x2 x20 | s125 => DD x2 x21 | s126 => DD x2 x22 end.
Definition m25 (c : sum2) : dd := match c with s0 => DD x0 x25 | s1 => DD x0 x26 | s2 => DD x0 x27 | s3 => DD x0 x28 | s4 => DD x0 x29 | s5 => DD x0 x30 | s6 => DD x0 x31 | s7 => DD x0 x32 | s8 => DD x0 x33 | s9 => DD x0 x34 | s10 => DD x0 x35 | s11 => DD x0 x36 | s12 => DD x0 x37 | s13 => DD x0 x38 | s14 => DD x0 x39 | s15 => DD x0 x40 | s16 => DD x0 x41 | s17 => DD x0 x42 | s18 => DD x0 x43 | s19 => DD x0 x44 | s20 => DD x0 x45 | s21 => DD x0 x46 | s22 => DD x0 x47 | s23 => DD x0 x48 | s24 => DD x0 x49 | s25 => DD x0 x50 | s26 => DD x0 x51 | s27 => DD x0 x52 | s28 => DD x0 x53 | s29 => DD x0 x54 | s30 => DD x0 x55 | s31 => DD x0 x56 | s32 => DD x0 x57 | s33 => DD x0 x58 | s34 => DD x0 x59 | s35 => DD x0 x60 | s36 => DD x0 x61 | s37 => DD x0 x62 | s38 => DD x0 x63 | s39 => DD x1 x0 | s40 => DD x1 x1 | s41 => DD x1 x2 | s42 => DD x1 x3 | s43 => DD x1 x4 | s44 => DD x1 x5 | s45 => DD x1 x6 | s46 => DD x1 x7 | s47 => DD x1 x8 | s48 => DD x1 x9 | s49 => DD x1 x10 | s50 => DD x1 x11 | s51 => DD x1 x12 | s52 => DD x1 x13 | s53 => DD x1 x14 | s54 => DD x1 x15 | s55 => DD x1 x16 | s56 => DD x1 x17 | s57 => DD x1 x18 | s58 => DD x1 x19 | s59 => DD x1 x20 | s60 => DD x1 x21 | s61 => DD x1 x22 | s62 => DD x1 x23 | s63 => DD x1 x24 | s64 => DD x1 x25 | s65 => DD x1 x26 | s66 => DD x1 x27 | s67 => DD x1 x28 | s68 => DD x1 x29 | s69 => DD x1 x30 | s70 => DD x1 x31 | s71 => DD x1 x32 | s72 => DD x1 x33 | s73 => DD x1 x34 | s74 => DD x1 x35 | s75 => DD x1 x36 | s76 => DD x1 x37 | s77 => DD x1 x38 | s78 => DD x1 x39 | s79 => DD x1 x40 | s80 => DD x1 x41 | s81 => DD x1 x42 | s82 => DD x1 x43 | s83 => DD x1 x44 | s84 => DD x1 x45 | s85 => DD x1 x46 | s86 => DD x1 x47 | s87 => DD x1 x48 | s88 => DD x1 x49 | s89 => DD x1 x50 | s90 => DD x1 x51 | s91 => DD x1 x52 | s92 => DD x1 x53 | s93 => DD x1 x54 | s94 => DD x1 x55 | s95 => DD x1 x56 | s96 => DD x1 x57 | s97 => DD x1 x58 | s98 => DD x1 x59 | s99 => DD x1 x60 | s100 => DD x1 x61 | s101 => DD x1 x62 | s102 => DD x1 x63 | s103 => DD x2 x0 | s104 => DD x2 x1 | s105 => DD x2 x2 | s106 => DD x2 x3 | s107 => DD x2 x4 | s108 => DD x2 x5 | s109 => DD x2 x6 | s110 => DD x2 x7 | s111 => DD x2 x8 | s112 => DD x2 x9 | s113 => DD x2 x10 | s114 => DD x2 x11 | s115 => DD x2 x12 | s116 => DD x2 x13 | s117 => DD x2 x14 | s118 => DD x2 x15 | s119 => DD x2 x16 | s120 => DD x2 x17 | s121 => DD x2 x18 | s122 => DD x2 x19 | s123 => DD x2 x20 | s124 => DD x2 x21 | s125 => DD x2 x22 | s126 => DD x2 x23 end.
Definition m26 (c : sum2) : dd := match c with s0 => DD x0 x26 | s1 => DD x0 x27 | s2 => DD x0 x28 | s3 => DD x0 x29 | s4 => DD x0 x30 | s5 => DD x0 x31 | s6 => DD x0 x32 | s7 => DD x0 x33 | s8 => DD x0 x34 | s9 => DD x0 x35 | s10 => DD x0 x36 | s11 => DD x0 x37 | s12 => DD x0 x38 | s13 => DD x0 x39 | s14 => DD x0 x40 | s15 => DD x0 x41 | s16 => DD x0 x42 | s17 => DD x0 x43 | s18 => DD x0 x44 | s19 => DD x0 x45 | s20 => DD x0 x46 | s21 => DD x0 x47 | s22 => DD x0 x48 | s23 => DD x0 x49 | s24 => DD x0 x50 | s25 => DD x0 x51 | s26 => DD x0 x52 | s27 => DD x0 x53 | s28 => DD x0 x54 | s29 => DD x0 x55 | s30 => DD x0 x56 | s31 => DD x0 x57 | s32 => DD x0 x58 | s33 => DD x0 x59 | s34 => DD x0 x60 | s35 => DD x0 x61 | s36 => DD x0 x62 | s37 => DD x0 x63 | s38 => DD x1 x0 | s39 => DD x1 x1 | s40 => DD x1 x2 | s41 => DD x1 x3 | s42 => DD x1 x4 | s43 => DD x1 x5 | s44 => DD x1 x6 | s45 => DD x1 x7 | s46 => DD x1 x8 | s47 => DD x1 x9 | s48 => DD x1 x10 | s49 => DD x1 x11 | s50 => DD x1 x12 | s51 => DD x1 x13 | s52 => DD x1 x14 | s53 => DD x1 x15 | s54 => DD x1 x16 | s55 => DD x1 x17 | s56 => DD x1 x18 | s57 => DD x1 x19 | s58 => DD x1 x20 | s59 => DD x1 x21 | s60 => DD x1 x22 | s61 => DD x1 x23 | s62 => DD x1 x24 | s63 => DD x1 x25 | s64 => DD x1 x26 | s65 => DD x1 x27 | s66 => DD x1 x28 | s67 => DD x1 x29 | s68 => DD x1 x30 | s69 => DD x1 x31 | s70 => DD x1 x32 | s71 => DD x1 x33 | s72 => DD x1 x34 | s73 => DD x1 x35 | s74 => DD x1 x36 | s75 => DD x1 x37 | s76 => DD x1 x38 | s77 => DD x1 x39 | s78 => DD x1 x40 | s79 => DD x1 x41 | s80 => DD x1 x42 | s81 => DD x1 x43 | s82 => DD x1 x44 | s83 => DD x1 x45 | s84 => DD x1 x46 | s85 => DD x1 x47 | s86 => DD x1 x48 | s87 => DD x1 x49 | s88 => DD x1 x50 | s89 => DD x1 x51 | s90 => DD x1 x52 | s91 => DD x1 x53 | s92 => DD x1 x54 | s93 => DD x1 x55 | s94 => DD x1 x56 | s95 => DD x1 x57 | s96 => DD x1 x58 | s97 => DD x1 x59 | s98 => DD x1 x60 | s99 => DD x1 x61 | s100 => DD x1 x62 | s101 => DD x1 x63 | s102 => DD x2 x0 | s103 => DD x2 x1 | s104 => DD x2 x2 | s105 => DD x2 x3 | s106 => DD x2 x4 | s107 => DD x2 x5 | s108 => DD x2 x6 | s109 => DD x2 x7 | s110 => DD x2 x8 | s111 => DD x2 x9 | s112 => DD x2 x10 | s113 => DD x2 x11 | s114 => DD x2 x12 | s115 => DD x2 x13 | s116 => DD x2 x14 | s117 => DD x2 x15 | s118 => DD x2 x16 | s119 => DD x2 x17 | s120 => DD x2 x18 | s121 => DD x2 x19 | s122 => DD x2 x20 | s123 => DD x2 x21 | s124 => DD x2 x22 | s125 => DD x2 x23 | s126 => DD x2 x24 end.
Definition m27 (c : sum2) : dd := match c with s0 => DD x0 x27 | s1 => DD x0 x28 | s2 => DD x0 x29 | s3 => DD x0 x30 | s4 => DD x0 x31 | s5 => DD x0 x32 | s6 => DD x0 x33 | s7 => DD x0 x34 | s8 => DD x0 x35 | s9 => DD x0 x36 | s10 => DD x0 x37 | s11 => DD x0 x38 | s12 => DD x0 x39 | s13 => DD x0 x40 | s14 => DD x0 x41 | s15 => DD x0 x42 | s16 => DD x0 x43 | s17 => DD x0 x44 | s18 => DD x0 x45 | s19 => DD x0 x46 | s20 => DD x0 x47 | s21 => DD x0 x48 | s22 => DD x0 x49 | s23 => DD x0 x50 | s24 => DD x0 x51 | s25 => DD x0 x52 | s26 => DD x0 x53 | s27 => DD x0 x54 | s28 => DD x0 x55 | s29 => DD x0 x56 | s30 => DD x0 x57 | s31 => DD x0 x58 | s32 => DD x0 x59 | s33 => DD x0 x60 | s34 => DD x0 x61 | s35 => DD x0 x62 | s36 => DD x0 x63 | s37 => DD x1 x0 | s38 => DD x1 x1 | s39 => DD x1 x2 | s40 => DD x1 x3 | s41 => DD x1 x4 | s42 => DD x1 x5 | s43 => DD x1 x6 | s44 => DD x1 x7 | s45 => DD x1 x8 | s46 => DD x1 x9 | s47 => DD x1 x10 | s48 => DD x1 x11 | s49 => DD x1 x12 | s50 => DD x1 x13 | s51 => DD x1 x14 | s52 => DD x1 x15 | s53 => DD x1 x16 | s54 => DD x1 x17 | s55 => DD x1 x18 | s56 => DD x1 x19 | s57 => DD x1 x20 | s58 => DD x1 x21 | s59 => DD x1 x22 | s60 => DD x1 x23 | s61 => DD x1 x24 | s62 => DD x1 x25 | s63 => DD x1 x26 | s64 => DD x1 x27 | s65 => DD x1 x28 | s66 => DD x1 x29 | s67 => DD x1 x30 | s68 => DD x1 x31 | s69 => DD x1 x32 | s70 => DD x1 x33 | s71 => DD x1 x34 | s72 => DD x1 x35 | s73 => DD x1 x36 | s74 => DD x1 x37 | s75 => DD x1 x38 | s76 => DD x1 x39 | s77 => DD x1 x40 | s78 => DD x1 x41 | s79 => DD x1 x42 | s80 => DD x1 x43 | s81 => DD x1 x44 | s82 => DD x1 x45 | s83 => DD x1 x46 | s84 => DD x1 x47 | s85 => DD x1 x48 | s86 => DD x1 x49 | s87 => DD x1 x50 | s88 => DD x1 x51 | s89 => DD x1 x52 | s90 => DD x1 x53 | s91 => DD x1 x54 | s92 => DD x1 x55 | s93 => DD x1 x56 | s94 => DD x1 x57 | s95 => DD x1 x58 | s96 => DD x1 x59 | s97 => DD x1 x60 | s98 => DD x1 x61 | s99 => DD x1 x62 | s100 => DD x1 x63 | s101 => DD x2 x0 | s102 => DD x2 x1 | s103 => DD x2 x2 | s104 => DD x2 x3 | s105 => DD x2 x4 | s106 => DD x2 x5 | s107 => DD x2 x6 | s108 => DD x2 x7 | s109 => DD x2 x8 | s110 => DD x2 x9 | s111 => DD x2 x10 | s112 => DD x2 x11 | s113 => DD x2 x12 | s114 => DD x2 x13 | s115 => DD x2 x14 | s116 => DD x2 x15 | s117 => DD x2 x16 | s118 => DD x2 x17 | s119 => DD x2 x18 | s120 => DD x2 x19 | s121 => DD x2 x20 | s122 => DD x2 x21 | s123 => DD x2 x22 | s124 => DD x2 x23 | s125 => DD x2 x24 | s126 => DD x2 x25 end.
Definition m28 (c : sum2) : dd := match c with s0 => DD x0 x28 | s1 => DD x0 x29 | s2 => DD x0 x30 | s3 => DD x0 x31 | s4 => DD x0 x32 | s5 => DD x0 x33 | s6 => DD x0 x34 | s7 => DD x0 x35 | s8 => DD x0 x36 | s9 => DD x0 x37 | s10 => DD x0 x38 | s11 => DD x0 x39 | s12 => DD x0 x40 | s13 => DD x0 x41 | s14 => DD x0 x42 | s15 => DD x0 x43 | s16 => DD x0 x44 | s17 => DD x0 x45 | s18 => DD x0 x46 | s19 => DD x0 x47 | s20 => DD x0 x48 | s21 => DD x0 x49 | s22 => DD x0 x50 | s23 => DD x0 x51 | s24 => DD x0 x52 | s25 => DD x0 x53 | s26 => DD x0 x54 | s27 => DD x0 x55 | s28 => DD x0 x56 | s29 => DD x0 x57 | s30 => DD x0 x58 | s31 => DD x0 x59 | s32 => DD x0 x60 | s33 => DD x0 x61 | s34 => DD x0 x62 | s35 => DD x0 x63 | s36 => DD x1 x0 | s37 => DD x1 x1 | s38 => DD x1 x2 | s39 => DD x1 x3 | s40 => DD x1 x4 | s41 => DD x1 x5 | s42 => DD x1 x6 | s43 => DD x1 x7 | s44 => DD x1 x8 | s45 => DD x1 x9 | s46 => DD x1 x10 | s47 => DD x1 x11 | s48 => DD x1 x12 | s49 => DD x1 x13 | s50 => DD x1 x14 | s51 => DD x1 x15 | s52 => DD x1 x16 | s53 => DD x1 x17 | s54 => DD x1 x18 | s55 => DD x1 x19 | s56 => DD x1 x20 | s57 => DD x1 x21 | s58 => DD x1 x22 | s59 => DD x1 x23 | s60 => DD x1 x24 | s61 => DD x1 x25 | s62 => DD x1 x26 | s63 => DD x1 x27 | s64 => DD x1 x28 | s65 => DD x1 x29 | s66 => DD x1 x30 | s67 => DD x1 x31 | s68 => DD x1 x32 | s69 => DD x1 x33 | s70 => DD x1 x34 | s71 => DD x1 x35 | s72 => DD x1 x36 | s73 => DD x1 x37 | s74 => DD x1 x38 | s75 => DD x1 x39 | s76 => DD x1 x40 | s77 => DD x1 x41 | s78 => DD x1 x42 | s79 => DD x1 x43 | s80 => DD x1 x44 | s81 => DD x1 x45 | s82 => DD x1 x46 | s83 => DD x1 x47 | s84 => DD x1 x48 | s85 => DD x1 x49 | s86 => DD x1 x50 | s87 => DD x1 x51 | s88 => DD x1 x52 | s89 => DD x1 x53 | s90 => DD x1 x54 | s91 => DD x1 x55 | s92 => DD x1 x56 | s93 => DD x1 x57 | s94 => DD x1 x58 | s95 => DD x1 x59 | s96 => DD x1 x60 | s97 => DD x1 x61 | s98 => DD x1 x62 | s99 => DD x1 x63 | s100 => DD x2 x0 | s101 => DD x2 x1 | s102 => DD x2 x2 | s103 => DD x2 x3 | s104 => DD x2 x4 | s105 => DD x2 x5 | s106 => DD x2 x6 | s107 => DD x2 x7 | s108 => DD x2 x8 | s109 => DD x2 x9 | s110 => DD x2 x10 | s111 => DD x2 x11 | s112 => DD x2 x12 | s113 => DD x2 x13 | s114 => DD x2 x14 | s115 => DD x2 x15 | s116 => DD x2 x16 | s117 => DD x2 x17 | s118 => DD x2 x18 | s119 => DD x2 x19 | s120 => DD x2 x20 | s121 => DD x2 x21 | s122 => DD x2 x22 | s123 => DD x2 x23 | s124 => DD x2 x24 | s125 => DD x2 x25 | s126 => DD x2 x26 end.
Definition m29 (c : sum2) : dd := match c with s0 => DD x0 x29 | s1 => DD x0 x30 | s2 => DD x0 x31 | s3 => DD x0 x32 | s4 => DD x0 x33 | s5 => DD x0 x34 | s6 => DD x0 x35 | s7 => DD x0 x36 | s8 => DD x0 x37 | s9 => DD x0 x38 | s10 => DD x0 x39 | s11 => DD x0 x40 | s12 => DD x0 x41 | s13 => DD x0 x42 | s14 => DD x0 x43 | s15 => DD x0 x44 | s16 => DD x0 x45 | s17 => DD x0 x46 | s18 => DD x0 x47 | s19 => DD x0 x48 | s20 => DD x0 x49 | s21 => DD x0 x50 | s22 => DD x0 x51 | s23 => DD x0 x52 | s24 => DD x0 x53 | s25 => DD x0 x54 | s26 => DD x0 x55 | s27 => DD x0 x56 | s28 => DD x0 x57 | s29 => DD x0 x58 | s30 => DD x0 x59 | s31 => DD x0 x60 | s32 => DD x0 x61 | s33 => DD x0 x62 | s34 => DD x0 x63 | s35 => DD x1 x0 | s36 => DD x1 x1 | s37 => DD x1 x2 | s38 => DD x1 x3 | s39 => DD x1 x4 | s40 => DD x1 x5 | s41 => DD x1 x6 | s42 => DD x1 x7 | s43 => DD x1 x8 | s44 => DD x1 x9 | s45 => DD x1 x10 | s46 => DD x1 x11 | s47 => DD x1 x12 | s48 => DD x1 x13 | s49 => DD x1 x14 | s50 => DD x1 x15 | s51 => DD x1 x16 | s52 => DD x1 x17 | s53 => DD x1 x18 | s54 => DD x1 x19 | s55 => DD x1 x20 | s56 => DD x1 x21 | s57 => DD x1 x22 | s58 => DD x1 x23 | s59 => DD x1 x24 | s60 => DD x1 x25 | s61 => DD x1 x26 | s62 => DD x1 x27 | s63 => DD x1 x28 | s64 => DD x1 x29 | s65 => DD x1 x30 | s66 => DD x1 x31 | s67 => DD x1 x32 | s68 => DD x1 x33 | s69 => DD x1 x34 | s70 => DD x1 x35 | s71 => DD x1 x36 | s72 => DD x1 x37 | s73 => DD x1 x38 | s74 => DD x1 x39 | s75 => DD x1 x40 | s76 => DD x1 x41 | s77 => DD x1 x42 | s78 => DD x1 x43 | s79 => DD x1 x44 | s80 => DD x1 x45 | s81 => DD x1 x46 | s82 => DD x1 x47 | s83 => DD x1 x48 | s84 => DD x1 x49 | s85 => DD x1 x50 | s86 => DD x1 x51 | s87 => DD x1 x52 | s88 => DD x1 x53 | s89 => DD x1 x54 | s90 => DD x1 x55 | s91 => DD x1 x56 | s92 => DD x1 x57 | s93 => DD x1 x58 | s94 => DD x1 x59 | s95 => DD x1 x60 | s96 => DD x1 x61 | s97 => DD x1 x62 | s98 => DD x1 x63 | s99 => DD x2 x0 | s100 => DD x2 x1 | s101 => DD x2 x2 | s102 => DD x2 x3 | s103 => DD x2 x4 | s104 => DD x2 x5 | s105 => DD x2 x6 | s106 => DD x2 x7 | s107 => DD x2 x8 | s108 => DD x2 x9 | s109 => DD x2 x10 | s110 => DD x2 x11 | s111 => DD x2 x12 | s112 => DD x2 x13 | s113 => DD x2 x14 | s114 => DD x2 x15 | s115 => DD x2 x16 | s116 => DD x2 x17 | s117 => DD x2 x18 | s118 => DD x2 x19 | s119 => DD x2 x20 | s120 => DD x2 x21 | s121 => DD x2 x22 | s122 => DD x2 x23 | s123 => DD x2 x24 | s124 => DD x2 x25 | s125 => DD x2 x26 | s126 => DD x2 x27 end.
Definition m30 (c : sum2) : dd := match c with s0 => DD x0 x30 | s1 => DD x0 x31 | s2 => DD x0 x32 | s3 => DD x0 x33 | s4 => DD x0 x34 | s5 => DD x0 x35 | s6 => DD x0 x36 | s7 => DD x0 x37 | s8 => DD x0 x38 | s9 => DD x0 x39 | s10 => DD x0 x40 | s11 => DD x0 x41 | s12 => DD x0 x42 | s13 => DD x0 x43 | s14 => DD x0 x44 | s15 => DD x0 x45 | s16 => DD x0 x46 | s17 => DD x0 x47 | s18 => DD x0 x48 | s19 => DD x0 x49 | s20 => DD x0 x50 | s21 => DD x0 x51 | s22 => DD x0 x52 | s23 => DD x0 x53 | s24 => DD x0 x54 | s25 => DD x0 x55 | s26 => DD x0 x56 | s27 => DD x0 x57 | s28 => DD x0 x58 | s29 => DD x0 x59 | s30 => DD x0 x60 | s31 => DD x0 x61 | s32 => DD x0 x62 | s33 => DD x0 x63 | s34 => DD x1 x0 | s35 => DD x1 x1 | s36 => DD x1 x2 | s37 => DD x1 x3 | s38 => DD x1 x4 | s39 => DD x1 x5 | s40 => DD x1 x6 | s41 => DD x1 x7 | s42 => DD x1 x8 | s43 => DD x1 x9 | s44 => DD x1 x10 | s45 => DD x1 x11 | s46 => DD x1 x12 | s47 => DD x1 x13 | s48 => DD x1 x14 | s49 => DD x1 x15 | s50 => DD x1 x16 | s51 => DD x1 x17 | s52 => DD x1 x18 | s53 => DD x1 x19 | s54 => DD x1 x20 | s55 => DD x1 x21 | s56 => DD x1 x22 | s57 => DD x1 x23 | s58 => DD x1 x24 | s59 => DD x1 x25 | s60 => DD x1 x26 | s61 => DD x1 x27 | s62 => DD x1 x28 | s63 => DD x1 x29 | s64 => DD x1 x30 | s65 => DD x1 x31 | s66 => DD x1 x32 | s67 => DD x1 x33 | s68 => DD x1 x34 | s69 => DD x1 x35 | s70 => DD x1 x36 | s71 => DD x1 x37 | s72 => DD x1 x38 | s73 => DD x1 x39 | s74 => DD x1 x40 | s75 => DD x1 x41 | s76 => DD x1 x42 | s77 => DD x1 x43 | s78 => DD x1 x44 | s79 => DD x1 x45 | s80 => DD x1 x46 | s81 => DD x1 x47 | s82 => DD x1 x48 | s83 => DD x1 x49 | s84 => DD x1 x50 | s85 => DD x1 x51 | s86 => DD x1 x52 | s87 => DD x1 x53 | s88 => DD x1 x54 | s89 => DD x1 x55 | s90 => DD x1 x56 | s91 => DD x1 x57 | s92 => DD x1 x58 | s93 => DD x1 x59 | s94 => DD x1 x60 | s95 => DD x1 x61 | s96 => DD x1 x62 | s97 => DD x1 x63 | s98 => DD x2 x0 | s99 => DD x2 x1 | s100 => DD x2 x2 | s101 => DD x2 x3 | s102 => DD x2 x4 | s103 => DD x2 x5 | s104 => DD x2 x6 | s105 => DD x2 x7 | s106 => DD x2 x8 | s107 => DD x2 x9 | s108 => DD x2 x10 | s109 => DD x2 x11 | s110 => DD x2 x12 | s111 => DD x2 x13 | s112 => DD x2 x14 | s113 => DD x2 x15 | s114 => DD x2 x16 | s115 => DD x2 x17 | s116 => DD x2 x18 | s117 => DD x2 x19 | s118 => DD x2 x20 | s119 => DD x2 x21 | s120 => DD x2 x22 | s121 => DD x2 x23 | s122 => DD x2 x24 | s123 => DD x2 x25 | s124 => DD x2 x26 | s125 => DD x2 x27 | s126 => DD x2 x28 end.
Definition m31 (c : sum2) : dd := match c with s0 => DD x0 x31 | s1 => DD x0 x32 | s2 => DD x0 x33 | s3 => DD x0 x34 | s4 => DD x0 x35 | s5 => DD x0 x36 | s6 => DD x0 x37 | s7 => DD x0 x38 | s8 => DD x0 x39 | s9 => DD x0 x40 | s10 => DD x0 x41 | s11 => DD x0 x42 | s12 => DD x0 x43 | s13 => DD x0 x44 | s14 => DD x0 x45 | s15 => DD x0 x46 | s16 => DD x0 x47 | s17 => DD x0 x48 | s18 => DD x0 x49 | s19 => DD x0 x50 | s20 => DD x0 x51 | s21 => DD x0 x52 | s22 => DD x0 x53 | s23 => DD x0 x54 | s24 => DD x0 x55 | s25 => DD x0 x56 | s26 => DD x0 x57 | s27 => DD x0 x58 | s28 => DD x0 x59 | s29 => DD x0 x60 | s30 => DD x0 x61 | s31 => DD x0 x62 | s32 => DD x0 x63 | s33 => DD x1 x0 | s34 => DD x1 x1 | s35 => DD x1 x2 | s36 => DD x1 x3 | s37 => DD x1 x4 | s38 => DD x1 x5 | s39 => DD x1 x6 | s40 => DD x1 x7 | s41 => DD x1 x8 | s42 => DD x1 x9 | s43 => DD x1 x10 | s44 => DD x1 x11 | s45 => DD x1 x12 | s46 => DD x1 x13 | s47 => DD x1 x14 | s48 => DD x1 x15 | s49 => DD x1 x16 | s50 => DD x1 x17 | s51 => DD x1 x18 | s52 => DD x1 x19 | s53 => DD x1 x20 | s54 => DD x1 x21 | s55 => DD x1 x22 | s56 => DD x1 x23 | s57 => DD x1 x24 | s58 => DD x1 x25 | s59 => DD x1 x26 | s60 => DD x1 x27 | s61 => DD x1 x28 | s62 => DD x1 x29 | s63 => DD x1 x30 | s64 => DD x1 x31 | s65 => DD x1 x32 | s66 => DD x1 x33 | s67 => DD x1 x34 | s68 => DD x1 x35 | s69 => DD x1 x36 | s70 => DD x1 x37 | s71 => DD x1 x38 | s72 => DD x1 x39 | s73 => DD x1 x40 | s74 => DD x1 x41 | s75 => DD x1 x42 | s76 => DD x1 x43 | s77 => DD x1 x44 | s78 => DD x1 x45 | s79 => DD x1 x46 | s80 => DD x1 x47 | s81 => DD x1 x48 | s82 => DD x1 x49 | s83 => DD x1 x50 | s84 => DD x1 x51 | s85 => DD x1 x52 | s86 => DD x1 x53 | s87 => DD x1 x54 | s88 => DD x1 x55 | s89 => DD x1 x56 | s90 => DD x1 x57 | s91 => DD x1 x58 | s92 => DD x1 x59 | s93 => DD x1 x60 | s94 => DD x1 x61 | s95 => DD x1 x62 | s96 => DD x1 x63 | s97 => DD x2 x0 | s98 => DD x2 x1 | s99 => DD x2 x2 | s100 => DD x2 x3 | s101 => DD x2 x4 | s102 => DD x2 x5 | s103 => DD x2 x6 | s104 => DD x2 x7 | s105 => DD x2 x8 | s106 => DD x2 x9 | s107 => DD x2 x10 | s108 => DD x2 x11 | s109 => DD x2 x12 | s110 => DD x2 x13 | s111 => DD x2 x14 | s112 => DD x2 x15 | s113 => DD x2 x16 | s114 => DD x2 x17 | s115 => DD x2 x18 | s116 => DD x2 x19 | s117 => DD x2 x20 | s118 => DD x2 x21 | s119 => DD x2 x22 | s120 => DD x2 x23 | s121 => DD x2 x24 | s122 => DD x2 x25 | s123 => DD x2 x26 | s124 => DD x2 x27 | s125 => DD x2 x28 | s126 => DD x2 x29 end.
Definition m32 (c : sum2) : dd := match c with s0 => DD x0 x32 | s1 => DD x0 x33 | s2 => DD x0 x34 | s3 => DD x0 x35 | s4 => DD x0 x36 | s5 => DD x0 x37 | s6 => DD x0 x38 | s7 => DD x0 x39 | s8 => DD x0 x40 | s9 => DD x0 x41 | s10 => DD x0 x42 | s11 => DD x0 x43 | s12 => DD x0 x44 | s13 => DD x0 x45 | s14 => DD x0 x46 | s15 => DD x0 x47 | s16 => DD x0 x48 | s17 => DD x0 x49 | s18 => DD x0 x50 | s19 => DD x0 x51 | s20 => DD x0 x52 | s21 => DD x0 x53 | s22 => DD x0 x54 | s23 => DD x0 x55 | s24 => DD x0 x56 | s25 => DD x0 x57 | s26 => DD x0 x58 | s27 => DD x0 x59 | s28 => DD x0 x60 | s29 => DD x0 x61 | s30 => DD x0 x62 | s31 => DD x0 x63 | s32 => DD x1 x0 | s33 => DD x1 x1 | s34 => DD x1 x2 | s35 => DD x1 x3 | s36 => DD x1 x4 | s37 => DD x1 x5 | s38 => DD x1 x6 | s39 => DD x1 x7 | s40 => DD x1 x8 | s41 => DD x1 x9 | s42 => DD x1 x10 | s43 => DD x1 x11 | s44 => DD x1 x12 | s45 => DD x1 x13 | s46 => DD x1 x14 | s47 => DD x1 x15 | s48 => DD x1 x16 | s49 => DD x1 x17 | s50 => DD x1 x18 | s51 => DD x1 x19 | s52 => DD x1 x20 | s53 => DD x1 x21 | s54 => DD x1 x22 | s55 => DD x1 x23 | s56 => DD x1 x24 | s57 => DD x1 x25 | s58 => DD x1 x26 | s59 => DD x1 x27 | s60 => DD x1 x28 | s61 => DD x1 x29 | s62 => DD x1 x30 | s63 => DD x1 x31 | s64 => DD x1 x32 | s65 => DD x1 x33 | s66 => DD x1 x34 | s67 => DD x1 x35 | s68 => DD x1 x36 | s69 => DD x1 x37 | s70 => DD x1 x38 | s71 => DD x1 x39 | s72 => DD x1 x40 | s73 => DD x1 x41 | s74 => DD x1 x42 | s75 => DD x1 x43 | s76 => DD x1 x44 | s77 => DD x1 x45 | s78 => DD x1 x46 | s79 => DD x1 x47 | s80 => DD x1 x48 | s81 => DD x1 x49 | s82 => DD x1 x50 | s83 => DD x1 x51 | s84 => DD x1 x52 | s85 => DD x1 x53 | s86 => DD x1 x54 | s87 => DD x1 x55 | s88 => DD x1 x56 | s89 => DD x1 x57 | s90 => DD x1 x58 | s91 => DD x1 x59 | s92 => DD x1 x60 | s93 => DD x1 x61 | s94 => DD x1 x62 | s95 => DD x1 x63 | s96 => DD x2 x0 | s97 => DD x2 x1 | s98 => DD x2 x2 | s99 => DD x2 x3 | s100 => DD x2 x4 | s101 => DD x2 x5 | s102 => DD x2 x6 | s103 => DD x2 x7 | s104 => DD x2 x8 | s105 => DD x2 x9 | s106 => DD x2 x10 | s107 => DD x2 x11 | s108 => DD x2 x12 | s109 => DD x2 x13 | s110 => DD x2 x14 | s111 => DD x2 x15 | s112 => DD x2 x16 | s113 => DD x2 x17 | s114 => DD x2 x18 | s115 => DD x2 x19 | s116 => DD x2 x20 | s117 => DD x2 x21 | s118 => DD x2 x22 | s119 => DD x2 x23 | s120 => DD x2 x24 | s121 => DD x2 x25 | s122 => DD x2 x26 | s123 => DD x2 x27 | s124 => DD x2 x28 | s125 => DD x2 x29 | s126 => DD x2 x30 end.
Definition m33 (c : sum2) : dd := match c with s0 => DD x0 x33 | s1 => DD x0 x34 | s2 => DD x0 x35 | s3 => DD x0 x36 | s4 => DD x0 x37 | s5 => DD x0 x38 | s6 => DD x0 x39 | s7 => DD x0 x40 | s8 => DD x0 x41 | s9 => DD x0 x42 | s10 => DD x0 x43 | s11 => DD x0 x44 | s12 => DD x0 x45 | s13 => DD x0 x46 | s14 => DD x0 x47 | s15 => DD x0 x48 | s16 => DD x0 x49 | s17 => DD x0 x50 | s18 => DD x0 x51 | s19 => DD x0 x52 | s20 => DD x0 x53 | s21 => DD x0 x54 | s22 => DD x0 x55 | s23 => DD x0 x56 | s24 => DD x0 x57 | s25 => DD x0 x58 | s26 => DD x0 x59 | s27 => DD x0 x60 | s28 => DD x0 x61 | s29 => DD x0 x62 | s30 => DD x0 x63 | s31 => DD x1 x0 | s32 => DD x1 x1 | s33 => DD x1 x2 | s34 => DD x1 x3 | s35 => DD x1 x4 | s36 => DD x1 x5 | s37 => DD x1 x6 | s38 => DD x1 x7 | s39 => DD x1 x8 | s40 => DD x1 x9 | s41 => DD x1 x10 | s42 => DD x1 x11 | s43 => DD x1 x12 | s44 => DD x1 x13 | s45 => DD x1 x14 | s46 => DD x1 x15 | s47 => DD x1 x16 | s48 => DD x1 x17 | s49 => DD x1 x18 | s50 => DD x1 x19 | s51 => DD x1 x20 | s52 => DD x1 x21 | s53 => DD x1 x22 | s54 => DD x1 x23 | s55 => DD x1 x24 | s56 => DD x1 x25 | s57 => DD x1 x26 | s58 => DD x1 x27 | s59 => DD x1 x28 | s60 => DD x1 x29 | s61 => DD x1 x30 | s62 => DD x1 x31 | s63 => DD x1 x32 | s64 => DD x1 x33 | s65 => DD x1 x34 | s66 => DD x1 x35 | s67 => DD x1 x36 | s68 => DD x1 x37 | s69 => DD x1 x38 | s70 => DD x1 x39 | s71 => DD x1 x40 | s72 => DD x1 x41 | s73 => DD x1 x42 | s74 => DD x1 x43 | s75 => DD x1 x44 | s76 => DD x1 x45 | s77 => DD x1 x46 | s78 => DD x1 x47 | s79 => DD x1 x48 | s80 => DD x1 x49 | s81 => DD x1 x50 | s82 => DD x1 x51 | s83 => DD x1 x52 | s84 => DD x1 x53 | s85 => DD x1 x54 | s86 => DD x1 x55 | s87 => DD x1 x56 | s88 => DD x1 x57 | s89 => DD x1 x58 | s90 => DD x1 x59 | s91 => DD x1 x60 | s92 => DD x1 x61 | s93 => DD x1 x62 | s94 => DD x1 x63 | s95 => DD x2 x0 | s96 => DD x2 x1 | s97 => DD x2 x2 | s98 => DD x2 x3 | s99 => DD x2 x4 | s100 => DD x2 x5 | s101 => DD x2 x6 | s102 => DD x2 x7 | s103 => DD x2 x8 | s104 => DD x2 x9 | s105 => DD x2 x10 | s106 => DD x2 x11 | s107 => DD x2 x12 | s108 => DD x2 x13 | s109 => DD x2 x14 | s110 => DD x2 x15 | s111 => DD x2 x16 | s112 => DD x2 x17 | s113 => DD x2 x18 | s114 => DD x2 x19 | s115 => DD x2 x20 | s116 => DD x2 x21 | s117 => DD x2 x22 | s118 => DD x2 x23 | s119 => DD x2 x24 | s120 => DD x2 x25 | s121 => DD x2 x26 | s122 => DD x2 x27 | s123 => DD x2 x28 | s124 => DD x2 x29 | s125 => DD x2 x30 | s126 => DD x2 x31 end.
Definition m34 (c : sum2) : dd := match c with s0 => DD x0 x34 | s1 => DD x0 x35 | s2 => DD x0 x36 | s3 => DD x0 x37 | s4 => DD x0 x38 | s5 => DD x0 x39 | s6 => DD x0 x40 | s7 => DD x0 x41 | s8 => DD x0 x42 | s9 => DD x0 x43 | s10 => DD x0 x44 | s11 => DD x0 x45 | s12 => DD x0 x46 | s13 => DD x0 x47 | s14 => DD x0 x48 | s15 => DD x0 x49 | s16 => DD x0 x50 | s17 => DD x0 x51 | s18 => DD x0 x52 | s19 => DD x0 x53 | s20 => DD x0 x54 | s21 => DD x0 x55 | s22 => DD x0 x56 | s23 => DD x0 x57 | s24 => DD x0 x58 | s25 => DD x0 x59 | s26 => DD x0 x60 | s27 => DD x0 x61 | s28 => DD x0 x62 | s29 => DD x0 x63 | s30 => DD x1 x0 | s31 => DD x1 x1 | s32 => DD x1 x2 | s33 => DD x1 x3 | s34 => DD x1 x4 | s35 => DD x1 x5 | s36 => DD x1 x6 | s37 => DD x1 x7 | s38 => DD x1 x8 | s39 => DD x1 x9 | s40 => DD x1 x10 | s41 => DD x1 x11 | s42 => DD x1 x12 | s43 => DD x1 x13 | s44 => DD x1 x14 | s45 => DD x1 x15 | s46 => DD x1 x16 | s47 => DD x1 x17 | s48 => DD x1 x18 | s49 => DD x1 x19 | s50 => DD x1 x20 | s51 => DD x1 x21 | s52 => DD x1 x22 | s53 => DD x1 x23 | s54 => DD x1 x24 | s55 => DD x1 x25 | s56 => DD x1 x26 | s57 => DD x1 x27 | s58 => DD x1 x28 | s59 => DD x1 x29 | s60 => DD x1 x30 | s61 => DD x1 x31 | s62 => DD x1 x32 | s63 => DD x1 x33 | s64 => DD x1 x34 | s65 => DD x1 x35 | s66 => DD x1 x36 | s67 => DD x1 x37 | s68 => DD x1 x38 | s69 => DD x1 x39 | s70 => DD x1 x40 | s71 => DD x1 x41 | s72 => DD x1 x42 | s73 => DD x1 x43 | s74 => DD x1 x44 | s75 => DD x1 x45 | s76 => DD x1 x46 | s77 => DD x1 x47 | s78 => DD x1 x48 | s79 => DD x1 x49 | s80 => DD x1 x50 | s81 => DD x1 x51 | s82 => DD x1 x52 | s83 => DD x1 x53 | s84 => DD x1 x54 | s85 => DD x1 x55 | s86 => DD x1 x56 | s87 => DD x1 x57 | s88 => DD x1 x58 | s89 => DD x1 x59 | s90 => DD x1 x60 | s91 => DD x1 x61 | s92 => DD x1 x62 | s93 => DD x1 x63 | s94 => DD x2 x0 | s95 => DD x2 x1 | s96 => DD x2 x2 | s97 => DD x2 x3 | s98 => DD x2 x4 | s99 => DD x2 x5 | s100 => DD x2 x6 | s101 => DD x2 x7 | s102 => DD x2 x8 | s103 => DD x2 x9 | s104 => DD x2 x10 | s105 => DD x2 x11 | s106 => DD x2 x12 | s107 => DD x2 x13 | s108 => DD x2 x14 | s109 => DD x2 x15 | s110 => DD x2 x16 | s111 => DD x2 x17 | s112 => DD x2 x18 | s113 => DD x2 x19 | s114 => DD x2 x20 | s115 => DD x2 x21 | s116 => DD x2 x22 | s117 => DD x2 x23 | s118 => DD x2 x24 | s119 => DD x2 x25 | s120 => DD x2 x26 | s121 => DD x2 x27 | s122 => DD x2 x28 | s123 => DD x2 x29 | s124 => DD x2 x30 | s125 => DD x2 x31 | s126 => DD x2 x32 end.
Definition m35 (c : sum2) : dd := match c with s0 => DD x0 x35 | s1 => DD x0 x36 | s2 => DD x0 x37 | s3 => DD x0 x38 | s4 => DD x0 x39 | s5 => DD x0 x40 | s6 => DD x0 x41 | s7 => DD x0 x42 | s8 => DD x0 x43 | s9 => DD x0 x44 | s10 => DD x0 x45 | s11 => DD x0 x46 | s12 => DD x0 x47 | s13 => DD x0 x48 | s14 => DD x0 x49 | s15 => DD x0 x50 | s16 => DD x0 x51 | s17 => DD x0 x52 | s18 => DD x0 x53 | s19 => DD x0 x54 | s20 => DD x0 x55 | s21 => DD x0 x56 | s22 => DD x0 x57 | s23 => DD x0 x58 | s24 => DD x0 x59 | s25 => DD x0 x60 | s26 => DD x0 x61 | s27 => DD x0 x62 | s28 => DD x0 x63 | s29 => DD x1 x0 | s30 => DD x1 x1 | s31 => DD x1 x2 | s32 => DD x1 x3 | s33 => DD x1 x4 | s34 => DD x1 x5 | s35 => DD x1 x6 | s36 => DD x1 x7 | s37 => DD x1 x8 | s38 => DD x1 x9 | s39 => DD x1 x10 | s40 => DD x1 x11 | s41 => DD x1 x12 | s42 => DD x1 x13 | s43 => DD x1 x14 | s44 => DD x1 x15 | s45 => DD x1 x16 | s46 => DD x1 x17 | s47 => DD x1 x18 | s48 => DD x1 x19 | s49 => DD x1 x20 | s50 => DD x1 x21 | s51 => DD x1 x22 | s52 => DD x1 x23 | s53 => DD x1 x24 | s54 => DD x1 x25 | s55 => DD x1 x26 | s56 => DD x1 x27 | s57 => DD x1 x28 | s58 => DD x1 x29 | s59 => DD x1 x30 | s60 => DD x1 x31 | s61 => DD x1 x32 | s62 => DD x1 x33 | s63 => DD x1 x34 | s64 => DD x1 x35 | s65 => DD x1 x36 | s66 => DD x1 x37 | s67 => DD x1 x38 | s68 => DD x1 x39 | s69 => DD x1 x40 | s70 => DD x1 x41 | s71 => DD x1 x42 | s72 => DD x1 x43 | s73 => DD x1 x44 | s74 => DD x1 x45 | s75 => DD x1 x46 | s76 => DD x1 x47 | s77 => DD x1 x48 | s78 => DD x1 x49 | s79 => DD x1 x50 | s80 => DD x1 x51 | s81 => DD x1 x52 | s82 => DD x1 x53 | s83 => DD x1 x54 | s84 => DD x1 x55 | s85 => DD x1 x56 | s86 => DD x1 x57 | s87 => DD x1 x58 | s88 => DD x1 x59 | s89 => DD x1 x60 | s90 => DD x1 x61 | s91 => DD x1 x62 | s92 => DD x1 x63 | s93 => DD x2 x0 | s94 => DD x2 x1 | s95 => DD x2 x2 | s96 => DD x2 x3 | s97 => DD x2 x4 | s98 => DD x2 x5 | s99 => DD x2 x6 | s100 => DD x2 x7 | s101 => DD x2 x8 | s102 => DD x2 x9 | s103 => DD x2 x10 | s104 => DD x2 x11 | s105 => DD x2 x12 | s106 => DD x2 x13 | s107 => DD x2 x14 | s108 => DD x2 x15 | s109 => DD x2 x16 | s110 => DD x2 x17 | s111 => DD x2 x18 | s112 => DD x2 x19 | s113 => DD x2 x20 | s114 => DD x2 x21 | s115 => DD x2 x22 | s116 => DD x2 x23 | s117 => DD x2 x24 | s118 => DD x2 x25 | s119 => DD x2 x26 | s120 => DD x2 x27 | s121 => DD x2 x28 | s122 => DD x2 x29 | s123 => DD x2 x30 | s124 => DD x2 x31 | s125 => DD x2 x32 | s126 => DD x2 x33 end.
Definition m36 (c : sum2) : dd := match c with s0 => DD x0 x36 | s1 => DD x0 x37 | s2 => DD x0 x38 | s3 => DD x0 x39 | s4 => DD x0 x40 | s5 => DD x0 x41 | s6 => DD x0 x42 | s7 => DD x0 x43 | s8 => DD x0 x44 | s9 => DD x0 x45 | s10 => DD x0 x46 | s11 => DD x0 x47 | s12 => DD x0 x48 | s13 => DD x0 x49 | s14 => DD x0 x50 | s15 => DD x0 x51 | s16 => DD x0 x52 | s17 => DD x0 x53 | s18 => DD x0 x54 | s19 => DD x0 x55 | s20 => DD x0 x56 | s21 => DD x0 x57 | s22 => DD x0 x58 | s23 => DD x0 x59 | s24 => DD x0 x60 | s25 => DD x0 x61 | s26 => DD x0 x62 | s27 => DD x0 x63 | s28 => DD x1 x0 | s29 => DD x1 x1 | s30 => DD x1 x2 | s31 => DD x1 x3 | s32 => DD x1 x4 | s33 => DD x1 x5 | s34 => DD x1 x6 | s35 => DD x1 x7 | s36 => DD x1 x8 | s37 => DD x1 x9 | s38 => DD x1 x10 | s39 => DD x1 x11 | s40 => DD x1 x12 | s41 => DD x1 x13 | s42 => DD x1 x14 | s43 => DD x1 x15 | s44 => DD x1 x16 | s45 => DD x1 x17 | s46 => DD x1 x18 | s47 => DD x1 x19 | s48 => DD x1 x20 | s49 => DD x1 x21 | s50 => DD x1 x22 | s51 => DD x1 x23 | s52 => DD x1 x24 | s53 => DD x1 x25 | s54 => DD x1 x26 | s55 => DD x1 x27 | s56 => DD x1 x28 | s57 => DD x1 x29 | s58 => DD x1 x30 | s59 => DD x1 x31 | s60 => DD x1 x32 | s61 => DD x1 x33 | s62 => DD x1 x34 | s63 => DD x1 x35 | s64 => DD x1 x36 | s65 => DD x1 x37 | s66 => DD x1 x38 | s67 => DD x1 x39 | s68 => DD x1 x40 | s69 => DD x1 x41 | s70 => DD x1 x42 | s71 => DD x1 x43 | s72 => DD x1 x44 | s73 => DD x1 x45 | s74 => DD x1 x46 | s75 => DD x1 x47 | s76 => DD x1 x48 | s77 => DD x1 x49 | s78 => DD x1 x50 | s79 => DD x1 x51 | s80 => DD x1 x52 | s81 => DD x1 x53 | s82 => DD x1 x54 | s83 => DD x1 x55 | s84 => DD x1 x56 | s85 => DD x1 x57 | s86 => DD x1 x58 | s87 => DD x1 x59 | s88 => DD x1 x60 | s89 => DD x1 x61 | s90 => DD x1 x62 | s91 => DD x1 x63 | s92 => DD x2 x0 | s93 => DD x2 x1 | s94 => DD x2 x2 | s95 => DD x2 x3 | s96 => DD x2 x4 | s97 => DD x2 x5 | s98 => DD x2 x6 | s99 => DD x2 x7 | s100 => DD x2 x8 | s101 => DD x2 x9 | s102 => DD x2 x10 | s103 => DD x2 x11 | s104 => DD x2 x12 | s105 => DD x2 x13 | s106 => DD x2 x14 | s107 => DD x2 x15 | s108 => DD x2 x16 | s109 => DD x2 x17 | s110 => DD x2 x18 | s111 => DD x2 x19 | s112 => DD x2 x20 | s113 => DD x2 x21 | s114 => DD x2 x22 | s115 => DD x2 x23 | s116 => DD x2 x24 | s117 => DD x2 x25 | s118 => DD x2 x26 | s119 => DD x2 x27 | s120 => DD x2 x28 | s121 => DD x2 x29 | s122 => DD x2 x30 | s123 => DD x2 x31 | s124 => DD x2 x32 | s125 => DD x2 x33 | s126 => DD x2 x34 end.
Definition m37 (c : sum2) : dd := match c with s0 => DD x0 x37 | s1 => DD x0 x38 | s2 => DD x0 x39 | s3 => DD x0 x40 | s4 => DD x0 x41 | s5 => DD x0 x42 | s6 => DD x0 x43 | s7 => DD x0 x44 | s8 => DD x0 x45 | s9 => DD x0 x46 | s10 => DD x0 x47 | s11 => DD x0 x48 | s12 => DD x0 x49 | s13 => DD x0 x50 | s14 => DD x0 x51 | s15 => DD x0 x52 | s16 => DD x0 x53 | s17 => DD x0 x54 | s18 => DD x0 x55 | s19 => DD x0 x56 | s20 => DD x0 x57 | s21 => DD x0 x58 | s22 => DD x0 x59 | s23 => DD x0 x60 | s24 => DD x0 x61 | s25 => DD x0 x62 | s26 => DD x0 x63 | s27 => DD x1 x0 | s28 => DD x1 x1 | s29 => DD x1 x2 | s30 => DD x1 x3 | s31 => DD x1 x4 | s32 => DD x1 x5 | s33 => DD x1 x6 | s34 => DD x1 x7 | s35 => DD x1 x8 | s36 => DD x1 x9 | s37 => DD x1 x10 | s38 => DD x1 x11 | s39 => DD x1 x12 | s40 => DD x1 x13 | s41 => DD x1 x14 | s42 => DD x1 x15 | s43 => DD x1 x16 | s44 => DD x1 x17 | s45 => DD x1 x18 | s46 => DD x1 x19 | s47 => DD x1 x20 | s48 => DD x1 x21 | s49 => DD x1 x22 | s50 => DD x1 x23 | s51 => DD x1 x24 | s52 => DD x1 x25 | s53 => DD x1 x26 | s54 => DD x1 x27 | s55 => DD x1 x28 | s56 => DD x1 x29 | s57 => DD x1 x30 | s58 => DD x1 x31 | s59 => DD x1 x32 | s60 => DD x1 x33 | s61 => DD x1 x34 | s62 => DD x1 x35 | s63 => DD x1 x36 | s64 => DD x1 x37 | s65 => DD x1 x38 | s66 => DD x1 x39 | s67 => DD x1 x40 | s68 => DD x1 x41 | s69 => DD x1 x42 | s70 => DD x1 x43 | s71 => DD x1 x44 | s72 => DD x1 x45 | s73 => DD x1 x46 | s74 => DD x1 x47 | s75 => DD x1 x48 | s76 => DD x1 x49 | s77 => DD x1 x50 | s78 => DD x1 x51 | s79 => DD x1 x52 | s80 => DD x1 x53 | s81 => DD x1 x54 | s82 => DD x1 x55 | s83 => DD x1 x56 | s84 => DD x1 x57 | s85 => DD x1 x58 | s86 => DD x1 x59 | s87 => DD x1 x60 | s88 => DD x1 x61 | s89 => DD x1 x62 | s90 => DD x1 x63 | s91 => DD x2 x0 | s92 => DD x2 x1 | s93 => DD x2 x2 | s94 => DD x2 x3 | s95 => DD x2 x4 | s96 => DD x2 x5 | s97 => DD x2 x6 | s98 => DD x2 x7 | s99 => DD x2 x8 | s100 => DD x2 x9 | s101 => DD x2 x10 | s102 => DD x2 x11 | s103 => DD x2 x12 | s104 => DD x2 x13 | s105 => DD x2 x14 | s106 => DD x2 x15 | s107 => DD x2 x16 | s108 => DD x2 x17 | s109 => DD x2 x18 | s110 => DD x2 x19 | s111 => DD x2 x20 | s112 => DD x2 x21 | s113 => DD x2 x22 | s114 => DD x2 x23 | s115 => DD x2 x24 | s116 => DD x2 x25 | s117 => DD x2 x26 | s118 => DD x2 x27 | s119 => DD x2 x28 | s120 => DD x2 x29 | s121 => DD x2 x30 | s122 => DD x2 x31 | s123 => DD x2 x32 | s124 => DD x2 x33 | s125 => DD x2 x34 | s126 => DD x2 x35 end.
Definition m38 (c : sum2) : dd := match c with s0 => DD x0 x38 | s1 => DD x0 x39 | s2 => DD x0 x40 | s3 => DD x0 x41 | s4 => DD x0 x42 | s5 => DD x0 x43 | s6 => DD x0 x44 | s7 => DD x0 x45 | s8 => DD x0 x46 | s9 => DD x0 x47 | s10 => DD x0 x48 | s11 => DD x0 x49 | s12 => DD x0 x50 | s13 => DD x0 x51 | s14 => DD x0 x52 | s15 => DD x0 x53 | s16 => DD x0 x54 | s17 => DD x0 x55 | s18 => DD x0 x56 | s19 => DD x0 x57 | s20 => DD x0 x58 | s21 => DD x0 x59 | s22 => DD x0 x60 | s23 => DD x0 x61 | s24 => DD x0 x62 | s25 => DD x0 x63 | s26 => DD x1 x0 | s27 => DD x1 x1 | s28 => DD x1 x2 | s29 => DD x1 x3 | s30 => DD x1 x4 | s31 => DD x1 x5 | s32 => DD x1 x6 | s33 => DD x1 x7 | s34 => DD x1 x8 | s35 => DD x1 x9 | s36 => DD x1 x10 | s37 => DD x1 x11 | s38 => DD x1 x12 | s39 => DD x1 x13 | s40 => DD x1 x14 | s41 => DD x1 x15 | s42 => DD x1 x16 | s43 => DD x1 x17 | s44 => DD x1 x18 | s45 => DD x1 x19 | s46 => DD x1 x20 | s47 => DD x1 x21 | s48 => DD x1 x22 | s49 => DD x1 x23 | s50 => DD x1 x24 | s51 => DD x1 x25 | s52 => DD x1 x26 | s53 => DD x1 x27 | s54 => DD x1 x28 | s55 => DD x1 x29 | s56 => DD x1 x30 | s57 => DD x1 x31 | s58 => DD x1 x32 | s59 => DD x1 x33 | s60 => DD x1 x34 | s61 => DD x1 x35 | s62 => DD x1 x36 | s63 => DD x1 x37 | s64 => DD x1 x38 | s65 => DD x1 x39 | s66 => DD x1 x40 | s67 => DD x1 x41 | s68 => DD x1 x42 | s69 => DD x1 x43 | s70 => DD x1 x44 | s71 => DD x1 x45 | s72 => DD x1 x46 | s73 => DD x1 x47 | s74 => DD x1 x48 | s75 => DD x1 x49 | s76 => DD x1 x50 | s77 => DD x1 x51 | s78 => DD x1 x52 | s79 => DD x1 x53 | s80 => DD x1 x54 | s81 => DD x1 x55 | s82 => DD x1 x56 | s83 => DD x1 x57 | s84 => DD x1 x58 | s85 => DD x1 x59 | s86 => DD x1 x60 | s87 => DD x1 x61 | s88 => DD x1 x62 | s89 => DD x1 x63 | s90 => DD x2 x0 | s91 => DD x2 x1 | s92 => DD x2 x2 | s93 => DD x2 x3 | s94 => DD x2 x4 | s95 => DD x2 x5 | s96 => DD x2 x6 | s97 => DD x2 x7 | s98 => DD x2 x8 | s99 => DD x2 x9 | s100 => DD x2 x10 | s101 => DD x2 x11 | s102 => DD x2 x12 | s103 => DD x2 x13 | s104 => DD x2 x14 | s105 => DD x2 x15 | s106 => DD x2 x16 | s107 => DD x2 x17 | s108 => DD x2 x18 | s109 => DD x2 x19 | s110 => DD x2 x20 | s111 => DD x2 x21 | s112 => DD x2 x22 | s113 => DD x2 x23 | s114 => DD x2 x24 | s115 => DD x2 x25 | s116 => DD x2 x26 | s117 => DD x2 x27 | s118 => DD x2 x28 | s119 => DD x2 x29 | s120 => DD x2 x30 | s121 => DD x2 x31 | s122 => DD x2 x32 | s123 => DD x2 x33 | s124 => DD x2 x34 | s125 => DD x2 x35 | s126 => DD x2 x36 end.
Definition m39 (c : sum2) : dd := match c with s0 => DD x0 x39 | s1 => DD x0 x40 | s2 => DD x0 x41 | s3 => DD x0 x42 | s4 => DD x0 x43 | s5 => DD x0 x44 | s6 => DD x0 x45 | s7 => DD x0 x46 | s8 => DD x0 x47 | s9 => DD x0 x48 | s10 => DD x0 x49 | s11 => DD x0 x50 | s12 => DD x0 x51 | s13 => DD x0 x52 | s14 => DD x0 x53 | s15 => DD x0 x54 | s16 => DD x0 x55 | s17 => DD x0 x56 | s18 => DD x0 x57 | s19 => DD x0 x58 | s20 => DD x0 x59 | s21 => DD x0 x60 | s22 => DD x0 x61 | s23 => DD x0 x62 | s24 => DD x0 x63 | s25 => DD x1 x0 | s26 => DD x1 x1 | s27 => DD x1 x2 | s28 => DD x1 x3 | s29 => DD x1 x4 | s30 => DD x1 x5 | s31 => DD x1 x6 | s32 => DD x1 x7 | s33 => DD x1 x8 | s34 => DD x1 x9 | s35 => DD x1 x10 | s36 => DD x1 x11 | s37 => DD x1 x12 | s38 => DD x1 x13 | s39 => DD x1 x14 | s40 => DD x1 x15 | s41 => DD x1 x16 | s42 => DD x1 x17 | s43 => DD x1 x18 | s44 => DD x1 x19 | s45 => DD x1 x20 | s46 => DD x1 x21 | s47 => DD x1 x22 | s48 => DD x1 x23 | s49 => DD x1 x24 | s50 => DD x1 x25 | s51 => DD x1 x26 | s52 => DD x1 x27 | s53 => DD x1 x28 | s54 => DD x1 x29 | s55 => DD x1 x30 | s56 => DD x1 x31 | s57 => DD x1 x32 | s58 => DD x1 x33 | s59 => DD x1 x34 | s60 => DD x1 x35 | s61 => DD x1 x36 | s62 => DD x1 x37 | s63 => DD x1 x38 | s64 => DD x1 x39 | s65 => DD x1 x40 | s66 => DD x1 x41 | s67 => DD x1 x42 | s68 => DD x1 x43 | s69 => DD x1 x44 | s70 => DD x1 x45 | s71 => DD x1 x46 | s72 => DD x1 x47 | s73 => DD x1 x48 | s74 => DD x1 x49 | s75 => DD x1 x50 | s76 => DD x1 x51 | s77 => DD x1 x52 | s78 => DD x1 x53 | s79 => DD x1 x54 | s80 => DD x1 x55 | s81 => DD x1 x56 | s82 => DD x1 x57 | s83 => DD x1 x58 | s84 => DD x1 x59 | s85 => DD x1 x60 | s86 => DD x1 x61 | s87 => DD x1 x62 | s88 => DD x1 x63 | s89 => DD x2 x0 | s90 => DD x2 x1 | s91 => DD x2 x2 | s92 => DD x2 x3 | s93 => DD x2 x4 | s94 => DD x2 x5 | s95 => DD x2 x6 | s96 => DD x2 x7 | s97 => DD x2 x8 | s98 => DD x2 x9 | s99 => DD x2 x10 | s100 => DD x2 x11 | s101 => DD x2 x12 | s102 => DD x2 x13 | s103 => DD x2 x14 | s104 => DD x2 x15 | s105 => DD x2 x16 | s106 => DD x2 x17 | s107 => DD x2 x18 | s108 => DD x2 x19 | s109 => DD x2 x20 | s110 => DD x2 x21 | s111 => DD x2 x22 | s112 => DD x2 x23 | s113 => DD x2 x24 | s114 => DD x2 x25 | s115 => DD x2 x26 | s116 => DD x2 x27 | s117 => DD x2 x28 | s118 => DD x2 x29 | s119 => DD x2 x30 | s120 => DD x2 x31 | s121 => DD x2 x32 | s122 => DD x2 x33 | s123 => DD x2 x34 | s124 => DD x2 x35 | s125 => DD x2 x36 | s126 => DD x2 x37 end.
Definition m40 (c : sum2) : dd := match c with s0 => DD x0 x40 | s1 => DD x0 x41 | s2 => DD x0 x42 | s3 => DD x0 x43 | s4 => DD x0 x44 | s5 => DD x0 x45 | s6 => DD x0 x46 | s7 => DD x0 x47 | s8 => DD x0 x48 | s9 => DD x0 x49 | s10 => DD x0 x50 | s11 => DD x0 x51 | s12 => DD x0 x52 | s13 => DD x0 x53 | s14 => DD x0 x54 | s15 => DD x0 x55 | s16 => DD x0 x56 | s17 => DD x0 x57 | s18 => DD x0 x58 | s19 => DD x0 x59 | s20 => DD x0 x60 | s21 => DD x0 x61 | s22 => DD x0 x62 | s23 => DD x0 x63 | s24 => DD x1 x0 | s25 => DD x1 x1 | s26 => DD x1 x2 | s27 => DD x1 x3 | s28 => DD x1 x4 | s29 => DD x1 x5 | s30 => DD x1 x6 | s31 => DD x1 x7 | s32 => DD x1 x8 | s33 => DD x1 x9 | s34 => DD x1 x10 | s35 => DD x1 x11 | s36 => DD x1 x12 | s37 => DD x1 x13 | s38 => DD x1 x14 | s39 => DD x1 x15 | s40 => DD x1 x16 | s41 => DD x1 x17 | s42 => DD x1 x18 | s43 => DD x1 x19 | s44 => DD x1 x20 | s45 => DD x1 x21 | s46 => DD x1 x22 | s47 => DD x1 x23 | s48 => DD x1 x24 | s49 => DD x1 x25 | s50 => DD x1 x26 | s51 => DD x1 x27 | s52 => DD x1 x28 | s53 => DD x1 x29 | s54 => DD x1 x30 | s55 => DD x1 x31 | s56 => DD x1 x32 | s57 => DD x1 x33 | s58 => DD x1 x34 | s59 => DD x1 x35 | s60 => DD x1 x36 | s61 => DD x1 x37 | s62 => DD x1 x38 | s63 => DD x1 x39 | s64 => DD x1 x40 | s65 => DD x1 x41 | s66 => DD x1 x42 | s67 => DD x1 x43 | s68 => DD x1 x44 | s69 => DD x1 x45 | s70 => DD x1 x46 | s71 => DD x1 x47 | s72 => DD x1 x48 | s73 => DD x1 x49 | s74 => DD x1 x50 | s75 => DD x1 x51 | s76 => DD x1 x52 | s77 => DD x1 x53 | s78 => DD x1 x54 | s79 => DD x1 x55 | s80 => DD x1 x56 | s81 => DD x1 x57 | s82 => DD x1 x58 | s83 => DD x1 x59 | s84 => DD x1 x60 | s85 => DD x1 x61 | s86 => DD x1 x62 | s87 => DD x1 x63 | s88 => DD x2 x0 | s89 => DD x2 x1 | s90 => DD x2 x2 | s91 => DD x2 x3 | s92 => DD x2 x4 | s93 => DD x2 x5 | s94 => DD x2 x6 | s95 => DD x2 x7 | s96 => DD x2 x8 | s97 => DD x2 x9 | s98 => DD x2 x10 | s99 => DD x2 x11 | s100 => DD x2 x12 | s101 => DD x2 x13 | s102 => DD x2 x14 | s103 => DD x2 x15 | s104 => DD x2 x16 | s105 => DD x2 x17 | s106 => DD x2 x18 | s107 => DD x2 x19 | s108 => DD x2 x20 | s109 => DD x2 x21 | s110 => DD x2 x22 | s111 => DD x2 x23 | s112 => DD x2 x24 | s113 => DD x2 x25 | s114 => DD x2 x26 | s115 => DD x2 x27 | s116 => DD x2 x28 | s117 => DD x2 x29 | s118 => DD x2 x30 | s119 => DD x2 x31 | s120 => DD x2 x32 | s121 => DD x2 x33 | s122 => DD x2 x34 | s123 => DD x2 x35 | s124 => DD x2 x36 | s125 => DD x2 x37 | s126 => DD x2 x38 end.
Definition m41 (c : sum2) : dd := match c with s0 => DD x0 x41 | s1 => DD x0 x42 | s2 => DD x0 x43 | s3 => DD x0 x44 | s4 => DD x0 x45 | s5 => DD x0 x46 | s6 => DD x0 x47 | s7 => DD x0 x48 | s8 => DD x0 x49 | s9 => DD x0 x50 | s10 => DD x0 x51 | s11 => DD x0 x52 | s12 => DD x0 x53 | s13 => DD x0 x54 | s14 => DD x0 x55 | s15 => DD x0 x56 | s16 => DD x0 x57 | s17 => DD x0 x58 | s18 => DD x0 x59 | s19 => DD x0 x60 | s20 => DD x0 x61 | s21 => DD x0 x62 | s22 => DD x0 x63 | s23 => DD x1 x0 | s24 => DD x1 x1 | s25 => DD x1 x2 | s26 => DD x1 x3 | s27 => DD x1 x4 | s28 => DD x1 x5 | s29 => DD x1 x6 | s30 => DD x1 x7 | s31 => DD x1 x8 | s32 => DD x1 x9 | s33 => DD x1 x10 | s34 => DD x1 x11 | s35 => DD x1 x12 | s36 => DD x1 x13 | s37 => DD x1 x14 | s38 => DD x1 x15 | s39 => DD x1 x16 | s40 => DD x1 x17 | s41 => DD x1 x18 | s42 => DD x1 x19 | s43 => DD x1 x20 | s44 => DD x1 x21 | s45 => DD x1 x22 | s46 => DD x1 x23 | s47 => DD x1 x24 | s48 => DD x1 x25 | s49 => DD x1 x26 | s50 => DD x1 x27 | s51 => DD x1 x28 | s52 => DD x1 x29 | s53 => DD x1 x30 | s54 => DD x1 x31 | s55 => DD x1 x32 | s56 => DD x1 x33 | s57 => DD x1 x34 | s58 => DD x1 x35 | s59 => DD x1 x36 | s60 => DD x1 x37 | s61 => DD x1 x38 | s62 => DD x1 x39 | s63 => DD x1 x40 | s64 => DD x1 x41 | s65 => DD x1 x42 | s66 => DD x1 x43 | s67 => DD x1 x44 | s68 => DD x1 x45 | s69 => DD x1 x46 | s70 => DD x1 x47 | s71 => DD x1 x48 | s72 => DD x1 x49 | s73 => DD x1 x50 | s74 => DD x1 x51 | s75 => DD x1 x52 | s76 => DD x1 x53 | s77 => DD x1 x54 | s78 => DD x1 x55 | s79 => DD x1 x56 | s80 => DD x1 x57 | s81 => DD x1 x58 | s82 => DD x1 x59 | s83 => DD x1 x60 | s84 => DD x1 x61 | s85 => DD x1 x62 | s86 => DD x1 x63 | s87 => DD x2 x0 | s88 => DD x2 x1 | s89 => DD x2 x2 | s90 => DD x2 x3 | s91 => DD x2 x4 | s92 => DD x2 x5 | s93 => DD x2 x6 | s94 => DD x2 x7 | s95 => DD x2 x8 | s96 => DD x2 x9 | s97 => DD x2 x10 | s98 => DD x2 x11 | s99 => DD x2 x12 | s100 => DD x2 x13 | s101 => DD x2 x14 | s102 => DD x2 x15 | s103 => DD x2 x16 | s104 => DD x2 x17 | s105 => DD x2 x18 | s106 => DD x2 x19 | s107 => DD x2 x20 | s108 => DD x2 x21 | s109 => DD x2 x22 | s110 => DD x2 x23 | s111 => DD x2 x24 | s112 => DD x2 x25 | s113 => DD x2 x26 | s114 => DD x2 x27 | s115 => DD x2 x28 | s116 => DD x2 x29 | s117 => DD x2 x30 | s118 => DD x2 x31 | s119 => DD x2 x32 | s120 => DD x2 x33 | s121 => DD x2 x34 | s122 => DD x2 x35 | s123 => DD x2 x36 | s124 => DD x2 x37 | s125 => DD x2 x38 | s126 => DD x2 x39 end.
Definition m42 (c : sum2) : dd := match c with s0 => DD x0 x42 | s1 => DD x0 x43 | s2 => DD x0 x44 | s3 => DD x0 x45 | s4 => DD x0 x46 | s5 => DD x0 x47 | s6 => DD x0 x48 | s7 => DD x0 x49 | s8 => DD x0 x50 | s9 => DD x0 x51 | s10 => DD x0 x52 | s11 => DD x0 x53 | s12 => DD x0 x54 | s13 => DD x0 x55 | s14 => DD x0 x56 | s15 => DD x0 x57 | s16 => DD x0 x58 | s17 => DD x0 x59 | s18 => DD x0 x60 | s19 => DD x0 x61 | s20 => DD x0 x62 | s21 => DD x0 x63 | s22 => DD x1 x0 | s23 => DD x1 x1 | s24 => DD x1 x2 | s25 => DD x1 x3 | s26 => DD x1 x4 | s27 => DD x1 x5 | s28 => DD x1 x6 | s29 => DD x1 x7 | s30 => DD x1 x8 | s31 => DD x1 x9 | s32 => DD x1 x10 | s33 => DD x1 x11 | s34 => DD x1 x12 | s35 => DD x1 x13 | s36 => DD x1 x14 | s37 => DD x1 x15 | s38 => DD x1 x16 | s39 => DD x1 x17 | s40 => DD x1 x18 | s41 => DD x1 x19 | s42 => DD x1 x20 | s43 => DD x1 x21 | s44 => DD x1 x22 | s45 => DD x1 x23 | s46 => DD x1 x24 | s47 => DD x1 x25 | s48 => DD x1 x26 | s49 => DD x1 x27 | s50 => DD x1 x28 | s51 => DD x1 x29 | s52 => DD x1 x30 | s53 => DD x1 x31 | s54 => DD x1 x32 | s55 => DD x1 x33 | s56 => DD x1 x34 | s57 => DD x1 x35 | s58 => DD x1 x36 | s59 => DD x1 x37 | s60 => DD x1 x38 | s61 => DD x1 x39 | s62 => DD x1 x40 | s63 => DD x1 x41 | s64 => DD x1 x42 | s65 => DD x1 x43 | s66 => DD x1 x44 | s67 => DD x1 x45 | s68 => DD x1 x46 | s69 => DD x1 x47 | s70 => DD x1 x48 | s71 => DD x1 x49 | s72 => DD x1 x50 | s73 => DD x1 x51 | s74 => DD x1 x52 | s75 => DD x1 x53 | s76 => DD x1 x54 | s77 => DD x1 x55 | s78 => DD x1 x56 | s79 => DD x1 x57 | s80 => DD x1 x58 | s81 => DD x1 x59 | s82 => DD x1 x60 | s83 => DD x1 x61 | s84 => DD x1 x62 | s85 => DD x1 x63 | s86 => DD x2 x0 | s87 => DD x2 x1 | s88 => DD x2 x2 | s89 => DD x2 x3 | s90 => DD x2 x4 | s91 => DD x2 x5 | s92 => DD x2 x6 | s93 => DD x2 x7 | s94 => DD x2 x8 | s95 => DD x2 x9 | s96 => DD x2 x10 | s97 => DD x2 x11 | s98 => DD x2 x12 | s99 => DD x2 x13 | s100 => DD x2 x14 | s101 => DD x2 x15 | s102 => DD x2 x16 | s103 => DD x2 x17 | s104 => DD x2 x18 | s105 => DD x2 x19 | s106 => DD x2 x20 | s107 => DD x2 x21 | s108 => DD x2 x22 | s109 => DD x2 x23 | s110 => DD x2 x24 | s111 => DD x2 x25 | s112 => DD x2 x26 | s113 => DD x2 x27 | s114 => DD x2 x28 | s115 => DD x2 x29 | s116 => DD x2 x30 | s117 => DD x2 x31 | s118 => DD x2 x32 | s119 => DD x2 x33 | s120 => DD x2 x34 | s121 => DD x2 x35 | s122 => DD x2 x36 | s123 => DD x2 x37 | s124 => DD x2 x38 | s125 => DD x2 x39 | s126 => DD x2 x40 end.
Definition m43 (c : sum2) : dd := match c with s0 => DD x0 x43 | s1 => DD x0 x44 | s2 => DD x0 x45 | s3 => DD x0 x46 | s4 => DD x0 x47 | s5 => DD x0 x48 | s6 => DD x0 x49 | s7 => DD x0 x50 | s8 => DD x0 x51 | s9 => DD x0 x52 | s10 => DD x0 x53 | s11 => DD x0 x54 | s12 => DD x0 x55 | s13 => DD x0 x56 | s14 => DD x0 x57 | s15 => DD x0 x58 | s16 => DD x0 x59 | s17 => DD x0 x60 | s18 => DD x0 x61 | s19 => DD x0 x62 | s20 => DD x0 x63 | s21 => DD x1 x0 | s22 => DD x1 x1 | s23 => DD x1 x2 | s24 => DD x1 x3 | s25 => DD x1 x4 | s26 => DD x1 x5 | s27 => DD x1 x6 | s28 => DD x1 x7 | s29 => DD x1 x8 | s30 => DD x1 x9 | s31 => DD x1 x10 | s32 => DD x1 x11 | s33 => DD x1 x12 | s34 => DD x1 x13 | s35 => DD x1 x14 | s36 => DD x1 x15 | s37 => DD x1 x16 | s38 => DD x1 x17 | s39 => DD x1 x18 | s40 => DD x1 x19 | s41 => DD x1 x20 | s42 => DD x1 x21 | s43 => DD x1 x22 | s44 => DD x1 x23 | s45 => DD x1 x24 | s46 => DD x1 x25 | s47 => DD x1 x26 | s48 => DD x1 x27 | s49 => DD x1 x28 | s50 => DD x1 x29 | s51 => DD x1 x30 | s52 => DD x1 x31 | s53 => DD x1 x32 | s54 => DD x1 x33 | s55 => DD x1 x34 | s56 => DD x1 x35 | s57 => DD x1 x36 | s58 => DD x1 x37 | s59 => DD x1 x38 | s60 => DD x1 x39 | s61 => DD x1 x40 | s62 => DD x1 x41 | s63 => DD x1 x42 | s64 => DD x1 x43 | s65 => DD x1 x44 | s66 => DD x1 x45 | s67 => DD x1 x46 | s68 => DD x1 x47 | s69 => DD x1 x48 | s70 => DD x1 x49 | s71 => DD x1 x50 | s72 => DD x1 x51 | s73 => DD x1 x52 | s74 => DD x1 x53 | s75 => DD x1 x54 | s76 => DD x1 x55 | s77 => DD x1 x56 | s78 => DD x1 x57 | s79 => DD x1 x58 | s80 => DD x1 x59 | s81 => DD x1 x60 | s82 => DD x1 x61 | s83 => DD x1 x62 | s84 => DD x1 x63 | s85 => DD x2 x0 | s86 => DD x2 x1 | s87 => DD x2 x2 | s88 => DD x2 x3 | s89 => DD x2 x4 | s90 => DD x2 x5 | s91 => DD x2 x6 | s92 => DD x2 x7 | s93 => DD x2 x8 | s94 => DD x2 x9 | s95 => DD x2 x10 | s96 => DD x2 x11 | s97 => DD x2 x12 | s98 => DD x2 x13 | s99 => DD x2 x14 | s100 => DD x2 x15 | s101 => DD x2 x16 | s102 => DD x2 x17 | s103 => DD x2 x18 | s104 => DD x2 x19 | s105 => DD x2 x20 | s106 => DD x2 x21 | s107 => DD x2 x22 | s108 => DD x2 x23 | s109 => DD x2 x24 | s110 => DD x2 x25 | s111 => DD x2 x26 | s112 => DD x2 x27 | s113 => DD x2 x28 | s114 => DD x2 x29 | s115 => DD x2 x30 | s116 => DD x2 x31 | s117 => DD x2 x32 | s118 => DD x2 x33 | s119 => DD x2 x34 | s120 => DD x2 x35 | s121 => DD x2 x36 | s122 => DD x2 x37 | s123 => DD x2 x38 | s124 => DD x2 x39 | s125 => DD x2 x40 | s126 => DD x2 x41 end.
Definition m44 (c : sum2) : dd := match c with s0 => DD x0 x44 | s1 => DD x0 x45 | s2 => DD x0 x46 | s3 => DD x0 x47 | s4 => DD x0 x48 | s5 => DD x0 x49 | s6 => DD x0 x50 | s7 => DD x0 x51 | s8 => DD x0 x52 | s9 => DD x0 x53 | s10 => DD x0 x54 | s11 => DD x0 x55 | s12 => DD x0 x56 | s13 => DD x0 x57 | s14 => DD x0 x58 | s15 => DD x0 x59 | s16 => DD x0 x60 | s17 => DD x0 x61 | s18 => DD x0 x62 | s19 => DD x0 x63 | s20 => DD x1 x0 | s21 => DD x1 x1 | s22 => DD x1 x2 | s23 => DD x1 x3 | s24 => DD x1 x4 | s25 => DD x1 x5 | s26 => DD x1 x6 | s27 => DD x1 x7 | s28 => DD x1 x8 | s29 => DD x1 x9 | s30 => DD x1 x10 | s31 => DD x1 x11 | s32 => DD x1 x12 | s33 => DD x1 x13 | s34 => DD x1 x14 | s35 => DD x1 x15 | s36 => DD x1 x16 | s37 => DD x1 x17 | s38 => DD x1 x18 | s39 => DD x1 x19 | s40 => DD x1 x20 | s41 => DD x1 x21 | s42 => DD x1 x22 | s43 => DD x1 x23 | s44 => DD x1 x24 | s45 => DD x1 x25 | s46 => DD x1 x26 | s47 => DD x1 x27 | s48 => DD x1 x28 | s49 => DD x1 x29 | s50 => DD x1 x30 | s51 => DD x1 x31 | s52 => DD x1 x32 | s53 => DD x1 x33 | s54 => DD x1 x34 | s55 => DD x1 x35 | s56 => DD x1 x36 | s57 => DD x1 x37 | s58 => DD x1 x38 | s59 => DD x1 x39 | s60 => DD x1 x40 | s61 => DD x1 x41 | s62 => DD x1 x42 | s63 => DD x1 x43 | s64 => DD x1 x44 | s65 => DD x1 x45 | s66 => DD x1 x46 | s67 => DD x1 x47 | s68 => DD x1 x48 | s69 => DD x1 x49 | s70 => DD x1 x50 | s71 => DD x1 x51 | s72 => DD x1 x52 | s73 => DD x1 x53 | s74 => DD x1 x54 | s75 => DD x1 x55 | s76 => DD x1 x56 | s77 => DD x1 x57 | s78 => DD x1 x58 | s79 => DD x1 x59 | s80 => DD x1 x60 | s81 => DD x1 x61 | s82 => DD x1 x62 | s83 => DD x1 x63 | s84 => DD x2 x0 | s85 => DD x2 x1 | s86 => DD x2 x2 | s87 => DD x2 x3 | s88 => DD x2 x4 | s89 => DD x2 x5 | s90 => DD x2 x6 | s91 => DD x2 x7 | s92 => DD x2 x8 | s93 => DD x2 x9 | s94 => DD x2 x10 | s95 => DD x2 x11 | s96 => DD x2 x12 | s97 => DD x2 x13 | s98 => DD x2 x14 | s99 => DD x2 x15 | s100 => DD x2 x16 | s101 => DD x2 x17 | s102 => DD x2 x18 | s103 => DD x2 x19 | s104 => DD x2 x20 | s105 => DD x2 x21 | s106 => DD x2 x22 | s107 => DD x2 x23 | s108 => DD x2 x24 | s109 => DD x2 x25 | s110 => DD x2 x26 | s111 => DD x2 x27 | s112 => DD x2 x28 | s113 => DD x2 x29 | s114 => DD x2 x30 | s115 => DD x2 x31 | s116 => DD x2 x32 | s117 => DD x2 x33 | s118 => DD x2 x34 | s119 => DD x2 x35 | s120 => DD x2 x36 | s121 => DD x2 x37 | s122 => DD x2 x38 | s123 => DD x2 x39 | s124 => DD x2 x40 | s125 => DD x2 x41 | s126 => DD x2 x42 end.
Definition m45 (c : sum2) : dd := match c with s0 => DD x0 x45 | s1 => DD x0 x46 | s2 => DD x0 x47 | s3 => DD x0 x48 | s4 => DD x0 x49 | s5 => DD x0 x50 | s6 => DD x0 x51 | s7 => DD x0 x52 | s8 => DD x0 x53 | s9 => DD x0 x54 | s10 => DD x0 x55 | s11 => DD x0 x56 | s12 => DD x0 x57 | s13 => DD x0 x58 | s14 => DD x0 x59 | s15 => DD x0 x60 | s16 => DD x0 x61 | s17 => DD x0 x62 | s18 => DD x0 x63 | s19 => DD x1 x0 | s20 => DD x1 x1 | s21 => DD x1 x2 | s22 => DD x1 x3 | s23 => DD x1 x4 | s24 => DD x1 x5 | s25 => DD x1 x6 | s26 => DD x1 x7 | s27 => DD x1 x8 | s28 => DD x1 x9 | s29 => DD x1 x10 | s30 => DD x1 x11 | s31 => DD x1 x12 | s32 => DD x1 x13 | s33 => DD x1 x14 | s34 => DD x1 x15 | s35 => DD x1 x16 | s36 => DD x1 x17 | s37 => DD x1 x18 | s38 => DD x1 x19 | s39 => DD x1 x20 | s40 => DD x1 x21 | s41 => DD x1 x22 | s42 => DD x1 x23 | s43 => DD x1 x24 | s44 => DD x1 x25 | s45 => DD x1 x26 | s46 => DD x1 x27 | s47 => DD x1 x28 | s48 => DD x1 x29 | s49 => DD x1 x30 | s50 => DD x1 x31 | s51 => DD x1 x32 | s52 => DD x1 x33 | s53 => DD x1 x34 | s54 => DD x1 x35 | s55 => DD x1 x36 | s56 => DD x1 x37 | s57 => DD x1 x38 | s58 => DD x1 x39 | s59 => DD x1 x40 | s60 => DD x1 x41 | s61 => DD x1 x42 | s62 => DD x1 x43 | s63 => DD x1 x44 | s64 => DD x1 x45 | s65 => DD x1 x46 | s66 => DD x1 x47 | s67 => DD x1 x48 | s68 => DD x1 x49 | s69 => DD x1 x50 | s70 => DD x1 x51 | s71 => DD x1 x52 | s72 => DD x1 x53 | s73 => DD x1 x54 | s74 => DD x1 x55 | s75 => DD x1 x56 | s76 => DD x1 x57 | s77 => DD x1 x58 | s78 => DD x1 x59 | s79 => DD x1 x60 | s80 => DD x1 x61 | s81 => DD x1 x62 | s82 => DD x1 x63 | s83 => DD x2 x0 | s84 => DD x2 x1 | s85 => DD x2 x2 | s86 => DD x2 x3 | s87 => DD x2 x4 | s88 => DD x2 x5 | s89 => DD x2 x6 | s90 => DD x2 x7 | s91 => DD x2 x8 | s92 => DD x2 x9 | s93 => DD x2 x10 | s94 => DD x2 x11 | s95 => DD x2 x12 | s96 => DD x2 x13 | s97 => DD x2 x14 | s98 => DD x2 x15 | s99 => DD x2 x16 | s100 => DD x2 x17 | s101 => DD x2 x18 | s102 => DD x2 x19 | s103 => DD x2 x20 | s104 => DD x2 x21 | s105 => DD x2 x22 | s106 => DD x2 x23 | s107 => DD x2 x24 | s108 => DD x2 x25 | s109 => DD x2 x26 | s110 => DD x2 x27 | s111 => DD x2 x28 | s112 => DD x2 x29 | s113 => DD x2 x30 | s114 => DD x2 x31 | s115 => DD x2 x32 | s116 => DD x2 x33 | s117 => DD x2 x34 | s118 => DD x2 x35 | s119 => DD x2 x36 | s120 => DD x2 x37 | s121 => DD x2 x38 | s122 => DD x2 x39 | s123 => DD x2 x40 | s124 => DD x2 x41 | s125 => DD x2 x42 | s126 => DD x2 x43 end.
Definition m46 (c : sum2) : dd := match c with s0 => DD x0 x46 | s1 => DD x0 x47 | s2 => DD x0 x48 | s3 => DD x0 x49 | s4 => DD x0 x50 | s5 => DD x0 x51 | s6 => DD x0 x52 | s7 => DD x0 x53 | s8 => DD x0 x54 | s9 => DD x0 x55 | s10 => DD x0 x56 | s11 => DD x0 x57 | s12 => DD x0 x58 | s13 => DD x0 x59 | s14 => DD x0 x60 | s15 => DD x0 x61 | s16 => DD x0 x62 | s17 => DD x0 x63 | s18 => DD x1 x0 | s19 => DD x1 x1 | s20 => DD x1 x2 | s21 => DD x1 x3 | s22 => DD x1 x4 | s23 => DD x1 x5 | s24 => DD x1 x6 | s25 => DD x1 x7 | s26 => DD x1 x8 | s27 => DD x1 x9 | s28 => DD x1 x10 | s29 => DD x1 x11 | s30 => DD x1 x12 | s31 => DD x1 x13 | s32 => DD x1 x14 | s33 => DD x1 x15 | s34 => DD x1 x16 | s35 => DD x1 x17 | s36 => DD x1 x18 | s37 => DD x1 x19 | s38 => DD x1 x20 | s39 => DD x1 x21 | s40 => DD x1 x22 | s41 => DD x1 x23 | s42 => DD x1 x24 | s43 => DD x1 x25 | s44 => DD x1 x26 | s45 => DD x1 x27 | s46 => DD x1 x28 | s47 => DD x1 x29 | s48 => DD x1 x30 | s49 => DD x1 x31 | s50 => DD x1 x32 | s51 => DD x1 x33 | s52 => DD x1 x34 | s53 => DD x1 x35 | s54 => DD x1 x36 | s55 => DD x1 x37 | s56 => DD x1 x38 | s57 => DD x1 x39 | s58 => DD x1 x40 | s59 => DD x1 x41 | s60 => DD x1 x42 | s61 => DD x1 x43 | s62 => DD x1 x44 | s63 => DD x1 x45 | s64 => DD x1 x46 | s65 => DD x1 x47 | s66 => DD x1 x48 | s67 => DD x1 x49 | s68 => DD x1 x50 | s69 => DD x1 x51 | s70 => DD x1 x52 | s71 => DD x1 x53 | s72 => DD x1 x54 | s73 => DD x1 x55 | s74 => DD x1 x56 | s75 => DD x1 x57 | s76 => DD x1 x58 | s77 => DD x1 x59 | s78 => DD x1 x60 | s79 => DD x1 x61 | s80 => DD x1 x62 | s81 => DD x1 x63 | s82 => DD x2 x0 | s83 => DD x2 x1 | s84 => DD x2 x2 | s85 => DD x2 x3 | s86 => DD x2 x4 | s87 => DD x2 x5 | s88 => DD x2 x6 | s89 => DD x2 x7 | s90 => DD x2 x8 | s91 => DD x2 x9 | s92 => DD x2 x10 | s93 => DD x2 x11 | s94 => DD x2 x12 | s95 => DD x2 x13 | s96 => DD x2 x14 | s97 => DD x2 x15 | s98 => DD x2 x16 | s99 => DD x2 x17 | s100 => DD x2 x18 | s101 => DD x2 x19 | s102 => DD x2 x20 | s103 => DD x2 x21 | s104 => DD x2 x22 | s105 => DD x2 x23 | s106 => DD x2 x24 | s107 => DD x2 x25 | s108 => DD x2 x26 | s109 => DD x2 x27 | s110 => DD x2 x28 | s111 => DD x2 x29 | s112 => DD x2 x30 | s113 => DD x2 x31 | s114 => DD x2 x32 | s115 => DD x2 x33 | s116 => DD x2 x34 | s117 => DD x2 x35 | s118 => DD x2 x36 | s119 => DD x2 x37 | s120 => DD x2 x38 | s121 => DD x2 x39 | s122 => DD x2 x40 | s123 => DD x2 x41 | s124 => DD x2 x42 | s125 => DD x2 x43 | s126 => DD x2 x44 end.
Definition m47 (c : sum2) : dd := match c with s0 => DD x0 x47 | s1 => DD x0 x48 | s2 => DD x0 x49 | s3 => DD x0 x50 | s4 => DD x0 x51 | s5 => DD x0 x52 | s6 => DD x0 x53 | s7 => DD x0 x54 | s8 => DD x0 x55 | s9 => DD x0 x56 | s10 => DD x0 x57 | s11 => DD x0 x58 | s12 => DD x0 x59 | s13 => DD x0 x60 | s14 => DD x0 x61 | s15 => DD x0 x62 | s16 => DD x0 x63 | s17 => DD x1 x0 | s18 => DD x1 x1 | s19 => DD x1 x2 | s20 => DD x1 x3 | s21 => DD x1 x4 | s22 => DD x1 x5 | s23 => DD x1 x6 | s24 => DD x1 x7 | s25 => DD x1 x8 | s26 => DD x1 x9 | s27 => DD x1 x10 | s28 => DD x1 x11 | s29 => DD x1 x12 | s30 => DD x1 x13 | s31 => DD x1 x14 | s32 => DD x1 x15 | s33 => DD x1 x16 | s34 => DD x1 x17 | s35 => DD x1 x18 | s36 => DD x1 x19 | s37 => DD x1 x20 | s38 => DD x1 x21 | s39 => DD x1 x22 | s40 => DD x1 x23 | s41 => DD x1 x24 | s42 => DD x1 x25 | s43 => DD x1 x26 | s44 => DD x1 x27 | s45 => DD x1 x28 | s46 => DD x1 x29 | s47 => DD x1 x30 | s48 => DD x1 x31 | s49 => DD x1 x32 | s50 => DD x1 x33 | s51 => DD x1 x34 | s52 => DD x1 x35 | s53 => DD x1 x36 | s54 => DD x1 x37 | s55 => DD x1 x38 | s56 => DD x1 x39 | s57 => DD x1 x40 | s58 => DD x1 x41 | s59 => DD x1 x42 | s60 => DD x1 x43 | s61 => DD x1 x44 | s62 => DD x1 x45 | s63 => DD x1 x46 | s64 => DD x1 x47 | s65 => DD x1 x48 | s66 => DD x1 x49 | s67 => DD x1 x50 | s68 => DD x1 x51 | s69 => DD x1 x52 | s70 => DD x1 x53 | s71 => DD x1 x54 | s72 => DD x1 x55 | s73 => DD x1 x56 | s74 => DD x1 x57 | s75 => DD x1 x58 | s76 => DD x1 x59 | s77 => DD x1 x60 | s78 => DD x1 x61 | s79 => DD x1 x62 | s80 => DD x1 x63 | s81 => DD x2 x0 | s82 => DD x2 x1 | s83 => DD x2 x2 | s84 => DD x2 x3 | s85 => DD x2 x4 | s86 => DD x2 x5 | s87 => DD x2 x6 | s88 => DD x2 x7 | s89 => DD x2 x8 | s90 => DD x2 x9 | s91 => DD x2 x10 | s92 => DD x2 x11 | s93 => DD x2 x12 | s94 => DD x2 x13 | s95 => DD x2 x14 | s96 => DD x2 x15 | s97 => DD x2 x16 | s98 => DD x2 x17 | s99 => DD x2 x18 | s100 => DD x2 x19 | s101 => DD x2 x20 | s102 => DD x2 x21 | s103 => DD x2 x22 | s104 => DD x2 x23 | s105 => DD x2 x24 | s106 => DD x2 x25 | s107 => DD x2 x26 | s108 => DD x2 x27 | s109 => DD x2 x28 | s110 => DD x2 x29 | s111 => DD x2 x30 | s112 => DD x2 x31 | s113 => DD x2 x32 | s114 => DD x2 x33 | s115 => DD x2 x34 | s116 => DD x2 x35 | s117 => DD x2 x36 | s118 => DD x2 x37 | s119 => DD x2 x38 | s120 => DD x2 x39 | s121 => DD x2 x40 | s122 => DD x2 x41 | s123 => DD x2 x42 | s124 => DD x2 x43 | s125 => DD x2 x44 | s126 => DD x2 x45 end.
Definition m48 (c : sum2) : dd := match c with s0 => DD x0 x48 | s1 => DD x0 x49 | s2 => DD x0 x50 | s3 => DD x0 x51 | s4 => DD x0 x52 | s5 => DD x0 x53 | s6 => DD x0 x54 | s7 => DD x0 x55 | s8 => DD x0 x56 | s9 => DD x0 x57 | s10 => DD x0 x58 | s11 => DD x0 x59 | s12 => DD x0 x60 | s13 => DD x0 x61 | s14 => DD x0 x62 | s15 => DD x0 x63 | s16 => DD x1 x0 | s17 => DD x1 x1 | s18 => DD x1 x2 | s19 => DD x1 x3 | s20 => DD x1 x4 | s21 => DD x1 x5 | s22 => DD x1 x6 | s23 => DD x1 x7 | s24 => DD x1 x8 | s25 => DD x1 x9 | s26 => DD x1 x10 | s27 => DD x1 x11 | s28 => DD x1 x12 | s29 => DD x1 x13 | s30 => DD x1 x14 | s31 => DD x1 x15 | s32 => DD x1 x16 | s33 => DD x1 x17 | s34 => DD x1 x18 | s35 => DD x1 x19 | s36 => DD x1 x20 | s37 => DD x1 x21 | s38 => DD x1 x22 | s39 => DD x1 x23 | s40 => DD x1 x24 | s41 => DD x1 x25 | s42 => DD x1 x26 | s43 => DD x1 x27 | s44 => DD x1 x28 | s45 => DD x1 x29 | s46 => DD x1 x30 | s47 => DD x1 x31 | s48 => DD x1 x32 | s49 => DD x1 x33 | s50 => DD x1 x34 | s51 => DD x1 x35 | s52 => DD x1 x36 | s53 => DD x1 x37 | s54 => DD x1 x38 | s55 => DD x1 x39 | s56 => DD x1 x40 | s57 => DD x1 x41 | s58 => DD x1 x42 | s59 => DD x1 x43 | s60 => DD x1 x44 | s61 => DD x1 x45 | s62 => DD x1 x46 | s63 => DD x1 x47 | s64 => DD x1 x48 | s65 => DD x1 x49 | s66 => DD x1 x50 | s67 => DD x1 x51 | s68 => DD x1 x52 | s69 => DD x1 x53 | s70 => DD x1 x54 | s71 => DD x1 x55 | s72 => DD x1 x56 | s73 => DD x1 x57 | s74 => DD x1 x58 | s75 => DD x1 x59 | s76 => DD x1 x60 | s77 => DD x1 x61 | s78 => DD x1 x62 | s79 => DD x1 x63 | s80 => DD x2 x0 | s81 => DD x2 x1 | s82 => DD x2 x2 | s83 => DD x2 x3 | s84 => DD x2 x4 | s85 => DD x2 x5 | s86 => DD x2 x6 | s87 => DD x2 x7 | s88 => DD x2 x8 | s89 => DD x2 x9 | s90 => DD x2 x10 | s91 => DD x2 x11 | s92 => DD x2 x12 | s93 => DD x2 x13 | s94 => DD x2 x14 | s95 => DD x2 x15 | s96 => DD x2 x16 | s97 => DD x2 x17 | s98 => DD x2 x18 | s99 => DD x2 x19 | s100 => DD x2 x20 | s101 => DD x2 x21 | s102 => DD x2 x22 | s103 => DD x2 x23 | s104 => DD x2 x24 | s105 => DD x2 x25 | s106 => DD x2 x26 | s107 => DD x2 x27 | s108 => DD x2 x28 | s109 => DD x2 x29 | s110 => DD x2 x30 | s111 => DD x2 x31 | s112 => DD x2 x32 | s113 => DD x2 x33 | s114 => DD x2 x34 | s115 => DD x2 x35 | s116 => DD x2 x36 | s117 => DD x2 x37 | s118 => DD x2 x38 | s119 => DD x2 x39 | s120 => DD x2 x40 | s121 => DD x2 x41 | s122 => DD x2 x42 | s123 => DD x2 x43 | s124 => DD x2 x44 | s125 => DD x2 x45 | s126 => DD x2 x46 end.
Definition m49 (c : sum2) : dd := match c with s0 => DD x0 x49 | s1 => DD x0 x50 | s2 => DD x0 x51 | s3 => DD x0 x52 | s4 => DD x0 x53 | s5 => DD x0 x54 | s6 => DD x0 x55 | s7 => DD x0 x56 | s8 => DD x0 x57 | s9 => DD x0 x58 | s10 => DD x0 x59 | s11 => DD x0 x60 | s12 => DD x0 x61 | s13 => DD x0 x62 | s14 => DD x0 x63 | s15 => DD x1 x0 | s16 => DD x1 x1 | s17 => DD x1 x2 | s18 => DD x1 x3 | s19 => DD x1 x4 | s20 => DD x1 x5 | s21 => DD x1 x6 | s22 => DD x1 x7 | s23 => DD x1 x8 | s24 => DD x1 x9 | s25 => DD x1 x10 | s26 => DD x1 x11 | s27 => DD x1 x12 | s28 => DD x1 x13 | s29 => DD x1 x14 | s30 => DD x1 x15 | s31 => DD x1 x16 | s32 => DD x1 x17 | s33 => DD x1 x18 | s34 => DD x1 x19 | s35 => DD x1 x20 | s36 => DD x1 x21 | s37 => DD x1 x22 | s38 => DD x1 x23 | s39 => DD x1 x24 | s40 => DD x1 x25 | s41 => DD x1 x26 | s42 => DD x1 x27 | s43 => DD x1 x28 | s44 => DD x1 x29 | s45 => DD x1 x30 | s46 => DD x1 x31 | s47 => DD x1 x32 | s48 => DD x1 x33 | s49 => DD x1 x34 | s50 => DD x1 x35 | s51 => DD x1 x36 | s52 => DD x1 x37 | s53 => DD x1 x38 | s54 => DD x1 x39 | s55 => DD x1 x40 | s56 => DD x1 x41 | s57 => DD x1 x42 | s58 => DD x1 x43 | s59 => DD x1 x44 | s60 => DD x1 x45 | s61 => DD x1 x46 | s62 => DD x1 x47 | s63 => DD x1 x48 | s64 => DD x1 x49 | s65 => DD x1 x50 | s66 => DD x1 x51 | s67 => DD x1 x52 | s68 => DD x1 x53 | s69 => DD x1 x54 | s70 => DD x1 x55 | s71 => DD x1 x56 | s72 => DD x1 x57 | s73 => DD x1 x58 | s74 => DD x1 x59 | s75 => DD x1 x60 | s76 => DD x1 x61 | s77 => DD x1 x62 | s78 => DD x1 x63 | s79 => DD x2 x0 | s80 => DD x2 x1 | s81 => DD x2 x2 | s82 => DD x2 x3 | s83 => DD x2 x4 | s84 => DD x2 x5 | s85 => DD x2 x6 | s86 => DD x2 x7 | s87 => DD x2 x8 | s88 => DD x2 x9 | s89 => DD x2 x10 | s90 => DD x2 x11 | s91 => DD x2 x12 | s92 => DD x2 x13 | s93 => DD x2 x14 | s94 => DD x2 x15 | s95 => DD x2 x16 | s96 => DD x2 x17 | s97 => DD x2 x18 | s98 => DD x2 x19 | s99 => DD x2 x20 | s100 => DD x2 x21 | s101 => DD x2 x22 | s102 => DD x2 x23 | s103 => DD x2 x24 | s104 => DD x2 x25 | s105 => DD x2 x26 | s106 => DD x2 x27 | s107 => DD x2 x28 | s108 => DD x2 x29 | s109 => DD x2 x30 | s110 => DD x2 x31 | s111 => DD x2 x32 | s112 => DD x2 x33 | s113 => DD x2 x34 | s114 => DD x2 x35 | s115 => DD x2 x36 | s116 => DD x2 x37 | s117 => DD x2 x38 | s118 => DD x2 x39 | s119 => DD x2 x40 | s120 => DD x2 x41 | s121 => DD x2 x42 | s122 => DD x2 x43 | s123 => DD x2 x44 | s124 => DD x2 x45 | s125 => DD x2 x46 | s126 => DD x2 x47 end.
Definition m50 (c : sum2) : dd := match c with s0 => DD x0 x50 | s1 => DD x0 x51 | s2 => DD x0 x52 | s3 => DD x0 x53 | s4 => DD x0 x54 | s5 => DD x0 x55 | s6 => DD x0 x56 | s7 => DD x0 x57 | s8 => DD x0 x58 | s9 => DD x0 x59 | s10 => DD x0 x60 | s11 => DD x0 x61 | s12 => DD x0 x62 | s13 => DD x0 x63 | s14 => DD x1 x0 | s15 => DD x1 x1 | s16 => DD x1 x2 | s17 => DD x1 x3 | s18 => DD x1 x4 | s19 => DD x1 x5 | s20 => DD x1 x6 | s21 => DD x1 x7 | s22 => DD x1 x8 | s23 => DD x1 x9 | s24 => DD x1 x10 | s25 => DD x1 x11 | s26 => DD x1 x12 | s27 => DD x1 x13 | s28 => DD x1 x14 | s29 => DD x1 x15 | s30 => DD x1 x16 | s31 => DD x1 x17 | s32 => DD x1 x18 | s33 => DD x1 x19 | s34 => DD x1 x20 | s35 => DD x1 x21 | s36 => DD x1 x22 | s37 => DD x1 x23 | s38 => DD x1 x24 | s39 => DD x1 x25 | s40 => DD x1 x26 | s41 => DD x1 x27 | s42 => DD x1 x28 | s43 => DD x1 x29 | s44 => DD x1 x30 | s45 => DD x1 x31 | s46 => DD x1 x32 | s47 => DD x1 x33 | s48 => DD x1 x34 | s49 => DD x1 x35 | s50 => DD x1 x36 | s51 => DD x1 x37 | s52 => DD x1 x38 | s53 => DD x1 x39 | s54 => DD x1 x40 | s55 => DD x1 x41 | s56 => DD x1 x42 | s57 => DD x1 x43 | s58 => DD x1 x44 | s59 => DD x1 x45 | s60 => DD x1 x46 | s61 => DD x1 x47 | s62 => DD x1 x48 | s63 => DD x1 x49 | s64 => DD x1 x50 | s65 => DD x1 x51 | s66 => DD x1 x52 | s67 => DD x1 x53 | s68 => DD x1 x54 | s69 => DD x1 x55 | s70 => DD x1 x56 | s71 => DD x1 x57 | s72 => DD x1 x58 | s73 => DD x1 x59 | s74 => DD x1 x60 | s75 => DD x1 x61 | s76 => DD x1 x62 | s77 => DD x1 x63 | s78 => DD x2 x0 | s79 => DD x2 x1 | s80 => DD x2 x2 | s81 => DD x2 x3 | s82 => DD x2 x4 | s83 => DD x2 x5 | s84 => DD x2 x6 | s85 => DD x2 x7 | s86 => DD x2 x8 | s87 => DD x2 x9 | s88 => DD x2 x10 | s89 => DD x2 x11 | s90 => DD x2 x12 | s91 => DD x2 x13 | s92 => DD x2 x14 | s93 => DD x2 x15 | s94 => DD x2 x16 | s95 => DD x2 x17 | s96 => DD x2 x18 | s97 => DD x2 x19 | s98 => DD x2 x20 | s99 => DD x2 x21 | s100 => DD x2 x22 | s101 => DD x2 x23 | s102 => DD x2 x24 | s103 => DD x2 x25 | s104 => DD x2 x26 | s105 => DD x2 x27 | s106 => DD x2 x28 | s107 => DD x2 x29 | s108 => DD x2 x30 | s109 => DD x2 x31 | s110 => DD x2 x32 | s111 => DD x2 x33 | s112 => DD x2 x34 | s113 => DD x2 x35 | s114 => DD x2 x36 | s115 => DD x2 x37 | s116 => DD x2 x38 | s117 => DD x2 x39 | s118 => DD x2 x40 | s119 => DD x2 x41 | s120 => DD x2 x42 | s121 => DD x2 x43 | s122 => DD x2 x44 | s123 => DD x2 x45 | s124 => DD x2 x46 | s125 => DD x2 x47 | s126 => DD x2 x48 end.
Definition m51 (c : sum2) : dd := match c with s0 => DD x0 x51 | s1 => DD x0 x52 | s2 => DD x0 x53 | s3 => DD x0 x54 | s4 => DD x0 x55 | s5 => DD x0 x56 | s6 => DD x0 x57 | s7 => DD x0 x58 | s8 => DD x0 x59 | s9 => DD x0 x60 | s10 => DD x0 x61 | s11 => DD x0 x62 | s12 => DD x0 x63 | s13 => DD x1 x0 | s14 => DD x1 x1 | s15 => DD x1 x2 | s16 => DD x1 x3 | s17 => DD x1 x4 | s18 => DD x1 x5 | s19 => DD x1 x6 | s20 => DD x1 x7 | s21 => DD x1 x8 | s22 => DD x1 x9 | s23 => DD x1 x10 | s24 => DD x1 x11 | s25 => DD x1 x12 | s26 => DD x1 x13 | s27 => DD x1 x14 | s28 => DD x1 x15 | s29 => DD x1 x16 | s30 => DD x1 x17 | s31 => DD x1 x18 | s32 => DD x1 x19 | s33 => DD x1 x20 | s34 => DD x1 x21 | s35 => DD x1 x22 | s36 => DD x1 x23 | s37 => DD x1 x24 | s38 => DD x1 x25 | s39 => DD x1 x26 | s40 => DD x1 x27 | s41 => DD x1 x28 | s42 => DD x1 x29 | s43 => DD x1 x30 | s44 => DD x1 x31 | s45 => DD x1 x32 | s46 => DD x1 x33 | s47 => DD x1 x34 | s48 => DD x1 x35 | s49 => DD x1 x36 | s50 => DD x1 x37 | s51 => DD x1 x38 | s52 => DD x1 x39 | s53 => DD x1 x40 | s54 => DD x1 x41 | s55 => DD x1 x42 | s56 => DD x1 x43 | s57 => DD x1 x44 | s58 => DD x1 x45 | s59 => DD x1 x46 | s60 => DD x1 x47 | s61 => DD x1 x48 | s62 => DD x1 x49 | s63 => DD x1 x50 | s64 => DD x1 x51 | s65 => DD x1 x52 | s66 => DD x1 x53 | s67 => DD x1 x54 | s68 => DD x1 x55 | s69 => DD x1 x56 | s70 => DD x1 x57 | s71 => DD x1 x58 | s72 => DD x1 x59 | s73 => DD x1 x60 | s74 => DD x1 x61 | s75 => DD x1 x62 | s76 => DD x1 x63 | s77 => DD x2 x0 | s78 => DD x2 x1 | s79 => DD x2 x2 | s80 => DD x2 x3 | s81 => DD x2 x4 | s82 => DD x2 x5 | s83 => DD x2 x6 | s84 => DD x2 x7 | s85 => DD x2 x8 | s86 => DD x2 x9 | s87 => DD x2 x10 | s88 => DD x2 x11 | s89 => DD x2 x12 | s90 => DD x2 x13 | s91 => DD x2 x14 | s92 => DD x2 x15 | s93 => DD x2 x16 | s94 => DD x2 x17 | s95 => DD x2 x18 | s96 => DD x2 x19 | s97 => DD x2 x20 | s98 => DD x2 x21 | s99 => DD x2 x22 | s100 => DD x2 x23 | s101 => DD x2 x24 | s102 => DD x2 x25 | s103 => DD x2 x26 | s104 => DD x2 x27 | s105 => DD x2 x28 | s106 => DD x2 x29 | s107 => DD x2 x30 | s108 => DD x2 x31 | s109 => DD x2 x32 | s110 => DD x2 x33 | s111 => DD x2 x34 | s112 => DD x2 x35 | s113 => DD x2 x36 | s114 => DD x2 x37 | s115 => DD x2 x38 | s116 => DD x2 x39 | s117 => DD x2 x40 | s118 => DD x2 x41 | s119 => DD x2 x42 | s120 => DD x2 x43 | s121 => DD x2 x44 | s122 => DD x2 x45 | s123 => DD x2 x46 | s124 => DD x2 x47 | s125 => DD x2 x48 | s126 => DD x2 x49 end.
Definition m52 (c : sum2) : dd := match c with s0 => DD x0 x52 | s1 => DD x0 x53 | s2 => DD x0 x54 | s3 => DD x0 x55 | s4 => DD x0 x56 | s5 => DD x0 x57 | s6 => DD x0 x58 | s7 => DD x0 x59 | s8 => DD x0 x60 | s9 => DD x0 x61 | s10 => DD x0 x62 | s11 => DD x0 x63 | s12 => DD x1 x0 | s13 => DD x1 x1 | s14 => DD x1 x2 | s15 => DD x1 x3 | s16 => DD x1 x4 | s17 => DD x1 x5 | s18 => DD x1 x6 | s19 => DD x1 x7 | s20 => DD x1 x8 | s21 => DD x1 x9 | s22 => DD x1 x10 | s23 => DD x1 x11 | s24 => DD x1 x12 | s25 => DD x1 x13 | s26 => DD x1 x14 | s27 => DD x1 x15 | s28 => DD x1 x16 | s29 => DD x1 x17 | s30 => DD x1 x18 | s31 => DD x1 x19 | s32 => DD x1 x20 | s33 => DD x1 x21 | s34 => DD x1 x22 | s35 => DD x1 x23 | s36 => DD x1 x24 | s37 => DD x1 x25 | s38 => DD x1 x26 | s39 => DD x1 x27 | s40 => DD x1 x28 | s41 => DD x1 x29 | s42 => DD x1 x30 | s43 => DD x1 x31 | s44 => DD x1 x32 | s45 => DD x1 x33 | s46 => DD x1 x34 | s47 => DD x1 x35 | s48 => DD x1 x36 | s49 => DD x1 x37 | s50 => DD x1 x38 | s51 => DD x1 x39 | s52 => DD x1 x40 | s53 => DD x1 x41 | s54 => DD x1 x42 | s55 => DD x1 x43 | s56 => DD x1 x44 | s57 => DD x1 x45 | s58 => DD x1 x46 | s59 => DD x1 x47 | s60 => DD x1 x48 | s61 => DD x1 x49 | s62 => DD x1 x50 | s63 => DD x1 x51 | s64 => DD x1 x52 | s65 => DD x1 x53 | s66 => DD x1 x54 | s67 => DD x1 x55 | s68 => DD x1 x56 | s69 => DD x1 x57 | s70 => DD x1 x58 | s71 => DD x1 x59 | s72 => DD x1 x60 | s73 => DD x1 x61 | s74 => DD x1 x62 | s75 => DD x1 x63 | s76 => DD x2 x0 | s77 => DD x2 x1 | s78 => DD x2 x2 | s79 => DD x2 x3 | s80 => DD x2 x4 | s81 => DD x2 x5 | s82 => DD x2 x6 | s83 => DD x2 x7 | s84 => DD x2 x8 | s85 => DD x2 x9 | s86 => DD x2 x10 | s87 => DD x2 x11 | s88 => DD x2 x12 | s89 => DD x2 x13 | s90 => DD x2 x14 | s91 => DD x2 x15 | s92 => DD x2 x16 | s93 => DD x2 x17 | s94 => DD x2 x18 | s95 => DD x2 x19 | s96 => DD x2 x20 | s97 => DD x2 x21 | s98 => DD x2 x22 | s99 => DD x2 x23 | s100 => DD x2 x24 | s101 => DD x2 x25 | s102 => DD x2 x26 | s103 => DD x2 x27 | s104 => DD x2 x28 | s105 => DD x2 x29 | s106 => DD x2 x30 | s107 => DD x2 x31 | s108 => DD x2 x32 | s109 => DD x2 x33 | s110 => DD x2 x34 | s111 => DD x2 x35 | s112 => DD x2 x36 | s113 => DD x2 x37 | s114 => DD x2 x38 | s115 => DD x2 x39 | s116 => DD x2 x40 | s117 => DD x2 x41 | s118 => DD x2 x42 | s119 => DD x2 x43 | s120 => DD x2 x44 | s121 => DD x2 x45 | s122 => DD x2 x46 | s123 => DD x2 x47 | s124 => DD x2 x48 | s125 => DD x2 x49 | s126 => DD x2 x50 end.
Definition m53 (c : sum2) : dd := match c with s0 => DD x0 x53 | s1 => DD x0 x54 | s2 => DD x0 x55 | s3 => DD x0 x56 | s4 => DD x0 x57 | s5 => DD x0 x58 | s6 => DD x0 x59 | s7 => DD x0 x60 | s8 => DD x0 x61 | s9 => DD x0 x62 | s10 => DD x0 x63 | s11 => DD x1 x0 | s12 => DD x1 x1 | s13 => DD x1 x2 | s14 => DD x1 x3 | s15 => DD x1 x4 | s16 => DD x1 x5 | s17 => DD x1 x6 | s18 => DD x1 x7 | s19 => DD x1 x8 | s20 => DD x1 x9 | s21 => DD x1 x10 | s22 => DD x1 x11 | s23 => DD x1 x12 | s24 => DD x1 x13 | s25 => DD x1 x14 | s26 => DD x1 x15 | s27 => DD x1 x16 | s28 => DD x1 x17 | s29 => DD x1 x18 | s30 => DD x1 x19 | s31 => DD x1 x20 | s32 => DD x1 x21 | s33 => DD x1 x22 | s34 => DD x1 x23 | s35 => DD x1 x24 | s36 => DD x1 x25 | s37 => DD x1 x26 | s38 => DD x1 x27 | s39 => DD x1 x28 | s40 => DD x1 x29 | s41 => DD x1 x30 | s42 => DD x1 x31 | s43 => DD x1 x32 | s44 => DD x1 x33 | s45 => DD x1 x34 | s46 => DD x1 x35 | s47 => DD x1 x36 | s48 => DD x1 x37 | s49 => DD x1 x38 | s50 => DD x1 x39 | s51 => DD x1 x40 | s52 => DD x1 x41 | s53 => DD x1 x42 | s54 => DD x1 x43 | s55 => DD x1 x44 | s56 => DD x1 x45 | s57 => DD x1 x46 | s58 => DD x1 x47 | s59 => DD x1 x48 | s60 => DD x1 x49 | s61 => DD x1 x50 | s62 => DD x1 x51 | s63 => DD x1 x52 | s64 => DD x1 x53 | s65 => DD x1 x54 | s66 => DD x1 x55 | s67 => DD x1 x56 | s68 => DD x1 x57 | s69 => DD x1 x58 | s70 => DD x1 x59 | s71 => DD x1 x60 | s72 => DD x1 x61 | s73 => DD x1 x62 | s74 => DD x1 x63 | s75 => DD x2 x0 | s76 => DD x2 x1 | s77 => DD x2 x2 | s78 => DD x2 x3 | s79 => DD x2 x4 | s80 => DD x2 x5 | s81 => DD x2 x6 | s82 => DD x2 x7 | s83 => DD x2 x8 | s84 => DD x2 x9 | s85 => DD x2 x10 | s86 => DD x2 x11 | s87 => DD x2 x12 | s88 => DD x2 x13 | s89 => DD x2 x14 | s90 => DD x2 x15 | s91 => DD x2 x16 | s92 => DD x2 x17 | s93 => DD x2 x18 | s94 => DD x2 x19 | s95 => DD x2 x20 | s96 => DD x2 x21 | s97 => DD x2 x22 | s98 => DD x2 x23 | s99 => DD x2 x24 | s100 => DD x2 x25 | s101 => DD x2 x26 | s102 => DD x2 x27 | s103 => DD x2 x28 | s104 => DD x2 x29 | s105 => DD x2 x30 | s106 => DD x2 x31 | s107 => DD x2 x32 | s108 => DD x2 x33 | s109 => DD x2 x34 | s110 => DD x2 x35 | s111 => DD x2 x36 | s112 => DD x2 x37 | s113 => DD x2 x38 | s114 => DD x2 x39 | s115 => DD x2 x40 | s116 => DD x2 x41 | s117 => DD x2 x42 | s118 => DD x2 x43 | s119 => DD x2 x44 | s120 => DD x2 x45 | s121 => DD x2 x46 | s122 => DD x2 x47 | s123 => DD x2 x48 | s124 => DD x2 x49 | s125 => DD x2 x50 | s126 => DD x2 x51 end.
Definition m54 (c : sum2) : dd := match c with s0 => DD x0 x54 | s1 => DD x0 x55 | s2 => DD x0 x56 | s3 => DD x0 x57 | s4 => DD x0 x58 | s5 => DD x0 x59 | s6 => DD x0 x60 | s7 => DD x0 x61 | s8 => DD x0 x62 | s9 => DD x0 x63 | s10 => DD x1 x0 | s11 => DD x1 x1 | s12 => DD x1 x2 | s13 => DD x1 x3 | s14 => DD x1 x4 | s15 => DD x1 x5 | s16 => DD x1 x6 | s17 => DD x1 x7 | s18 => DD x1 x8 | s19 => DD x1 x9 | s20 => DD x1 x10 | s21 => DD x1 x11 | s22 => DD x1 x12 | s23 => DD x1 x13 | s24 => DD x1 x14 | s25 => DD x1 x15 | s26 => DD x1 x16 | s27 => DD x1 x17 | s28 => DD x1 x18 | s29 => DD x1 x19 | s30 => DD x1 x20 | s31 => DD x1 x21 | s32 => DD x1 x22 | s33 => DD x1 x23 | s34 => DD x1 x24 | s35 => DD x1 x25 | s36 => DD x1 x26 | s37 => DD x1 x27 | s38 => DD x1 x28 | s39 => DD x1 x29 | s40 => DD x1 x30 | s41 => DD x1 x31 | s42 => DD x1 x32 | s43 => DD x1 x33 | s44 => DD x1 x34 | s45 => DD x1 x35 | s46 => DD x1 x36 | s47 => DD x1 x37 | s48 => DD x1 x38 | s49 => DD x1 x39 | s50 => DD x1 x40 | s51 => DD x1 x41 | s52 => DD x1 x42 | s53 => DD x1 x43 | s54 => DD x1 x44 | s55 => DD x1 x45 | s56 => DD x1 x46 | s57 => DD x1 x47 | s58 => DD x1 x48 | s59 => DD x1 x49 | s60 => DD x1 x50 | s61 => DD x1 x51 | s62 => DD x1 x52 | s63 => DD x1 x53 | s64 => DD x1 x54 | s65 => DD x1 x55 | s66 => DD x1 x56 | s67 => DD x1 x57 | s68 => DD x1 x58 | s69 => DD x1 x59 | s70 => DD x1 x60 | s71 => DD x1 x61 | s72 => DD x1 x62 | s73 => DD x1 x63 | s74 => DD x2 x0 | s75 => DD x2 x1 | s76 => DD x2 x2 | s77 => DD x2 x3 | s78 => DD x2 x4 | s79 => DD x2 x5 | s80 => DD x2 x6 | s81 => DD x2 x7 | s82 => DD x2 x8 | s83 => DD x2 x9 | s84 => DD x2 x10 | s85 => DD x2 x11 | s86 => DD x2 x12 | s87 => DD x2 x13 | s88 => DD x2 x14 | s89 => DD x2 x15 | s90 => DD x2 x16 | s91 => DD x2 x17 | s92 => DD x2 x18 | s93 => DD x2 x19 | s94 => DD x2 x20 | s95 => DD x2 x21 | s96 => DD x2 x22 | s97 => DD x2 x23 | s98 => DD x2 x24 | s99 => DD x2 x25 | s100 => DD x2 x26 | s101 => DD x2 x27 | s102 => DD x2 x28 | s103 => DD x2 x29 | s104 => DD x2 x30 | s105 => DD x2 x31 | s106 => DD x2 x32 | s107 => DD x2 x33 | s108 => DD x2 x34 | s109 => DD x2 x35 | s110 => DD x2 x36 | s111 => DD x2 x37 | s112 => DD x2 x38 | s113 => DD x2 x39 | s114 => DD x2 x40 | s115 => DD x2 x41 | s116 => DD x2 x42 | s117 => DD x2 x43 | s118 => DD x2 x44 | s119 => DD x2 x45 | s120 => DD x2 x46 | s121 => DD x2 x47 | s122 => DD x2 x48 | s123 => DD x2 x49 | s124 => DD x2 x50 | s125 => DD x2 x51 | s126 => DD x2 x52 end.
Definition m55 (c : sum2) : dd := match c with s0 => DD x0 x55 | s1 => DD x0 x56 | s2 => DD x0 x57 | s3 => DD x0 x58 | s4 => DD x0 x59 | s5 => DD x0 x60 | s6 => DD x0 x61 | s7 => DD x0 x62 | s8 => DD x0 x63 | s9 => DD x1 x0 | s10 => DD x1 x1 | s11 => DD x1 x2 | s12 => DD x1 x3 | s13 => DD x1 x4 | s14 => DD x1 x5 | s15 => DD x1 x6 | s16 => DD x1 x7 | s17 => DD x1 x8 | s18 => DD x1 x9 | s19 => DD x1 x10 | s20 => DD x1 x11 | s21 => DD x1 x12 | s22 => DD x1 x13 | s23 => DD x1 x14 | s24 => DD x1 x15 | s25 => DD x1 x16 | s26 => DD x1 x17 | s27 => DD x1 x18 | s28 => DD x1 x19 | s29 => DD x1 x20 | s30 => DD x1 x21 | s31 => DD x1 x22 | s32 => DD x1 x23 | s33 => DD x1 x24 | s34 => DD x1 x25 | s35 => DD x1 x26 | s36 => DD x1 x27 | s37 => DD x1 x28 | s38 => DD x1 x29 | s39 => DD x1 x30 | s40 => DD x1 x31 | s41 => DD x1 x32 | s42 => DD x1 x33 | s43 => DD x1 x34 | s44 => DD x1 x35 | s45 => DD x1 x36 | s46 => DD x1 x37 | s47 => DD x1 x38 | s48 => DD x1 x39 | s49 => DD x1 x40 | s50 => DD x1 x41 | s51 => DD x1 x42 | s52 => DD x1 x43 | s53 => DD x1 x44 | s54 => DD x1 x45 | s55 => DD x1 x46 | s56 => DD x1 x47 | s57 => DD x1 x48 | s58 => DD x1 x49 | s59 => DD x1 x50 | s60 => DD x1 x51 | s61 => DD x1 x52 | s62 => DD x1 x53 | s63 => DD x1 x54 | s64 => DD x1 x55 | s65 => DD x1 x56 | s66 => DD x1 x57 | s67 => DD x1 x58 | s68 => DD x1 x59 | s69 => DD x1 x60 | s70 => DD x1 x61 | s71 => DD x1 x62 | s72 => DD x1 x63 | s73 => DD x2 x0 | s74 => DD x2 x1 | s75 => DD x2 x2 | s76 => DD x2 x3 | s77 => DD x2 x4 | s78 => DD x2 x5 | s79 => DD x2 x6 | s80 => DD x2 x7 | s81 => DD x2 x8 | s82 => DD x2 x9 | s83 => DD x2 x10 | s84 => DD x2 x11 | s85 => DD x2 x12 | s86 => DD x2 x13 | s87 => DD x2 x14 | s88 => DD x2 x15 | s89 => DD x2 x16 | s90 => DD x2 x17 | s91 => DD x2 x18 | s92 => DD x2 x19 | s93 => DD x2 x20 | s94 => DD x2 x21 | s95 => DD x2 x22 | s96 => DD x2 x23 | s97 => DD x2 x24 | s98 => DD x2 x25 | s99 => DD x2 x26 | s100 => DD x2 x27 | s101 => DD x2 x28 | s102 => DD x2 x29 | s103 => DD x2 x30 | s104 => DD x2 x31 | s105 => DD x2 x32 | s106 => DD x2 x33 | s107 => DD x2 x34 | s108 => DD x2 x35 | s109 => DD x2 x36 | s110 => DD x2 x37 | s111 => DD x2 x38 | s112 => DD x2 x39 | s113 => DD x2 x40 | s114 => DD x2 x41 | s115 => DD x2 x42 | s116 => DD x2 x43 | s117 => DD x2 x44 | s118 => DD x2 x45 | s119 => DD x2 x46 | s120 => DD x2 x47 | s121 => DD x2 x48 | s122 => DD x2 x49 | s123 => DD x2 x50 | s124 => DD x2 x51 | s125 => DD x2 x52 | s126 => DD x2 x53 end.
Definition m56 (c : sum2) : dd := match c with s0 => DD x0 x56 | s1 => DD x0 x57 | s2 => DD x0 x58 | s3 => DD x0 x59 | s4 => DD x0 x60 | s5 => DD x0 x61 | s6 => DD x0 x62 | s7 => DD x0 x63 | s8 => DD x1 x0 | s9 => DD x1 x1 | s10 => DD x1 x2 | s11 => DD x1 x3 | s12 => DD x1 x4 | s13 => DD x1 x5 | s14 => DD x1 x6 | s15 => DD x1 x7 | s16 => DD x1 x8 | s17 => DD x1 x9 | s18 => DD x1 x10 | s19 => DD x1 x11 | s20 => DD x1 x12 | s21 => DD x1 x13 | s22 => DD x1 x14 | s23 => DD x1 x15 | s24 => DD x1 x16 | s25 => DD x1 x17 | s26 => DD x1 x18 | s27 => DD x1 x19 | s28 => DD x1 x20 | s29 => DD x1 x21 | s30 => DD x1 x22 | s31 => DD x1 x23 | s32 => DD x1 x24 | s33 => DD x1 x25 | s34 => DD x1 x26 | s35 => DD x1 x27 | s36 => DD x1 x28 | s37 => DD x1 x29 | s38 => DD x1 x30 | s39 => DD x1 x31 | s40 => DD x1 x32 | s41 => DD x1 x33 | s42 => DD x1 x34 | s43 => DD x1 x35 | s44 => DD x1 x36 | s45 => DD x1 x37 | s46 => DD x1 x38 | s47 => DD x1 x39 | s48 => DD x1 x40 | s49 => DD x1 x41 | s50 => DD x1 x42 | s51 => DD x1 x43 | s52 => DD x1 x44 | s53 => DD x1 x45 | s54 => DD x1 x46 | s55 => DD x1 x47 | s56 => DD x1 x48 | s57 => DD x1 x49 | s58 => DD x1 x50 | s59 => DD x1 x51 | s60 => DD x1 x52 | s61 => DD x1 x53 | s62 => DD x1 x54 | s63 => DD x1 x55 | s64 => DD x1 x56 | s65 => DD x1 x57 | s66 => DD x1 x58 | s67 => DD x1 x59 | s68 => DD x1 x60 | s69 => DD x1 x61 | s70 => DD x1 x62 | s71 => DD x1 x63 | s72 => DD x2 x0 | s73 => DD x2 x1 | s74 => DD x2 x2 | s75 => DD x2 x3 | s76 => DD x2 x4 | s77 => DD x2 x5 | s78 => DD x2 x6 | s79 => DD x2 x7 | s80 => DD x2 x8 | s81 => DD x2 x9 | s82 => DD x2 x10 | s83 => DD x2 x11 | s84 => DD x2 x12 | s85 => DD x2 x13 | s86 => DD x2 x14 | s87 => DD x2 x15 | s88 => DD x2 x16 | s89 => DD x2 x17 | s90 => DD x2 x18 | s91 => DD x2 x19 | s92 => DD x2 x20 | s93 => DD x2 x21 | s94 => DD x2 x22 | s95 => DD x2 x23 | s96 => DD x2 x24 | s97 => DD x2 x25 | s98 => DD x2 x26 | s99 => DD x2 x27 | s100 => DD x2 x28 | s101 => DD x2 x29 | s102 => DD x2 x30 | s103 => DD x2 x31 | s104 => DD x2 x32 | s105 => DD x2 x33 | s106 => DD x2 x34 | s107 => DD x2 x35 | s108 => DD x2 x36 | s109 => DD x2 x37 | s110 => DD x2 x38 | s111 => DD x2 x39 | s112 => DD x2 x40 | s113 => DD x2 x41 | s114 => DD x2 x42 | s115 => DD x2 x43 | s116 => DD x2 x44 | s117 => DD x2 x45 | s118 => DD x2 x46 | s119 => DD x2 x47 | s120 => DD x2 x48 | s121 => DD x2 x49 | s122 => DD x2 x50 | s123 => DD x2 x51 | s124 => DD x2 x52 | s125 => DD x2 x53 | s126 => DD x2 x54 end.
Definition m57 (c : sum2) : dd := match c with s0 => DD x0 x57 | s1 => DD x0 x58 | s2 => DD x0 x59 | s3 => DD x0 x60 | s4 => DD x0 x61 | s5 => DD x0 x62 | s6 => DD x0 x63 | s7 => DD x1 x0 | s8 => DD x1 x1 | s9 => DD x1 x2 | s10 => DD x1 x3 | s11 => DD x1 x4 | s12 => DD x1 x5 | s13 => DD x1 x6 | s14 => DD x1 x7 | s15 => DD x1 x8 | s16 => DD x1 x9 | s17 => DD x1 x10 | s18 => DD x1 x11 | s19 => DD x1 x12 | s20 => DD x1 x13 | s21 => DD x1 x14 | s22 => DD x1 x15 | s23 => DD x1 x16 | s24 => DD x1 x17 | s25 => DD x1 x18 | s26 => DD x1 x19 | s27 => DD x1 x20 | s28 => DD x1 x21 | s29 => DD x1 x22 | s30 => DD x1 x23 | s31 => DD x1 x24 | s32 => DD x1 x25 | s33 => DD x1 x26 | s34 => DD x1 x27 | s35 => DD x1 x28 | s36 => DD x1 x29 | s37 => DD x1 x30 | s38 => DD x1 x31 | s39 => DD x1 x32 | s40 => DD x1 x33 | s41 => DD x1 x34 | s42 => DD x1 x35 | s43 => DD x1 x36 | s44 => DD x1 x37 | s45 => DD x1 x38 | s46 => DD x1 x39 | s47 => DD x1 x40 | s48 => DD x1 x41 | s49 => DD x1 x42 | s50 => DD x1 x43 | s51 => DD x1 x44 | s52 => DD x1 x45 | s53 => DD x1 x46 | s54 => DD x1 x47 | s55 => DD x1 x48 | s56 => DD x1 x49 | s57 => DD x1 x50 | s58 => DD x1 x51 | s59 => DD x1 x52 | s60 => DD x1 x53 | s61 => DD x1 x54 | s62 => DD x1 x55 | s63 => DD x1 x56 | s64 => DD x1 x57 | s65 => DD x1 x58 | s66 => DD x1 x59 | s67 => DD x1 x60 | s68 => DD x1 x61 | s69 => DD x1 x62 | s70 => DD x1 x63 | s71 => DD x2 x0 | s72 => DD x2 x1 | s73 => DD x2 x2 | s74 => DD x2 x3 | s75 => DD x2 x4 | s76 => DD x2 x5 | s77 => DD x2 x6 | s78 => DD x2 x7 | s79 => DD x2 x8 | s80 => DD x2 x9 | s81 => DD x2 x10 | s82 => DD x2 x11 | s83 => DD x2 x12 | s84 => DD x2 x13 | s85 => DD x2 x14 | s86 => DD x2 x15 | s87 => DD x2 x16 | s88 => DD x2 x17 | s89 => DD x2 x18 | s90 => DD x2 x19 | s91 => DD x2 x20 | s92 => DD x2 x21 | s93 => DD x2 x22 | s94 => DD x2 x23 | s95 => DD x2 x24 | s96 => DD x2 x25 | s97 => DD x2 x26 | s98 => DD x2 x27 | s99 => DD x2 x28 | s100 => DD x2 x29 | s101 => DD x2 x30 | s102 => DD x2 x31 | s103 => DD x2 x32 | s104 => DD x2 x33 | s105 => DD x2 x34 | s106 => DD x2 x35 | s107 => DD x2 x36 | s108 => DD x2 x37 | s109 => DD x2 x38 | s110 => DD x2 x39 | s111 => DD x2 x40 | s112 => DD x2 x41 | s113 => DD x2 x42 | s114 => DD x2 x43 | s115 => DD x2 x44 | s116 => DD x2 x45 | s117 => DD x2 x46 | s118 => DD x2 x47 | s119 => DD x2 x48 | s120 => DD x2 x49 | s121 => DD x2 x50 | s122 => DD x2 x51 | s123 => DD x2 x52 | s124 => DD x2 x53 | s125 => DD x2 x54 | s126 => DD x2 x55 end.
Definition m58 (c : sum2) : dd := match c with s0 => DD x0 x58 | s1 => DD x0 x59 | s2 => DD x0 x60 | s3 => DD x0 x61 | s4 => DD x0 x62 | s5 => DD x0 x63 | s6 => DD x1 x0 | s7 => DD x1 x1 | s8 => DD x1 x2 | s9 => DD x1 x3 | s10 => DD x1 x4 | s11 => DD x1 x5 | s12 => DD x1 x6 | s13 => DD x1 x7 | s14 => DD x1 x8 | s15 => DD x1 x9 | s16 => DD x1 x10 | s17 => DD x1 x11 | s18 => DD x1 x12 | s19 => DD x1 x13 | s20 => DD x1 x14 | s21 => DD x1 x15 | s22 => DD x1 x16 | s23 => DD x1 x17 | s24 => DD x1 x18 | s25 => DD x1 x19 | s26 => DD x1 x20 | s27 => DD x1 x21 | s28 => DD x1 x22 | s29 => DD x1 x23 | s30 => DD x1 x24 | s31 => DD x1 x25 | s32 => DD x1 x26 | s33 => DD x1 x27 | s34 => DD x1 x28 | s35 => DD x1 x29 | s36 => DD x1 x30 | s37 => DD x1 x31 | s38 => DD x1 x32 | s39 => DD x1 x33 | s40 => DD x1 x34 | s41 => DD x1 x35 | s42 => DD x1 x36 | s43 => DD x1 x37 | s44 => DD x1 x38 | s45 => DD x1 x39 | s46 => DD x1 x40 | s47 => DD x1 x41 | s48 => DD x1 x42 | s49 => DD x1 x43 | s50 => DD x1 x44 | s51 => DD x1 x45 | s52 => DD x1 x46 | s53 => DD x1 x47 | s54 => DD x1 x48 | s55 => DD x1 x49 | s56 => DD x1 x50 | s57 => DD x1 x51 | s58 => DD x1 x52 | s59 => DD x1 x53 | s60 => DD x1 x54 | s61 => DD x1 x55 | s62 => DD x1 x56 | s63 => DD x1 x57 | s64 => DD x1 x58 | s65 => DD x1 x59 | s66 => DD x1 x60 | s67 => DD x1 x61 | s68 => DD x1 x62 | s69 => DD x1 x63 | s70 => DD x2 x0 | s71 => DD x2 x1 | s72 => DD x2 x2 | s73 => DD x2 x3 | s74 => DD x2 x4 | s75 => DD x2 x5 | s76 => DD x2 x6 | s77 => DD x2 x7 | s78 => DD x2 x8 | s79 => DD x2 x9 | s80 => DD x2 x10 | s81 => DD x2 x11 | s82 => DD x2 x12 | s83 => DD x2 x13 | s84 => DD x2 x14 | s85 => DD x2 x15 | s86 => DD x2 x16 | s87 => DD x2 x17 | s88 => DD x2 x18 | s89 => DD x2 x19 | s90 => DD x2 x20 | s91 => DD x2 x21 | s92 => DD x2 x22 | s93 => DD x2 x23 | s94 => DD x2 x24 | s95 => DD x2 x25 | s96 => DD x2 x26 | s97 => DD x2 x27 | s98 => DD x2 x28 | s99 => DD x2 x29 | s100 => DD x2 x30 | s101 => DD x2 x31 | s102 => DD x2 x32 | s103 => DD x2 x33 | s104 => DD x2 x34 | s105 => DD x2 x35 | s106 => DD x2 x36 | s107 => DD x2 x37 | s108 => DD x2 x38 | s109 => DD x2 x39 | s110 => DD x2 x40 | s111 => DD x2 x41 | s112 => DD x2 x42 | s113 => DD x2 x43 | s114 => DD x2 x44 | s115 => DD x2 x45 | s116 => DD x2 x46 | s117 => DD x2 x47 | s118 => DD x2 x48 | s119 => DD x2 x49 | s120 => DD x2 x50 | s121 => DD x2 x51 | s122 => DD x2 x52 | s123 => DD x2 x53 | s124 => DD x2 x54 | s125 => DD x2 x55 | s126 => DD x2 x56 end.
Definition m59 (c : sum2) : dd := match c with s0 => DD x0 x59 | s1 => DD x0 x60 | s2 => DD x0 x61 | s3 => DD x0 x62 | s4 => DD x0 x63 | s5 => DD x1 x0 | s6 => DD x1 x1 | s7 => DD x1 x2 | s8 => DD x1 x3 | s9 => DD x1 x4 | s10 => DD x1 x5 | s11 => DD x1 x6 | s12 => DD x1 x7 | s13 => DD x1 x8 | s14 => DD x1 x9 | s15 => DD x1 x10 | s16 => DD x1 x11 | s17 => DD x1 x12 | s18 => DD x1 x13 | s19 => DD x1 x14 | s20 => DD x1 x15 | s21 => DD x1 x16 | s22 => DD x1 x17 | s23 => DD x1 x18 | s24 => DD x1 x19 | s25 => DD x1 x20 | s26 => DD x1 x21 | s27 => DD x1 x22 | s28 => DD x1 x23 | s29 => DD x1 x24 | s30 => DD x1 x25 | s31 => DD x1 x26 | s32 => DD x1 x27 | s33 => DD x1 x28 | s34 => DD x1 x29 | s35 => DD x1 x30 | s36 => DD x1 x31 | s37 => DD x1 x32 | s38 => DD x1 x33 | s39 => DD x1 x34 | s40 => DD x1 x35 | s41 => DD x1 x36 | s42 => DD x1 x37 | s43 => DD x1 x38 | s44 => DD x1 x39 | s45 => DD x1 x40 | s46 => DD x1 x41 | s47 => DD x1 x42 | s48 => DD x1 x43 | s49 => DD x1 x44 | s50 => DD x1 x45 | s51 => DD x1 x46 | s52 => DD x1 x47 | s53 => DD x1 x48 | s54 => DD x1 x49 | s55 => DD x1 x50 | s56 => DD x1 x51 | s57 => DD x1 x52 | s58 => DD x1 x53 | s59 => DD x1 x54 | s60 => DD x1 x55 | s61 => DD x1 x56 | s62 => DD x1 x57 | s63 => DD x1 x58 | s64 => DD x1 x59 | s65 => DD x1 x60 | s66 => DD x1 x61 | s67 => DD x1 x62 | s68 => DD x1 x63 | s69 => DD x2 x0 | s70 => DD x2 x1 | s71 => DD x2 x2 | s72 => DD x2 x3 | s73 => DD x2 x4 | s74 => DD x2 x5 | s75 => DD x2 x6 | s76 => DD x2 x7 | s77 => DD x2 x8 | s78 => DD x2 x9 | s79 => DD x2 x10 | s80 => DD x2 x11 | s81 => DD x2 x12 | s82 => DD x2 x13 | s83 => DD x2 x14 | s84 => DD x2 x15 | s85 => DD x2 x16 | s86 => DD x2 x17 | s87 => DD x2 x18 | s88 => DD x2 x19 | s89 => DD x2 x20 | s90 => DD x2 x21 | s91 => DD x2 x22 | s92 => DD x2 x23 | s93 => DD x2 x24 | s94 => DD x2 x25 | s95 => DD x2 x26 | s96 => DD x2 x27 | s97 => DD x2 x28 | s98 => DD x2 x29 | s99 => DD x2 x30 | s100 => DD x2 x31 | s101 => DD x2 x32 | s102 => DD x2 x33 | s103 => DD x2 x34 | s104 => DD x2 x35 | s105 => DD x2 x36 | s106 => DD x2 x37 | s107 => DD x2 x38 | s108 => DD x2 x39 | s109 => DD x2 x40 | s110 => DD x2 x41 | s111 => DD x2 x42 | s112 => DD x2 x43 | s113 => DD x2 x44 | s114 => DD x2 x45 | s115 => DD x2 x46 | s116 => DD x2 x47 | s117 => DD x2 x48 | s118 => DD x2 x49 | s119 => DD x2 x50 | s120 => DD x2 x51 | s121 => DD x2 x52 | s122 => DD x2 x53 | s123 => DD x2 x54 | s124 => DD x2 x55 | s125 => DD x2 x56 | s126 => DD x2 x57 end.
Definition m60 (c : sum2) : dd := match c with s0 => DD x0 x60 | s1 => DD x0 x61 | s2 => DD x0 x62 | s3 => DD x0 x63 | s4 => DD x1 x0 | s5 => DD x1 x1 | s6 => DD x1 x2 | s7 => DD x1 x3 | s8 => DD x1 x4 | s9 => DD x1 x5 | s10 => DD x1 x6 | s11 => DD x1 x7 | s12 => DD x1 x8 | s13 => DD x1 x9 | s14 => DD x1 x10 | s15 => DD x1 x11 | s16 => DD x1 x12 | s17 => DD x1 x13 | s18 => DD x1 x14 | s19 => DD x1 x15 | s20 => DD x1 x16 | s21 => DD x1 x17 | s22 => DD x1 x18 | s23 => DD x1 x19 | s24 => DD x1 x20 | s25 => DD x1 x21 | s26 => DD x1 x22 | s27 => DD x1 x23 | s28 => DD x1 x24 | s29 => DD x1 x25 | s30 => DD x1 x26 | s31 => DD x1 x27 | s32 => DD x1 x28 | s33 => DD x1 x29 | s34 => DD x1 x30 | s35 => DD x1 x31 | s36 => DD x1 x32 | s37 => DD x1 x33 | s38 => DD x1 x34 | s39 => DD x1 x35 | s40 => DD x1 x36 | s41 => DD x1 x37 | s42 => DD x1 x38 | s43 => DD x1 x39 | s44 => DD x1 x40 | s45 => DD x1 x41 | s46 => DD x1 x42 | s47 => DD x1 x43 | s48 => DD x1 x44 | s49 => DD x1 x45 | s50 => DD x1 x46 | s51 => DD x1 x47 | s52 => DD x1 x48 | s53 => DD x1 x49 | s54 => DD x1 x50 | s55 => DD x1 x51 | s56 => DD x1 x52 | s57 => DD x1 x53 | s58 => DD x1 x54 | s59 => DD x1 x55 | s60 => DD x1 x56 | s61 => DD x1 x57 | s62 => DD x1 x58 | s63 => DD x1 x59 | s64 => DD x1 x60 | s65 => DD x1 x61 | s66 => DD x1 x62 | s67 => DD x1 x63 | s68 => DD x2 x0 | s69 => DD x2 x1 | s70 => DD x2 x2 | s71 => DD x2 x3 | s72 => DD x2 x4 | s73 => DD x2 x5 | s74 => DD x2 x6 | s75 => DD x2 x7 | s76 => DD x2 x8 | s77 => DD x2 x9 | s78 => DD x2 x10 | s79 => DD x2 x11 | s80 => DD x2 x12 | s81 => DD x2 x13 | s82 => DD x2 x14 | s83 => DD x2 x15 | s84 => DD x2 x16 | s85 => DD x2 x17 | s86 => DD x2 x18 | s87 => DD x2 x19 | s88 => DD x2 x20 | s89 => DD x2 x21 | s90 => DD x2 x22 | s91 => DD x2 x23 | s92 => DD x2 x24 | s93 => DD x2 x25 | s94 => DD x2 x26 | s95 => DD x2 x27 | s96 => DD x2 x28 | s97 => DD x2 x29 | s98 => DD x2 x30 | s99 => DD x2 x31 | s100 => DD x2 x32 | s101 => DD x2 x33 | s102 => DD x2 x34 | s103 => DD x2 x35 | s104 => DD x2 x36 | s105 => DD x2 x37 | s106 => DD x2 x38 | s107 => DD x2 x39 | s108 => DD x2 x40 | s109 => DD x2 x41 | s110 => DD x2 x42 | s111 => DD x2 x43 | s112 => DD x2 x44 | s113 => DD x2 x45 | s114 => DD x2 x46 | s115 => DD x2 x47 | s116 => DD x2 x48 | s117 => DD x2 x49 | s118 => DD x2 x50 | s119 => DD x2 x51 | s120 => DD x2 x52 | s121 => DD x2 x53 | s122 => DD x2 x54 | s123 => DD x2 x55 | s124 => DD x2 x56 | s125 => DD x2 x57 | s126 => DD x2 x58 end.
Definition m61 (c : sum2) : dd := match c with s0 => DD x0 x61 | s1 => DD x0 x62 | s2 => DD x0 x63 | s3 => DD x1 x0 | s4 => DD x1 x1 | s5 => DD x1 x2 | s6 => DD x1 x3 | s7 => DD x1 x4 | s8 => DD x1 x5 | s9 => DD x1 x6 | s10 => DD x1 x7 | s11 => DD x1 x8 | s12 => DD x1 x9 | s13 => DD x1 x10 | s14 => DD x1 x11 | s15 => DD x1 x12 | s16 => DD x1 x13 | s17 => DD x1 x14 | s18 => DD x1 x15 | s19 => DD x1 x16 | s20 => DD x1 x17 | s21 => DD x1 x18 | s22 => DD x1 x19 | s23 => DD x1 x20 | s24 => DD x1 x21 | s25 => DD x1 x22 | s26 => DD x1 x23 | s27 => DD x1 x24 | s28 => DD x1 x25 | s29 => DD x1 x26 | s30 => DD x1 x27 | s31 => DD x1 x28 | s32 => DD x1 x29 | s33 => DD x1 x30 | s34 => DD x1 x31 | s35 => DD x1 x32 | s36 => DD x1 x33 | s37 => DD x1 x34 | s38 => DD x1 x35 | s39 => DD x1 x36 | s40 => DD x1 x37 | s41 => DD x1 x38 | s42 => DD x1 x39 | s43 => DD x1 x40 | s44 => DD x1 x41 | s45 => DD x1 x42 | s46 => DD x1 x43 | s47 => DD x1 x44 | s48 => DD x1 x45 | s49 => DD x1 x46 | s50 => DD x1 x47 | s51 => DD x1 x48 | s52 => DD x1 x49 | s53 => DD x1 x50 | s54 => DD x1 x51 | s55 => DD x1 x52 | s56 => DD x1 x53 | s57 => DD x1 x54 | s58 => DD x1 x55 | s59 => DD x1 x56 | s60 => DD x1 x57 | s61 => DD x1 x58 | s62 => DD x1 x59 | s63 => DD x1 x60 | s64 => DD x1 x61 | s65 => DD x1 x62 | s66 => DD x1 x63 | s67 => DD x2 x0 | s68 => DD x2 x1 | s69 => DD x2 x2 | s70 => DD x2 x3 | s71 => DD x2 x4 | s72 => DD x2 x5 | s73 => DD x2 x6 | s74 => DD x2 x7 | s75 => DD x2 x8 | s76 => DD x2 x9 | s77 => DD x2 x10 | s78 => DD x2 x11 | s79 => DD x2 x12 | s80 => DD x2 x13 | s81 => DD x2 x14 | s82 => DD x2 x15 | s83 => DD x2 x16 | s84 => DD x2 x17 | s85 => DD x2 x18 | s86 => DD x2 x19 | s87 => DD x2 x20 | s88 => DD x2 x21 | s89 => DD x2 x22 | s90 => DD x2 x23 | s91 => DD x2 x24 | s92 => DD x2 x25 | s93 => DD x2 x26 | s94 => DD x2 x27 | s95 => DD x2 x28 | s96 => DD x2 x29 | s97 => DD x2 x30 | s98 => DD x2 x31 | s99 => DD x2 x32 | s100 => DD x2 x33 | s101 => DD x2 x34 | s102 => DD x2 x35 | s103 => DD x2 x36 | s104 => DD x2 x37 | s105 => DD x2 x38 | s106 => DD x2 x39 | s107 => DD x2 x40 | s108 => DD x2 x41 | s109 => DD x2 x42 | s110 => DD x2 x43 | s111 => DD x2 x44 | s112 => DD x2 x45 | s113 => DD x2 x46 | s114 => DD x2 x47 | s115 => DD x2 x48 | s116 => DD x2 x49 | s117 => DD x2 x50 | s118 => DD x2 x51 | s119 => DD x2 x52 | s120 => DD x2 x53 | s121 => DD x2 x54 | s122 => DD x2 x55 | s123 => DD x2 x56 | s124 => DD x2 x57 | s125 => DD x2 x58 | s126 => DD x2 x59 end.
Definition m62 (c : sum2) : dd := match c with s0 => DD x0 x62 | s1 => DD x0 x63 | s2 => DD x1 x0 | s3 => DD x1 x1 | s4 => DD x1 x2 | s5 => DD x1 x3 | s6 => DD x1 x4 | s7 => DD x1 x5 | s8 => DD x1 x6 | s9 => DD x1 x7 | s10 => DD x1 x8 | s11 => DD x1 x9 | s12 => DD x1 x10 | s13 => DD x1 x11 | s14 => DD x1 x12 | s15 => DD x1 x13 | s16 => DD x1 x14 | s17 => DD x1 x15 | s18 => DD x1 x16 | s19 => DD x1 x17 | s20 => DD x1 x18 | s21 => DD x1 x19 | s22 => DD x1 x20 | s23 => DD x1 x21 | s24 => DD x1 x22 | s25 => DD x1 x23 | s26 => DD x1 x24 | s27 => DD x1 x25 | s28 => DD x1 x26 | s29 => DD x1 x27 | s30 => DD x1 x28 | s31 => DD x1 x29 | s32 => DD x1 x30 | s33 => DD x1 x31 | s34 => DD x1 x32 | s35 => DD x1 x33 | s36 => DD x1 x34 | s37 => DD x1 x35 | s38 => DD x1 x36 | s39 => DD x1 x37 | s40 => DD x1 x38 | s41 => DD x1 x39 | s42 => DD x1 x40 | s43 => DD x1 x41 | s44 => DD x1 x42 | s45 => DD x1 x43 | s46 => DD x1 x44 | s47 => DD x1 x45 | s48 => DD x1 x46 | s49 => DD x1 x47 | s50 => DD x1 x48 | s51 => DD x1 x49 | s52 => DD x1 x50 | s53 => DD x1 x51 | s54 => DD x1 x52 | s55 => DD x1 x53 | s56 => DD x1 x54 | s57 => DD x1 x55 | s58 => DD x1 x56 | s59 => DD x1 x57 | s60 => DD x1 x58 | s61 => DD x1 x59 | s62 => DD x1 x60 | s63 => DD x1 x61 | s64 => DD x1 x62 | s65 => DD x1 x63 | s66 => DD x2 x0 | s67 => DD x2 x1 | s68 => DD x2 x2 | s69 => DD x2 x3 | s70 => DD x2 x4 | s71 => DD x2 x5 | s72 => DD x2 x6 | s73 => DD x2 x7 | s74 => DD x2 x8 | s75 => DD x2 x9 | s76 => DD x2 x10 | s77 => DD x2 x11 | s78 => DD x2 x12 | s79 => DD x2 x13 | s80 => DD x2 x14 | s81 => DD x2 x15 | s82 => DD x2 x16 | s83 => DD x2 x17 | s84 => DD x2 x18 | s85 => DD x2 x19 | s86 => DD x2 x20 | s87 => DD x2 x21 | s88 => DD x2 x22 | s89 => DD x2 x23 | s90 => DD x2 x24 | s91 => DD x2 x25 | s92 => DD x2 x26 | s93 => DD x2 x27 | s94 => DD x2 x28 | s95 => DD x2 x29 | s96 => DD x2 x30 | s97 => DD x2 x31 | s98 => DD x2 x32 | s99 => DD x2 x33 | s100 => DD x2 x34 | s101 => DD x2 x35 | s102 => DD x2 x36 | s103 => DD x2 x37 | s104 => DD x2 x38 | s105 => DD x2 x39 | s106 => DD x2 x40 | s107 => DD x2 x41 | s108 => DD x2 x42 | s109 => DD x2 x43 | s110 => DD x2 x44 | s111 => DD x2 x45 | s112 => DD x2 x46 | s113 => DD x2 x47 | s114 => DD x2 x48 | s115 => DD x2 x49 | s116 => DD x2 x50 | s117 => DD x2 x51 | s118 => DD x2 x52 | s119 => DD x2 x53 | s120 => DD x2 x54 | s121 => DD x2 x55 | s122 => DD x2 x56 | s123 => DD x2 x57 | s124 => DD x2 x58 | s125 => DD x2 x59 | s126 => DD x2 x60 end.
Definition m63 (c : sum2) : dd := match c with s0 => DD x0 x63 | s1 => DD x1 x0 | s2 => DD x1 x1 | s3 => DD x1 x2 | s4 => DD x1 x3 | s5 => DD x1 x4 | s6 => DD x1 x5 | s7 => DD x1 x6 | s8 => DD x1 x7 | s9 => DD x1 x8 | s10 => DD x1 x9 | s11 => DD x1 x10 | s12 => DD x1 x11 | s13 => DD x1 x12 | s14 => DD x1 x13 | s15 => DD x1 x14 | s16 => DD x1 x15 | s17 => DD x1 x16 | s18 => DD x1 x17 | s19 => DD x1 x18 | s20 => DD x1 x19 | s21 => DD x1 x20 | s22 => DD x1 x21 | s23 => DD x1 x22 | s24 => DD x1 x23 | s25 => DD x1 x24 | s26 => DD x1 x25 | s27 => DD x1 x26 | s28 => DD x1 x27 | s29 => DD x1 x28 | s30 => DD x1 x29 | s31 => DD x1 x30 | s32 => DD x1 x31 | s33 => DD x1 x32 | s34 => DD x1 x33 | s35 => DD x1 x34 | s36 => DD x1 x35 | s37 => DD x1 x36 | s38 => DD x1 x37 | s39 => DD x1 x38 | s40 => DD x1 x39 | s41 => DD x1 x40 | s42 => DD x1 x41 | s43 => DD x1 x42 | s44 => DD x1 x43 | s45 => DD x1 x44 | s46 => DD x1 x45 | s47 => DD x1 x46 | s48 => DD x1 x47 | s49 => DD x1 x48 | s50 => DD x1 x49 | s51 => DD x1 x50 | s52 => DD x1 x51 | s53 => DD x1 x52 | s54 => DD x1 x53 | s55 => DD x1 x54 | s56 => DD x1 x55 | s57 => DD x1 x56 | s58 => DD x1 x57 | s59 => DD x1 x58 | s60 => DD x1 x59 | s61 => DD x1 x60 | s62 => DD x1 x61 | s63 => DD x1 x62 | s64 => DD x1 x63 | s65 => DD x2 x0 | s66 => DD x2 x1 | s67 => DD x2 x2 | s68 => DD x2 x3 | s69 => DD x2 x4 | s70 => DD x2 x5 | s71 => DD x2 x6 | s72 => DD x2 x7 | s73 => DD x2 x8 | s74 => DD x2 x9 | s75 => DD x2 x10 | s76 => DD x2 x11 | s77 => DD x2 x12 | s78 => DD x2 x13 | s79 => DD x2 x14 | s80 => DD x2 x15 | s81 => DD x2 x16 | s82 => DD x2 x17 | s83 => DD x2 x18 | s84 => DD x2 x19 | s85 => DD x2 x20 | s86 => DD x2 x21 | s87 => DD x2 x22 | s88 => DD x2 x23 | s89 => DD x2 x24 | s90 => DD x2 x25 | s91 => DD x2 x26 | s92 => DD x2 x27 | s93 => DD x2 x28 | s94 => DD x2 x29 | s95 => DD x2 x30 | s96 => DD x2 x31 | s97 => DD x2 x32 | s98 => DD x2 x33 | s99 => DD x2 x34 | s100 => DD x2 x35 | s101 => DD x2 x36 | s102 => DD x2 x37 | s103 => DD x2 x38 | s104 => DD x2 x39 | s105 => DD x2 x40 | s106 => DD x2 x41 | s107 => DD x2 x42 | s108 => DD x2 x43 | s109 => DD x2 x44 | s110 => DD x2 x45 | s111 => DD x2 x46 | s112 => DD x2 x47 | s113 => DD x2 x48 | s114 => DD x2 x49 | s115 => DD x2 x50 | s116 => DD x2 x51 | s117 => DD x2 x52 | s118 => DD x2 x53 | s119 => DD x2 x54 | s120 => DD x2 x55 | s121 => DD x2 x56 | s122 => DD x2 x57 | s123 => DD x2 x58 | s124 => DD x2 x59 | s125 => DD x2 x60 | s126 => DD x2 x61 end.
Definition m64 (c : sum2) : dd := match c with s0 => DD x1 x0 | s1 => DD x1 x1 | s2 => DD x1 x2 | s3 => DD x1 x3 | s4 => DD x1 x4 | s5 => DD x1 x5 | s6 => DD x1 x6 | s7 => DD x1 x7 | s8 => DD x1 x8 | s9 => DD x1 x9 | s10 => DD x1 x10 | s11 => DD x1 x11 | s12 => DD x1 x12 | s13 => DD x1 x13 | s14 => DD x1 x14 | s15 => DD x1 x15 | s16 => DD x1 x16 | s17 => DD x1 x17 | s18 => DD x1 x18 | s19 => DD x1 x19 | s20 => DD x1 x20 | s21 => DD x1 x21 | s22 => DD x1 x22 | s23 => DD x1 x23 | s24 => DD x1 x24 | s25 => DD x1 x25 | s26 => DD x1 x26 | s27 => DD x1 x27 | s28 => DD x1 x28 | s29 => DD x1 x29 | s30 => DD x1 x30 | s31 => DD x1 x31 | s32 => DD x1 x32 | s33 => DD x1 x33 | s34 => DD x1 x34 | s35 => DD x1 x35 | s36 => DD x1 x36 | s37 => DD x1 x37 | s38 => DD x1 x38 | s39 => DD x1 x39 | s40 => DD x1 x40 | s41 => DD x1 x41 | s42 => DD x1 x42 | s43 => DD x1 x43 | s44 => DD x1 x44 | s45 => DD x1 x45 | s46 => DD x1 x46 | s47 => DD x1 x47 | s48 => DD x1 x48 | s49 => DD x1 x49 | s50 => DD x1 x50 | s51 => DD x1 x51 | s52 => DD x1 x52 | s53 => DD x1 x53 | s54 => DD x1 x54 | s55 => DD x1 x55 | s56 => DD x1 x56 | s57 => DD x1 x57 | s58 => DD x1 x58 | s59 => DD x1 x59 | s60 => DD x1 x60 | s61 => DD x1 x61 | s62 => DD x1 x62 | s63 => DD x1 x63 | s64 => DD x2 x0 | s65 => DD x2 x1 | s66 => DD x2 x2 | s67 => DD x2 x3 | s68 => DD x2 x4 | s69 => DD x2 x5 | s70 => DD x2 x6 | s71 => DD x2 x7 | s72 => DD x2 x8 | s73 => DD x2 x9 | s74 => DD x2 x10 | s75 => DD x2 x11 | s76 => DD x2 x12 | s77 => DD x2 x13 | s78 => DD x2 x14 | s79 => DD x2 x15 | s80 => DD x2 x16 | s81 => DD x2 x17 | s82 => DD x2 x18 | s83 => DD x2 x19 | s84 => DD x2 x20 | s85 => DD x2 x21 | s86 => DD x2 x22 | s87 => DD x2 x23 | s88 => DD x2 x24 | s89 => DD x2 x25 | s90 => DD x2 x26 | s91 => DD x2 x27 | s92 => DD x2 x28 | s93 => DD x2 x29 | s94 => DD x2 x30 | s95 => DD x2 x31 | s96 => DD x2 x32 | s97 => DD x2 x33 | s98 => DD x2 x34 | s99 => DD x2 x35 | s100 => DD x2 x36 | s101 => DD x2 x37 | s102 => DD x2 x38 | s103 => DD x2 x39 | s104 => DD x2 x40 | s105 => DD x2 x41 | s106 => DD x2 x42 | s107 => DD x2 x43 | s108 => DD x2 x44 | s109 => DD x2 x45 | s110 => DD x2 x46 | s111 => DD x2 x47 | s112 => DD x2 x48 | s113 => DD x2 x49 | s114 => DD x2 x50 | s115 => DD x2 x51 | s116 => DD x2 x52 | s117 => DD x2 x53 | s118 => DD x2 x54 | s119 => DD x2 x55 | s120 => DD x2 x56 | s121 => DD x2 x57 | s122 => DD x2 x58 | s123 => DD x2 x59 | s124 => DD x2 x60 | s125 => DD x2 x61 | s126 => DD x2 x62 end.
Definition m65 (c : sum2) : dd := match c with s0 => DD x1 x1 | s1 => DD x1 x2 | s2 => DD x1 x3 | s3 => DD x1 x4 | s4 => DD x1 x5 | s5 => DD x1 x6 | s6 => DD x1 x7 | s7 => DD x1 x8 | s8 => DD x1 x9 | s9 => DD x1 x10 | s10 => DD x1 x11 | s11 => DD x1 x12 | s12 => DD x1 x13 | s13 => DD x1 x14 | s14 => DD x1 x15 | s15 => DD x1 x16 | s16 => DD x1 x17 | s17 => DD x1 x18 | s18 => DD x1 x19 | s19 => DD x1 x20 | s20 => DD x1 x21 | s21 => DD x1 x22 | s22 => DD x1 x23 | s23 => DD x1 x24 | s24 => DD x1 x25 | s25 => DD x1 x26 | s26 => DD x1 x27 | s27 => DD x1 x28 | s28 => DD x1 x29 | s29 => DD x1 x30 | s30 => DD x1 x31 | s31 => DD x1 x32 | s32 => DD x1 x33 | s33 => DD x1 x34 | s34 => DD x1 x35 | s35 => DD x1 x36 | s36 => DD x1 x37 | s37 => DD x1 x38 | s38 => DD x1 x39 | s39 => DD x1 x40 | s40 => DD x1 x41 | s41 => DD x1 x42 | s42 => DD x1 x43 | s43 => DD x1 x44 | s44 => DD x1 x45 | s45 => DD x1 x46 | s46 => DD x1 x47 | s47 => DD x1 x48 | s48 => DD x1 x49 | s49 => DD x1 x50 | s50 => DD x1 x51 | s51 => DD x1 x52 | s52 => DD x1 x53 | s53 => DD x1 x54 | s54 => DD x1 x55 | s55 => DD x1 x56 | s56 => DD x1 x57 | s57 => DD x1 x58 | s58 => DD x1 x59 | s59 => DD x1 x60 | s60 => DD x1 x61 | s61 => DD x1 x62 | s62 => DD x1 x63 | s63 => DD x2 x0 | s64 => DD x2 x1 | s65 => DD x2 x2 | s66 => DD x2 x3 | s67 => DD x2 x4 | s68 => DD x2 x5 | s69 => DD x2 x6 | s70 => DD x2 x7 | s71 => DD x2 x8 | s72 => DD x2 x9 | s73 => DD x2 x10 | s74 => DD x2 x11 | s75 => DD x2 x12 | s76 => DD x2 x13 | s77 => DD x2 x14 | s78 => DD x2 x15 | s79 => DD x2 x16 | s80 => DD x2 x17 | s81 => DD x2 x18 | s82 => DD x2 x19 | s83 => DD x2 x20 | s84 => DD x2 x21 | s85 => DD x2 x22 | s86 => DD x2 x23 | s87 => DD x2 x24 | s88 => DD x2 x25 | s89 => DD x2 x26 | s90 => DD x2 x27 | s91 => DD x2 x28 | s92 => DD x2 x29 | s93 => DD x2 x30 | s94 => DD x2 x31 | s95 => DD x2 x32 | s96 => DD x2 x33 | s97 => DD x2 x34 | s98 => DD x2 x35 | s99 => DD x2 x36 | s100 => DD x2 x37 | s101 => DD x2 x38 | s102 => DD x2 x39 | s103 => DD x2 x40 | s104 => DD x2 x41 | s105 => DD x2 x42 | s106 => DD x2 x43 | s107 => DD x2 x44 | s108 => DD x2 x45 | s109 => DD x2 x46 | s110 => DD x2 x47 | s111 => DD x2 x48 | s112 => DD x2 x49 | s113 => DD x2 x50 | s114 => DD x2 x51 | s115 => DD x2 x52 | s116 => DD x2 x53 | s117 => DD x2 x54 | s118 => DD x2 x55 | s119 => DD x2 x56 | s120 => DD x2 x57 | s121 => DD x2 x58 | s122 => DD x2 x59 | s123 => DD x2 x60 | s124 => DD x2 x61 | s125 => DD x2 x62 | s126 => DD x2 x63 end.
Definition m66 (c : sum2) : dd := match c with s0 => DD x1 x2 | s1 => DD x1 x3 | s2 => DD x1 x4 | s3 => DD x1 x5 | s4 => DD x1 x6 | s5 => DD x1 x7 | s6 => DD x1 x8 | s7 => DD x1 x9 | s8 => DD x1 x10 | s9 => DD x1 x11 | s10 => DD x1 x12 | s11 => DD x1 x13 | s12 => DD x1 x14 | s13 => DD x1 x15 | s14 => DD x1 x16 | s15 => DD x1 x17 | s16 => DD x1 x18 | s17 => DD x1 x19 | s18 => DD x1 x20 | s19 => DD x1 x21 | s20 => DD x1 x22 | s21 => DD x1 x23 | s22 => DD x1 x24 | s23 => DD x1 x25 | s24 => DD x1 x26 | s25 => DD x1 x27 | s26 => DD x1 x28 | s27 => DD x1 x29 | s28 => DD x1 x30 | s29 => DD x1 x31 | s30 => DD x1 x32 | s31 => DD x1 x33 | s32 => DD x1 x34 | s33 => DD x1 x35 | s34 => DD x1 x36 | s35 => DD x1 x37 | s36 => DD x1 x38 | s37 => DD x1 x39 | s38 => DD x1 x40 | s39 => DD x1 x41 | s40 => DD x1 x42 | s41 => DD x1 x43 | s42 => DD x1 x44 | s43 => DD x1 x45 | s44 => DD x1 x46 | s45 => DD x1 x47 | s46 => DD x1 x48 | s47 => DD x1 x49 | s48 => DD x1 x50 | s49 => DD x1 x51 | s50 => DD x1 x52 | s51 => DD x1 x53 | s52 => DD x1 x54 | s53 => DD x1 x55 | s54 => DD x1 x56 | s55 => DD x1 x57 | s56 => DD x1 x58 | s57 => DD x1 x59 | s58 => DD x1 x60 | s59 => DD x1 x61 | s60 => DD x1 x62 | s61 => DD x1 x63 | s62 => DD x2 x0 | s63 => DD x2 x1 | s64 => DD x2 x2 | s65 => DD x2 x3 | s66 => DD x2 x4 | s67 => DD x2 x5 | s68 => DD x2 x6 | s69 => DD x2 x7 | s70 => DD x2 x8 | s71 => DD x2 x9 | s72 => DD x2 x10 | s73 => DD x2 x11 | s74 => DD x2 x12 | s75 => DD x2 x13 | s76 => DD x2 x14 | s77 => DD x2 x15 | s78 => DD x2 x16 | s79 => DD x2 x17 | s80 => DD x2 x18 | s81 => DD x2 x19 | s82 => DD x2 x20 | s83 => DD x2 x21 | s84 => DD x2 x22 | s85 => DD x2 x23 | s86 => DD x2 x24 | s87 => DD x2 x25 | s88 => DD x2 x26 | s89 => DD x2 x27 | s90 => DD x2 x28 | s91 => DD x2 x29 | s92 => DD x2 x30 | s93 => DD x2 x31 | s94 => DD x2 x32 | s95 => DD x2 x33 | s96 => DD x2 x34 | s97 => DD x2 x35 | s98 => DD x2 x36 | s99 => DD x2 x37 | s100 => DD x2 x38 | s101 => DD x2 x39 | s102 => DD x2 x40 | s103 => DD x2 x41 | s104 => DD x2 x42 | s105 => DD x2 x43 | s106 => DD x2 x44 | s107 => DD x2 x45 | s108 => DD x2 x46 | s109 => DD x2 x47 | s110 => DD x2 x48 | s111 => DD x2 x49 | s112 => DD x2 x50 | s113 => DD x2 x51 | s114 => DD x2 x52 | s115 => DD x2 x53 | s116 => DD x2 x54 | s117 => DD x2 x55 | s118 => DD x2 x56 | s119 => DD x2 x57 | s120 => DD x2 x58 | s121 => DD x2 x59 | s122 => DD x2 x60 | s123 => DD x2 x61 | s124 => DD x2 x62 | s125 => DD x2 x63 | s126 => DD x3 x0 end.
Definition m68 (c : sum2) : dd := match c with s0 => DD x1 x4 | s1 => DD x1 x5 | s2 => DD x1 x6 | s3 => DD x1 x7 | s4 => DD x1 x8 | s5 => DD x1 x9 | s6 => DD x1 x10 | s7 => DD x1 x11 | s8 => DD x1 x12 | s9 => DD x1 x13 | s10 => DD x1 x14 | s11 => DD x1 x15 | s12 => DD x1 x16 | s13 => DD x1 x17 | s14 => DD x1 x18 | s15 => DD x1 x19 | s16 => DD x1 x20 | s17 => DD x1 x21 | s18 => DD x1 x22 | s19 => DD x1 x23 | s20 => DD x1 x24 | s21 => DD x1 x25 | s22 => DD x1 x26 | s23 => DD x1 x27 | s24 => DD x1 x28 | s25 => DD x1 x29 | s26 => DD x1 x30 | s27 => DD x1 x31 | s28 => DD x1 x32 | s29 => DD x1 x33 | s30 => DD x1 x34 | s31 => DD x1 x35 | s32 => DD x1 x36 | s33 => DD x1 x37 | s34 => DD x1 x38 | s35 => DD x1 x39 | s36 => DD x1 x40 | s37 => DD x1 x41 | s38 => DD x1 x42 | s39 => DD x1 x43 | s40 => DD x1 x44 | s41 => DD x1 x45 | s42 => DD x1 x46 | s43 => DD x1 x47 | s44 => DD x1 x48 | s45 => DD x1 x49 | s46 => DD x1 x50 | s47 => DD x1 x51 | s48 => DD x1 x52 | s49 => DD x1 x53 | s50 => DD x1 x54 | s51 => DD x1 x55 | s52 => DD x1 x56 | s53 => DD x1 x57 | s54 => DD x1 x58 | s55 => DD x1 x59 | s56 => DD x1 x60 | s57 => DD x1 x61 | s58 => DD x1 x62 | s59 => DD x1 x63 | s60 => DD x2 x0 | s61 => DD x2 x1 | s62 => DD x2 x2 | s63 => DD x2 x3 | s64 => DD x2 x4 | s65 => DD x2 x5 | s66 => DD x2 x6 | s67 => DD x2 x7 | s68 => DD x2 x8 | s69 => DD x2 x9 | s70 => DD x2 x10 | s71 => DD x2 x11 | s72 => DD x2 x12 | s73 => DD x2 x13 | s74 => DD x2 x14 | s75 => DD x2 x15 | s76 => DD x2 x16 | s77 => DD x2 x17 | s78 => DD x2 x18 | s79 => DD x2 x19 | s80 => DD x2 x20 | s81 => DD x2 x21 | s82 => DD x2 x22 | s83 => DD x2 x23 | s84 => DD x2 x24 | s85 => DD x2 x25 | s86 => DD x2 x26 | s87 => DD x2 x27 | s88 => DD x2 x28 | s89 => DD x2 x29 | s90 => DD x2 x30 | s91 => DD x2 x31 | s92 => DD x2 x32 | s93 => DD x2 x33 | s94 => DD x2 x34 | s95 => DD x2 x35 | s96 => DD x2 x36 | s97 => DD x2 x37 | s98 => DD x2 x38 | s99 => DD x2 x39 | s100 => DD x2 x40 | s101 => DD x2 x41 | s102 => DD x2 x42 | s103 => DD x2 x43 | s104 => DD x2 x44 | s105 => DD x2 x45 | s106 => DD x2 x46 | s107 => DD x2 x47 | s108 => DD x2 x48 | s109 => DD x2 x49 | s110 => DD x2 x50 | s111 => DD x2 x51 | s112 => DD x2 x52 | s113 => DD x2 x53 | s114 => DD x2 x54 | s115 => DD x2 x55 | s116 => DD x2 x56 | s117 => DD x2 x57 | s118 => DD x2 x58 | s119 => DD x2 x59 | s120 => DD x2 x60 | s121 => DD x2 x61 | s122 => DD x2 x62 | s123 => DD x2 x63 | s124 => DD x3 x0 | s125 => DD x3 x1 | s126 => DD x3 x2 end.
Definition m69 (c : sum2) : dd := match c with s0 => DD x1 x5 | s1 => DD x1 x6 | s2 => DD x1 x7 | s3 => DD x1 x8 | s4 => DD x1 x9 | s5 => DD x1 x10 | s6 => DD x1 x11 | s7 => DD x1 x12 | s8 => DD x1 x13 | s9 => DD x1 x14 | s10 => DD x1 x15 | s11 => DD x1 x16 | s12 => DD x1 x17 | s13 => DD x1 x18 | s14 => DD x1 x19 | s15 => DD x1 x20 | s16 => DD x1 x21 | s17 => DD x1 x22 | s18 => DD x1 x23 | s19 => DD x1 x24 | s20 => DD x1 x25 | s21 => DD x1 x26 | s22 => DD x1 x27 | s23 => DD x1 x28 | s24 => DD x1 x29 | s25 => DD x1 x30 | s26 => DD x1 x31 | s27 => DD x1 x32 | s28 => DD x1 x33 | s29 => DD x1 x34 | s30 => DD x1 x35 | s31 => DD x1 x36 | s32 => DD x1 x37 | s33 => DD x1 x38 | s34 => DD x1 x39 | s35 => DD x1 x40 | s36 => DD x1 x41 | s37 => DD x1 x42 | s38 => DD x1 x43 | s39 => DD x1 x44 | s40 => DD x1 x45 | s41 => DD x1 x46 | s42 => DD x1 x47 | s43 => DD x1 x48 | s44 => DD x1 x49 | s45 => DD x1 x50 | s46 => DD x1 x51 | s47 => DD x1 x52 | s48 => DD x1 x53 | s49 => DD x1 x54 | s50 => DD x1 x55 | s51 => DD x1 x56 | s52 => DD x1 x57 | s53 => DD x1 x58 | s54 => DD x1 x59 | s55 => DD x1 x60 | s56 => DD x1 x61 | s57 => DD x1 x62 | s58 => DD x1 x63 | s59 => DD x2 x0 | s60 => DD x2 x1 | s61 => DD x2 x2 | s62 => DD x2 x3 | s63 => DD x2 x4 | s64 => DD x2 x5 | s65 => DD x2 x6 | s66 => DD x2 x7 | s67 => DD x2 x8 | s68 => DD x2 x9 | s69 => DD x2 x10 | s70 => DD x2 x11 | s71 => DD x2 x12 | s72 => DD x2 x13 | s73 => DD x2 x14 | s74 => DD x2 x15 | s75 => DD x2 x16 | s76 => DD x2 x17 | s77 => DD x2 x18 | s78 => DD x2 x19 | s79 => DD x2 x20 | s80 => DD x2 x21 | s81 => DD x2 x22 | s82 => DD x2 x23 | s83 => DD x2 x24 | s84 => DD x2 x25 | s85 => DD x2 x26 | s86 => DD x2 x27 | s87 => DD x2 x28 | s88 => DD x2 x29 | s89 => DD x2 x30 | s90 => DD x2 x31 | s91 => DD x2 x32 | s92 => DD x2 x33 | s93 => DD x2 x34 | s94 => DD x2 x35 | s95 => DD x2 x36 | s96 => DD x2 x37 | s97 => DD x2 x38 | s98 => DD x2 x39 | s99 => DD x2 x40 | s100 => DD x2 x41 | s101 => DD x2 x42 | s102 => DD x2 x43 | s103 => DD x2 x44 | s104 => DD x2 x45 | s105 => DD x2 x46 | s106 => DD x2 x47 | s107 => DD x2 x48 | s108 => DD x2 x49 | s109 => DD x2 x50 | s110 => DD x2 x51 | s111 => DD x2 x52 | s112 => DD x2 x53 | s113 => DD x2 x54 | s114 => DD x2 x55 | s115 => DD x2 x56 | s116 => DD x2 x57 | s117 => DD x2 x58 | s118 => DD x2 x59 | s119 => DD x2 x60 | s120 => DD x2 x61 | s121 => DD x2 x62 | s122 => DD x2 x63 | s123 => DD x3 x0 | s124 => DD x3 x1 | s125 => DD x3 x2 | s126 => DD x3 x3 end.
Definition m70 (c : sum2) : dd := match c with s0 => DD x1 x6 | s1 => DD x1 x7 | s2 => DD x1 x8 | s3 => DD x1 x9 | s4 => DD x1 x10 | s5 => DD x1 x11 | s6 => DD x1 x12 | s7 => DD x1 x13 | s8 => DD x1 x14 | s9 => DD x1 x15 | s10 => DD x1 x16 | s11 => DD x1 x17 | s12 => DD x1 x18 | s13 => DD x1 x19 | s14 => DD x1 x20 | s15 => DD x1 x21 | s16 => DD x1 x22 | s17 => DD x1 x23 | s18 => DD x1 x24 | s19 => DD x1 x25 | s20 => DD x1 x26 | s21 => DD x1 x27 | s22 => DD x1 x28 | s23 => DD x1 x29 | s24 => DD x1 x30 | s25 => DD x1 x31 | s26 => DD x1 x32 | s27 => DD x1 x33 | s28 => DD x1 x34 | s29 => DD x1 x35 | s30 => DD x1 x36 | s31 => DD x1 x37 | s32 => DD x1 x38 | s33 => DD x1 x39 | s34 => DD x1 x40 | s35 => DD x1 x41 | s36 => DD x1 x42 | s37 => DD x1 x43 | s38 => DD x1 x44 | s39 => DD x1 x45 | s40 => DD x1 x46 | s41 => DD x1 x47 | s42 => DD x1 x48 | s43 => DD x1 x49 | s44 => DD x1 x50 | s45 => DD x1 x51 | s46 => DD x1 x52 | s47 => DD x1 x53 | s48 => DD x1 x54 | s49 => DD x1 x55 | s50 => DD x1 x56 | s51 => DD x1 x57 | s52 => DD x1 x58 | s53 => DD x1 x59 | s54 => DD x1 x60 | s55 => DD x1 x61 | s56 => DD x1 x62 | s57 => DD x1 x63 | s58 => DD x2 x0 | s59 => DD x2 x1 | s60 => DD x2 x2 | s61 => DD x2 x3 | s62 => DD x2 x4 | s63 => DD x2 x5 | s64 => DD x2 x6 | s65 => DD x2 x7 | s66 => DD x2 x8 | s67 => DD x2 x9 | s68 => DD x2 x10 | s69 => DD x2 x11 | s70 => DD x2 x12 | s71 => DD x2 x13 | s72 => DD x2 x14 | s73 => DD x2 x15 | s74 => DD x2 x16 | s75 => DD x2 x17 | s76 => DD x2 x18 | s77 => DD x2 x19 | s78 => DD x2 x20 | s79 => DD x2 x21 | s80 => DD x2 x22 | s81 => DD x2 x23 | s82 => DD x2 x24 | s83 => DD x2 x25 | s84 => DD x2 x26 | s85 => DD x2 x27 | s86 => DD x2 x28 | s87 => DD x2 x29 | s88 => DD x2 x30 | s89 => DD x2 x31 | s90 => DD x2 x32 | s91 => DD x2 x33 | s92 => DD x2 x34 | s93 => DD x2 x35 | s94 => DD x2 x36 | s95 => DD x2 x37 | s96 => DD x2 x38 | s97 => DD x2 x39 | s98 => DD x2 x40 | s99 => DD x2 x41 | s100 => DD x2 x42 | s101 => DD x2 x43 | s102 => DD x2 x44 | s103 => DD x2 x45 | s104 => DD x2 x46 | s105 => DD x2 x47 | s106 => DD x2 x48 | s107 => DD x2 x49 | s108 => DD x2 x50 | s109 => DD x2 x51 | s110 => DD x2 x52 | s111 => DD x2 x53 | s112 => DD x2 x54 | s113 => DD x2 x55 | s114 => DD x2 x56 | s115 => DD x2 x57 | s116 => DD x2 x58 | s117 => DD x2 x59 | s118 => DD x2 x60 | s119 => DD x2 x61 | s120 => DD x2 x62 | s121 => DD x2 x63 | s122 => DD x3 x0 | s123 => DD x3 x1 | s124 => DD x3 x2 | s125 => DD x3 x3 | s126 => DD x3 x4 end.
Definition m72 (c : sum2) : dd := match c with s0 => DD x1 x8 | s1 => DD x1 x9 | s2 => DD x1 x10 | s3 => DD x1 x11 | s4 => DD x1 x12 | s5 => DD x1 x13 | s6 => DD x1 x14 | s7 => DD x1 x15 | s8 => DD x1 x16 | s9 => DD x1 x17 | s10 => DD x1 x18 | s11 => DD x1 x19 | s12 => DD x1 x20 | s13 => DD x1 x21 | s14 => DD x1 x22 | s15 => DD x1 x23 | s16 => DD x1 x24 | s17 => DD x1 x25 | s18 => DD x1 x26 | s19 => DD x1 x27 | s20 => DD x1 x28 | s21 => DD x1 x29 | s22 => DD x1 x30 | s23 => DD x1 x31 | s24 => DD x1 x32 | s25 => DD x1 x33 | s26 => DD x1 x34 | s27 => DD x1 x35 | s28 => DD x1 x36 | s29 => DD x1 x37 | s30 => DD x1 x38 | s31 => DD x1 x39 | s32 => DD x1 x40 | s33 => DD x1 x41 | s34 => DD x1 x42 | s35 => DD x1 x43 | s36 => DD x1 x44 | s37 => DD x1 x45 | s38 => DD x1 x46 | s39 => DD x1 x47 | s40 => DD x1 x48 | s41 => DD x1 x49 | s42 => DD x1 x50 | s43 => DD x1 x51 | s44 => DD x1 x52 | s45 => DD x1 x53 | s46 => DD x1 x54 | s47 => DD x1 x55 | s48 => DD x1 x56 | s49 => DD x1 x57 | s50 => DD x1 x58 | s51 => DD x1 x59 | s52 => DD x1 x60 | s53 => DD x1 x61 | s54 => DD x1 x62 | s55 => DD x1 x63 | s56 => DD x2 x0 | s57 => DD x2 x1 | s58 => DD x2 x2 | s59 => DD x2 x3 | s60 => DD x2 x4 | s61 => DD x2 x5 | s62 => DD x2 x6 | s63 => DD x2 x7 | s64 => DD x2 x8 | s65 => DD x2 x9 | s66 => DD x2 x10 | s67 => DD x2 x11 | s68 => DD x2 x12 | s69 => DD x2 x13 | s70 => DD x2 x14 | s71 => DD x2 x15 | s72 => DD x2 x16 | s73 => DD x2 x17 | s74 => DD x2 x18 | s75 => DD x2 x19 | s76 => DD x2 x20 | s77 => DD x2 x21 | s78 => DD x2 x22 | s79 => DD x2 x23 | s80 => DD x2 x24 | s81 => DD x2 x25 | s82 => DD x2 x26 | s83 => DD x2 x27 | s84 => DD x2 x28 | s85 => DD x2 x29 | s86 => DD x2 x30 | s87 => DD x2 x31 | s88 => DD x2 x32 | s89 => DD x2 x33 | s90 => DD x2 x34 | s91 => DD x2 x35 | s92 => DD x2 x36 | s93 => DD x2 x37 | s94 => DD x2 x38 | s95 => DD x2 x39 | s96 => DD x2 x40 | s97 => DD x2 x41 | s98 => DD x2 x42 | s99 => DD x2 x43 | s100 => DD x2 x44 | s101 => DD x2 x45 | s102 => DD x2 x46 | s103 => DD x2 x47 | s104 => DD x2 x48 | s105 => DD x2 x49 | s106 => DD x2 x50 | s107 => DD x2 x51 | s108 => DD x2 x52 | s109 => DD x2 x53 | s110 => DD x2 x54 | s111 => DD x2 x55 | s112 => DD x2 x56 | s113 => DD x2 x57 | s114 => DD x2 x58 | s115 => DD x2 x59 | s116 => DD x2 x60 | s117 => DD x2 x61 | s118 => DD x2 x62 | s119 => DD x2 x63 | s120 => DD x3 x0 | s121 => DD x3 x1 | s122 => DD x3 x2 | s123 => DD x3 x3 | s124 => DD x3 x4 | s125 => DD x3 x5 | s126 => DD x3 x6 end.
Definition m74 (c : sum2) : dd := match c with s0 => DD x1 x10 | s1 => DD x1 x11 | s2 => DD x1 x12 | s3 => DD x1 x13 | s4 => DD x1 x14 | s5 => DD x1 x15 | s6 => DD x1 x16 | s7 => DD x1 x17 | s8 => DD x1 x18 | s9 => DD x1 x19 | s10 => DD x1 x20 | s11 => DD x1 x21 | s12 => DD x1 x22 | s13 => DD x1 x23 | s14 => DD x1 x24 | s15 => DD x1 x25 | s16 => DD x1 x26 | s17 => DD x1 x27 | s18 => DD x1 x28 | s19 => DD x1 x29 | s20 => DD x1 x30 | s21 => DD x1 x31 | s22 => DD x1 x32 | s23 => DD x1 x33 | s24 => DD x1 x34 | s25 => DD x1 x35 | s26 => DD x1 x36 | s27 => DD x1 x37 | s28 => DD x1 x38 | s29 => DD x1 x39 | s30 => DD x1 x40 | s31 => DD x1 x41 | s32 => DD x1 x42 | s33 => DD x1 x43 | s34 => DD x1 x44 | s35 => DD x1 x45 | s36 => DD x1 x46 | s37 => DD x1 x47 | s38 => DD x1 x48 | s39 => DD x1 x49 | s40 => DD x1 x50 | s41 => DD x1 x51 | s42 => DD x1 x52 | s43 => DD x1 x53 | s44 => DD x1 x54 | s45 => DD x1 x55 | s46 => DD x1 x56 | s47 => DD x1 x57 | s48 => DD x1 x58 | s49 => DD x1 x59 | s50 => DD x1 x60 | s51 => DD x1 x61 | s52 => DD x1 x62 | s53 => DD x1 x63 | s54 => DD x2 x0 | s55 => DD x2 x1 | s56 => DD x2 x2 | s57 => DD x2 x3 | s58 => DD x2 x4 | s59 => DD x2 x5 | s60 => DD x2 x6 | s61 => DD x2 x7 | s62 => DD x2 x8 | s63 => DD x2 x9 | s64 => DD x2 x10 | s65 => DD x2 x11 | s66 => DD x2 x12 | s67 => DD x2 x13 | s68 => DD x2 x14 | s69 => DD x2 x15 | s70 => DD x2 x16 | s71 => DD x2 x17 | s72 => DD x2 x18 | s73 => DD x2 x19 | s74 => DD x2 x20 | s75 => DD x2 x21 | s76 => DD x2 x22 | s77 => DD x2 x23 | s78 => DD x2 x24 | s79 => DD x2 x25 | s80 => DD x2 x26 | s81 => DD x2 x27 | s82 => DD x2 x28 | s83 => DD x2 x29 | s84 => DD x2 x30 | s85 => DD x2 x31 | s86 => DD x2 x32 | s87 => DD x2 x33 | s88 => DD x2 x34 | s89 => DD x2 x35 | s90 => DD x2 x36 | s91 => DD x2 x37 | s92 => DD x2 x38 | s93 => DD x2 x39 | s94 => DD x2 x40 | s95 => DD x2 x41 | s96 => DD x2 x42 | s97 => DD x2 x43 | s98 => DD x2 x44 | s99 => DD x2 x45 | s100 => DD x2 x46 | s101 => DD x2 x47 | s102 => DD x2 x48 | s103 => DD x2 x49 | s104 => DD x2 x50 | s105 => DD x2 x51 | s106 => DD x2 x52 | s107 => DD x2 x53 | s108 => DD x2 x54 | s109 => DD x2 x55 | s110 => DD x2 x56 | s111 => DD x2 x57 | s112 => DD x2 x58 | s113 => DD x2 x59 | s114 => DD x2 x60 | s115 => DD x2 x61 | s116 => DD x2 x62 | s117 => DD x2 x63 | s118 => DD x3 x0 | s119 => DD x3 x1 | s120 => DD x3 x2 | s121 => DD x3 x3 | s122 => DD x3 x4 | s123 => DD x3 x5 | s124 => DD x3 x6 | s125 => DD x3 x7 | s126 => DD x3 x8 end.
Definition m75 (c : sum2) : dd := match c with s0 => DD x1 x11 | s1 => DD x1 x12 | s2 => DD x1 x13 | s3 => DD x1 x14 | s4 => DD x1 x15 | s5 => DD x1 x16 | s6 => DD x1 x17 | s7 => DD x1 x18 | s8 => DD x1 x19 | s9 => DD x1 x20 | s10 => DD x1 x21 | s11 => DD x1 x22 | s12 => DD x1 x23 | s13 => DD x1 x24 | s14 => DD x1 x25 | s15 => DD x1 x26 | s16 => DD x1 x27 | s17 => DD x1 x28 | s18 => DD x1 x29 | s19 => DD x1 x30 | s20 => DD x1 x31 | s21 => DD x1 x32 | s22 => DD x1 x33 | s23 => DD x1 x34 | s24 => DD x1 x35 | s25 => DD x1 x36 | s26 => DD x1 x37 | s27 => DD x1 x38 | s28 => DD x1 x39 | s29 => DD x1 x40 | s30 => DD x1 x41 | s31 => DD x1 x42 | s32 => DD x1 x43 | s33 => DD x1 x44 | s34 => DD x1 x45 | s35 => DD x1 x46 | s36 => DD x1 x47 | s37 => DD x1 x48 | s38 => DD x1 x49 | s39 => DD x1 x50 | s40 => DD x1 x51 | s41 => DD x1 x52 | s42 => DD x1 x53 | s43 => DD x1 x54 | s44 => DD x1 x55 | s45 => DD x1 x56 | s46 => DD x1 x57 | s47 => DD x1 x58 | s48 => DD x1 x59 | s49 => DD x1 x60 | s50 => DD x1 x61 | s51 => DD x1 x62 | s52 => DD x1 x63 | s53 => DD x2 x0 | s54 => DD x2 x1 | s55 => DD x2 x2 | s56 => DD x2 x3 | s57 => DD x2 x4 | s58 => DD x2 x5 | s59 => DD x2 x6 | s60 => DD x2 x7 | s61 => DD x2 x8 | s62 => DD x2 x9 | s63 => DD x2 x10 | s64 => DD x2 x11 | s65 => DD x2 x12 | s66 => DD x2 x13 | s67 => DD x2 x14 | s68 => DD x2 x15 | s69 => DD x2 x16 | s70 => DD x2 x17 | s71 => DD x2 x18 | s72 => DD x2 x19 | s73 => DD x2 x20 | s74 => DD x2 x21 | s75 => DD x2 x22 | s76 => DD x2 x23 | s77 => DD x2 x24 | s78 => DD x2 x25 | s79 => DD x2 x26 | s80 => DD x2 x27 | s81 => DD x2 x28 | s82 => DD x2 x29 | s83 => DD x2 x30 | s84 => DD x2 x31 | s85 => DD x2 x32 | s86 => DD x2 x33 | s87 => DD x2 x34 | s88 => DD x2 x35 | s89 => DD x2 x36 | s90 => DD x2 x37 | s91 => DD x2 x38 | s92 => DD x2 x39 | s93 => DD x2 x40 | s94 => DD x2 x41 | s95 => DD x2 x42 | s96 => DD x2 x43 | s97 => DD x2 x44 | s98 => DD x2 x45 | s99 => DD x2 x46 | s100 => DD x2 x47 | s101 => DD x2 x48 | s102 => DD x2 x49 | s103 => DD x2 x50 | s104 => DD x2 x51 | s105 => DD x2 x52 | s106 => DD x2 x53 | s107 => DD x2 x54 | s108 => DD x2 x55 | s109 => DD x2 x56 | s110 => DD x2 x57 | s111 => DD x2 x58 | s112 => DD x2 x59 | s113 => DD x2 x60 | s114 => DD x2 x61 | s115 => DD x2 x62 | s116 => DD x2 x63 | s117 => DD x3 x0 | s118 => DD x3 x1 | s119 => DD x3 x2 | s120 => DD x3 x3 | s121 => DD x3 x4 | s122 => DD x3 x5 | s123 => DD x3 x6 | s124 => DD x3 x7 | s125 => DD x3 x8 | s126 => DD x3 x9 end.
Definition m76 (c : sum2) : dd := match c with s0 => DD x1 x12 | s1 => DD x1 x13 | s2 => DD x1 x14 | s3 => DD x1 x15 | s4 => DD x1 x16 | s5 => DD x1 x17 | s6 => DD x1 x18 | s7 => DD x1 x19 | s8 => DD x1 x20 | s9 => DD x1 x21 | s10 => DD x1 x22 | s11 => DD x1 x23 | s12 => DD x1 x24 | s13 => DD x1 x25 | s14 => DD x1 x26 | s15 => DD x1 x27 | s16 => DD x1 x28 | s17 => DD x1 x29 | s18 => DD x1 x30 | s19 => DD x1 x31 | s20 => DD x1 x32 | s21 => DD x1 x33 | s22 => DD x1 x34 | s23 => DD x1 x35 | s24 => DD x1 x36 | s25 => DD x1 x37 | s26 => DD x1 x38 | s27 => DD x1 x39 | s28 => DD x1 x40 | s29 => DD x1 x41 | s30 => DD x1 x42 | s31 => DD x1 x43 | s32 => DD x1 x44 | s33 => DD x1 x45 | s34 => DD x1 x46 | s35 => DD x1 x47 | s36 => DD x1 x48 | s37 => DD x1 x49 | s38 => DD x1 x50 | s39 => DD x1 x51 | s40 => DD x1 x52 | s41 => DD x1 x53 | s42 => DD x1 x54 | s43 => DD x1 x55 | s44 => DD x1 x56 | s45 => DD x1 x57 | s46 => DD x1 x58 | s47 => DD x1 x59 | s48 => DD x1 x60 | s49 => DD x1 x61 | s50 => DD x1 x62 | s51 => DD x1 x63 | s52 => DD x2 x0 | s53 => DD x2 x1 | s54 => DD x2 x2 | s55 => DD x2 x3 | s56 => DD x2 x4 | s57 => DD x2 x5 | s58 => DD x2 x6 | s59 => DD x2 x7 | s60 => DD x2 x8 | s61 => DD x2 x9 | s62 => DD x2 x10 | s63 => DD x2 x11 | s64 => DD x2 x12 | s65 => DD x2 x13 | s66 => DD x2 x14 | s67 => DD x2 x15 | s68 => DD x2 x16 | s69 => DD x2 x17 | s70 => DD x2 x18 | s71 => DD x2 x19 | s72 => DD x2 x20 | s73 => DD x2 x21 | s74 => DD x2 x22 | s75 => DD x2 x23 | s76 => DD x2 x24 | s77 => DD x2 x25 | s78 => DD x2 x26 | s79 => DD x2 x27 | s80 => DD x2 x28 | s81 => DD x2 x29 | s82 => DD x2 x30 | s83 => DD x2 x31 | s84 => DD x2 x32 | s85 => DD x2 x33 | s86 => DD x2 x34 | s87 => DD x2 x35 | s88 => DD x2 x36 | s89 => DD x2 x37 | s90 => DD x2 x38 | s91 => DD x2 x39 | s92 => DD x2 x40 | s93 => DD x2 x41 | s94 => DD x2 x42 | s95 => DD x2 x43 | s96 => DD x2 x44 | s97 => DD x2 x45 | s98 => DD x2 x46 | s99 => DD x2 x47 | s100 => DD x2 x48 | s101 => DD x2 x49 | s102 => DD x2 x50 | s103 => DD x2 x51 | s104 => DD x2 x52 | s105 => DD x2 x53 | s106 => DD x2 x54 | s107 => DD x2 x55 | s108 => DD x2 x56 | s109 => DD x2 x57 | s110 => DD x2 x58 | s111 => DD x2 x59 | s112 => DD x2 x60 | s113 => DD x2 x61 | s114 => DD x2 x62 | s115 => DD x2 x63 | s116 => DD x3 x0 | s117 => DD x3 x1 | s118 => DD x3 x2 | s119 => DD x3 x3 | s120 => DD x3 x4 | s121 => DD x3 x5 | s122 => DD x3 x6 | s123 => DD x3 x7 | s124 => DD x3 x8 | s125 => DD x3 x9 | s126 => DD x3 x10 end.
Definition m77 (c : sum2) : dd := match c with s0 => DD x1 x13 | s1 => DD x1 x14 | s2 => DD x1 x15 | s3 => DD x1 x16 | s4 => DD x1 x17 | s5 => DD x1 x18 | s6 => DD x1 x19 | s7 => DD x1 x20 | s8 => DD x1 x21 | s9 => DD x1 x22 | s10 => DD x1 x23 | s11 => DD x1 x24 | s12 => DD x1 x25 | s13 => DD x1 x26 | s14 => DD x1 x27 | s15 => DD x1 x28 | s16 => DD x1 x29 | s17 => DD x1 x30 | s18 => DD x1 x31 | s19 => DD x1 x32 | s20 => DD x1 x33 | s21 => DD x1 x34 | s22 => DD x1 x35 | s23 => DD x1 x36 | s24 => DD x1 x37 | s25 => DD x1 x38 | s26 => DD x1 x39 | s27 => DD x1 x40 | s28 => DD x1 x41 | s29 => DD x1 x42 | s30 => DD x1 x43 | s31 => DD x1 x44 | s32 => DD x1 x45 | s33 => DD x1 x46 | s34 => DD x1 x47 | s35 => DD x1 x48 | s36 => DD x1 x49 | s37 => DD x1 x50 | s38 => DD x1 x51 | s39 => DD x1 x52 | s40 => DD x1 x53 | s41 => DD x1 x54 | s42 => DD x1 x55 | s43 => DD x1 x56 | s44 => DD x1 x57 | s45 => DD x1 x58 | s46 => DD x1 x59 | s47 => DD x1 x60 | s48 => DD x1 x61 | s49 => DD x1 x62 | s50 => DD x1 x63 | s51 => DD x2 x0 | s52 => DD x2 x1 | s53 => DD x2 x2 | s54 => DD x2 x3 | s55 => DD x2 x4 | s56 => DD x2 x5 | s57 => DD x2 x6 | s58 => DD x2 x7 | s59 => DD x2 x8 | s60 => DD x2 x9 | s61 => DD x2 x10 | s62 => DD x2 x11 | s63 => DD x2 x12 | s64 => DD x2 x13 | s65 => DD x2 x14 | s66 => DD x2 x15 | s67 => DD x2 x16 | s68 => DD x2 x17 | s69 => DD x2 x18 | s70 => DD x2 x19 | s71 => DD x2 x20 | s72 => DD x2 x21 | s73 => DD x2 x22 | s74 => DD x2 x23 | s75 => DD x2 x24 | s76 => DD x2 x25 | s77 => DD x2 x26 | s78 => DD x2 x27 | s79 => DD x2 x28 | s80 => DD x2 x29 | s81 => DD x2 x30 | s82 => DD x2 x31 | s83 => DD x2 x32 | s84 => DD x2 x33 | s85 => DD x2 x34 | s86 => DD x2 x35 | s87 => DD x2 x36 | s88 => DD x2 x37 | s89 => DD x2 x38 | s90 => DD x2 x39 | s91 => DD x2 x40 | s92 => DD x2 x41 | s93 => DD x2 x42 | s94 => DD x2 x43 | s95 => DD x2 x44 | s96 => DD x2 x45 | s97 => DD x2 x46 | s98 => DD x2 x47 | s99 => DD x2 x48 | s100 => DD x2 x49 | s101 => DD x2 x50 | s102 => DD x2 x51 | s103 => DD x2 x52 | s104 => DD x2 x53 | s105 => DD x2 x54 | s106 => DD x2 x55 | s107 => DD x2 x56 | s108 => DD x2 x57 | s109 => DD x2 x58 | s110 => DD x2 x59 | s111 => DD x2 x60 | s112 => DD x2 x61 | s113 => DD x2 x62 | s114 => DD x2 x63 | s115 => DD x3 x0 | s116 => DD x3 x1 | s117 => DD x3 x2 | s118 => DD x3 x3 | s119 => DD x3 x4 | s120 => DD x3 x5 | s121 => DD x3 x6 | s122 => DD x3 x7 | s123 => DD x3 x8 | s124 => DD x3 x9 | s125 => DD x3 x10 | s126 => DD x3 x11 end.
Definition m78 (c : sum2) : dd := match c with s0 => DD x1 x14 | s1 => DD x1 x15 | s2 => DD x1 x16 | s3 => DD x1 x17 | s4 => DD x1 x18 | s5 => DD x1 x19 | s6 => DD x1 x20 | s7 => DD x1 x21 | s8 => DD x1 x22 | s9 => DD x1 x23 | s10 => DD x1 x24 | s11 => DD x1 x25 | s12 => DD x1 x26 | s13 => DD x1 x27 | s14 => DD x1 x28 | s15 => DD x1 x29 | s16 => DD x1 x30 | s17 => DD x1 x31 | s18 => DD x1 x32 | s19 => DD x1 x33 | s20 => DD x1 x34 | s21 => DD x1 x35 | s22 => DD x1 x36 | s23 => DD x1 x37 | s24 => DD x1 x38 | s25 => DD x1 x39 | s26 => DD x1 x40 | s27 => DD x1 x41 | s28 => DD x1 x42 | s29 => DD x1 x43 | s30 => DD x1 x44 | s31 => DD x1 x45 | s32 => DD x1 x46 | s33 => DD x1 x47 | s34 => DD x1 x48 | s35 => DD x1 x49 | s36 => DD x1 x50 | s37 => DD x1 x51 | s38 => DD x1 x52 | s39 => DD x1 x53 | s40 => DD x1 x54 | s41 => DD x1 x55 | s42 => DD x1 x56 | s43 => DD x1 x57 | s44 => DD x1 x58 | s45 => DD x1 x59 | s46 => DD x1 x60 | s47 => DD x1 x61 | s48 => DD x1 x62 | s49 => DD x1 x63 | s50 => DD x2 x0 | s51 => DD x2 x1 | s52 => DD x2 x2 | s53 => DD x2 x3 | s54 => DD x2 x4 | s55 => DD x2 x5 | s56 => DD x2 x6 | s57 => DD x2 x7 | s58 => DD x2 x8 | s59 => DD x2 x9 | s60 => DD x2 x10 | s61 => DD x2 x11 | s62 => DD x2 x12 | s63 => DD x2 x13 | s64 => DD x2 x14 | s65 => DD x2 x15 | s66 => DD x2 x16 | s67 => DD x2 x17 | s68 => DD x2 x18 | s69 => DD x2 x19 | s70 => DD x2 x20 | s71 => DD x2 x21 | s72 => DD x2 x22 | s73 => DD x2 x23 | s74 => DD x2 x24 | s75 => DD x2 x25 | s76 => DD x2 x26 | s77 => DD x2 x27 | s78 => DD x2 x28 | s79 => DD x2 x29 | s80 => DD x2 x30 | s81 => DD x2 x31 | s82 => DD x2 x32 | s83 => DD x2 x33 | s84 => DD x2 x34 | s85 => DD x2 x35 | s86 => DD x2 x36 | s87 => DD x2 x37 | s88 => DD x2 x38 | s89 => DD x2 x39 | s90 => DD x2 x40 | s91 => DD x2 x41 | s92 => DD x2 x42 | s93 => DD x2 x43 | s94 => DD x2 x44 | s95 => DD x2 x45 | s96 => DD x2 x46 | s97 => DD x2 x47 | s98 => DD x2 x48 | s99 => DD x2 x49 | s100 => DD x2 x50 | s101 => DD x2 x51 | s102 => DD x2 x52 | s103 => DD x2 x53 | s104 => DD x2 x54 | s105 => DD x2 x55 | s106 => DD x2 x56 | s107 => DD x2 x57 | s108 => DD x2 x58 | s109 => DD x2 x59 | s110 => DD x2 x60 | s111 => DD x2 x61 | s112 => DD x2 x62 | s113 => DD x2 x63 | s114 => DD x3 x0 | s115 => DD x3 x1 | s116 => DD x3 x2 | s117 => DD x3 x3 | s118 => DD x3 x4 | s119 => DD x3 x5 | s120 => DD x3 x6 | s121 => DD x3 x7 | s122 => DD x3 x8 | s123 => DD x3 x9 | s124 => DD x3 x10 | s125 => DD x3 x11 | s126 => DD x3 x12 end.
Definition m80 (c : sum2) : dd := match c with s0 => DD x1 x16 | s1 => DD x1 x17 | s2 => DD x1 x18 | s3 => DD x1 x19 | s4 => DD x1 x20 | s5 => DD x1 x21 | s6 => DD x1 x22 | s7 => DD x1 x23 | s8 => DD x1 x24 | s9 => DD x1 x25 | s10 => DD x1 x26 | s11 => DD x1 x27 | s12 => DD x1 x28 | s13 => DD x1 x29 | s14 => DD x1 x30 | s15 => DD x1 x31 | s16 => DD x1 x32 | s17 => DD x1 x33 | s18 => DD x1 x34 | s19 => DD x1 x35 | s20 => DD x1 x36 | s21 => DD x1 x37 | s22 => DD x1 x38 | s23 => DD x1 x39 | s24 => DD x1 x40 | s25 => DD x1 x41 | s26 => DD x1 x42 | s27 => DD x1 x43 | s28 => DD x1 x44 | s29 => DD x1 x45 | s30 => DD x1 x46 | s31 => DD x1 x47 | s32 => DD x1 x48 | s33 => DD x1 x49 | s34 => DD x1 x50 | s35 => DD x1 x51 | s36 => DD x1 x52 | s37 => DD x1 x53 | s38 => DD x1 x54 | s39 => DD x1 x55 | s40 => DD x1 x56 | s41 => DD x1 x57 | s42 => DD x1 x58 | s43 => DD x1 x59 | s44 => DD x1 x60 | s45 => DD x1 x61 | s46 => DD x1 x62 | s47 => DD x1 x63 | s48 => DD x2 x0 | s49 => DD x2 x1 | s50 => DD x2 x2 | s51 => DD x2 x3 | s52 => DD x2 x4 | s53 => DD x2 x5 | s54 => DD x2 x6 | s55 => DD x2 x7 | s56 => DD x2 x8 | s57 => DD x2 x9 | s58 => DD x2 x10 | s59 => DD x2 x11 | s60 => DD x2 x12 | s61 => DD x2 x13 | s62 => DD x2 x14 | s63 => DD x2 x15 | s64 => DD x2 x16 | s65 => DD x2 x17 | s66 => DD x2 x18 | s67 => DD x2 x19 | s68 => DD x2 x20 | s69 => DD x2 x21 | s70 => DD x2 x22 | s71 => DD x2 x23 | s72 => DD x2 x24 | s73 => DD x2 x25 | s74 => DD x2 x26 | s75 => DD x2 x27 | s76 => DD x2 x28 | s77 => DD x2 x29 | s78 => DD x2 x30 | s79 => DD x2 x31 | s80 => DD x2 x32 | s81 => DD x2 x33 | s82 => DD x2 x34 | s83 => DD x2 x35 | s84 => DD x2 x36 | s85 => DD x2 x37 | s86 => DD x2 x38 | s87 => DD x2 x39 | s88 => DD x2 x40 | s89 => DD x2 x41 | s90 => DD x2 x42 | s91 => DD x2 x43 | s92 => DD x2 x44 | s93 => DD x2 x45 | s94 => DD x2 x46 | s95 => DD x2 x47 | s96 => DD x2 x48 | s97 => DD x2 x49 | s98 => DD x2 x50 | s99 => DD x2 x51 | s100 => DD x2 x52 | s101 => DD x2 x53 | s102 => DD x2 x54 | s103 => DD x2 x55 | s104 => DD x2 x56 | s105 => DD x2 x57 | s106 => DD x2 x58 | s107 => DD x2 x59 | s108 => DD x2 x60 | s109 => DD x2 x61 | s110 => DD x2 x62 | s111 => DD x2 x63 | s112 => DD x3 x0 | s113 => DD x3 x1 | s114 => DD x3 x2 | s115 => DD x3 x3 | s116 => DD x3 x4 | s117 => DD x3 x5 | s118 => DD x3 x6 | s119 => DD x3 x7 | s120 => DD x3 x8 | s121 => DD x3 x9 | s122 => DD x3 x10 | s123 => DD x3 x11 | s124 => DD x3 x12 | s125 => DD x3 x13 | s126 => DD x3 x14 end.
Definition m81 (c : sum2) : dd := match c with s0 => DD x1 x17 | s1 => DD x1 x18 | s2 => DD x1 x19 | s3 => DD x1 x20 | s4 => DD x1 x21 | s5 => DD x1 x22 | s6 => DD x1 x23 | s7 => DD x1 x24 | s8 => DD x1 x25 | s9 => DD x1 x26 | s10 => DD x1 x27 | s11 => DD x1 x28 | s12 => DD x1 x29 | s13 => DD x1 x30 | s14 => DD x1 x31 | s15 => DD x1 x32 | s16 => DD x1 x33 | s17 => DD x1 x34 | s18 => DD x1 x35 | s19 => DD x1 x36 | s20 => DD x1 x37 | s21 => DD x1 x38 | s22 => DD x1 x39 | s23 => DD x1 x40 | s24 => DD x1 x41 | s25 => DD x1 x42 | s26 => DD x1 x43 | s27 => DD x1 x44 | s28 => DD x1 x45 | s29 => DD x1 x46 | s30 => DD x1 x47 | s31 => DD x1 x48 | s32 => DD x1 x49 | s33 => DD x1 x50 | s34 => DD x1 x51 | s35 => DD x1 x52 | s36 => DD x1 x53 | s37 => DD x1 x54 | s38 => DD x1 x55 | s39 => DD x1 x56 | s40 => DD x1 x57 | s41 => DD x1 x58 | s42 => DD x1 x59 | s43 => DD x1 x60 | s44 => DD x1 x61 | s45 => DD x1 x62 | s46 => DD x1 x63 | s47 => DD x2 x0 | s48 => DD x2 x1 | s49 => DD x2 x2 | s50 => DD x2 x3 | s51 => DD x2 x4 | s52 => DD x2 x5 | s53 => DD x2 x6 | s54 => DD x2 x7 | s55 => DD x2 x8 | s56 => DD x2 x9 | s57 => DD x2 x10 | s58 => DD x2 x11 | s59 => DD x2 x12 | s60 => DD x2 x13 | s61 => DD x2 x14 | s62 => DD x2 x15 | s63 => DD x2 x16 | s64 => DD x2 x17 | s65 => DD x2 x18 | s66 => DD x2 x19 | s67 => DD x2 x20 | s68 => DD x2 x21 | s69 => DD x2 x22 | s70 => DD x2 x23 | s71 => DD x2 x24 | s72 => DD x2 x25 | s73 => DD x2 x26 | s74 => DD x2 x27 | s75 => DD x2 x28 | s76 => DD x2 x29 | s77 => DD x2 x30 | s78 => DD x2 x31 | s79 => DD x2 x32 | s80 => DD x2 x33 | s81 => DD x2 x34 | s82 => DD x2 x35 | s83 => DD x2 x36 | s84 => DD x2 x37 | s85 => DD x2 x38 | s86 => DD x2 x39 | s87 => DD x2 x40 | s88 => DD x2 x41 | s89 => DD x2 x42 | s90 => DD x2 x43 | s91 => DD x2 x44 | s92 => DD x2 x45 | s93 => DD x2 x46 | s94 => DD x2 x47 | s95 => DD x2 x48 | s96 => DD x2 x49 | s97 => DD x2 x50 | s98 => DD x2 x51 | s99 => DD x2 x52 | s100 => DD x2 x53 | s101 => DD x2 x54 | s102 => DD x2 x55 | s103 => DD x2 x56 | s104 => DD x2 x57 | s105 => DD x2 x58 | s106 => DD x2 x59 | s107 => DD x2 x60 | s108 => DD x2 x61 | s109 => DD x2 x62 | s110 => DD x2 x63 | s111 => DD x3 x0 | s112 => DD x3 x1 | s113 => DD x3 x2 | s114 => DD x3 x3 | s115 => DD x3 x4 | s116 => DD x3 x5 | s117 => DD x3 x6 | s118 => DD x3 x7 | s119 => DD x3 x8 | s120 => DD x3 x9 | s121 => DD x3 x10 | s122 => DD x3 x11 | s123 => DD x3 x12 | s124 => DD x3 x13 | s125 => DD x3 x14 | s126 => DD x3 x15 end.
Definition m82 (c : sum2) : dd := match c with s0 => DD x1 x18 | s1 => DD x1 x19 | s2 => DD x1 x20 | s3 => DD x1 x21 | s4 => DD x1 x22 | s5 => DD x1 x23 | s6 => DD x1 x24 | s7 => DD x1 x25 | s8 => DD x1 x26 | s9 => DD x1 x27 | s10 => DD x1 x28 | s11 => DD x1 x29 | s12 => DD x1 x30 | s13 => DD x1 x31 | s14 => DD x1 x32 | s15 => DD x1 x33 | s16 => DD x1 x34 | s17 => DD x1 x35 | s18 => DD x1 x36 | s19 => DD x1 x37 | s20 => DD x1 x38 | s21 => DD x1 x39 | s22 => DD x1 x40 | s23 => DD x1 x41 | s24 => DD x1 x42 | s25 => DD x1 x43 | s26 => DD x1 x44 | s27 => DD x1 x45 | s28 => DD x1 x46 | s29 => DD x1 x47 | s30 => DD x1 x48 | s31 => DD x1 x49 | s32 => DD x1 x50 | s33 => DD x1 x51 | s34 => DD x1 x52 | s35 => DD x1 x53 | s36 => DD x1 x54 | s37 => DD x1 x55 | s38 => DD x1 x56 | s39 => DD x1 x57 | s40 => DD x1 x58 | s41 => DD x1 x59 | s42 => DD x1 x60 | s43 => DD x1 x61 | s44 => DD x1 x62 | s45 => DD x1 x63 | s46 => DD x2 x0 | s47 => DD x2 x1 | s48 => DD x2 x2 | s49 => DD x2 x3 | s50 => DD x2 x4 | s51 => DD x2 x5 | s52 => DD x2 x6 | s53 => DD x2 x7 | s54 => DD x2 x8 | s55 => DD x2 x9 | s56 => DD x2 x10 | s57 => DD x2 x11 | s58 => DD x2 x12 | s59 => DD x2 x13 | s60 => DD x2 x14 | s61 => DD x2 x15 | s62 => DD x2 x16 | s63 => DD x2 x17 | s64 => DD x2 x18 | s65 => DD x2 x19 | s66 => DD x2 x20 | s67 => DD x2 x21 | s68 => DD x2 x22 | s69 => DD x2 x23 | s70 => DD x2 x24 | s71 => DD x2 x25 | s72 => DD x2 x26 | s73 => DD x2 x27 | s74 => DD x2 x28 | s75 => DD x2 x29 | s76 => DD x2 x30 | s77 => DD x2 x31 | s78 => DD x2 x32 | s79 => DD x2 x33 | s80 => DD x2 x34 | s81 => DD x2 x35 | s82 => DD x2 x36 | s83 => DD x2 x37 | s84 => DD x2 x38 | s85 => DD x2 x39 | s86 => DD x2 x40 | s87 => DD x2 x41 | s88 => DD x2 x42 | s89 => DD x2 x43 | s90 => DD x2 x44 | s91 => DD x2 x45 | s92 => DD x2 x46 | s93 => DD x2 x47 | s94 => DD x2 x48 | s95 => DD x2 x49 | s96 => DD x2 x50 | s97 => DD x2 x51 | s98 => DD x2 x52 | s99 => DD x2 x53 | s100 => DD x2 x54 | s101 => DD x2 x55 | s102 => DD x2 x56 | s103 => DD x2 x57 | s104 => DD x2 x58 | s105 => DD x2 x59 | s106 => DD x2 x60 | s107 => DD x2 x61 | s108 => DD x2 x62 | s109 => DD x2 x63 | s110 => DD x3 x0 | s111 => DD x3 x1 | s112 => DD x3 x2 | s113 => DD x3 x3 | s114 => DD x3 x4 | s115 => DD x3 x5 | s116 => DD x3 x6 | s117 => DD x3 x7 | s118 => DD x3 x8 | s119 => DD x3 x9 | s120 => DD x3 x10 | s121 => DD x3 x11 | s122 => DD x3 x12 | s123 => DD x3 x13 | s124 => DD x3 x14 | s125 => DD x3 x15 | s126 => DD x3 x16 end.
Definition m84 (c : sum2) : dd := match c with s0 => DD x1 x20 | s1 => DD x1 x21 | s2 => DD x1 x22 | s3 => DD x1 x23 | s4 => DD x1 x24 | s5 => DD x1 x25 | s6 => DD x1 x26 | s7 => DD x1 x27 | s8 => DD x1 x28 | s9 => DD x1 x29 | s10 => DD x1 x30 | s11 => DD x1 x31 | s12 => DD x1 x32 | s13 => DD x1 x33 | s14 => DD x1 x34 | s15 => DD x1 x35 | s16 => DD x1 x36 | s17 => DD x1 x37 | s18 => DD x1 x38 | s19 => DD x1 x39 | s20 => DD x1 x40 | s21 => DD x1 x41 | s22 => DD x1 x42 | s23 => DD x1 x43 | s24 => DD x1 x44 | s25 => DD x1 x45 | s26 => DD x1 x46 | s27 => DD x1 x47 | s28 => DD x1 x48 | s29 => DD x1 x49 | s30 => DD x1 x50 | s31 => DD x1 x51 | s32 => DD x1 x52 | s33 => DD x1 x53 | s34 => DD x1 x54 | s35 => DD x1 x55 | s36 => DD x1 x56 | s37 => DD x1 x57 | s38 => DD x1 x58 | s39 => DD x1 x59 | s40 => DD x1 x60 | s41 => DD x1 x61 | s42 => DD x1 x62 | s43 => DD x1 x63 | s44 => DD x2 x0 | s45 => DD x2 x1 | s46 => DD x2 x2 | s47 => DD x2 x3 | s48 => DD x2 x4 | s49 => DD x2 x5 | s50 => DD x2 x6 | s51 => DD x2 x7 | s52 => DD x2 x8 | s53 => DD x2 x9 | s54 => DD x2 x10 | s55 => DD x2 x11 | s56 => DD x2 x12 | s57 => DD x2 x13 | s58 => DD x2 x14 | s59 => DD x2 x15 | s60 => DD x2 x16 | s61 => DD x2 x17 | s62 => DD x2 x18 | s63 => DD x2 x19 | s64 => DD x2 x20 | s65 => DD x2 x21 | s66 => DD x2 x22 | s67 => DD x2 x23 | s68 => DD x2 x24 | s69 => DD x2 x25 | s70 => DD x2 x26 | s71 => DD x2 x27 | s72 => DD x2 x28 | s73 => DD x2 x29 | s74 => DD x2 x30 | s75 => DD x2 x31 | s76 => DD x2 x32 | s77 => DD x2 x33 | s78 => DD x2 x34 | s79 => DD x2 x35 | s80 => DD x2 x36 | s81 => DD x2 x37 | s82 => DD x2 x38 | s83 => DD x2 x39 | s84 => DD x2 x40 | s85 => DD x2 x41 | s86 => DD x2 x42 | s87 => DD x2 x43 | s88 => DD x2 x44 | s89 => DD x2 x45 | s90 => DD x2 x46 | s91 => DD x2 x47 | s92 => DD x2 x48 | s93 => DD x2 x49 | s94 => DD x2 x50 | s95 => DD x2 x51 | s96 => DD x2 x52 | s97 => DD x2 x53 | s98 => DD x2 x54 | s99 => DD x2 x55 | s100 => DD x2 x56 | s101 => DD x2 x57 | s102 => DD x2 x58 | s103 => DD x2 x59 | s104 => DD x2 x60 | s105 => DD x2 x61 | s106 => DD x2 x62 | s107 => DD x2 x63 | s108 => DD x3 x0 | s109 => DD x3 x1 | s110 => DD x3 x2 | s111 => DD x3 x3 | s112 => DD x3 x4 | s113 => DD x3 x5 | s114 => DD x3 x6 | s115 => DD x3 x7 | s116 => DD x3 x8 | s117 => DD x3 x9 | s118 => DD x3 x10 | s119 => DD x3 x11 | s120 => DD x3 x12 | s121 => DD x3 x13 | s122 => DD x3 x14 | s123 => DD x3 x15 | s124 => DD x3 x16 | s125 => DD x3 x17 | s126 => DD x3 x18 end.
Definition m85 (c : sum2) : dd := match c with s0 => DD x1 x21 | s1 => DD x1 x22 | s2 => DD x1 x23 | s3 => DD x1 x24 | s4 => DD x1 x25 | s5 => DD x1 x26 | s6 => DD x1 x27 | s7 => DD x1 x28 | s8 => DD x1 x29 | s9 => DD x1 x30 | s10 => DD x1 x31 | s11 => DD x1 x32 | s12 => DD x1 x33 | s13 => DD x1 x34 | s14 => DD x1 x35 | s15 => DD x1 x36 | s16 => DD x1 x37 | s17 => DD x1 x38 | s18 => DD x1 x39 | s19 => DD x1 x40 | s20 => DD x1 x41 | s21 => DD x1 x42 | s22 => DD x1 x43 | s23 => DD x1 x44 | s24 => DD x1 x45 | s25 => DD x1 x46 | s26 => DD x1 x47 | s27 => DD x1 x48 | s28 => DD x1 x49 | s29 => DD x1 x50 | s30 => DD x1 x51 | s31 => DD x1 x52 | s32 => DD x1 x53 | s33 => DD x1 x54 | s34 => DD x1 x55 | s35 => DD x1 x56 | s36 => DD x1 x57 | s37 => DD x1 x58 | s38 => DD x1 x59 | s39 => DD x1 x60 | s40 => DD x1 x61 | s41 => DD x1 x62 | s42 => DD x1 x63 | s43 => DD x2 x0 | s44 => DD x2 x1 | s45 => DD x2 x2 | s46 => DD x2 x3 | s47 => DD x2 x4 | s48 => DD x2 x5 | s49 => DD x2 x6 | s50 => DD x2 x7 | s51 => DD x2 x8 | s52 => DD x2 x9 | s53 => DD x2 x10 | s54 => DD x2 x11 | s55 => DD x2 x12 | s56 => DD x2 x13 | s57 => DD x2 x14 | s58 => DD x2 x15 | s59 => DD x2 x16 | s60 => DD x2 x17 | s61 => DD x2 x18 | s62 => DD x2 x19 | s63 => DD x2 x20 | s64 => DD x2 x21 | s65 => DD x2 x22 | s66 => DD x2 x23 | s67 => DD x2 x24 | s68 => DD x2 x25 | s69 => DD x2 x26 | s70 => DD x2 x27 | s71 => DD x2 x28 | s72 => DD x2 x29 | s73 => DD x2 x30 | s74 => DD x2 x31 | s75 => DD x2 x32 | s76 => DD x2 x33 | s77 => DD x2 x34 | s78 => DD x2 x35 | s79 => DD x2 x36 | s80 => DD x2 x37 | s81 => DD x2 x38 | s82 => DD x2 x39 | s83 => DD x2 x40 | s84 => DD x2 x41 | s85 => DD x2 x42 | s86 => DD x2 x43 | s87 => DD x2 x44 | s88 => DD x2 x45 | s89 => DD x2 x46 | s90 => DD x2 x47 | s91 => DD x2 x48 | s92 => DD x2 x49 | s93 => DD x2 x50 | s94 => DD x2 x51 | s95 => DD x2 x52 | s96 => DD x2 x53 | s97 => DD x2 x54 | s98 => DD x2 x55 | s99 => DD x2 x56 | s100 => DD x2 x57 | s101 => DD x2 x58 | s102 => DD x2 x59 | s103 => DD x2 x60 | s104 => DD x2 x61 | s105 => DD x2 x62 | s106 => DD x2 x63 | s107 => DD x3 x0 | s108 => DD x3 x1 | s109 => DD x3 x2 | s110 => DD x3 x3 | s111 => DD x3 x4 | s112 => DD x3 x5 | s113 => DD x3 x6 | s114 => DD x3 x7 | s115 => DD x3 x8 | s116 => DD x3 x9 | s117 => DD x3 x10 | s118 => DD x3 x11 | s119 => DD x3 x12 | s120 => DD x3 x13 | s121 => DD x3 x14 | s122 => DD x3 x15 | s123 => DD x3 x16 | s124 => DD x3 x17 | s125 => DD x3 x18 | s126 => DD x3 x19 end.
Definition m86 (c : sum2) : dd := match c with s0 => DD x1 x22 | s1 => DD x1 x23 | s2 => DD x1 x24 | s3 => DD x1 x25 | s4 => DD x1 x26 | s5 => DD x1 x27 | s6 => DD x1 x28 | s7 => DD x1 x29 | s8 => DD x1 x30 | s9 => DD x1 x31 | s10 => DD x1 x32 | s11 => DD x1 x33 | s12 => DD x1 x34 | s13 => DD x1 x35 | s14 => DD x1 x36 | s15 => DD x1 x37 | s16 => DD x1 x38 | s17 => DD x1 x39 | s18 => DD x1 x40 | s19 => DD x1 x41 | s20 => DD x1 x42 | s21 => DD x1 x43 | s22 => DD x1 x44 | s23 => DD x1 x45 | s24 => DD x1 x46 | s25 => DD x1 x47 | s26 => DD x1 x48 | s27 => DD x1 x49 | s28 => DD x1 x50 | s29 => DD x1 x51 | s30 => DD x1 x52 | s31 => DD x1 x53 | s32 => DD x1 x54 | s33 => DD x1 x55 | s34 => DD x1 x56 | s35 => DD x1 x57 | s36 => DD x1 x58 | s37 => DD x1 x59 | s38 => DD x1 x60 | s39 => DD x1 x61 | s40 => DD x1 x62 | s41 => DD x1 x63 | s42 => DD x2 x0 | s43 => DD x2 x1 | s44 => DD x2 x2 | s45 => DD x2 x3 | s46 => DD x2 x4 | s47 => DD x2 x5 | s48 => DD x2 x6 | s49 => DD x2 x7 | s50 => DD x2 x8 | s51 => DD x2 x9 | s52 => DD x2 x10 | s53 => DD x2 x11 | s54 => DD x2 x12 | s55 => DD x2 x13 | s56 => DD x2 x14 | s57 => DD x2 x15 | s58 => DD x2 x16 | s59 => DD x2 x17 | s60 => DD x2 x18 | s61 => DD x2 x19 | s62 => DD x2 x20 | s63 => DD x2 x21 | s64 => DD x2 x22 | s65 => DD x2 x23 | s66 => DD x2 x24 | s67 => DD x2 x25 | s68 => DD x2 x26 | s69 => DD x2 x27 | s70 => DD x2 x28 | s71 => DD x2 x29 | s72 => DD x2 x30 | s73 => DD x2 x31 | s74 => DD x2 x32 | s75 => DD x2 x33 | s76 => DD x2 x34 | s77 => DD x2 x35 | s78 => DD x2 x36 | s79 => DD x2 x37 | s80 => DD x2 x38 | s81 => DD x2 x39 | s82 => DD x2 x40 | s83 => DD x2 x41 | s84 => DD x2 x42 | s85 => DD x2 x43 | s86 => DD x2 x44 | s87 => DD x2 x45 | s88 => DD x2 x46 | s89 => DD x2 x47 | s90 => DD x2 x48 | s91 => DD x2 x49 | s92 => DD x2 x50 | s93 => DD x2 x51 | s94 => DD x2 x52 | s95 => DD x2 x53 | s96 => DD x2 x54 | s97 => DD x2 x55 | s98 => DD x2 x56 | s99 => DD x2 x57 | s100 => DD x2 x58 | s101 => DD x2 x59 | s102 => DD x2 x60 | s103 => DD x2 x61 | s104 => DD x2 x62 | s105 => DD x2 x63 | s106 => DD x3 x0 | s107 => DD x3 x1 | s108 => DD x3 x2 | s109 => DD x3 x3 | s110 => DD x3 x4 | s111 => DD x3 x5 | s112 => DD x3 x6 | s113 => DD x3 x7 | s114 => DD x3 x8 | s115 => DD x3 x9 | s116 => DD x3 x10 | s117 => DD x3 x11 | s118 => DD x3 x12 | s119 => DD x3 x13 | s120 => DD x3 x14 | s121 => DD x3 x15 | s122 => DD x3 x16 | s123 => DD x3 x17 | s124 => DD x3 x18 | s125 => DD x3 x19 | s126 => DD x3 x20 end.
Definition m87 (c : sum2) : dd := match c with s0 => DD x1 x23 | s1 => DD x1 x24 | s2 => DD x1 x25 | s3 => DD x1 x26 | s4 => DD x1 x27 | s5 => DD x1 x28 | s6 => DD x1 x29 | s7 => DD x1 x30 | s8 => DD x1 x31 | s9 => DD x1 x32 | s10 => DD x1 x33 | s11 => DD x1 x34 | s12 => DD x1 x35 | s13 => DD x1 x36 | s14 => DD x1 x37 | s15 => DD x1 x38 | s16 => DD x1 x39 | s17 => DD x1 x40 | s18 => DD x1 x41 | s19 => DD x1 x42 | s20 => DD x1 x43 | s21 => DD x1 x44 | s22 => DD x1 x45 | s23 => DD x1 x46 | s24 => DD x1 x47 | s25 => DD x1 x48 | s26 => DD x1 x49 | s27 => DD x1 x50 | s28 => DD x1 x51 | s29 => DD x1 x52 | s30 => DD x1 x53 | s31 => DD x1 x54 | s32 => DD x1 x55 | s33 => DD x1 x56 | s34 => DD x1 x57 | s35 => DD x1 x58 | s36 => DD x1 x59 | s37 => DD x1 x60 | s38 => DD x1 x61 | s39 => DD x1 x62 | s40 => DD x1 x63 | s41 => DD x2 x0 | s42 => DD x2 x1 | s43 => DD x2 x2 | s44 => DD x2 x3 | s45 => DD x2 x4 | s46 => DD x2 x5 | s47 => DD x2 x6 | s48 => DD x2 x7 | s49 => DD x2 x8 | s50 => DD x2 x9 | s51 => DD x2 x10 | s52 => DD x2 x11 | s53 => DD x2 x12 | s54 => DD x2 x13 | s55 => DD x2 x14 | s56 => DD x2 x15 | s57 => DD x2 x16 | s58 => DD x2 x17 | s59 => DD x2 x18 | s60 => DD x2 x19 | s61 => DD x2 x20 | s62 => DD x2 x21 | s63 => DD x2 x22 | s64 => DD x2 x23 | s65 => DD x2 x24 | s66 => DD x2 x25 | s67 => DD x2 x26 | s68 => DD x2 x27 | s69 => DD x2 x28 | s70 => DD x2 x29 | s71 => DD x2 x30 | s72 => DD x2 x31 | s73 => DD x2 x32 | s74 => DD x2 x33 | s75 => DD x2 x34 | s76 => DD x2 x35 | s77 => DD x2 x36 | s78 => DD x2 x37 | s79 => DD x2 x38 | s80 => DD x2 x39 | s81 => DD x2 x40 | s82 => DD x2 x41 | s83 => DD x2 x42 | s84 => DD x2 x43 | s85 => DD x2 x44 | s86 => DD x2 x45 | s87 => DD x2 x46 | s88 => DD x2 x47 | s89 => DD x2 x48 | s90 => DD x2 x49 | s91 => DD x2 x50 | s92 => DD x2 x51 | s93 => DD x2 x52 | s94 => DD x2 x53 | s95 => DD x2 x54 | s96 => DD x2 x55 | s97 => DD x2 x56 | s98 => DD x2 x57 | s99 => DD x2 x58 | s100 => DD x2 x59 | s101 => DD x2 x60 | s102 => DD x2 x61 | s103 => DD x2 x62 | s104 => DD x2 x63 | s105 => DD x3 x0 | s106 => DD x3 x1 | s107 => DD x3 x2 | s108 => DD x3 x3 | s109 => DD x3 x4 | s110 => DD x3 x5 | s111 => DD x3 x6 | s112 => DD x3 x7 | s113 => DD x3 x8 | s114 => DD x3 x9 | s115 => DD x3 x10 | s116 => DD x3 x11 | s117 => DD x3 x12 | s118 => DD x3 x13 | s119 => DD x3 x14 | s120 => DD x3 x15 | s121 => DD x3 x16 | s122 => DD x3 x17 | s123 => DD x3 x18 | s124 => DD x3 x19 | s125 => DD x3 x20 | s126 => DD x3 x21 end.
Definition m88 (c : sum2) : dd := match c with s0 => DD x1 x24 | s1 => DD x1 x25 | s2 => DD x1 x26 | s3 => DD x1 x27 | s4 => DD x1 x28 | s5 => DD x1 x29 | s6 => DD x1 x30 | s7 => DD x1 x31 | s8 => DD x1 x32 | s9 => DD x1 x33 | s10 => DD x1 x34 | s11 => DD x1 x35 | s12 => DD x1 x36 | s13 => DD x1 x37 | s14 => DD x1 x38 | s15 => DD x1 x39 | s16 => DD x1 x40 | s17 => DD x1 x41 | s18 => DD x1 x42 | s19 => DD x1 x43 | s20 => DD x1 x44 | s21 => DD x1 x45 | s22 => DD x1 x46 | s23 => DD x1 x47 | s24 => DD x1 x48 | s25 => DD x1 x49 | s26 => DD x1 x50 | s27 => DD x1 x51 | s28 => DD x1 x52 | s29 => DD x1 x53 | s30 => DD x1 x54 | s31 => DD x1 x55 | s32 => DD x1 x56 | s33 => DD x1 x57 | s34 => DD x1 x58 | s35 => DD x1 x59 | s36 => DD x1 x60 | s37 => DD x1 x61 | s38 => DD x1 x62 | s39 => DD x1 x63 | s40 => DD x2 x0 | s41 => DD x2 x1 | s42 => DD x2 x2 | s43 => DD x2 x3 | s44 => DD x2 x4 | s45 => DD x2 x5 | s46 => DD x2 x6 | s47 => DD x2 x7 | s48 => DD x2 x8 | s49 => DD x2 x9 | s50 => DD x2 x10 | s51 => DD x2 x11 | s52 => DD x2 x12 | s53 => DD x2 x13 | s54 => DD x2 x14 | s55 => DD x2 x15 | s56 => DD x2 x16 | s57 => DD x2 x17 | s58 => DD x2 x18 | s59 => DD x2 x19 | s60 => DD x2 x20 | s61 => DD x2 x21 | s62 => DD x2 x22 | s63 => DD x2 x23 | s64 => DD x2 x24 | s65 => DD x2 x25 | s66 => DD x2 x26 | s67 => DD x2 x27 | s68 => DD x2 x28 | s69 => DD x2 x29 | s70 => DD x2 x30 | s71 => DD x2 x31 | s72 => DD x2 x32 | s73 => DD x2 x33 | s74 => DD x2 x34 | s75 => DD x2 x35 | s76 => DD x2 x36 | s77 => DD x2 x37 | s78 => DD x2 x38 | s79 => DD x2 x39 | s80 => DD x2 x40 | s81 => DD x2 x41 | s82 => DD x2 x42 | s83 => DD x2 x43 | s84 => DD x2 x44 | s85 => DD x2 x45 | s86 => DD x2 x46 | s87 => DD x2 x47 | s88 => DD x2 x48 | s89 => DD x2 x49 | s90 => DD x2 x50 | s91 => DD x2 x51 | s92 => DD x2 x52 | s93 => DD x2 x53 | s94 => DD x2 x54 | s95 => DD x2 x55 | s96 => DD x2 x56 | s97 => DD x2 x57 | s98 => DD x2 x58 | s99 => DD x2 x59 | s100 => DD x2 x60 | s101 => DD x2 x61 | s102 => DD x2 x62 | s103 => DD x2 x63 | s104 => DD x3 x0 | s105 => DD x3 x1 | s106 => DD x3 x2 | s107 => DD x3 x3 | s108 => DD x3 x4 | s109 => DD x3 x5 | s110 => DD x3 x6 | s111 => DD x3 x7 | s112 => DD x3 x8 | s113 => DD x3 x9 | s114 => DD x3 x10 | s115 => DD x3 x11 | s116 => DD x3 x12 | s117 => DD x3 x13 | s118 => DD x3 x14 | s119 => DD x3 x15 | s120 => DD x3 x16 | s121 => DD x3 x17 | s122 => DD x3 x18 | s123 => DD x3 x19 | s124 => DD x3 x20 | s125 => DD x3 x21 | s126 => DD x3 x22 end.
Definition m90 (c : sum2) : dd := match c with s0 => DD x1 x26 | s1 => DD x1 x27 | s2 => DD x1 x28 | s3 => DD x1 x29 | s4 => DD x1 x30 | s5 => DD x1 x31 | s6 => DD x1 x32 | s7 => DD x1 x33 | s8 => DD x1 x34 | s9 => DD x1 x35 | s10 => DD x1 x36 | s11 => DD x1 x37 | s12 => DD x1 x38 | s13 => DD x1 x39 | s14 => DD x1 x40 | s15 => DD x1 x41 | s16 => DD x1 x42 | s17 => DD x1 x43 | s18 => DD x1 x44 | s19 => DD x1 x45 | s20 => DD x1 x46 | s21 => DD x1 x47 | s22 => DD x1 x48 | s23 => DD x1 x49 | s24 => DD x1 x50 | s25 => DD x1 x51 | s26 => DD x1 x52 | s27 => DD x1 x53 | s28 => DD x1 x54 | s29 => DD x1 x55 | s30 => DD x1 x56 | s31 => DD x1 x57 | s32 => DD x1 x58 | s33 => DD x1 x59 | s34 => DD x1 x60 | s35 => DD x1 x61 | s36 => DD x1 x62 | s37 => DD x1 x63 | s38 => DD x2 x0 | s39 => DD x2 x1 | s40 => DD x2 x2 | s41 => DD x2 x3 | s42 => DD x2 x4 | s43 => DD x2 x5 | s44 => DD x2 x6 | s45 => DD x2 x7 | s46 => DD x2 x8 | s47 => DD x2 x9 | s48 => DD x2 x10 | s49 => DD x2 x11 | s50 => DD x2 x12 | s51 => DD x2 x13 | s52 => DD x2 x14 | s53 => DD x2 x15 | s54 => DD x2 x16 | s55 => DD x2 x17 | s56 => DD x2 x18 | s57 => DD x2 x19 | s58 => DD x2 x20 | s59 => DD x2 x21 | s60 => DD x2 x22 | s61 => DD x2 x23 | s62 => DD x2 x24 | s63 => DD x2 x25 | s64 => DD x2 x26 | s65 => DD x2 x27 | s66 => DD x2 x28 | s67 => DD x2 x29 | s68 => DD x2 x30 | s69 => DD x2 x31 | s70 => DD x2 x32 | s71 => DD x2 x33 | s72 => DD x2 x34 | s73 => DD x2 x35 | s74 => DD x2 x36 | s75 => DD x2 x37 | s76 => DD x2 x38 | s77 => DD x2 x39 | s78 => DD x2 x40 | s79 => DD x2 x41 | s80 => DD x2 x42 | s81 => DD x2 x43 | s82 => DD x2 x44 | s83 => DD x2 x45 | s84 => DD x2 x46 | s85 => DD x2 x47 | s86 => DD x2 x48 | s87 => DD x2 x49 | s88 => DD x2 x50 | s89 => DD x2 x51 | s90 => DD x2 x52 | s91 => DD x2 x53 | s92 => DD x2 x54 | s93 => DD x2 x55 | s94 => DD x2 x56 | s95 => DD x2 x57 | s96 => DD x2 x58 | s97 => DD x2 x59 | s98 => DD x2 x60 | s99 => DD x2 x61 | s100 => DD x2 x62 | s101 => DD x2 x63 | s102 => DD x3 x0 | s103 => DD x3 x1 | s104 => DD x3 x2 | s105 => DD x3 x3 | s106 => DD x3 x4 | s107 => DD x3 x5 | s108 => DD x3 x6 | s109 => DD x3 x7 | s110 => DD x3 x8 | s111 => DD x3 x9 | s112 => DD x3 x10 | s113 => DD x3 x11 | s114 => DD x3 x12 | s115 => DD x3 x13 | s116 => DD x3 x14 | s117 => DD x3 x15 | s118 => DD x3 x16 | s119 => DD x3 x17 | s120 => DD x3 x18 | s121 => DD x3 x19 | s122 => DD x3 x20 | s123 => DD x3 x21 | s124 => DD x3 x22 | s125 => DD x3 x23 | s126 => DD x3 x24 end.
Definition m91 (c : sum2) : dd := match c with s0 => DD x1 x27 | s1 => DD x1 x28 | s2 => DD x1 x29 | s3 => DD x1 x30 | s4 => DD x1 x31 | s5 => DD x1 x32 | s6 => DD x1 x33 | s7 => DD x1 x34 | s8 => DD x1 x35 | s9 => DD x1 x36 | s10 => DD x1 x37 | s11 => DD x1 x38 | s12 => DD x1 x39 | s13 => DD x1 x40 | s14 => DD x1 x41 | s15 => DD x1 x42 | s16 => DD x1 x43 | s17 => DD x1 x44 | s18 => DD x1 x45 | s19 => DD x1 x46 | s20 => DD x1 x47 | s21 => DD x1 x48 | s22 => DD x1 x49 | s23 => DD x1 x50 | s24 => DD x1 x51 | s25 => DD x1 x52 | s26 => DD x1 x53 | s27 => DD x1 x54 | s28 => DD x1 x55 | s29 => DD x1 x56 | s30 => DD x1 x57 | s31 => DD x1 x58 | s32 => DD x1 x59 | s33 => DD x1 x60 | s34 => DD x1 x61 | s35 => DD x1 x62 | s36 => DD x1 x63 | s37 => DD x2 x0 | s38 => DD x2 x1 | s39 => DD x2 x2 | s40 => DD x2 x3 | s41 => DD x2 x4 | s42 => DD x2 x5 | s43 => DD x2 x6 | s44 => DD x2 x7 | s45 => DD x2 x8 | s46 => DD x2 x9 | s47 => DD x2 x10 | s48 => DD x2 x11 | s49 => DD x2 x12 | s50 => DD x2 x13 | s51 => DD x2 x14 | s52 => DD x2 x15 | s53 => DD x2 x16 | s54 => DD x2 x17 | s55 => DD x2 x18 | s56 => DD x2 x19 | s57 => DD x2 x20 | s58 => DD x2 x21 | s59 => DD x2 x22 | s60 => DD x2 x23 | s61 => DD x2 x24 | s62 => DD x2 x25 | s63 => DD x2 x26 | s64 => DD x2 x27 | s65 => DD x2 x28 | s66 => DD x2 x29 | s67 => DD x2 x30 | s68 => DD x2 x31 | s69 => DD x2 x32 | s70 => DD x2 x33 | s71 => DD x2 x34 | s72 => DD x2 x35 | s73 => DD x2 x36 | s74 => DD x2 x37 | s75 => DD x2 x38 | s76 => DD x2 x39 | s77 => DD x2 x40 | s78 => DD x2 x41 | s79 => DD x2 x42 | s80 => DD x2 x43 | s81 => DD x2 x44 | s82 => DD x2 x45 | s83 => DD x2 x46 | s84 => DD x2 x47 | s85 => DD x2 x48 | s86 => DD x2 x49 | s87 => DD x2 x50 | s88 => DD x2 x51 | s89 => DD x2 x52 | s90 => DD x2 x53 | s91 => DD x2 x54 | s92 => DD x2 x55 | s93 => DD x2 x56 | s94 => DD x2 x57 | s95 => DD x2 x58 | s96 => DD x2 x59 | s97 => DD x2 x60 | s98 => DD x2 x61 | s99 => DD x2 x62 | s100 => DD x2 x63 | s101 => DD x3 x0 | s102 => DD x3 x1 | s103 => DD x3 x2 | s104 => DD x3 x3 | s105 => DD x3 x4 | s106 => DD x3 x5 | s107 => DD x3 x6 | s108 => DD x3 x7 | s109 => DD x3 x8 | s110 => DD x3 x9 | s111 => DD x3 x10 | s112 => DD x3 x11 | s113 => DD x3 x12 | s114 => DD x3 x13 | s115 => DD x3 x14 | s116 => DD x3 x15 | s117 => DD x3 x16 | s118 => DD x3 x17 | s119 => DD x3 x18 | s120 => DD x3 x19 | s121 => DD x3 x20 | s122 => DD x3 x21 | s123 => DD x3 x22 | s124 => DD x3 x23 | s125 => DD x3 x24 | s126 => DD x3 x25 end.
Definition m92 (c : sum2) : dd := match c with s0 => DD x1 x28 | s1 => DD x1 x29 | s2 => DD x1 x30 | s3 => DD x1 x31 | s4 => DD x1 x32 | s5 => DD x1 x33 | s6 => DD x1 x34 | s7 => DD x1 x35 | s8 => DD x1 x36 | s9 => DD x1 x37 | s10 => DD x1 x38 | s11 => DD x1 x39 | s12 => DD x1 x40 | s13 => DD x1 x41 | s14 => DD x1 x42 | s15 => DD x1 x43 | s16 => DD x1 x44 | s17 => DD x1 x45 | s18 => DD x1 x46 | s19 => DD x1 x47 | s20 => DD x1 x48 | s21 => DD x1 x49 | s22 => DD x1 x50 | s23 => DD x1 x51 | s24 => DD x1 x52 | s25 => DD x1 x53 | s26 => DD x1 x54 | s27 => DD x1 x55 | s28 => DD x1 x56 | s29 => DD x1 x57 | s30 => DD x1 x58 | s31 => DD x1 x59 | s32 => DD x1 x60 | s33 => DD x1 x61 | s34 => DD x1 x62 | s35 => DD x1 x63 | s36 => DD x2 x0 | s37 => DD x2 x1 | s38 => DD x2 x2 | s39 => DD x2 x3 | s40 => DD x2 x4 | s41 => DD x2 x5 | s42 => DD x2 x6 | s43 => DD x2 x7 | s44 => DD x2 x8 | s45 => DD x2 x9 | s46 => DD x2 x10 | s47 => DD x2 x11 | s48 => DD x2 x12 | s49 => DD x2 x13 | s50 => DD x2 x14 | s51 => DD x2 x15 | s52 => DD x2 x16 | s53 => DD x2 x17 | s54 => DD x2 x18 | s55 => DD x2 x19 | s56 => DD x2 x20 | s57 => DD x2 x21 | s58 => DD x2 x22 | s59 => DD x2 x23 | s60 => DD x2 x24 | s61 => DD x2 x25 | s62 => DD x2 x26 | s63 => DD x2 x27 | s64 => DD x2 x28 | s65 => DD x2 x29 | s66 => DD x2 x30 | s67 => DD x2 x31 | s68 => DD x2 x32 | s69 => DD x2 x33 | s70 => DD x2 x34 | s71 => DD x2 x35 | s72 => DD x2 x36 | s73 => DD x2 x37 | s74 => DD x2 x38 | s75 => DD x2 x39 | s76 => DD x2 x40 | s77 => DD x2 x41 | s78 => DD x2 x42 | s79 => DD x2 x43 | s80 => DD x2 x44 | s81 => DD x2 x45 | s82 => DD x2 x46 | s83 => DD x2 x47 | s84 => DD x2 x48 | s85 => DD x2 x49 | s86 => DD x2 x50 | s87 => DD x2 x51 | s88 => DD x2 x52 | s89 => DD x2 x53 | s90 => DD x2 x54 | s91 => DD x2 x55 | s92 => DD x2 x56 | s93 => DD x2 x57 | s94 => DD x2 x58 | s95 => DD x2 x59 | s96 => DD x2 x60 | s97 => DD x2 x61 | s98 => DD x2 x62 | s99 => DD x2 x63 | s100 => DD x3 x0 | s101 => DD x3 x1 | s102 => DD x3 x2 | s103 => DD x3 x3 | s104 => DD x3 x4 | s105 => DD x3 x5 | s106 => DD x3 x6 | s107 => DD x3 x7 | s108 => DD x3 x8 | s109 => DD x3 x9 | s110 => DD x3 x10 | s111 => DD x3 x11 | s112 => DD x3 x12 | s113 => DD x3 x13 | s114 => DD x3 x14 | s115 => DD x3 x15 | s116 => DD x3 x16 | s117 => DD x3 x17 | s118 => DD x3 x18 | s119 => DD x3 x19 | s120 => DD x3 x20 | s121 => DD x3 x21 | s122 => DD x3 x22 | s123 => DD x3 x23 | s124 => DD x3 x24 | s125 => DD x3 x25 | s126 => DD x3 x26 end.
Definition m93 (c : sum2) : dd := match c with s0 => DD x1 x29 | s1 => DD x1 x30 | s2 => DD x1 x31 | s3 => DD x1 x32 | s4 => DD x1 x33 | s5 => DD x1 x34 | s6 => DD x1 x35 | s7 => DD x1 x36 | s8 => DD x1 x37 | s9 => DD x1 x38 | s10 => DD x1 x39 | s11 => DD x1 x40 | s12 => DD x1 x41 | s13 => DD x1 x42 | s14 => DD x1 x43 | s15 => DD x1 x44 | s16 => DD x1 x45 | s17 => DD x1 x46 | s18 => DD x1 x47 | s19 => DD x1 x48 | s20 => DD x1 x49 | s21 => DD x1 x50 | s22 => DD x1 x51 | s23 => DD x1 x52 | s24 => DD x1 x53 | s25 => DD x1 x54 | s26 => DD x1 x55 | s27 => DD x1 x56 | s28 => DD x1 x57 | s29 => DD x1 x58 | s30 => DD x1 x59 | s31 => DD x1 x60 | s32 => DD x1 x61 | s33 => DD x1 x62 | s34 => DD x1 x63 | s35 => DD x2 x0 | s36 => DD x2 x1 | s37 => DD x2 x2 | s38 => DD x2 x3 | s39 => DD x2 x4 | s40 => DD x2 x5 | s41 => DD x2 x6 | s42 => DD x2 x7 | s43 => DD x2 x8 | s44 => DD x2 x9 | s45 => DD x2 x10 | s46 => DD x2 x11 | s47 => DD x2 x12 | s48 => DD x2 x13 | s49 => DD x2 x14 | s50 => DD x2 x15 | s51 => DD x2 x16 | s52 => DD x2 x17 | s53 => DD x2 x18 | s54 => DD x2 x19 | s55 => DD x2 x20 | s56 => DD x2 x21 | s57 => DD x2 x22 | s58 => DD x2 x23 | s59 => DD x2 x24 | s60 => DD x2 x25 | s61 => DD x2 x26 | s62 => DD x2 x27 | s63 => DD x2 x28 | s64 => DD x2 x29 | s65 => DD x2 x30 | s66 => DD x2 x31 | s67 => DD x2 x32 | s68 => DD x2 x33 | s69 => DD x2 x34 | s70 => DD x2 x35 | s71 => DD x2 x36 | s72 => DD x2 x37 | s73 => DD x2 x38 | s74 => DD x2 x39 | s75 => DD x2 x40 | s76 => DD x2 x41 | s77 => DD x2 x42 | s78 => DD x2 x43 | s79 => DD x2 x44 | s80 => DD x2 x45 | s81 => DD x2 x46 | s82 => DD x2 x47 | s83 => DD x2 x48 | s84 => DD x2 x49 | s85 => DD x2 x50 | s86 => DD x2 x51 | s87 => DD x2 x52 | s88 => DD x2 x53 | s89 => DD x2 x54 | s90 => DD x2 x55 | s91 => DD x2 x56 | s92 => DD x2 x57 | s93 => DD x2 x58 | s94 => DD x2 x59 | s95 => DD x2 x60 | s96 => DD x2 x61 | s97 => DD x2 x62 | s98 => DD x2 x63 | s99 => DD x3 x0 | s100 => DD x3 x1 | s101 => DD x3 x2 | s102 => DD x3 x3 | s103 => DD x3 x4 | s104 => DD x3 x5 | s105 => DD x3 x6 | s106 => DD x3 x7 | s107 => DD x3 x8 | s108 => DD x3 x9 | s109 => DD x3 x10 | s110 => DD x3 x11 | s111 => DD x3 x12 | s112 => DD x3 x13 | s113 => DD x3 x14 | s114 => DD x3 x15 | s115 => DD x3 x16 | s116 => DD x3 x17 | s117 => DD x3 x18 | s118 => DD x3 x19 | s119 => DD x3 x20 | s120 => DD x3 x21 | s121 => DD x3 x22 | s122 => DD x3 x23 | s123 => DD x3 x24 | s124 => DD x3 x25 | s125 => DD x3 x26 | s126 => DD x3 x27 end.
Definition m94 (c : sum2) : dd := match c with s0 => DD x1 x30 | s1 => DD x1 x31 | s2 => DD x1 x32 | s3 => DD x1 x33 | s4 => DD x1 x34 | s5 => DD x1 x35 | s6 => DD x1 x36 | s7 => DD x1 x37 | s8 => DD x1 x38 | s9 => DD x1 x39 | s10 => DD x1 x40 | s11 => DD x1 x41 | s12 => DD x1 x42 | s13 => DD x1 x43 | s14 => DD x1 x44 | s15 => DD x1 x45 | s16 => DD x1 x46 | s17 => DD x1 x47 | s18 => DD x1 x48 | s19 => DD x1 x49 | s20 => DD x1 x50 | s21 => DD x1 x51 | s22 => DD x1 x52 | s23 => DD x1 x53 | s24 => DD x1 x54 | s25 => DD x1 x55 | s26 => DD x1 x56 | s27 => DD x1 x57 | s28 => DD x1 x58 | s29 => DD x1 x59 | s30 => DD x1 x60 | s31 => DD x1 x61 | s32 => DD x1 x62 | s33 => DD x1 x63 | s34 => DD x2 x0 | s35 => DD x2 x1 | s36 => DD x2 x2 | s37 => DD x2 x3 | s38 => DD x2 x4 | s39 => DD x2 x5 | s40 => DD x2 x6 | s41 => DD x2 x7 | s42 => DD x2 x8 | s43 => DD x2 x9 | s44 => DD x2 x10 | s45 => DD x2 x11 | s46 => DD x2 x12 | s47 => DD x2 x13 | s48 => DD x2 x14 | s49 => DD x2 x15 | s50 => DD x2 x16 | s51 => DD x2 x17 | s52 => DD x2 x18 | s53 => DD x2 x19 | s54 => DD x2 x20 | s55 => DD x2 x21 | s56 => DD x2 x22 | s57 => DD x2 x23 | s58 => DD x2 x24 | s59 => DD x2 x25 | s60 => DD x2 x26 | s61 => DD x2 x27 | s62 => DD x2 x28 | s63 => DD x2 x29 | s64 => DD x2 x30 | s65 => DD x2 x31 | s66 => DD x2 x32 | s67 => DD x2 x33 | s68 => DD x2 x34 | s69 => DD x2 x35 | s70 => DD x2 x36 | s71 => DD x2 x37 | s72 => DD x2 x38 | s73 => DD x2 x39 | s74 => DD x2 x40 | s75 => DD x2 x41 | s76 => DD x2 x42 | s77 => DD x2 x43 | s78 => DD x2 x44 | s79 => DD x2 x45 | s80 => DD x2 x46 | s81 => DD x2 x47 | s82 => DD x2 x48 | s83 => DD x2 x49 | s84 => DD x2 x50 | s85 => DD x2 x51 | s86 => DD x2 x52 | s87 => DD x2 x53 | s88 => DD x2 x54 | s89 => DD x2 x55 | s90 => DD x2 x56 | s91 => DD x2 x57 | s92 => DD x2 x58 | s93 => DD x2 x59 | s94 => DD x2 x60 | s95 => DD x2 x61 | s96 => DD x2 x62 | s97 => DD x2 x63 | s98 => DD x3 x0 | s99 => DD x3 x1 | s100 => DD x3 x2 | s101 => DD x3 x3 | s102 => DD x3 x4 | s103 => DD x3 x5 | s104 => DD x3 x6 | s105 => DD x3 x7 | s106 => DD x3 x8 | s107 => DD x3 x9 | s108 => DD x3 x10 | s109 => DD x3 x11 | s110 => DD x3 x12 | s111 => DD x3 x13 | s112 => DD x3 x14 | s113 => DD x3 x15 | s114 => DD x3 x16 | s115 => DD x3 x17 | s116 => DD x3 x18 | s117 => DD x3 x19 | s118 => DD x3 x20 | s119 => DD x3 x21 | s120 => DD x3 x22 | s121 => DD x3 x23 | s122 => DD x3 x24 | s123 => DD x3 x25 | s124 => DD x3 x26 | s125 => DD x3 x27 | s126 => DD x3 x28 end.
Definition m95 (c : sum2) : dd := match c with s0 => DD x1 x31 | s1 => DD x1 x32 | s2 => DD x1 x33 | s3 => DD x1 x34 | s4 => DD x1 x35 | s5 => DD x1 x36 | s6 => DD x1 x37 | s7 => DD x1 x38 | s8 => DD x1 x39 | s9 => DD x1 x40 | s10 => DD x1 x41 | s11 => DD x1 x42 | s12 => DD x1 x43 | s13 => DD x1 x44 | s14 => DD x1 x45 | s15 => DD x1 x46 | s16 => DD x1 x47 | s17 => DD x1 x48 | s18 => DD x1 x49 | s19 => DD x1 x50 | s20 => DD x1 x51 | s21 => DD x1 x52 | s22 => DD x1 x53 | s23 => DD x1 x54 | s24 => DD x1 x55 | s25 => DD x1 x56 | s26 => DD x1 x57 | s27 => DD x1 x58 | s28 => DD x1 x59 | s29 => DD x1 x60 | s30 => DD x1 x61 | s31 => DD x1 x62 | s32 => DD x1 x63 | s33 => DD x2 x0 | s34 => DD x2 x1 | s35 => DD x2 x2 | s36 => DD x2 x3 | s37 => DD x2 x4 | s38 => DD x2 x5 | s39 => DD x2 x6 | s40 => DD x2 x7 | s41 => DD x2 x8 | s42 => DD x2 x9 | s43 => DD x2 x10 | s44 => DD x2 x11 | s45 => DD x2 x12 | s46 => DD x2 x13 | s47 => DD x2 x14 | s48 => DD x2 x15 | s49 => DD x2 x16 | s50 => DD x2 x17 | s51 => DD x2 x18 | s52 => DD x2 x19 | s53 => DD x2 x20 | s54 => DD x2 x21 | s55 => DD x2 x22 | s56 => DD x2 x23 | s57 => DD x2 x24 | s58 => DD x2 x25 | s59 => DD x2 x26 | s60 => DD x2 x27 | s61 => DD x2 x28 | s62 => DD x2 x29 | s63 => DD x2 x30 | s64 => DD x2 x31 | s65 => DD x2 x32 | s66 => DD x2 x33 | s67 => DD x2 x34 | s68 => DD x2 x35 | s69 => DD x2 x36 | s70 => DD x2 x37 | s71 => DD x2 x38 | s72 => DD x2 x39 | s73 => DD x2 x40 | s74 => DD x2 x41 | s75 => DD x2 x42 | s76 => DD x2 x43 | s77 => DD x2 x44 | s78 => DD x2 x45 | s79 => DD x2 x46 | s80 => DD x2 x47 | s81 => DD x2 x48 | s82 => DD x2 x49 | s83 => DD x2 x50 | s84 => DD x2 x51 | s85 => DD x2 x52 | s86 => DD x2 x53 | s87 => DD x2 x54 | s88 => DD x2 x55 | s89 => DD x2 x56 | s90 => DD x2 x57 | s91 => DD x2 x58 | s92 => DD x2 x59 | s93 => DD x2 x60 | s94 => DD x2 x61 | s95 => DD x2 x62 | s96 => DD x2 x63 | s97 => DD x3 x0 | s98 => DD x3 x1 | s99 => DD x3 x2 | s100 => DD x3 x3 | s101 => DD x3 x4 | s102 => DD x3 x5 | s103 => DD x3 x6 | s104 => DD x3 x7 | s105 => DD x3 x8 | s106 => DD x3 x9 | s107 => DD x3 x10 | s108 => DD x3 x11 | s109 => DD x3 x12 | s110 => DD x3 x13 | s111 => DD x3 x14 | s112 => DD x3 x15 | s113 => DD x3 x16 | s114 => DD x3 x17 | s115 => DD x3 x18 | s116 => DD x3 x19 | s117 => DD x3 x20 | s118 => DD x3 x21 | s119 => DD x3 x22 | s120 => DD x3 x23 | s121 => DD x3 x24 | s122 => DD x3 x25 | s123 => DD x3 x26 | s124 => DD x3 x27 | s125 => DD x3 x28 | s126 => DD x3 x29 end.
Definition m96 (c : sum2) : dd := match c with s0 => DD x1 x32 | s1 => DD x1 x33 | s2 => DD x1 x34 | s3 => DD x1 x35 | s4 => DD x1 x36 | s5 => DD x1 x37 | s6 => DD x1 x38 | s7 => DD x1 x39 | s8 => DD x1 x40 | s9 => DD x1 x41 | s10 => DD x1 x42 | s11 => DD x1 x43 | s12 => DD x1 x44 | s13 => DD x1 x45 | s14 => DD x1 x46 | s15 => DD x1 x47 | s16 => DD x1 x48 | s17 => DD x1 x49 | s18 => DD x1 x50 | s19 => DD x1 x51 | s20 => DD x1 x52 | s21 => DD x1 x53 | s22 => DD x1 x54 | s23 => DD x1 x55 | s24 => DD x1 x56 | s25 => DD x1 x57 | s26 => DD x1 x58 | s27 => DD x1 x59 | s28 => DD x1 x60 | s29 => DD x1 x61 | s30 => DD x1 x62 | s31 => DD x1 x63 | s32 => DD x2 x0 | s33 => DD x2 x1 | s34 => DD x2 x2 | s35 => DD x2 x3 | s36 => DD x2 x4 | s37 => DD x2 x5 | s38 => DD x2 x6 | s39 => DD x2 x7 | s40 => DD x2 x8 | s41 => DD x2 x9 | s42 => DD x2 x10 | s43 => DD x2 x11 | s44 => DD x2 x12 | s45 => DD x2 x13 | s46 => DD x2 x14 | s47 => DD x2 x15 | s48 => DD x2 x16 | s49 => DD x2 x17 | s50 => DD x2 x18 | s51 => DD x2 x19 | s52 => DD x2 x20 | s53 => DD x2 x21 | s54 => DD x2 x22 | s55 => DD x2 x23 | s56 => DD x2 x24 | s57 => DD x2 x25 | s58 => DD x2 x26 | s59 => DD x2 x27 | s60 => DD x2 x28 | s61 => DD x2 x29 | s62 => DD x2 x30 | s63 => DD x2 x31 | s64 => DD x2 x32 | s65 => DD x2 x33 | s66 => DD x2 x34 | s67 => DD x2 x35 | s68 => DD x2 x36 | s69 => DD x2 x37 | s70 => DD x2 x38 | s71 => DD x2 x39 | s72 => DD x2 x40 | s73 => DD x2 x41 | s74 => DD x2 x42 | s75 => DD x2 x43 | s76 => DD x2 x44 | s77 => DD x2 x45 | s78 => DD x2 x46 | s79 => DD x2 x47 | s80 => DD x2 x48 | s81 => DD x2 x49 | s82 => DD x2 x50 | s83 => DD x2 x51 | s84 => DD x2 x52 | s85 => DD x2 x53 | s86 => DD x2 x54 | s87 => DD x2 x55 | s88 => DD x2 x56 | s89 => DD x2 x57 | s90 => DD x2 x58 | s91 => DD x2 x59 | s92 => DD x2 x60 | s93 => DD x2 x61 | s94 => DD x2 x62 | s95 => DD x2 x63 | s96 => DD x3 x0 | s97 => DD x3 x1 | s98 => DD x3 x2 | s99 => DD x3 x3 | s100 => DD x3 x4 | s101 => DD x3 x5 | s102 => DD x3 x6 | s103 => DD x3 x7 | s104 => DD x3 x8 | s105 => DD x3 x9 | s106 => DD x3 x10 | s107 => DD x3 x11 | s108 => DD x3 x12 | s109 => DD x3 x13 | s110 => DD x3 x14 | s111 => DD x3 x15 | s112 => DD x3 x16 | s113 => DD x3 x17 | s114 => DD x3 x18 | s115 => DD x3 x19 | s116 => DD x3 x20 | s117 => DD x3 x21 | s118 => DD x3 x22 | s119 => DD x3 x23 | s120 => DD x3 x24 | s121 => DD x3 x25 | s122 => DD x3 x26 | s123 => DD x3 x27 | s124 => DD x3 x28 | s125 => DD x3 x29 | s126 => DD x3 x30 end.
Definition m98 (c : sum2) : dd := match c with s0 => DD x1 x34 | s1 => DD x1 x35 | s2 => DD x1 x36 | s3 => DD x1 x37 | s4 => DD x1 x38 | s5 => DD x1 x39 | s6 => DD x1 x40 | s7 => DD x1 x41 | s8 => DD x1 x42 | s9 => DD x1 x43 | s10 => DD x1 x44 | s11 => DD x1 x45 | s12 => DD x1 x46 | s13 => DD x1 x47 | s14 => DD x1 x48 | s15 => DD x1 x49 | s16 => DD x1 x50 | s17 => DD x1 x51 | s18 => DD x1 x52 | s19 => DD x1 x53 | s20 => DD x1 x54 | s21 => DD x1 x55 | s22 => DD x1 x56 | s23 => DD x1 x57 | s24 => DD x1 x58 | s25 => DD x1 x59 | s26 => DD x1 x60 | s27 => DD x1 x61 | s28 => DD x1 x62 | s29 => DD x1 x63 | s30 => DD x2 x0 | s31 => DD x2 x1 | s32 => DD x2 x2 | s33 => DD x2 x3 | s34 => DD x2 x4 | s35 => DD x2 x5 | s36 => DD x2 x6 | s37 => DD x2 x7 | s38 => DD x2 x8 | s39 => DD x2 x9 | s40 => DD x2 x10 | s41 => DD x2 x11 | s42 => DD x2 x12 | s43 => DD x2 x13 | s44 => DD x2 x14 | s45 => DD x2 x15 | s46 => DD x2 x16 | s47 => DD x2 x17 | s48 => DD x2 x18 | s49 => DD x2 x19 | s50 => DD x2 x20 | s51 => DD x2 x21 | s52 => DD x2 x22 | s53 => DD x2 x23 | s54 => DD x2 x24 | s55 => DD x2 x25 | s56 => DD x2 x26 | s57 => DD x2 x27 | s58 => DD x2 x28 | s59 => DD x2 x29 | s60 => DD x2 x30 | s61 => DD x2 x31 | s62 => DD x2 x32 | s63 => DD x2 x33 | s64 => DD x2 x34 | s65 => DD x2 x35 | s66 => DD x2 x36 | s67 => DD x2 x37 | s68 => DD x2 x38 | s69 => DD x2 x39 | s70 => DD x2 x40 | s71 => DD x2 x41 | s72 => DD x2 x42 | s73 => DD x2 x43 | s74 => DD x2 x44 | s75 => DD x2 x45 | s76 => DD x2 x46 | s77 => DD x2 x47 | s78 => DD x2 x48 | s79 => DD x2 x49 | s80 => DD x2 x50 | s81 => DD x2 x51 | s82 => DD x2 x52 | s83 => DD x2 x53 | s84 => DD x2 x54 | s85 => DD x2 x55 | s86 => DD x2 x56 | s87 => DD x2 x57 | s88 => DD x2 x58 | s89 => DD x2 x59 | s90 => DD x2 x60 | s91 => DD x2 x61 | s92 => DD x2 x62 | s93 => DD x2 x63 | s94 => DD x3 x0 | s95 => DD x3 x1 | s96 => DD x3 x2 | s97 => DD x3 x3 | s98 => DD x3 x4 | s99 => DD x3 x5 | s100 => DD x3 x6 | s101 => DD x3 x7 | s102 => DD x3 x8 | s103 => DD x3 x9 | s104 => DD x3 x10 | s105 => DD x3 x11 | s106 => DD x3 x12 | s107 => DD x3 x13 | s108 => DD x3 x14 | s109 => DD x3 x15 | s110 => DD x3 x16 | s111 => DD x3 x17 | s112 => DD x3 x18 | s113 => DD x3 x19 | s114 => DD x3 x20 | s115 => DD x3 x21 | s116 => DD x3 x22 | s117 => DD x3 x23 | s118 => DD x3 x24 | s119 => DD x3 x25 | s120 => DD x3 x26 | s121 => DD x3 x27 | s122 => DD x3 x28 | s123 => DD x3 x29 | s124 => DD x3 x30 | s125 => DD x3 x31 | s126 => DD x3 x32 end.
Definition m99 (c : sum2) : dd := match c with s0 => DD x1 x35 | s1 => DD x1 x36 | s2 => DD x1 x37 | s3 => DD x1 x38 | s4 => DD x1 x39 | s5 => DD x1 x40 | s6 => DD x1 x41 | s7 => DD x1 x42 | s8 => DD x1 x43 | s9 => DD x1 x44 | s10 => DD x1 x45 | s11 => DD x1 x46 | s12 => DD x1 x47 | s13 => DD x1 x48 | s14 => DD x1 x49 | s15 => DD x1 x50 | s16 => DD x1 x51 | s17 => DD x1 x52 | s18 => DD x1 x53 | s19 => DD x1 x54 | s20 => DD x1 x55 | s21 => DD x1 x56 | s22 => DD x1 x57 | s23 => DD x1 x58 | s24 => DD x1 x59 | s25 => DD x1 x60 | s26 => DD x1 x61 | s27 => DD x1 x62 | s28 => DD x1 x63 | s29 => DD x2 x0 | s30 => DD x2 x1 | s31 => DD x2 x2 | s32 => DD x2 x3 | s33 => DD x2 x4 | s34 => DD x2 x5 | s35 => DD x2 x6 | s36 => DD x2 x7 | s37 => DD x2 x8 | s38 => DD x2 x9 | s39 => DD x2 x10 | s40 => DD x2 x11 | s41 => DD x2 x12 | s42 => DD x2 x13 | s43 => DD x2 x14 | s44 => DD x2 x15 | s45 => DD x2 x16 | s46 => DD x2 x17 | s47 => DD x2 x18 | s48 => DD x2 x19 | s49 => DD x2 x20 | s50 => DD x2 x21 | s51 => DD x2 x22 | s52 => DD x2 x23 | s53 => DD x2 x24 | s54 => DD x2 x25 | s55 => DD x2 x26 | s56 => DD x2 x27 | s57 => DD x2 x28 | s58 => DD x2 x29 | s59 => DD x2 x30 | s60 => DD x2 x31 | s61 => DD x2 x32 | s62 => DD x2 x33 | s63 => DD x2 x34 | s64 => DD x2 x35 | s65 => DD x2 x36 | s66 => DD x2 x37 | s67 => DD x2 x38 | s68 => DD x2 x39 | s69 => DD x2 x40 | s70 => DD x2 x41 | s71 => DD x2 x42 | s72 => DD x2 x43 | s73 => DD x2 x44 | s74 => DD x2 x45 | s75 => DD x2 x46 | s76 => DD x2 x47 | s77 => DD x2 x48 | s78 => DD x2 x49 | s79 => DD x2 x50 | s80 => DD x2 x51 | s81 => DD x2 x52 | s82 => DD x2 x53 | s83 => DD x2 x54 | s84 => DD x2 x55 | s85 => DD x2 x56 | s86 => DD x2 x57 | s87 => DD x2 x58 | s88 => DD x2 x59 | s89 => DD x2 x60 | s90 => DD x2 x61 | s91 => DD x2 x62 | s92 => DD x2 x63 | s93 => DD x3 x0 | s94 => DD x3 x1 | s95 => DD x3 x2 | s96 => DD x3 x3 | s97 => DD x3 x4 | s98 => DD x3 x5 | s99 => DD x3 x6 | s100 => DD x3 x7 | s101 => DD x3 x8 | s102 => DD x3 x9 | s103 => DD x3 x10 | s104 => DD x3 x11 | s105 => DD x3 x12 | s106 => DD x3 x13 | s107 => DD x3 x14 | s108 => DD x3 x15 | s109 => DD x3 x16 | s110 => DD x3 x17 | s111 => DD x3 x18 | s112 => DD x3 x19 | s113 => DD x3 x20 | s114 => DD x3 x21 | s115 => DD x3 x22 | s116 => DD x3 x23 | s117 => DD x3 x24 | s118 => DD x3 x25 | s119 => DD x3 x26 | s120 => DD x3 x27 | s121 => DD x3 x28 | s122 => DD x3 x29 | s123 => DD x3 x30 | s124 => DD x3 x31 | s125 => DD x3 x32 | s126 => DD x3 x33 end.
Definition m100 (c : sum2) : dd := match c with s0 => DD x1 x36 | s1 => DD x1 x37 | s2 => DD x1 x38 | s3 => DD x1 x39 | s4 => DD x1 x40 | s5 => DD x1 x41 | s6 => DD x1 x42 | s7 => DD x1 x43 | s8 => DD x1 x44 | s9 => DD x1 x45 | s10 => DD x1 x46 | s11 => DD x1 x47 | s12 => DD x1 x48 | s13 => DD x1 x49 | s14 => DD x1 x50 | s15 => DD x1 x51 | s16 => DD x1 x52 | s17 => DD x1 x53 | s18 => DD x1 x54 | s19 => DD x1 x55 | s20 => DD x1 x56 | s21 => DD x1 x57 | s22 => DD x1 x58 | s23 => DD x1 x59 | s24 => DD x1 x60 | s25 => DD x1 x61 | s26 => DD x1 x62 | s27 => DD x1 x63 | s28 => DD x2 x0 | s29 => DD x2 x1 | s30 => DD x2 x2 | s31 => DD x2 x3 | s32 => DD x2 x4 | s33 => DD x2 x5 | s34 => DD x2 x6 | s35 => DD x2 x7 | s36 => DD x2 x8 | s37 => DD x2 x9 | s38 => DD x2 x10 | s39 => DD x2 x11 | s40 => DD x2 x12 | s41 => DD x2 x13 | s42 => DD x2 x14 | s43 => DD x2 x15 | s44 => DD x2 x16 | s45 => DD x2 x17 | s46 => DD x2 x18 | s47 => DD x2 x19 | s48 => DD x2 x20 | s49 => DD x2 x21 | s50 => DD x2 x22 | s51 => DD x2 x23 | s52 => DD x2 x24 | s53 => DD x2 x25 | s54 => DD x2 x26 | s55 => DD x2 x27 | s56 => DD x2 x28 | s57 => DD x2 x29 | s58 => DD x2 x30 | s59 => DD x2 x31 | s60 => DD x2 x32 | s61 => DD x2 x33 | s62 => DD x2 x34 | s63 => DD x2 x35 | s64 => DD x2 x36 | s65 => DD x2 x37 | s66 => DD x2 x38 | s67 => DD x2 x39 | s68 => DD x2 x40 | s69 => DD x2 x41 | s70 => DD x2 x42 | s71 => DD x2 x43 | s72 => DD x2 x44 | s73 => DD x2 x45 | s74 => DD x2 x46 | s75 => DD x2 x47 | s76 => DD x2 x48 | s77 => DD x2 x49 | s78 => DD x2 x50 | s79 => DD x2 x51 | s80 => DD x2 x52 | s81 => DD x2 x53 | s82 => DD x2 x54 | s83 => DD x2 x55 | s84 => DD x2 x56 | s85 => DD x2 x57 | s86 => DD x2 x58 | s87 => DD x2 x59 | s88 => DD x2 x60 | s89 => DD x2 x61 | s90 => DD x2 x62 | s91 => DD x2 x63 | s92 => DD x3 x0 | s93 => DD x3 x1 | s94 => DD x3 x2 | s95 => DD x3 x3 | s96 => DD x3 x4 | s97 => DD x3 x5 | s98 => DD x3 x6 | s99 => DD x3 x7 | s100 => DD x3 x8 | s101 => DD x3 x9 | s102 => DD x3 x10 | s103 => DD x3 x11 | s104 => DD x3 x12 | s105 => DD x3 x13 | s106 => DD x3 x14 | s107 => DD x3 x15 | s108 => DD x3 x16 | s109 => DD x3 x17 | s110 => DD x3 x18 | s111 => DD x3 x19 | s112 => DD x3 x20 | s113 => DD x3 x21 | s114 => DD x3 x22 | s115 => DD x3 x23 | s116 => DD x3 x24 | s117 => DD x3 x25 | s118 => DD x3 x26 | s119 => DD x3 x27 | s120 => DD x3 x28 | s121 => DD x3 x29 | s122 => DD x3 x30 | s123 => DD x3 x31 | s124 => DD x3 x32 | s125 => DD x3 x33 | s126 => DD x3 x34 end.
Definition m102 (c : sum2) : dd := match c with s0 => DD x1 x38 | s1 => DD x1 x39 | s2 => DD x1 x40 | s3 => DD x1 x41 | s4 => DD x1 x42 | s5 => DD x1 x43 | s6 => DD x1 x44 | s7 => DD x1 x45 | s8 => DD x1 x46 | s9 => DD x1 x47 | s10 => DD x1 x48 | s11 => DD x1 x49 | s12 => DD x1 x50 | s13 => DD x1 x51 | s14 => DD x1 x52 | s15 => DD x1 x53 | s16 => DD x1 x54 | s17 => DD x1 x55 | s18 => DD x1 x56 | s19 => DD x1 x57 | s20 => DD x1 x58 | s21 => DD x1 x59 | s22 => DD x1 x60 | s23 => DD x1 x61 | s24 => DD x1 x62 | s25 => DD x1 x63 | s26 => DD x2 x0 | s27 => DD x2 x1 | s28 => DD x2 x2 | s29 => DD x2 x3 | s30 => DD x2 x4 | s31 => DD x2 x5 | s32 => DD x2 x6 | s33 => DD x2 x7 | s34 => DD x2 x8 | s35 => DD x2 x9 | s36 => DD x2 x10 | s37 => DD x2 x11 | s38 => DD x2 x12 | s39 => DD x2 x13 | s40 => DD x2 x14 | s41 => DD x2 x15 | s42 => DD x2 x16 | s43 => DD x2 x17 | s44 => DD x2 x18 | s45 => DD x2 x19 | s46 => DD x2 x20 | s47 => DD x2 x21 | s48 => DD x2 x22 | s49 => DD x2 x23 | s50 => DD x2 x24 | s51 => DD x2 x25 | s52 => DD x2 x26 | s53 => DD x2 x27 | s54 => DD x2 x28 | s55 => DD x2 x29 | s56 => DD x2 x30 | s57 => DD x2 x31 | s58 => DD x2 x32 | s59 => DD x2 x33 | s60 => DD x2 x34 | s61 => DD x2 x35 | s62 => DD x2 x36 | s63 => DD x2 x37 | s64 => DD x2 x38 | s65 => DD x2 x39 | s66 => DD x2 x40 | s67 => DD x2 x41 | s68 => DD x2 x42 | s69 => DD x2 x43 | s70 => DD x2 x44 | s71 => DD x2 x45 | s72 => DD x2 x46 | s73 => DD x2 x47 | s74 => DD x2 x48 | s75 => DD x2 x49 | s76 => DD x2 x50 | s77 => DD x2 x51 | s78 => DD x2 x52 | s79 => DD x2 x53 | s80 => DD x2 x54 | s81 => DD x2 x55 | s82 => DD x2 x56 | s83 => DD x2 x57 | s84 => DD x2 x58 | s85 => DD x2 x59 | s86 => DD x2 x60 | s87 => DD x2 x61 | s88 => DD x2 x62 | s89 => DD x2 x63 | s90 => DD x3 x0 | s91 => DD x3 x1 | s92 => DD x3 x2 | s93 => DD x3 x3 | s94 => DD x3 x4 | s95 => DD x3 x5 | s96 => DD x3 x6 | s97 => DD x3 x7 | s98 => DD x3 x8 | s99 => DD x3 x9 | s100 => DD x3 x10 | s101 => DD x3 x11 | s102 => DD x3 x12 | s103 => DD x3 x13 | s104 => DD x3 x14 | s105 => DD x3 x15 | s106 => DD x3 x16 | s107 => DD x3 x17 | s108 => DD x3 x18 | s109 => DD x3 x19 | s110 => DD x3 x20 | s111 => DD x3 x21 | s112 => DD x3 x22 | s113 => DD x3 x23 | s114 => DD x3 x24 | s115 => DD x3 x25 | s116 => DD x3 x26 | s117 => DD x3 x27 | s118 => DD x3 x28 | s119 => DD x3 x29 | s120 => DD x3 x30 | s121 => DD x3 x31 | s122 => DD x3 x32 | s123 => DD x3 x33 | s124 => DD x3 x34 | s125 => DD x3 x35 | s126 => DD x3 x36 end.
Definition m104 (c : sum2) : dd := match c with s0 => DD x1 x40 | s1 => DD x1 x41 | s2 => DD x1 x42 | s3 => DD x1 x43 | s4 => DD x1 x44 | s5 => DD x1 x45 | s6 => DD x1 x46 | s7 => DD x1 x47 | s8 => DD x1 x48 | s9 => DD x1 x49 | s10 => DD x1 x50 | s11 => DD x1 x51 | s12 => DD x1 x52 | s13 => DD x1 x53 | s14 => DD x1 x54 | s15 => DD x1 x55 | s16 => DD x1 x56 | s17 => DD x1 x57 | s18 => DD x1 x58 | s19 => DD x1 x59 | s20 => DD x1 x60 | s21 => DD x1 x61 | s22 => DD x1 x62 | s23 => DD x1 x63 | s24 => DD x2 x0 | s25 => DD x2 x1 | s26 => DD x2 x2 | s27 => DD x2 x3 | s28 => DD x2 x4 | s29 => DD x2 x5 | s30 => DD x2 x6 | s31 => DD x2 x7 | s32 => DD x2 x8 | s33 => DD x2 x9 | s34 => DD x2 x10 | s35 => DD x2 x11 | s36 => DD x2 x12 | s37 => DD x2 x13 | s38 => DD x2 x14 | s39 => DD x2 x15 | s40 => DD x2 x16 | s41 => DD x2 x17 | s42 => DD x2 x18 | s43 => DD x2 x19 | s44 => DD x2 x20 | s45 => DD x2 x21 | s46 => DD x2 x22 | s47 => DD x2 x23 | s48 => DD x2 x24 | s49 => DD x2 x25 | s50 => DD x2 x26 | s51 => DD x2 x27 | s52 => DD x2 x28 | s53 => DD x2 x29 | s54 => DD x2 x30 | s55 => DD x2 x31 | s56 => DD x2 x32 | s57 => DD x2 x33 | s58 => DD x2 x34 | s59 => DD x2 x35 | s60 => DD x2 x36 | s61 => DD x2 x37 | s62 => DD x2 x38 | s63 => DD x2 x39 | s64 => DD x2 x40 | s65 => DD x2 x41 | s66 => DD x2 x42 | s67 => DD x2 x43 | s68 => DD x2 x44 | s69 => DD x2 x45 | s70 => DD x2 x46 | s71 => DD x2 x47 | s72 => DD x2 x48 | s73 => DD x2 x49 | s74 => DD x2 x50 | s75 => DD x2 x51 | s76 => DD x2 x52 | s77 => DD x2 x53 | s78 => DD x2 x54 | s79 => DD x2 x55 | s80 => DD x2 x56 | s81 => DD x2 x57 | s82 => DD x2 x58 | s83 => DD x2 x59 | s84 => DD x2 x60 | s85 => DD x2 x61 | s86 => DD x2 x62 | s87 => DD x2 x63 | s88 => DD x3 x0 | s89 => DD x3 x1 | s90 => DD x3 x2 | s91 => DD x3 x3 | s92 => DD x3 x4 | s93 => DD x3 x5 | s94 => DD x3 x6 | s95 => DD x3 x7 | s96 => DD x3 x8 | s97 => DD x3 x9 | s98 => DD x3 x10 | s99 => DD x3 x11 | s100 => DD x3 x12 | s101 => DD x3 x13 | s102 => DD x3 x14 | s103 => DD x3 x15 | s104 => DD x3 x16 | s105 => DD x3 x17 | s106 => DD x3 x18 | s107 => DD x3 x19 | s108 => DD x3 x20 | s109 => DD x3 x21 | s110 => DD x3 x22 | s111 => DD x3 x23 | s112 => DD x3 x24 | s113 => DD x3 x25 | s114 => DD x3 x26 | s115 => DD x3 x27 | s116 => DD x3 x28 | s117 => DD x3 x29 | s118 => DD x3 x30 | s119 => DD x3 x31 | s120 => DD x3 x32 | s121 => DD x3 x33 | s122 => DD x3 x34 | s123 => DD x3 x35 | s124 => DD x3 x36 | s125 => DD x3 x37 | s126 => DD x3 x38 end.
Definition m105 (c : sum2) : dd := match c with s0 => DD x1 x41 | s1 => DD x1 x42 | s2 => DD x1 x43 | s3 => DD x1 x44 | s4 => DD x1 x45 | s5 => DD x1 x46 | s6 => DD x1 x47 | s7 => DD x1 x48 | s8 => DD x1 x49 | s9 => DD x1 x50 | s10 => DD x1 x51 | s11 => DD x1 x52 | s12 => DD x1 x53 | s13 => DD x1 x54 | s14 => DD x1 x55 | s15 => DD x1 x56 | s16 => DD x1 x57 | s17 => DD x1 x58 | s18 => DD x1 x59 | s19 => DD x1 x60 | s20 => DD x1 x61 | s21 => DD x1 x62 | s22 => DD x1 x63 | s23 => DD x2 x0 | s24 => DD x2 x1 | s25 => DD x2 x2 | s26 => DD x2 x3 | s27 => DD x2 x4 | s28 => DD x2 x5 | s29 => DD x2 x6 | s30 => DD x2 x7 | s31 => DD x2 x8 | s32 => DD x2 x9 | s33 => DD x2 x10 | s34 => DD x2 x11 | s35 => DD x2 x12 | s36 => DD x2 x13 | s37 => DD x2 x14 | s38 => DD x2 x15 | s39 => DD x2 x16 | s40 => DD x2 x17 | s41 => DD x2 x18 | s42 => DD x2 x19 | s43 => DD x2 x20 | s44 => DD x2 x21 | s45 => DD x2 x22 | s46 => DD x2 x23 | s47 => DD x2 x24 | s48 => DD x2 x25 | s49 => DD x2 x26 | s50 => DD x2 x27 | s51 => DD x2 x28 | s52 => DD x2 x29 | s53 => DD x2 x30 | s54 => DD x2 x31 | s55 => DD x2 x32 | s56 => DD x2 x33 | s57 => DD x2 x34 | s58 => DD x2 x35 | s59 => DD x2 x36 | s60 => DD x2 x37 | s61 => DD x2 x38 | s62 => DD x2 x39 | s63 => DD x2 x40 | s64 => DD x2 x41 | s65 => DD x2 x42 | s66 => DD x2 x43 | s67 => DD x2 x44 | s68 => DD x2 x45 | s69 => DD x2 x46 | s70 => DD x2 x47 | s71 => DD x2 x48 | s72 => DD x2 x49 | s73 => DD x2 x50 | s74 => DD x2 x51 | s75 => DD x2 x52 | s76 => DD x2 x53 | s77 => DD x2 x54 | s78 => DD x2 x55 | s79 => DD x2 x56 | s80 => DD x2 x57 | s81 => DD x2 x58 | s82 => DD x2 x59 | s83 => DD x2 x60 | s84 => DD x2 x61 | s85 => DD x2 x62 | s86 => DD x2 x63 | s87 => DD x3 x0 | s88 => DD x3 x1 | s89 => DD x3 x2 | s90 => DD x3 x3 | s91 => DD x3 x4 | s92 => DD x3 x5 | s93 => DD x3 x6 | s94 => DD x3 x7 | s95 => DD x3 x8 | s96 => DD x3 x9 | s97 => DD x3 x10 | s98 => DD x3 x11 | s99 => DD x3 x12 | s100 => DD x3 x13 | s101 => DD x3 x14 | s102 => DD x3 x15 | s103 => DD x3 x16 | s104 => DD x3 x17 | s105 => DD x3 x18 | s106 => DD x3 x19 | s107 => DD x3 x20 | s108 => DD x3 x21 | s109 => DD x3 x22 | s110 => DD x3 x23 | s111 => DD x3 x24 | s112 => DD x3 x25 | s113 => DD x3 x26 | s114 => DD x3 x27 | s115 => DD x3 x28 | s116 => DD x3 x29 | s117 => DD x3 x30 | s118 => DD x3 x31 | s119 => DD x3 x32 | s120 => DD x3 x33 | s121 => DD x3 x34 | s122 => DD x3 x35 | s123 => DD x3 x36 | s124 => DD x3 x37 | s125 => DD x3 x38 | s126 => DD x3 x39 end.
Definition m106 (c : sum2) : dd := match c with s0 => DD x1 x42 | s1 => DD x1 x43 | s2 => DD x1 x44 | s3 => DD x1 x45 | s4 => DD x1 x46 | s5 => DD x1 x47 | s6 => DD x1 x48 | s7 => DD x1 x49 | s8 => DD x1 x50 | s9 => DD x1 x51 | s10 => DD x1 x52 | s11 => DD x1 x53 | s12 => DD x1 x54 | s13 => DD x1 x55 | s14 => DD x1 x56 | s15 => DD x1 x57 | s16 => DD x1 x58 | s17 => DD x1 x59 | s18 => DD x1 x60 | s19 => DD x1 x61 | s20 => DD x1 x62 | s21 => DD x1 x63 | s22 => DD x2 x0 | s23 => DD x2 x1 | s24 => DD x2 x2 | s25 => DD x2 x3 | s26 => DD x2 x4 | s27 => DD x2 x5 | s28 => DD x2 x6 | s29 => DD x2 x7 | s30 => DD x2 x8 | s31 => DD x2 x9 | s32 => DD x2 x10 | s33 => DD x2 x11 | s34 => DD x2 x12 | s35 => DD x2 x13 | s36 => DD x2 x14 | s37 => DD x2 x15 | s38 => DD x2 x16 | s39 => DD x2 x17 | s40 => DD x2 x18 | s41 => DD x2 x19 | s42 => DD x2 x20 | s43 => DD x2 x21 | s44 => DD x2 x22 | s45 => DD x2 x23 | s46 => DD x2 x24 | s47 => DD x2 x25 | s48 => DD x2 x26 | s49 => DD x2 x27 | s50 => DD x2 x28 | s51 => DD x2 x29 | s52 => DD x2 x30 | s53 => DD x2 x31 | s54 => DD x2 x32 | s55 => DD x2 x33 | s56 => DD x2 x34 | s57 => DD x2 x35 | s58 => DD x2 x36 | s59 => DD x2 x37 | s60 => DD x2 x38 | s61 => DD x2 x39 | s62 => DD x2 x40 | s63 => DD x2 x41 | s64 => DD x2 x42 | s65 => DD x2 x43 | s66 => DD x2 x44 | s67 => DD x2 x45 | s68 => DD x2 x46 | s69 => DD x2 x47 | s70 => DD x2 x48 | s71 => DD x2 x49 | s72 => DD x2 x50 | s73 => DD x2 x51 | s74 => DD x2 x52 | s75 => DD x2 x53 | s76 => DD x2 x54 | s77 => DD x2 x55 | s78 => DD x2 x56 | s79 => DD x2 x57 | s80 => DD x2 x58 | s81 => DD x2 x59 | s82 => DD x2 x60 | s83 => DD x2 x61 | s84 => DD x2 x62 | s85 => DD x2 x63 | s86 => DD x3 x0 | s87 => DD x3 x1 | s88 => DD x3 x2 | s89 => DD x3 x3 | s90 => DD x3 x4 | s91 => DD x3 x5 | s92 => DD x3 x6 | s93 => DD x3 x7 | s94 => DD x3 x8 | s95 => DD x3 x9 | s96 => DD x3 x10 | s97 => DD x3 x11 | s98 => DD x3 x12 | s99 => DD x3 x13 | s100 => DD x3 x14 | s101 => DD x3 x15 | s102 => DD x3 x16 | s103 => DD x3 x17 | s104 => DD x3 x18 | s105 => DD x3 x19 | s106 => DD x3 x20 | s107 => DD x3 x21 | s108 => DD x3 x22 | s109 => DD x3 x23 | s110 => DD x3 x24 | s111 => DD x3 x25 | s112 => DD x3 x26 | s113 => DD x3 x27 | s114 => DD x3 x28 | s115 => DD x3 x29 | s116 => DD x3 x30 | s117 => DD x3 x31 | s118 => DD x3 x32 | s119 => DD x3 x33 | s120 => DD x3 x34 | s121 => DD x3 x35 | s122 => DD x3 x36 | s123 => DD x3 x37 | s124 => DD x3 x38 | s125 => DD x3 x39 | s126 => DD x3 x40 end.
Definition m108 (c : sum2) : dd := match c with s0 => DD x1 x44 | s1 => DD x1 x45 | s2 => DD x1 x46 | s3 => DD x1 x47 | s4 => DD x1 x48 | s5 => DD x1 x49 | s6 => DD x1 x50 | s7 => DD x1 x51 | s8 => DD x1 x52 | s9 => DD x1 x53 | s10 => DD x1 x54 | s11 => DD x1 x55 | s12 => DD x1 x56 | s13 => DD x1 x57 | s14 => DD x1 x58 | s15 => DD x1 x59 | s16 => DD x1 x60 | s17 => DD x1 x61 | s18 => DD x1 x62 | s19 => DD x1 x63 | s20 => DD x2 x0 | s21 => DD x2 x1 | s22 => DD x2 x2 | s23 => DD x2 x3 | s24 => DD x2 x4 | s25 => DD x2 x5 | s26 => DD x2 x6 | s27 => DD x2 x7 | s28 => DD x2 x8 | s29 => DD x2 x9 | s30 => DD x2 x10 | s31 => DD x2 x11 | s32 => DD x2 x12 | s33 => DD x2 x13 | s34 => DD x2 x14 | s35 => DD x2 x15 | s36 => DD x2 x16 | s37 => DD x2 x17 | s38 => DD x2 x18 | s39 => DD x2 x19 | s40 => DD x2 x20 | s41 => DD x2 x21 | s42 => DD x2 x22 | s43 => DD x2 x23 | s44 => DD x2 x24 | s45 => DD x2 x25 | s46 => DD x2 x26 | s47 => DD x2 x27 | s48 => DD x2 x28 | s49 => DD x2 x29 | s50 => DD x2 x30 | s51 => DD x2 x31 | s52 => DD x2 x32 | s53 => DD x2 x33 | s54 => DD x2 x34 | s55 => DD x2 x35 | s56 => DD x2 x36 | s57 => DD x2 x37 | s58 => DD x2 x38 | s59 => DD x2 x39 | s60 => DD x2 x40 | s61 => DD x2 x41 | s62 => DD x2 x42 | s63 => DD x2 x43 | s64 => DD x2 x44 | s65 => DD x2 x45 | s66 => DD x2 x46 | s67 => DD x2 x47 | s68 => DD x2 x48 | s69 => DD x2 x49 | s70 => DD x2 x50 | s71 => DD x2 x51 | s72 => DD x2 x52 | s73 => DD x2 x53 | s74 => DD x2 x54 | s75 => DD x2 x55 | s76 => DD x2 x56 | s77 => DD x2 x57 | s78 => DD x2 x58 | s79 => DD x2 x59 | s80 => DD x2 x60 | s81 => DD x2 x61 | s82 => DD x2 x62 | s83 => DD x2 x63 | s84 => DD x3 x0 | s85 => DD x3 x1 | s86 => DD x3 x2 | s87 => DD x3 x3 | s88 => DD x3 x4 | s89 => DD x3 x5 | s90 => DD x3 x6 | s91 => DD x3 x7 | s92 => DD x3 x8 | s93 => DD x3 x9 | s94 => DD x3 x10 | s95 => DD x3 x11 | s96 => DD x3 x12 | s97 => DD x3 x13 | s98 => DD x3 x14 | s99 => DD x3 x15 | s100 => DD x3 x16 | s101 => DD x3 x17 | s102 => DD x3 x18 | s103 => DD x3 x19 | s104 => DD x3 x20 | s105 => DD x3 x21 | s106 => DD x3 x22 | s107 => DD x3 x23 | s108 => DD x3 x24 | s109 => DD x3 x25 | s110 => DD x3 x26 | s111 => DD x3 x27 | s112 => DD x3 x28 | s113 => DD x3 x29 | s114 => DD x3 x30 | s115 => DD x3 x31 | s116 => DD x3 x32 | s117 => DD x3 x33 | s118 => DD x3 x34 | s119 => DD x3 x35 | s120 => DD x3 x36 | s121 => DD x3 x37 | s122 => DD x3 x38 | s123 => DD x3 x39 | s124 => DD x3 x40 | s125 => DD x3 x41 | s126 => DD x3 x42 end.
Definition m110 (c : sum2) : dd := match c with s0 => DD x1 x46 | s1 => DD x1 x47 | s2 => DD x1 x48 | s3 => DD x1 x49 | s4 => DD x1 x50 | s5 => DD x1 x51 | s6 => DD x1 x52 | s7 => DD x1 x53 | s8 => DD x1 x54 | s9 => DD x1 x55 | s10 => DD x1 x56 | s11 => DD x1 x57 | s12 => DD x1 x58 | s13 => DD x1 x59 | s14 => DD x1 x60 | s15 => DD x1 x61 | s16 => DD x1 x62 | s17 => DD x1 x63 | s18 => DD x2 x0 | s19 => DD x2 x1 | s20 => DD x2 x2 | s21 => DD x2 x3 | s22 => DD x2 x4 | s23 => DD x2 x5 | s24 => DD x2 x6 | s25 => DD x2 x7 | s26 => DD x2 x8 | s27 => DD x2 x9 | s28 => DD x2 x10 | s29 => DD x2 x11 | s30 => DD x2 x12 | s31 => DD x2 x13 | s32 => DD x2 x14 | s33 => DD x2 x15 | s34 => DD x2 x16 | s35 => DD x2 x17 | s36 => DD x2 x18 | s37 => DD x2 x19 | s38 => DD x2 x20 | s39 => DD x2 x21 | s40 => DD x2 x22 | s41 => DD x2 x23 | s42 => DD x2 x24 | s43 => DD x2 x25 | s44 => DD x2 x26 | s45 => DD x2 x27 | s46 => DD x2 x28 | s47 => DD x2 x29 | s48 => DD x2 x30 | s49 => DD x2 x31 | s50 => DD x2 x32 | s51 => DD x2 x33 | s52 => DD x2 x34 | s53 => DD x2 x35 | s54 => DD x2 x36 | s55 => DD x2 x37 | s56 => DD x2 x38 | s57 => DD x2 x39 | s58 => DD x2 x40 | s59 => DD x2 x41 | s60 => DD x2 x42 | s61 => DD x2 x43 | s62 => DD x2 x44 | s63 => DD x2 x45 | s64 => DD x2 x46 | s65 => DD x2 x47 | s66 => DD x2 x48 | s67 => DD x2 x49 | s68 => DD x2 x50 | s69 => DD x2 x51 | s70 => DD x2 x52 | s71 => DD x2 x53 | s72 => DD x2 x54 | s73 => DD x2 x55 | s74 => DD x2 x56 | s75 => DD x2 x57 | s76 => DD x2 x58 | s77 => DD x2 x59 | s78 => DD x2 x60 | s79 => DD x2 x61 | s80 => DD x2 x62 | s81 => DD x2 x63 | s82 => DD x3 x0 | s83 => DD x3 x1 | s84 => DD x3 x2 | s85 => DD x3 x3 | s86 => DD x3 x4 | s87 => DD x3 x5 | s88 => DD x3 x6 | s89 => DD x3 x7 | s90 => DD x3 x8 | s91 => DD x3 x9 | s92 => DD x3 x10 | s93 => DD x3 x11 | s94 => DD x3 x12 | s95 => DD x3 x13 | s96 => DD x3 x14 | s97 => DD x3 x15 | s98 => DD x3 x16 | s99 => DD x3 x17 | s100 => DD x3 x18 | s101 => DD x3 x19 | s102 => DD x3 x20 | s103 => DD x3 x21 | s104 => DD x3 x22 | s105 => DD x3 x23 | s106 => DD x3 x24 | s107 => DD x3 x25 | s108 => DD x3 x26 | s109 => DD x3 x27 | s110 => DD x3 x28 | s111 => DD x3 x29 | s112 => DD x3 x30 | s113 => DD x3 x31 | s114 => DD x3 x32 | s115 => DD x3 x33 | s116 => DD x3 x34 | s117 => DD x3 x35 | s118 => DD x3 x36 | s119 => DD x3 x37 | s120 => DD x3 x38 | s121 => DD x3 x39 | s122 => DD x3 x40 | s123 => DD x3 x41 | s124 => DD x3 x42 | s125 => DD x3 x43 | s126 => DD x3 x44 end.
Definition m111 (c : sum2) : dd := match c with s0 => DD x1 x47 | s1 => DD x1 x48 | s2 => DD x1 x49 | s3 => DD x1 x50 | s4 => DD x1 x51 | s5 => DD x1 x52 | s6 => DD x1 x53 | s7 => DD x1 x54 | s8 => DD x1 x55 | s9 => DD x1 x56 | s10 => DD x1 x57 | s11 => DD x1 x58 | s12 => DD x1 x59 | s13 => DD x1 x60 | s14 => DD x1 x61 | s15 => DD x1 x62 | s16 => DD x1 x63 | s17 => DD x2 x0 | s18 => DD x2 x1 | s19 => DD x2 x2 | s20 => DD x2 x3 | s21 => DD x2 x4 | s22 => DD x2 x5 | s23 => DD x2 x6 | s24 => DD x2 x7 | s25 => DD x2 x8 | s26 => DD x2 x9 | s27 => DD x2 x10 | s28 => DD x2 x11 | s29 => DD x2 x12 | s30 => DD x2 x13 | s31 => DD x2 x14 | s32 => DD x2 x15 | s33 => DD x2 x16 | s34 => DD x2 x17 | s35 => DD x2 x18 | s36 => DD x2 x19 | s37 => DD x2 x20 | s38 => DD x2 x21 | s39 => DD x2 x22 | s40 => DD x2 x23 | s41 => DD x2 x24 | s42 => DD x2 x25 | s43 => DD x2 x26 | s44 => DD x2 x27 | s45 => DD x2 x28 | s46 => DD x2 x29 | s47 => DD x2 x30 | s48 => DD x2 x31 | s49 => DD x2 x32 | s50 => DD x2 x33 | s51 => DD x2 x34 | s52 => DD x2 x35 | s53 => DD x2 x36 | s54 => DD x2 x37 | s55 => DD x2 x38 | s56 => DD x2 x39 | s57 => DD x2 x40 | s58 => DD x2 x41 | s59 => DD x2 x42 | s60 => DD x2 x43 | s61 => DD x2 x44 | s62 => DD x2 x45 | s63 => DD x2 x46 | s64 => DD x2 x47 | s65 => DD x2 x48 | s66 => DD x2 x49 | s67 => DD x2 x50 | s68 => DD x2 x51 | s69 => DD x2 x52 | s70 => DD x2 x53 | s71 => DD x2 x54 | s72 => DD x2 x55 | s73 => DD x2 x56 | s74 => DD x2 x57 | s75 => DD x2 x58 | s76 => DD x2 x59 | s77 => DD x2 x60 | s78 => DD x2 x61 | s79 => DD x2 x62 | s80 => DD x2 x63 | s81 => DD x3 x0 | s82 => DD x3 x1 | s83 => DD x3 x2 | s84 => DD x3 x3 | s85 => DD x3 x4 | s86 => DD x3 x5 | s87 => DD x3 x6 | s88 => DD x3 x7 | s89 => DD x3 x8 | s90 => DD x3 x9 | s91 => DD x3 x10 | s92 => DD x3 x11 | s93 => DD x3 x12 | s94 => DD x3 x13 | s95 => DD x3 x14 | s96 => DD x3 x15 | s97 => DD x3 x16 | s98 => DD x3 x17 | s99 => DD x3 x18 | s100 => DD x3 x19 | s101 => DD x3 x20 | s102 => DD x3 x21 | s103 => DD x3 x22 | s104 => DD x3 x23 | s105 => DD x3 x24 | s106 => DD x3 x25 | s107 => DD x3 x26 | s108 => DD x3 x27 | s109 => DD x3 x28 | s110 => DD x3 x29 | s111 => DD x3 x30 | s112 => DD x3 x31 | s113 => DD x3 x32 | s114 => DD x3 x33 | s115 => DD x3 x34 | s116 => DD x3 x35 | s117 => DD x3 x36 | s118 => DD x3 x37 | s119 => DD x3 x38 | s120 => DD x3 x39 | s121 => DD x3 x40 | s122 => DD x3 x41 | s123 => DD x3 x42 | s124 => DD x3 x43 | s125 => DD x3 x44 | s126 => DD x3 x45 end.
Definition m112 (c : sum2) : dd := match c with s0 => DD x1 x48 | s1 => DD x1 x49 | s2 => DD x1 x50 | s3 => DD x1 x51 | s4 => DD x1 x52 | s5 => DD x1 x53 | s6 => DD x1 x54 | s7 => DD x1 x55 | s8 => DD x1 x56 | s9 => DD x1 x57 | s10 => DD x1 x58 | s11 => DD x1 x59 | s12 => DD x1 x60 | s13 => DD x1 x61 | s14 => DD x1 x62 | s15 => DD x1 x63 | s16 => DD x2 x0 | s17 => DD x2 x1 | s18 => DD x2 x2 | s19 => DD x2 x3 | s20 => DD x2 x4 | s21 => DD x2 x5 | s22 => DD x2 x6 | s23 => DD x2 x7 | s24 => DD x2 x8 | s25 => DD x2 x9 | s26 => DD x2 x10 | s27 => DD x2 x11 | s28 => DD x2 x12 | s29 => DD x2 x13 | s30 => DD x2 x14 | s31 => DD x2 x15 | s32 => DD x2 x16 | s33 => DD x2 x17 | s34 => DD x2 x18 | s35 => DD x2 x19 | s36 => DD x2 x20 | s37 => DD x2 x21 | s38 => DD x2 x22 | s39 => DD x2 x23 | s40 => DD x2 x24 | s41 => DD x2 x25 | s42 => DD x2 x26 | s43 => DD x2 x27 | s44 => DD x2 x28 | s45 => DD x2 x29 | s46 => DD x2 x30 | s47 => DD x2 x31 | s48 => DD x2 x32 | s49 => DD x2 x33 | s50 => DD x2 x34 | s51 => DD x2 x35 | s52 => DD x2 x36 | s53 => DD x2 x37 | s54 => DD x2 x38 | s55 => DD x2 x39 | s56 => DD x2 x40 | s57 => DD x2 x41 | s58 => DD x2 x42 | s59 => DD x2 x43 | s60 => DD x2 x44 | s61 => DD x2 x45 | s62 => DD x2 x46 | s63 => DD x2 x47 | s64 => DD x2 x48 | s65 => DD x2 x49 | s66 => DD x2 x50 | s67 => DD x2 x51 | s68 => DD x2 x52 | s69 => DD x2 x53 | s70 => DD x2 x54 | s71 => DD x2 x55 | s72 => DD x2 x56 | s73 => DD x2 x57 | s74 => DD x2 x58 | s75 => DD x2 x59 | s76 => DD x2 x60 | s77 => DD x2 x61 | s78 => DD x2 x62 | s79 => DD x2 x63 | s80 => DD x3 x0 | s81 => DD x3 x1 | s82 => DD x3 x2 | s83 => DD x3 x3 | s84 => DD x3 x4 | s85 => DD x3 x5 | s86 => DD x3 x6 | s87 => DD x3 x7 | s88 => DD x3 x8 | s89 => DD x3 x9 | s90 => DD x3 x10 | s91 => DD x3 x11 | s92 => DD x3 x12 | s93 => DD x3 x13 | s94 => DD x3 x14 | s95 => DD x3 x15 | s96 => DD x3 x16 | s97 => DD x3 x17 | s98 => DD x3 x18 | s99 => DD x3 x19 | s100 => DD x3 x20 | s101 => DD x3 x21 | s102 => DD x3 x22 | s103 => DD x3 x23 | s104 => DD x3 x24 | s105 => DD x3 x25 | s106 => DD x3 x26 | s107 => DD x3 x27 | s108 => DD x3 x28 | s109 => DD x3 x29 | s110 => DD x3 x30 | s111 => DD x3 x31 | s112 => DD x3 x32 | s113 => DD x3 x33 | s114 => DD x3 x34 | s115 => DD x3 x35 | s116 => DD x3 x36 | s117 => DD x3 x37 | s118 => DD x3 x38 | s119 => DD x3 x39 | s120 => DD x3 x40 | s121 => DD x3 x41 | s122 => DD x3 x42 | s123 => DD x3 x43 | s124 => DD x3 x44 | s125 => DD x3 x45 | s126 => DD x3 x46 end.
Definition m114 (c : sum2) : dd := match c with s0 => DD x1 x50 | s1 => DD x1 x51 | s2 => DD x1 x52 | s3 => DD x1 x53 | s4 => DD x1 x54 | s5 => DD x1 x55 | s6 => DD x1 x56 | s7 => DD x1 x57 | s8 => DD x1 x58 | s9 => DD x1 x59 | s10 => DD x1 x60 | s11 => DD x1 x61 | s12 => DD x1 x62 | s13 => DD x1 x63 | s14 => DD x2 x0 | s15 => DD x2 x1 | s16 => DD x2 x2 | s17 => DD x2 x3 | s18 => DD x2 x4 | s19 => DD x2 x5 | s20 => DD x2 x6 | s21 => DD x2 x7 | s22 => DD x2 x8 | s23 => DD x2 x9 | s24 => DD x2 x10 | s25 => DD x2 x11 | s26 => DD x2 x12 | s27 => DD x2 x13 | s28 => DD x2 x14 | s29 => DD x2 x15 | s30 => DD x2 x16 | s31 => DD x2 x17 | s32 => DD x2 x18 | s33 => DD x2 x19 | s34 => DD x2 x20 | s35 => DD x2 x21 | s36 => DD x2 x22 | s37 => DD x2 x23 | s38 => DD x2 x24 | s39 => DD x2 x25 | s40 => DD x2 x26 | s41 => DD x2 x27 | s42 => DD x2 x28 | s43 => DD x2 x29 | s44 => DD x2 x30 | s45 => DD x2 x31 | s46 => DD x2 x32 | s47 => DD x2 x33 | s48 => DD x2 x34 | s49 => DD x2 x35 | s50 => DD x2 x36 | s51 => DD x2 x37 | s52 => DD x2 x38 | s53 => DD x2 x39 | s54 => DD x2 x40 | s55 => DD x2 x41 | s56 => DD x2 x42 | s57 => DD x2 x43 | s58 => DD x2 x44 | s59 => DD x2 x45 | s60 => DD x2 x46 | s61 => DD x2 x47 | s62 => DD x2 x48 | s63 => DD x2 x49 | s64 => DD x2 x50 | s65 => DD x2 x51 | s66 => DD x2 x52 | s67 => DD x2 x53 | s68 => DD x2 x54 | s69 => DD x2 x55 | s70 => DD x2 x56 | s71 => DD x2 x57 | s72 => DD x2 x58 | s73 => DD x2 x59 | s74 => DD x2 x60 | s75 => DD x2 x61 | s76 => DD x2 x62 | s77 => DD x2 x63 | s78 => DD x3 x0 | s79 => DD x3 x1 | s80 => DD x3 x2 | s81 => DD x3 x3 | s82 => DD x3 x4 | s83 => DD x3 x5 | s84 => DD x3 x6 | s85 => DD x3 x7 | s86 => DD x3 x8 | s87 => DD x3 x9 | s88 => DD x3 x10 | s89 => DD x3 x11 | s90 => DD x3 x12 | s91 => DD x3 x13 | s92 => DD x3 x14 | s93 => DD x3 x15 | s94 => DD x3 x16 | s95 => DD x3 x17 | s96 => DD x3 x18 | s97 => DD x3 x19 | s98 => DD x3 x20 | s99 => DD x3 x21 | s100 => DD x3 x22 | s101 => DD x3 x23 | s102 => DD x3 x24 | s103 => DD x3 x25 | s104 => DD x3 x26 | s105 => DD x3 x27 | s106 => DD x3 x28 | s107 => DD x3 x29 | s108 => DD x3 x30 | s109 => DD x3 x31 | s110 => DD x3 x32 | s111 => DD x3 x33 | s112 => DD x3 x34 | s113 => DD x3 x35 | s114 => DD x3 x36 | s115 => DD x3 x37 | s116 => DD x3 x38 | s117 => DD x3 x39 | s118 => DD x3 x40 | s119 => DD x3 x41 | s120 => DD x3 x42 | s121 => DD x3 x43 | s122 => DD x3 x44 | s123 => DD x3 x45 | s124 => DD x3 x46 | s125 => DD x3 x47 | s126 => DD x3 x48 end.
Definition m115 (c : sum2) : dd := match c with s0 => DD x1 x51 | s1 => DD x1 x52 | s2 => DD x1 x53 | s3 => DD x1 x54 | s4 => DD x1 x55 | s5 => DD x1 x56 | s6 => DD x1 x57 | s7 => DD x1 x58 | s8 => DD x1 x59 | s9 => DD x1 x60 | s10 => DD x1 x61 | s11 => DD x1 x62 | s12 => DD x1 x63 | s13 => DD x2 x0 | s14 => DD x2 x1 | s15 => DD x2 x2 | s16 => DD x2 x3 | s17 => DD x2 x4 | s18 => DD x2 x5 | s19 => DD x2 x6 | s20 => DD x2 x7 | s21 => DD x2 x8 | s22 => DD x2 x9 | s23 => DD x2 x10 | s24 => DD x2 x11 | s25 => DD x2 x12 | s26 => DD x2 x13 | s27 => DD x2 x14 | s28 => DD x2 x15 | s29 => DD x2 x16 | s30 => DD x2 x17 | s31 => DD x2 x18 | s32 => DD x2 x19 | s33 => DD x2 x20 | s34 => DD x2 x21 | s35 => DD x2 x22 | s36 => DD x2 x23 | s37 => DD x2 x24 | s38 => DD x2 x25 | s39 => DD x2 x26 | s40 => DD x2 x27 | s41 => DD x2 x28 | s42 => DD x2 x29 | s43 => DD x2 x30 | s44 => DD x2 x31 | s45 => DD x2 x32 | s46 => DD x2 x33 | s47 => DD x2 x34 | s48 => DD x2 x35 | s49 => DD x2 x36 | s50 => DD x2 x37 | s51 => DD x2 x38 | s52 => DD x2 x39 | s53 => DD x2 x40 | s54 => DD x2 x41 | s55 => DD x2 x42 | s56 => DD x2 x43 | s57 => DD x2 x44 | s58 => DD x2 x45 | s59 => DD x2 x46 | s60 => DD x2 x47 | s61 => DD x2 x48 | s62 => DD x2 x49 | s63 => DD x2 x50 | s64 => DD x2 x51 | s65 => DD x2 x52 | s66 => DD x2 x53 | s67 => DD x2 x54 | s68 => DD x2 x55 | s69 => DD x2 x56 | s70 => DD x2 x57 | s71 => DD x2 x58 | s72 => DD x2 x59 | s73 => DD x2 x60 | s74 => DD x2 x61 | s75 => DD x2 x62 | s76 => DD x2 x63 | s77 => DD x3 x0 | s78 => DD x3 x1 | s79 => DD x3 x2 | s80 => DD x3 x3 | s81 => DD x3 x4 | s82 => DD x3 x5 | s83 => DD x3 x6 | s84 => DD x3 x7 | s85 => DD x3 x8 | s86 => DD x3 x9 | s87 => DD x3 x10 | s88 => DD x3 x11 | s89 => DD x3 x12 | s90 => DD x3 x13 | s91 => DD x3 x14 | s92 => DD x3 x15 | s93 => DD x3 x16 | s94 => DD x3 x17 | s95 => DD x3 x18 | s96 => DD x3 x19 | s97 => DD x3 x20 | s98 => DD x3 x21 | s99 => DD x3 x22 | s100 => DD x3 x23 | s101 => DD x3 x24 | s102 => DD x3 x25 | s103 => DD x3 x26 | s104 => DD x3 x27 | s105 => DD x3 x28 | s106 => DD x3 x29 | s107 => DD x3 x30 | s108 => DD x3 x31 | s109 => DD x3 x32 | s110 => DD x3 x33 | s111 => DD x3 x34 | s112 => DD x3 x35 | s113 => DD x3 x36 | s114 => DD x3 x37 | s115 => DD x3 x38 | s116 => DD x3 x39 | s117 => DD x3 x40 | s118 => DD x3 x41 | s119 => DD x3 x42 | s120 => DD x3 x43 | s121 => DD x3 x44 | s122 => DD x3 x45 | s123 => DD x3 x46 | s124 => DD x3 x47 | s125 => DD x3 x48 | s126 => DD x3 x49 end.
Definition m116 (c : sum2) : dd := match c with s0 => DD x1 x52 | s1 => DD x1 x53 | s2 => DD x1 x54 | s3 => DD x1 x55 | s4 => DD x1 x56 | s5 => DD x1 x57 | s6 => DD x1 x58 | s7 => DD x1 x59 | s8 => DD x1 x60 | s9 => DD x1 x61 | s10 => DD x1 x62 | s11 => DD x1 x63 | s12 => DD x2 x0 | s13 => DD x2 x1 | s14 => DD x2 x2 | s15 => DD x2 x3 | s16 => DD x2 x4 | s17 => DD x2 x5 | s18 => DD x2 x6 | s19 => DD x2 x7 | s20 => DD x2 x8 | s21 => DD x2 x9 | s22 => DD x2 x10 | s23 => DD x2 x11 | s24 => DD x2 x12 | s25 => DD x2 x13 | s26 => DD x2 x14 | s27 => DD x2 x15 | s28 => DD x2 x16 | s29 => DD x2 x17 | s30 => DD x2 x18 | s31 => DD x2 x19 | s32 => DD x2 x20 | s33 => DD x2 x21 | s34 => DD x2 x22 | s35 => DD x2 x23 | s36 => DD x2 x24 | s37 => DD x2 x25 | s38 => DD x2 x26 | s39 => DD x2 x27 | s40 => DD x2 x28 | s41 => DD x2 x29 | s42 => DD x2 x30 | s43 => DD x2 x31 | s44 => DD x2 x32 | s45 => DD x2 x33 | s46 => DD x2 x34 | s47 => DD x2 x35 | s48 => DD x2 x36 | s49 => DD x2 x37 | s50 => DD x2 x38 | s51 => DD x2 x39 | s52 => DD x2 x40 | s53 => DD x2 x41 | s54 => DD x2 x42 | s55 => DD x2 x43 | s56 => DD x2 x44 | s57 => DD x2 x45 | s58 => DD x2 x46 | s59 => DD x2 x47 | s60 => DD x2 x48 | s61 => DD x2 x49 | s62 => DD x2 x50 | s63 => DD x2 x51 | s64 => DD x2 x52 | s65 => DD x2 x53 | s66 => DD x2 x54 | s67 => DD x2 x55 | s68 => DD x2 x56 | s69 => DD x2 x57 | s70 => DD x2 x58 | s71 => DD x2 x59 | s72 => DD x2 x60 | s73 => DD x2 x61 | s74 => DD x2 x62 | s75 => DD x2 x63 | s76 => DD x3 x0 | s77 => DD x3 x1 | s78 => DD x3 x2 | s79 => DD x3 x3 | s80 => DD x3 x4 | s81 => DD x3 x5 | s82 => DD x3 x6 | s83 => DD x3 x7 | s84 => DD x3 x8 | s85 => DD x3 x9 | s86 => DD x3 x10 | s87 => DD x3 x11 | s88 => DD x3 x12 | s89 => DD x3 x13 | s90 => DD x3 x14 | s91 => DD x3 x15 | s92 => DD x3 x16 | s93 => DD x3 x17 | s94 => DD x3 x18 | s95 => DD x3 x19 | s96 => DD x3 x20 | s97 => DD x3 x21 | s98 => DD x3 x22 | s99 => DD x3 x23 | s100 => DD x3 x24 | s101 => DD x3 x25 | s102 => DD x3 x26 | s103 => DD x3 x27 | s104 => DD x3 x28 | s105 => DD x3 x29 | s106 => DD x3 x30 | s107 => DD x3 x31 | s108 => DD x3 x32 | s109 => DD x3 x33 | s110 => DD x3 x34 | s111 => DD x3 x35 | s112 => DD x3 x36 | s113 => DD x3 x37 | s114 => DD x3 x38 | s115 => DD x3 x39 | s116 => DD x3 x40 | s117 => DD x3 x41 | s118 => DD x3 x42 | s119 => DD x3 x43 | s120 => DD x3 x44 | s121 => DD x3 x45 | s122 => DD x3 x46 | s123 => DD x3 x47 | s124 => DD x3 x48 | s125 => DD x3 x49 | s126 => DD x3 x50 end.
Definition m117 (c : sum2) : dd := match c with s0 => DD x1 x53 | s1 => DD x1 x54 | s2 => DD x1 x55 | s3 => DD x1 x56 | s4 => DD x1 x57 | s5 => DD x1 x58 | s6 => DD x1 x59 | s7 => DD x1 x60 | s8 => DD x1 x61 | s9 => DD x1 x62 | s10 => DD x1 x63 | s11 => DD x2 x0 | s12 => DD x2 x1 | s13 => DD x2 x2 | s14 => DD x2 x3 | s15 => DD x2 x4 | s16 => DD x2 x5 | s17 => DD x2 x6 | s18 => DD x2 x7 | s19 => DD x2 x8 | s20 => DD x2 x9 | s21 => DD x2 x10 | s22 => DD x2 x11 | s23 => DD x2 x12 | s24 => DD x2 x13 | s25 => DD x2 x14 | s26 => DD x2 x15 | s27 => DD x2 x16 | s28 => DD x2 x17 | s29 => DD x2 x18 | s30 => DD x2 x19 | s31 => DD x2 x20 | s32 => DD x2 x21 | s33 => DD x2 x22 | s34 => DD x2 x23 | s35 => DD x2 x24 | s36 => DD x2 x25 | s37 => DD x2 x26 | s38 => DD x2 x27 | s39 => DD x2 x28 | s40 => DD x2 x29 | s41 => DD x2 x30 | s42 => DD x2 x31 | s43 => DD x2 x32 | s44 => DD x2 x33 | s45 => DD x2 x34 | s46 => DD x2 x35 | s47 => DD x2 x36 | s48 => DD x2 x37 | s49 => DD x2 x38 | s50 => DD x2 x39 | s51 => DD x2 x40 | s52 => DD x2 x41 | s53 => DD x2 x42 | s54 => DD x2 x43 | s55 => DD x2 x44 | s56 => DD x2 x45 | s57 => DD x2 x46 | s58 => DD x2 x47 | s59 => DD x2 x48 | s60 => DD x2 x49 | s61 => DD x2 x50 | s62 => DD x2 x51 | s63 => DD x2 x52 | s64 => DD x2 x53 | s65 => DD x2 x54 | s66 => DD x2 x55 | s67 => DD x2 x56 | s68 => DD x2 x57 | s69 => DD x2 x58 | s70 => DD x2 x59 | s71 => DD x2 x60 | s72 => DD x2 x61 | s73 => DD x2 x62 | s74 => DD x2 x63 | s75 => DD x3 x0 | s76 => DD x3 x1 | s77 => DD x3 x2 | s78 => DD x3 x3 | s79 => DD x3 x4 | s80 => DD x3 x5 | s81 => DD x3 x6 | s82 => DD x3 x7 | s83 => DD x3 x8 | s84 => DD x3 x9 | s85 => DD x3 x10 | s86 => DD x3 x11 | s87 => DD x3 x12 | s88 => DD x3 x13 | s89 => DD x3 x14 | s90 => DD x3 x15 | s91 => DD x3 x16 | s92 => DD x3 x17 | s93 => DD x3 x18 | s94 => DD x3 x19 | s95 => DD x3 x20 | s96 => DD x3 x21 | s97 => DD x3 x22 | s98 => DD x3 x23 | s99 => DD x3 x24 | s100 => DD x3 x25 | s101 => DD x3 x26 | s102 => DD x3 x27 | s103 => DD x3 x28 | s104 => DD x3 x29 | s105 => DD x3 x30 | s106 => DD x3 x31 | s107 => DD x3 x32 | s108 => DD x3 x33 | s109 => DD x3 x34 | s110 => DD x3 x35 | s111 => DD x3 x36 | s112 => DD x3 x37 | s113 => DD x3 x38 | s114 => DD x3 x39 | s115 => DD x3 x40 | s116 => DD x3 x41 | s117 => DD x3 x42 | s118 => DD x3 x43 | s119 => DD x3 x44 | s120 => DD x3 x45 | s121 => DD x3 x46 | s122 => DD x3 x47 | s123 => DD x3 x48 | s124 => DD x3 x49 | s125 => DD x3 x50 | s126 => DD x3 x51 end.
Definition m118 (c : sum2) : dd := match c with s0 => DD x1 x54 | s1 => DD x1 x55 | s2 => DD x1 x56 | s3 => DD x1 x57 | s4 => DD x1 x58 | s5 => DD x1 x59 | s6 => DD x1 x60 | s7 => DD x1 x61 | s8 => DD x1 x62 | s9 => DD x1 x63 | s10 => DD x2 x0 | s11 => DD x2 x1 | s12 => DD x2 x2 | s13 => DD x2 x3 | s14 => DD x2 x4 | s15 => DD x2 x5 | s16 => DD x2 x6 | s17 => DD x2 x7 | s18 => DD x2 x8 | s19 => DD x2 x9 | s20 => DD x2 x10 | s21 => DD x2 x11 | s22 => DD x2 x12 | s23 => DD x2 x13 | s24 => DD x2 x14 | s25 => DD x2 x15 | s26 => DD x2 x16 | s27 => DD x2 x17 | s28 => DD x2 x18 | s29 => DD x2 x19 | s30 => DD x2 x20 | s31 => DD x2 x21 | s32 => DD x2 x22 | s33 => DD x2 x23 | s34 => DD x2 x24 | s35 => DD x2 x25 | s36 => DD x2 x26 | s37 => DD x2 x27 | s38 => DD x2 x28 | s39 => DD x2 x29 | s40 => DD x2 x30 | s41 => DD x2 x31 | s42 => DD x2 x32 | s43 => DD x2 x33 | s44 => DD x2 x34 | s45 => DD x2 x35 | s46 => DD x2 x36 | s47 => DD x2 x37 | s48 => DD x2 x38 | s49 => DD x2 x39 | s50 => DD x2 x40 | s51 => DD x2 x41 | s52 => DD x2 x42 | s53 => DD x2 x43 | s54 => DD x2 x44 | s55 => DD x2 x45 | s56 => DD x2 x46 | s57 => DD x2 x47 | s58 => DD x2 x48 | s59 => DD x2 x49 | s60 => DD x2 x50 | s61 => DD x2 x51 | s62 => DD x2 x52 | s63 => DD x2 x53 | s64 => DD x2 x54 | s65 => DD x2 x55 | s66 => DD x2 x56 | s67 => DD x2 x57 | s68 => DD x2 x58 | s69 => DD x2 x59 | s70 => DD x2 x60 | s71 => DD x2 x61 | s72 => DD x2 x62 | s73 => DD x2 x63 | s74 => DD x3 x0 | s75 => DD x3 x1 | s76 => DD x3 x2 | s77 => DD x3 x3 | s78 => DD x3 x4 | s79 => DD x3 x5 | s80 => DD x3 x6 | s81 => DD x3 x7 | s82 => DD x3 x8 | s83 => DD x3 x9 | s84 => DD x3 x10 | s85 => DD x3 x11 | s86 => DD x3 x12 | s87 => DD x3 x13 | s88 => DD x3 x14 | s89 => DD x3 x15 | s90 => DD x3 x16 | s91 => DD x3 x17 | s92 => DD x3 x18 | s93 => DD x3 x19 | s94 => DD x3 x20 | s95 => DD x3 x21 | s96 => DD x3 x22 | s97 => DD x3 x23 | s98 => DD x3 x24 | s99 => DD x3 x25 | s100 => DD x3 x26 | s101 => DD x3 x27 | s102 => DD x3 x28 | s103 => DD x3 x29 | s104 => DD x3 x30 | s105 => DD x3 x31 | s106 => DD x3 x32 | s107 => DD x3 x33 | s108 => DD x3 x34 | s109 => DD x3 x35 | s110 => DD x3 x36 | s111 => DD x3 x37 | s112 => DD x3 x38 | s113 => DD x3 x39 | s114 => DD x3 x40 | s115 => DD x3 x41 | s116 => DD x3 x42 | s117 => DD x3 x43 | s118 => DD x3 x44 | s119 => DD x3 x45 | s120 => DD x3 x46 | s121 => DD x3 x47 | s122 => DD x3 x48 | s123 => DD x3 x49 | s124 => DD x3 x50 | s125 => DD x3 x51 | s126 => DD x3 x52 end.
Definition m119 (c : sum2) : dd := match c with s0 => DD x1 x55 | s1 => DD x1 x56 | s2 => DD x1 x57 | s3 => DD x1 x58 | s4 => DD x1 x59 | s5 => DD x1 x60 | s6 => DD x1 x61 | s7 => DD x1 x62 | s8 => DD x1 x63 | s9 => DD x2 x0 | s10 => DD x2 x1 | s11 => DD x2 x2 | s12 => DD x2 x3 | s13 => DD x2 x4 | s14 => DD x2 x5 | s15 => DD x2 x6 | s16 => DD x2 x7 | s17 => DD x2 x8 | s18 => DD x2 x9 | s19 => DD x2 x10 | s20 => DD x2 x11 | s21 => DD x2 x12 | s22 => DD x2 x13 | s23 => DD x2 x14 | s24 => DD x2 x15 | s25 => DD x2 x16 | s26 => DD x2 x17 | s27 => DD x2 x18 | s28 => DD x2 x19 | s29 => DD x2 x20 | s30 => DD x2 x21 | s31 => DD x2 x22 | s32 => DD x2 x23 | s33 => DD x2 x24 | s34 => DD x2 x25 | s35 => DD x2 x26 | s36 => DD x2 x27 | s37 => DD x2 x28 | s38 => DD x2 x29 | s39 => DD x2 x30 | s40 => DD x2 x31 | s41 => DD x2 x32 | s42 => DD x2 x33 | s43 => DD x2 x34 | s44 => DD x2 x35 | s45 => DD x2 x36 | s46 => DD x2 x37 | s47 => DD x2 x38 | s48 => DD x2 x39 | s49 => DD x2 x40 | s50 => DD x2 x41 | s51 => DD x2 x42 | s52 => DD x2 x43 | s53 => DD x2 x44 | s54 => DD x2 x45 | s55 => DD x2 x46 | s56 => DD x2 x47 | s57 => DD x2 x48 | s58 => DD x2 x49 | s59 => DD x2 x50 | s60 => DD x2 x51 | s61 => DD x2 x52 | s62 => DD x2 x53 | s63 => DD x2 x54 | s64 => DD x2 x55 | s65 => DD x2 x56 | s66 => DD x2 x57 | s67 => DD x2 x58 | s68 => DD x2 x59 | s69 => DD x2 x60 | s70 => DD x2 x61 | s71 => DD x2 x62 | s72 => DD x2 x63 | s73 => DD x3 x0 | s74 => DD x3 x1 | s75 => DD x3 x2 | s76 => DD x3 x3 | s77 => DD x3 x4 | s78 => DD x3 x5 | s79 => DD x3 x6 | s80 => DD x3 x7 | s81 => DD x3 x8 | s82 => DD x3 x9 | s83 => DD x3 x10 | s84 => DD x3 x11 | s85 => DD x3 x12 | s86 => DD x3 x13 | s87 => DD x3 x14 | s88 => DD x3 x15 | s89 => DD x3 x16 | s90 => DD x3 x17 | s91 => DD x3 x18 | s92 => DD x3 x19 | s93 => DD x3 x20 | s94 => DD x3 x21 | s95 => DD x3 x22 | s96 => DD x3 x23 | s97 => DD x3 x24 | s98 => DD x3 x25 | s99 => DD x3 x26 | s100 => DD x3 x27 | s101 => DD x3 x28 | s102 => DD x3 x29 | s103 => DD x3 x30 | s104 => DD x3 x31 | s105 => DD x3 x32 | s106 => DD x3 x33 | s107 => DD x3 x34 | s108 => DD x3 x35 | s109 => DD x3 x36 | s110 => DD x3 x37 | s111 => DD x3 x38 | s112 => DD x3 x39 | s113 => DD x3 x40 | s114 => DD x3 x41 | s115 => DD x3 x42 | s116 => DD x3 x43 | s117 => DD x3 x44 | s118 => DD x3 x45 | s119 => DD x3 x46 | s120 => DD x3 x47 | s121 => DD x3 x48 | s122 => DD x3 x49 | s123 => DD x3 x50 | s124 => DD x3 x51 | s125 => DD x3 x52 | s126 => DD x3 x53 end.
Definition m120 (c : sum2) : dd := match c with s0 => DD x1 x56 | s1 => DD x1 x57 | s2 => DD x1 x58 | s3 => DD x1 x59 | s4 => DD x1 x60 | s5 => DD x1 x61 | s6 => DD x1 x62 | s7 => DD x1 x63 | s8 => DD x2 x0 | s9 => DD x2 x1 | s10 => DD x2 x2 | s11 => DD x2 x3 | s12 => DD x2 x4 | s13 => DD x2 x5 | s14 => DD x2 x6 | s15 => DD x2 x7 | s16 => DD x2 x8 | s17 => DD x2 x9 | s18 => DD x2 x10 | s19 => DD x2 x11 | s20 => DD x2 x12 | s21 => DD x2 x13 | s22 => DD x2 x14 | s23 => DD x2 x15 | s24 => DD x2 x16 | s25 => DD x2 x17 | s26 => DD x2 x18 | s27 => DD x2 x19 | s28 => DD x2 x20 | s29 => DD x2 x21 | s30 => DD x2 x22 | s31 => DD x2 x23 | s32 => DD x2 x24 | s33 => DD x2 x25 | s34 => DD x2 x26 | s35 => DD x2 x27 | s36 => DD x2 x28 | s37 => DD x2 x29 | s38 => DD x2 x30 | s39 => DD x2 x31 | s40 => DD x2 x32 | s41 => DD x2 x33 | s42 => DD x2 x34 | s43 => DD x2 x35 | s44 => DD x2 x36 | s45 => DD x2 x37 | s46 => DD x2 x38 | s47 => DD x2 x39 | s48 => DD x2 x40 | s49 => DD x2 x41 | s50 => DD x2 x42 | s51 => DD x2 x43 | s52 => DD x2 x44 | s53 => DD x2 x45 | s54 => DD x2 x46 | s55 => DD x2 x47 | s56 => DD x2 x48 | s57 => DD x2 x49 | s58 => DD x2 x50 | s59 => DD x2 x51 | s60 => DD x2 x52 | s61 => DD x2 x53 | s62 => DD x2 x54 | s63 => DD x2 x55 | s64 => DD x2 x56 | s65 => DD x2 x57 | s66 => DD x2 x58 | s67 => DD x2 x59 | s68 => DD x2 x60 | s69 => DD x2 x61 | s70 => DD x2 x62 | s71 => DD x2 x63 | s72 => DD x3 x0 | s73 => DD x3 x1 | s74 => DD x3 x2 | s75 => DD x3 x3 | s76 => DD x3 x4 | s77 => DD x3 x5 | s78 => DD x3 x6 | s79 => DD x3 x7 | s80 => DD x3 x8 | s81 => DD x3 x9 | s82 => DD x3 x10 | s83 => DD x3 x11 | s84 => DD x3 x12 | s85 => DD x3 x13 | s86 => DD x3 x14 | s87 => DD x3 x15 | s88 => DD x3 x16 | s89 => DD x3 x17 | s90 => DD x3 x18 | s91 => DD x3 x19 | s92 => DD x3 x20 | s93 => DD x3 x21 | s94 => DD x3 x22 | s95 => DD x3 x23 | s96 => DD x3 x24 | s97 => DD x3 x25 | s98 => DD x3 x26 | s99 => DD x3 x27 | s100 => DD x3 x28 | s101 => DD x3 x29 | s102 => DD x3 x30 | s103 => DD x3 x31 | s104 => DD x3 x32 | s105 => DD x3 x33 | s106 => DD x3 x34 | s107 => DD x3 x35 | s108 => DD x3 x36 | s109 => DD x3 x37 | s110 => DD x3 x38 | s111 => DD x3 x39 | s112 => DD x3 x40 | s113 => DD x3 x41 | s114 => DD x3 x42 | s115 => DD x3 x43 | s116 => DD x3 x44 | s117 => DD x3 x45 | s118 => DD x3 x46 | s119 => DD x3 x47 | s120 => DD x3 x48 | s121 => DD x3 x49 | s122 => DD x3 x50 | s123 => DD x3 x51 | s124 => DD x3 x52 | s125 => DD x3 x53 | s126 => DD x3 x54 end.
Definition m121 (c : sum2) : dd := match c with s0 => DD x1 x57 | s1 => DD x1 x58 | s2 => DD x1 x59 | s3 => DD x1 x60 | s4 => DD x1 x61 | s5 => DD x1 x62 | s6 => DD x1 x63 | s7 => DD x2 x0 | s8 => DD x2 x1 | s9 => DD x2 x2 | s10 => DD x2 x3 | s11 => DD x2 x4 | s12 => DD x2 x5 | s13 => DD x2 x6 | s14 => DD x2 x7 | s15 => DD x2 x8 | s16 => DD x2 x9 | s17 => DD x2 x10 | s18 => DD x2 x11 | s19 => DD x2 x12 | s20 => DD x2 x13 | s21 => DD x2 x14 | s22 => DD x2 x15 | s23 => DD x2 x16 | s24 => DD x2 x17 | s25 => DD x2 x18 | s26 => DD x2 x19 | s27 => DD x2 x20 | s28 => DD x2 x21 | s29 => DD x2 x22 | s30 => DD x2 x23 | s31 => DD x2 x24 | s32 => DD x2 x25 | s33 => DD x2 x26 | s34 => DD x2 x27 | s35 => DD x2 x28 | s36 => DD x2 x29 | s37 => DD x2 x30 | s38 => DD x2 x31 | s39 => DD x2 x32 | s40 => DD x2 x33 | s41 => DD x2 x34 | s42 => DD x2 x35 | s43 => DD x2 x36 | s44 => DD x2 x37 | s45 => DD x2 x38 | s46 => DD x2 x39 | s47 => DD x2 x40 | s48 => DD x2 x41 | s49 => DD x2 x42 | s50 => DD x2 x43 | s51 => DD x2 x44 | s52 => DD x2 x45 | s53 => DD x2 x46 | s54 => DD x2 x47 | s55 => DD x2 x48 | s56 => DD x2 x49 | s57 => DD x2 x50 | s58 => DD x2 x51 | s59 => DD x2 x52 | s60 => DD x2 x53 | s61 => DD x2 x54 | s62 => DD x2 x55 | s63 => DD x2 x56 | s64 => DD x2 x57 | s65 => DD x2 x58 | s66 => DD x2 x59 | s67 => DD x2 x60 | s68 => DD x2 x61 | s69 => DD x2 x62 | s70 => DD x2 x63 | s71 => DD x3 x0 | s72 => DD x3 x1 | s73 => DD x3 x2 | s74 => DD x3 x3 | s75 => DD x3 x4 | s76 => DD x3 x5 | s77 => DD x3 x6 | s78 => DD x3 x7 | s79 => DD x3 x8 | s80 => DD x3 x9 | s81 => DD x3 x10 | s82 => DD x3 x11 | s83 => DD x3 x12 | s84 => DD x3 x13 | s85 => DD x3 x14 | s86 => DD x3 x15 | s87 => DD x3 x16 | s88 => DD x3 x17 | s89 => DD x3 x18 | s90 => DD x3 x19 | s91 => DD x3 x20 | s92 => DD x3 x21 | s93 => DD x3 x22 | s94 => DD x3 x23 | s95 => DD x3 x24 | s96 => DD x3 x25 | s97 => DD x3 x26 | s98 => DD x3 x27 | s99 => DD x3 x28 | s100 => DD x3 x29 | s101 => DD x3 x30 | s102 => DD x3 x31 | s103 => DD x3 x32 | s104 => DD x3 x33 | s105 => DD x3 x34 | s106 => DD x3 x35 | s107 => DD x3 x36 | s108 => DD x3 x37 | s109 => DD x3 x38 | s110 => DD x3 x39 | s111 => DD x3 x40 | s112 => DD x3 x41 | s113 => DD x3 x42 | s114 => DD x3 x43 | s115 => DD x3 x44 | s116 => DD x3 x45 | s117 => DD x3 x46 | s118 => DD x3 x47 | s119 => DD x3 x48 | s120 => DD x3 x49 | s121 => DD x3 x50 | s122 => DD x3 x51 | s123 => DD x3 x52 | s124 => DD x3 x53 | s125 => DD x3 x54 | s126 => DD x3 x55 end.
Definition m122 (c : sum2) : dd := match c with s0 => DD x1 x58 | s1 => DD x1 x59 | s2 => DD x1 x60 | s3 => DD x1 x61 | s4 => DD x1 x62 | s5 => DD x1 x63 | s6 => DD x2 x0 | s7 => DD x2 x1 | s8 => DD x2 x2 | s9 => DD x2 x3 | s10 => DD x2 x4 | s11 => DD x2 x5 | s12 => DD x2 x6 | s13 => DD x2 x7 | s14 => DD x2 x8 | s15 => DD x2 x9 | s16 => DD x2 x10 | s17 => DD x2 x11 | s18 => DD x2 x12 | s19 => DD x2 x13 | s20 => DD x2 x14 | s21 => DD x2 x15 | s22 => DD x2 x16 | s23 => DD x2 x17 | s24 => DD x2 x18 | s25 => DD x2 x19 | s26 => DD x2 x20 | s27 => DD x2 x21 | s28 => DD x2 x22 | s29 => DD x2 x23 | s30 => DD x2 x24 | s31 => DD x2 x25 | s32 => DD x2 x26 | s33 => DD x2 x27 | s34 => DD x2 x28 | s35 => DD x2 x29 | s36 => DD x2 x30 | s37 => DD x2 x31 | s38 => DD x2 x32 | s39 => DD x2 x33 | s40 => DD x2 x34 | s41 => DD x2 x35 | s42 => DD x2 x36 | s43 => DD x2 x37 | s44 => DD x2 x38 | s45 => DD x2 x39 | s46 => DD x2 x40 | s47 => DD x2 x41 | s48 => DD x2 x42 | s49 => DD x2 x43 | s50 => DD x2 x44 | s51 => DD x2 x45 | s52 => DD x2 x46 | s53 => DD x2 x47 | s54 => DD x2 x48 | s55 => DD x2 x49 | s56 => DD x2 x50 | s57 => DD x2 x51 | s58 => DD x2 x52 | s59 => DD x2 x53 | s60 => DD x2 x54 | s61 => DD x2 x55 | s62 => DD x2 x56 | s63 => DD x2 x57 | s64 => DD x2 x58 | s65 => DD x2 x59 | s66 => DD x2 x60 | s67 => DD x2 x61 | s68 => DD x2 x62 | s69 => DD x2 x63 | s70 => DD x3 x0 | s71 => DD x3 x1 | s72 => DD x3 x2 | s73 => DD x3 x3 | s74 => DD x3 x4 | s75 => DD x3 x5 | s76 => DD x3 x6 | s77 => DD x3 x7 | s78 => DD x3 x8 | s79 => DD x3 x9 | s80 => DD x3 x10 | s81 => DD x3 x11 | s82 => DD x3 x12 | s83 => DD x3 x13 | s84 => DD x3 x14 | s85 => DD x3 x15 | s86 => DD x3 x16 | s87 => DD x3 x17 | s88 => DD x3 x18 | s89 => DD x3 x19 | s90 => DD x3 x20 | s91 => DD x3 x21 | s92 => DD x3 x22 | s93 => DD x3 x23 | s94 => DD x3 x24 | s95 => DD x3 x25 | s96 => DD x3 x26 | s97 => DD x3 x27 | s98 => DD x3 x28 | s99 => DD x3 x29 | s100 => DD x3 x30 | s101 => DD x3 x31 | s102 => DD x3 x32 | s103 => DD x3 x33 | s104 => DD x3 x34 | s105 => DD x3 x35 | s106 => DD x3 x36 | s107 => DD x3 x37 | s108 => DD x3 x38 | s109 => DD x3 x39 | s110 => DD x3 x40 | s111 => DD x3 x41 | s112 => DD x3 x42 | s113 => DD x3 x43 | s114 => DD x3 x44 | s115 => DD x3 x45 | s116 => DD x3 x46 | s117 => DD x3 x47 | s118 => DD x3 x48 | s119 => DD x3 x49 | s120 => DD x3 x50 | s121 => DD x3 x51 | s122 => DD x3 x52 | s123 => DD x3 x53 | s124 => DD x3 x54 | s125 => DD x3 x55 | s126 => DD x3 x56 end.
Definition m123 (c : sum2) : dd := match c with s0 => DD x1 x59 | s1 => DD x1 x60 | s2 => DD x1 x61 | s3 => DD x1 x62 | s4 => DD x1 x63 | s5 => DD x2 x0 | s6 => DD x2 x1 | s7 => DD x2 x2 | s8 => DD x2 x3 | s9 => DD x2 x4 | s10 => DD x2 x5 | s11 => DD x2 x6 | s12 => DD x2 x7 | s13 => DD x2 x8 | s14 => DD x2 x9 | s15 => DD x2 x10 | s16 => DD x2 x11 | s17 => DD x2 x12 | s18 => DD x2 x13 | s19 => DD x2 x14 | s20 => DD x2 x15 | s21 => DD x2 x16 | s22 => DD x2 x17 | s23 => DD x2 x18 | s24 => DD x2 x19 | s25 => DD x2 x20 | s26 => DD x2 x21 | s27 => DD x2 x22 | s28 => DD x2 x23 | s29 => DD x2 x24 | s30 => DD x2 x25 | s31 => DD x2 x26 | s32 => DD x2 x27 | s33 => DD x2 x28 | s34 => DD x2 x29 | s35 => DD x2 x30 | s36 => DD x2 x31 | s37 => DD x2 x32 | s38 => DD x2 x33 | s39 => DD x2 x34 | s40 => DD x2 x35 | s41 => DD x2 x36 | s42 => DD x2 x37 | s43 => DD x2 x38 | s44 => DD x2 x39 | s45 => DD x2 x40 | s46 => DD x2 x41 | s47 => DD x2 x42 | s48 => DD x2 x43 | s49 => DD x2 x44 | s50 => DD x2 x45 | s51 => DD x2 x46 | s52 => DD x2 x47 | s53 => DD x2 x48 | s54 => DD x2 x49 | s55 => DD x2 x50 | s56 => DD x2 x51 | s57 => DD x2 x52 | s58 => DD x2 x53 | s59 => DD x2 x54 | s60 => DD x2 x55 | s61 => DD x2 x56 | s62 => DD x2 x57 | s63 => DD x2 x58 | s64 => DD x2 x59 | s65 => DD x2 x60 | s66 => DD x2 x61 | s67 => DD x2 x62 | s68 => DD x2 x63 | s69 => DD x3 x0 | s70 => DD x3 x1 | s71 => DD x3 x2 | s72 => DD x3 x3 | s73 => DD x3 x4 | s74 => DD x3 x5 | s75 => DD x3 x6 | s76 => DD x3 x7 | s77 => DD x3 x8 | s78 => DD x3 x9 | s79 => DD x3 x10 | s80 => DD x3 x11 | s81 => DD x3 x12 | s82 => DD x3 x13 | s83 => DD x3 x14 | s84 => DD x3 x15 | s85 => DD x3 x16 | s86 => DD x3 x17 | s87 => DD x3 x18 | s88 => DD x3 x19 | s89 => DD x3 x20 | s90 => DD x3 x21 | s91 => DD x3 x22 | s92 => DD x3 x23 | s93 => DD x3 x24 | s94 => DD x3 x25 | s95 => DD x3 x26 | s96 => DD x3 x27 | s97 => DD x3 x28 | s98 => DD x3 x29 | s99 => DD x3 x30 | s100 => DD x3 x31 | s101 => DD x3 x32 | s102 => DD x3 x33 | s103 => DD x3 x34 | s104 => DD x3 x35 | s105 => DD x3 x36 | s106 => DD x3 x37 | s107 => DD x3 x38 | s108 => DD x3 x39 | s109 => DD x3 x40 | s110 => DD x3 x41 | s111 => DD x3 x42 | s112 => DD x3 x43 | s113 => DD x3 x44 | s114 => DD x3 x45 | s115 => DD x3 x46 | s116 => DD x3 x47 | s117 => DD x3 x48 | s118 => DD x3 x49 | s119 => DD x3 x50 | s120 => DD x3 x51 | s121 => DD x3 x52 | s122 => DD x3 x53 | s123 => DD x3 x54 | s124 => DD x3 x55 | s125 => DD x3 x56 | s126 => DD x3 x57 end.
Definition m124 (c : sum2) : dd := match c with s0 => DD x1 x60 | s1 => DD x1 x61 | s2 => DD x1 x62 | s3 => DD x1 x63 | s4 => DD x2 x0 | s5 => DD x2 x1 | s6 => DD x2 x2 | s7 => DD x2 x3 | s8 => DD x2 x4 | s9 => DD x2 x5 | s10 => DD x2 x6 | s11 => DD x2 x7 | s12 => DD x2 x8 | s13 => DD x2 x9 | s14 => DD x2 x10 | s15 => DD x2 x11 | s16 => DD x2 x12 | s17 => DD x2 x13 | s18 => DD x2 x14 | s19 => DD x2 x15 | s20 => DD x2 x16 | s21 => DD x2 x17 | s22 => DD x2 x18 | s23 => DD x2 x19 | s24 => DD x2 x20 | s25 => DD x2 x21 | s26 => DD x2 x22 | s27 => DD x2 x23 | s28 => DD x2 x24 | s29 => DD x2 x25 | s30 => DD x2 x26 | s31 => DD x2 x27 | s32 => DD x2 x28 | s33 => DD x2 x29 | s34 => DD x2 x30 | s35 => DD x2 x31 | s36 => DD x2 x32 | s37 => DD x2 x33 | s38 => DD x2 x34 | s39 => DD x2 x35 | s40 => DD x2 x36 | s41 => DD x2 x37 | s42 => DD x2 x38 | s43 => DD x2 x39 | s44 => DD x2 x40 | s45 => DD x2 x41 | s46 => DD x2 x42 | s47 => DD x2 x43 | s48 => DD x2 x44 | s49 => DD x2 x45 | s50 => DD x2 x46 | s51 => DD x2 x47 | s52 => DD x2 x48 | s53 => DD x2 x49 | s54 => DD x2 x50 | s55 => DD x2 x51 | s56 => DD x2 x52 | s57 => DD x2 x53 | s58 => DD x2 x54 | s59 => DD x2 x55 | s60 => DD x2 x56 | s61 => DD x2 x57 | s62 => DD x2 x58 | s63 => DD x2 x59 | s64 => DD x2 x60 | s65 => DD x2 x61 | s66 => DD x2 x62 | s67 => DD x2 x63 | s68 => DD x3 x0 | s69 => DD x3 x1 | s70 => DD x3 x2 | s71 => DD x3 x3 | s72 => DD x3 x4 | s73 => DD x3 x5 | s74 => DD x3 x6 | s75 => DD x3 x7 | s76 => DD x3 x8 | s77 => DD x3 x9 | s78 => DD x3 x10 | s79 => DD x3 x11 | s80 => DD x3 x12 | s81 => DD x3 x13 | s82 => DD x3 x14 | s83 => DD x3 x15 | s84 => DD x3 x16 | s85 => DD x3 x17 | s86 => DD x3 x18 | s87 => DD x3 x19 | s88 => DD x3 x20 | s89 => DD x3 x21 | s90 => DD x3 x22 | s91 => DD x3 x23 | s92 => DD x3 x24 | s93 => DD x3 x25 | s94 => DD x3 x26 | s95 => DD x3 x27 | s96 => DD x3 x28 | s97 => DD x3 x29 | s98 => DD x3 x30 | s99 => DD x3 x31 | s100 => DD x3 x32 | s101 => DD x3 x33 | s102 => DD x3 x34 | s103 => DD x3 x35 | s104 => DD x3 x36 | s105 => DD x3 x37 | s106 => DD x3 x38 | s107 => DD x3 x39 | s108 => DD x3 x40 | s109 => DD x3 x41 | s110 => DD x3 x42 | s111 => DD x3 x43 | s112 => DD x3 x44 | s113 => DD x3 x45 | s114 => DD x3 x46 | s115 => DD x3 x47 | s116 => DD x3 x48 | s117 => DD x3 x49 | s118 => DD x3 x50 | s119 => DD x3 x51 | s120 => DD x3 x52 | s121 => DD x3 x53 | s122 => DD x3 x54 | s123 => DD x3 x55 | s124 => DD x3 x56 | s125 => DD x3 x57 | s126 => DD x3 x58 end.
Definition m125 (c : sum2) : dd := match c with s0 => DD x1 x61 | s1 => DD x1 x62 | s2 => DD x1 x63 | s3 => DD x2 x0 | s4 => DD x2 x1 | s5 => DD x2 x2 | s6 => DD x2 x3 | s7 => DD x2 x4 | s8 => DD x2 x5 | s9 => DD x2 x6 | s10 => DD x2 x7 | s11 => DD x2 x8 | s12 => DD x2 x9 | s13 => DD x2 x10 | s14 => DD x2 x11 | s15 => DD x2 x12 | s16 => DD x2 x13 | s17 => DD x2 x14 | s18 => DD x2 x15 | s19 => DD x2 x16 | s20 => DD x2 x17 | s21 => DD x2 x18 | s22 => DD x2 x19 | s23 => DD x2 x20 | s24 => DD x2 x21 | s25 => DD x2 x22 | s26 => DD x2 x23 | s27 => DD x2 x24 | s28 => DD x2 x25 | s29 => DD x2 x26 | s30 => DD x2 x27 | s31 => DD x2 x28 | s32 => DD x2 x29 | s33 => DD x2 x30 | s34 => DD x2 x31 | s35 => DD x2 x32 | s36 => DD x2 x33 | s37 => DD x2 x34 | s38 => DD x2 x35 | s39 => DD x2 x36 | s40 => DD x2 x37 | s41 => DD x2 x38 | s42 => DD x2 x39 | s43 => DD x2 x40 | s44 => DD x2 x41 | s45 => DD x2 x42 | s46 => DD x2 x43 | s47 => DD x2 x44 | s48 => DD x2 x45 | s49 => DD x2 x46 | s50 => DD x2 x47 | s51 => DD x2 x48 | s52 => DD x2 x49 | s53 => DD x2 x50 | s54 => DD x2 x51 | s55 => DD x2 x52 | s56 => DD x2 x53 | s57 => DD x2 x54 | s58 => DD x2 x55 | s59 => DD x2 x56 | s60 => DD x2 x57 | s61 => DD x2 x58 | s62 => DD x2 x59 | s63 => DD x2 x60 | s64 => DD x2 x61 | s65 => DD x2 x62 | s66 => DD x2 x63 | s67 => DD x3 x0 | s68 => DD x3 x1 | s69 => DD x3 x2 | s70 => DD x3 x3 | s71 => DD x3 x4 | s72 => DD x3 x5 | s73 => DD x3 x6 | s74 => DD x3 x7 | s75 => DD x3 x8 | s76 => DD x3 x9 | s77 => DD x3 x10 | s78 => DD x3 x11 | s79 => DD x3 x12 | s80 => DD x3 x13 | s81 => DD x3 x14 | s82 => DD x3 x15 | s83 => DD x3 x16 | s84 => DD x3 x17 | s85 => DD x3 x18 | s86 => DD x3 x19 | s87 => DD x3 x20 | s88 => DD x3 x21 | s89 => DD x3 x22 | s90 => DD x3 x23 | s91 => DD x3 x24 | s92 => DD x3 x25 | s93 => DD x3 x26 | s94 => DD x3 x27 | s95 => DD x3 x28 | s96 => DD x3 x29 | s97 => DD x3 x30 | s98 => DD x3 x31 | s99 => DD x3 x32 | s100 => DD x3 x33 | s101 => DD x3 x34 | s102 => DD x3 x35 | s103 => DD x3 x36 | s104 => DD x3 x37 | s105 => DD x3 x38 | s106 => DD x3 x39 | s107 => DD x3 x40 | s108 => DD x3 x41 | s109 => DD x3 x42 | s110 => DD x3 x43 | s111 => DD x3 x44 | s112 => DD x3 x45 | s113 => DD x3 x46 | s114 => DD x3 x47 | s115 => DD x3 x48 | s116 => DD x3 x49 | s117 => DD x3 x50 | s118 => DD x3 x51 | s119 => DD x3 x52 | s120 => DD x3 x53 | s121 => DD x3 x54 | s122 => DD x3 x55 | s123 => DD x3 x56 | s124 => DD x3 x57 | s125 => DD x3 x58 | s126 => DD x3 x59 end.
Definition m126 (c : sum2) : dd := match c with s0 => DD x1 x62 | s1 => DD x1 x63 | s2 => DD x2 x0 | s3 => DD x2 x1 | s4 => DD x2 x2 | s5 => DD x2 x3 | s6 => DD x2 x4 | s7 => DD x2 x5 | s8 => DD x2 x6 | s9 => DD x2 x7 | s10 => DD x2 x8 | s11 => DD x2 x9 | s12 => DD x2 x10 | s13 => DD x2 x11 | s14 => DD x2 x12 | s15 => DD x2 x13 | s16 => DD x2 x14 | s17 => DD x2 x15 | s18 => DD x2 x16 | s19 => DD x2 x17 | s20 => DD x2 x18 | s21 => DD x2 x19 | s22 => DD x2 x20 | s23 => DD x2 x21 | s24 => DD x2 x22 | s25 => DD x2 x23 | s26 => DD x2 x24 | s27 => DD x2 x25 | s28 => DD x2 x26 | s29 => DD x2 x27 | s30 => DD x2 x28 | s31 => DD x2 x29 | s32 => DD x2 x30 | s33 => DD x2 x31 | s34 => DD x2 x32 | s35 => DD x2 x33 | s36 => DD x2 x34 | s37 => DD x2 x35 | s38 => DD x2 x36 | s39 => DD x2 x37 | s40 => DD x2 x38 | s41 => DD x2 x39 | s42 => DD x2 x40 | s43 => DD x2 x41 | s44 => DD x2 x42 | s45 => DD x2 x43 | s46 => DD x2 x44 | s47 => DD x2 x45 | s48 => DD x2 x46 | s49 => DD x2 x47 | s50 => DD x2 x48 | s51 => DD x2 x49 | s52 => DD x2 x50 | s53 => DD x2 x51 | s54 => DD x2 x52 | s55 => DD x2 x53 | s56 => DD x2 x54 | s57 => DD x2 x55 | s58 => DD x2 x56 | s59 => DD x2 x57 | s60 => DD x2 x58 | s61 => DD x2 x59 | s62 => DD x2 x60 | s63 => DD x2 x61 | s64 => DD x2 x62 | s65 => DD x2 x63 | s66 => DD x3 x0 | s67 => DD x3 x1 | s68 => DD x3 x2 | s69 => DD x3 x3 | s70 => DD x3 x4 | s71 => DD x3 x5 | s72 => DD x3 x6 | s73 => DD x3 x7 | s74 => DD x3 x8 | s75 => DD x3 x9 | s76 => DD x3 x10 | s77 => DD x3 x11 | s78 => DD x3 x12 | s79 => DD x3 x13 | s80 => DD x3 x14 | s81 => DD x3 x15 | s82 => DD x3 x16 | s83 => DD x3 x17 | s84 => DD x3 x18 | s85 => DD x3 x19 | s86 => DD x3 x20 | s87 => DD x3 x21 | s88 => DD x3 x22 | s89 => DD x3 x23 | s90 => DD x3 x24 | s91 => DD x3 x25 | s92 => DD x3 x26 | s93 => DD x3 x27 | s94 => DD x3 x28 | s95 => DD x3 x29 | s96 => DD x3 x30 | s97 => DD x3 x31 | s98 => DD x3 x32 | s99 => DD x3 x33 | s100 => DD x3 x34 | s101 => DD x3 x35 | s102 => DD x3 x36 | s103 => DD x3 x37 | s104 => DD x3 x38 | s105 => DD x3 x39 | s106 => DD x3 x40 | s107 => DD x3 x41 | s108 => DD x3 x42 | s109 => DD x3 x43 | s110 => DD x3 x44 | s111 => DD x3 x45 | s112 => DD x3 x46 | s113 => DD x3 x47 | s114 => DD x3 x48 | s115 => DD x3 x49 | s116 => DD x3 x50 | s117 => DD x3 x51 | s118 => DD x3 x52 | s119 => DD x3 x53 | s120 => DD x3 x54 | s121 => DD x3 x55 | s122 => DD x3 x56 | s123 => DD x3 x57 | s124 => DD x3 x58 | s125 => DD x3 x59 | s126 => DD x3 x60 end.
Definition m128 (c : sum2) : dd := match c with s0 => DD x2 x0 | s1 => DD x2 x1 | s2 => DD x2 x2 | s3 => DD x2 x3 | s4 => DD x2 x4 | s5 => DD x2 x5 | s6 => DD x2 x6 | s7 => DD x2 x7 | s8 => DD x2 x8 | s9 => DD x2 x9 | s10 => DD x2 x10 | s11 => DD x2 x11 | s12 => DD x2 x12 | s13 => DD x2 x13 | s14 => DD x2 x14 | s15 => DD x2 x15 | s16 => DD x2 x16 | s17 => DD x2 x17 | s18 => DD x2 x18 | s19 => DD x2 x19 | s20 => DD x2 x20 | s21 => DD x2 x21 | s22 => DD x2 x22 | s23 => DD x2 x23 | s24 => DD x2 x24 | s25 => DD x2 x25 | s26 => DD x2 x26 | s27 => DD x2 x27 | s28 => DD x2 x28 | s29 => DD x2 x29 | s30 => DD x2 x30 | s31 => DD x2 x31 | s32 => DD x2 x32 | s33 => DD x2 x33 | s34 => DD x2 x34 | s35 => DD x2 x35 | s36 => DD x2 x36 | s37 => DD x2 x37 | s38 => DD x2 x38 | s39 => DD x2 x39 | s40 => DD x2 x40 | s41 => DD x2 x41 | s42 => DD x2 x42 | s43 => DD x2 x43 | s44 => DD x2 x44 | s45 => DD x2 x45 | s46 => DD x2 x46 | s47 => DD x2 x47 | s48 => DD x2 x48 | s49 => DD x2 x49 | s50 => DD x2 x50 | s51 => DD x2 x51 | s52 => DD x2 x52 | s53 => DD x2 x53 | s54 => DD x2 x54 | s55 => DD x2 x55 | s56 => DD x2 x56 | s57 => DD x2 x57 | s58 => DD x2 x58 | s59 => DD x2 x59 | s60 => DD x2 x60 | s61 => DD x2 x61 | s62 => DD x2 x62 | s63 => DD x2 x63 | s64 => DD x3 x0 | s65 => DD x3 x1 | s66 => DD x3 x2 | s67 => DD x3 x3 | s68 => DD x3 x4 | s69 => DD x3 x5 | s70 => DD x3 x6 | s71 => DD x3 x7 | s72 => DD x3 x8 | s73 => DD x3 x9 | s74 => DD x3 x10 | s75 => DD x3 x11 | s76 => DD x3 x12 | s77 => DD x3 x13 | s78 => DD x3 x14 | s79 => DD x3 x15 | s80 => DD x3 x16 | s81 => DD x3 x17 | s82 => DD x3 x18 | s83 => DD x3 x19 | s84 => DD x3 x20 | s85 => DD x3 x21 | s86 => DD x3 x22 | s87 => DD x3 x23 | s88 => DD x3 x24 | s89 => DD x3 x25 | s90 => DD x3 x26 | s91 => DD x3 x27 | s92 => DD x3 x28 | s93 => DD x3 x29 | s94 => DD x3 x30 | s95 => DD x3 x31 | s96 => DD x3 x32 | s97 => DD x3 x33 | s98 => DD x3 x34 | s99 => DD x3 x35 | s100 => DD x3 x36 | s101 => DD x3 x37 | s102 => DD x3 x38 | s103 => DD x3 x39 | s104 => DD x3 x40 | s105 => DD x3 x41 | s106 => DD x3 x42 | s107 => DD x3 x43 | s108 => DD x3 x44 | s109 => DD x3 x45 | s110 => DD x3 x46 | s111 => DD x3 x47 | s112 => DD x3 x48 | s113 => DD x3 x49 | s114 => DD x3 x50 | s115 => DD x3 x51 | s116 => DD x3 x52 | s117 => DD x3 x53 | s118 => DD x3 x54 | s119 => DD x3 x55 | s120 => DD x3 x56 | s121 => DD x3 x57 | s122 => DD x3 x58 | s123 => DD x3 x59 | s124 => DD x3 x60 | s125 => DD x3 x61 | s126 => DD x3 x62 end.
Definition m129 (c : sum2) : dd := match c with s0 => DD x2 x1 | s1 => DD x2 x2 | s2 => DD x2 x3 | s3 => DD x2 x4 | s4 => DD x2 x5 | s5 => DD x2 x6 | s6 => DD x2 x7 | s7 => DD x2 x8 | s8 => DD x2 x9 | s9 => DD x2 x10 | s10 => DD x2 x11 | s11 => DD x2 x12 | s12 => DD x2 x13 | s13 => DD x2 x14 | s14 => DD x2 x15 | s15 => DD x2 x16 | s16 => DD x2 x17 | s17 => DD x2 x18 | s18 => DD x2 x19 | s19 => DD x2 x20 | s20 => DD x2 x21 | s21 => DD x2 x22 | s22 => DD x2 x23 | s23 => DD x2 x24 | s24 => DD x2 x25 | s25 => DD x2 x26 | s26 => DD x2 x27 | s27 => DD x2 x28 | s28 => DD x2 x29 | s29 => DD x2 x30 | s30 => DD x2 x31 | s31 => DD x2 x32 | s32 => DD x2 x33 | s33 => DD x2 x34 | s34 => DD x2 x35 | s35 => DD x2 x36 | s36 => DD x2 x37 | s37 => DD x2 x38 | s38 => DD x2 x39 | s39 => DD x2 x40 | s40 => DD x2 x41 | s41 => DD x2 x42 | s42 => DD x2 x43 | s43 => DD x2 x44 | s44 => DD x2 x45 | s45 => DD x2 x46 | s46 => DD x2 x47 | s47 => DD x2 x48 | s48 => DD x2 x49 | s49 => DD x2 x50 | s50 => DD x2 x51 | s51 => DD x2 x52 | s52 => DD x2 x53 | s53 => DD x2 x54 | s54 => DD x2 x55 | s55 => DD x2 x56 | s56 => DD x2 x57 | s57 => DD x2 x58 | s58 => DD x2 x59 | s59 => DD x2 x60 | s60 => DD x2 x61 | s61 => DD x2 x62 | s62 => DD x2 x63 | s63 => DD x3 x0 | s64 => DD x3 x1 | s65 => DD x3 x2 | s66 => DD x3 x3 | s67 => DD x3 x4 | s68 => DD x3 x5 | s69 => DD x3 x6 | s70 => DD x3 x7 | s71 => DD x3 x8 | s72 => DD x3 x9 | s73 => DD x3 x10 | s74 => DD x3 x11 | s75 => DD x3 x12 | s76 => DD x3 x13 | s77 => DD x3 x14 | s78 => DD x3 x15 | s79 => DD x3 x16 | s80 => DD x3 x17 | s81 => DD x3 x18 | s82 => DD x3 x19 | s83 => DD x3 x20 | s84 => DD x3 x21 | s85 => DD x3 x22 | s86 => DD x3 x23 | s87 => DD x3 x24 | s88 => DD x3 x25 | s89 => DD x3 x26 | s90 => DD x3 x27 | s91 => DD x3 x28 | s92 => DD x3 x29 | s93 => DD x3 x30 | s94 => DD x3 x31 | s95 => DD x3 x32 | s96 => DD x3 x33 | s97 => DD x3 x34 | s98 => DD x3 x35 | s99 => DD x3 x36 | s100 => DD x3 x37 | s101 => DD x3 x38 | s102 => DD x3 x39 | s103 => DD x3 x40 | s104 => DD x3 x41 | s105 => DD x3 x42 | s106 => DD x3 x43 | s107 => DD x3 x44 | s108 => DD x3 x45 | s109 => DD x3 x46 | s110 => DD x3 x47 | s111 => DD x3 x48 | s112 => DD x3 x49 | s113 => DD x3 x50 | s114 => DD x3 x51 | s115 => DD x3 x52 | s116 => DD x3 x53 | s117 => DD x3 x54 | s118 => DD x3 x55 | s119 => DD x3 x56 | s120 => DD x3 x57 | s121 => DD x3 x58 | s122 => DD x3 x59 | s123 => DD x3 x60 | s124 => DD x3 x61 | s125 => DD x3 x62 | s126 => DD x3 x63 end.
Definition m130 (c : sum2) : dd := match c with s0 => DD x2 x2 | s1 => DD x2 x3 | s2 => DD x2 x4 | s3 => DD x2 x5 | s4 => DD x2 x6 | s5 => DD x2 x7 | s6 => DD x2 x8 | s7 => DD x2 x9 | s8 => DD x2 x10 | s9 => DD x2 x11 | s10 => DD x2 x12 | s11 => DD x2 x13 | s12 => DD x2 x14 | s13 => DD x2 x15 | s14 => DD x2 x16 | s15 => DD x2 x17 | s16 => DD x2 x18 | s17 => DD x2 x19 | s18 => DD x2 x20 | s19 => DD x2 x21 | s20 => DD x2 x22 | s21 => DD x2 x23 | s22 => DD x2 x24 | s23 => DD x2 x25 | s24 => DD x2 x26 | s25 => DD x2 x27 | s26 => DD x2 x28 | s27 => DD x2 x29 | s28 => DD x2 x30 | s29 => DD x2 x31 | s30 => DD x2 x32 | s31 => DD x2 x33 | s32 => DD x2 x34 | s33 => DD x2 x35 | s34 => DD x2 x36 | s35 => DD x2 x37 | s36 => DD x2 x38 | s37 => DD x2 x39 | s38 => DD x2 x40 | s39 => DD x2 x41 | s40 => DD x2 x42 | s41 => DD x2 x43 | s42 => DD x2 x44 | s43 => DD x2 x45 | s44 => DD x2 x46 | s45 => DD x2 x47 | s46 => DD x2 x48 | s47 => DD x2 x49 | s48 => DD x2 x50 | s49 => DD x2 x51 | s50 => DD x2 x52 | s51 => DD x2 x53 | s52 => DD x2 x54 | s53 => DD x2 x55 | s54 => DD x2 x56 | s55 => DD x2 x57 | s56 => DD x2 x58 | s57 => DD x2 x59 | s58 => DD x2 x60 | s59 => DD x2 x61 | s60 => DD x2 x62 | s61 => DD x2 x63 | s62 => DD x3 x0 | s63 => DD x3 x1 | s64 => DD x3 x2 | s65 => DD x3 x3 | s66 => DD x3 x4 | s67 => DD x3 x5 | s68 => DD x3 x6 | s69 => DD x3 x7 | s70 => DD x3 x8 | s71 => DD x3 x9 | s72 => DD x3 x10 | s73 => DD x3 x11 | s74 => DD x3 x12 | s75 => DD x3 x13 | s76 => DD x3 x14 | s77 => DD x3 x15 | s78 => DD x3 x16 | s79 => DD x3 x17 | s80 => DD x3 x18 | s81 => DD x3 x19 | s82 => DD x3 x20 | s83 => DD x3 x21 | s84 => DD x3 x22 | s85 => DD x3 x23 | s86 => DD x3 x24 | s87 => DD x3 x25 | s88 => DD x3 x26 | s89 => DD x3 x27 | s90 => DD x3 x28 | s91 => DD x3 x29 | s92 => DD x3 x30 | s93 => DD x3 x31 | s94 => DD x3 x32 | s95 => DD x3 x33 | s96 => DD x3 x34 | s97 => DD x3 x35 | s98 => DD x3 x36 | s99 => DD x3 x37 | s100 => DD x3 x38 | s101 => DD x3 x39 | s102 => DD x3 x40 | s103 => DD x3 x41 | s104 => DD x3 x42 | s105 => DD x3 x43 | s106 => DD x3 x44 | s107 => DD x3 x45 | s108 => DD x3 x46 | s109 => DD x3 x47 | s110 => DD x3 x48 | s111 => DD x3 x49 | s112 => DD x3 x50 | s113 => DD x3 x51 | s114 => DD x3 x52 | s115 => DD x3 x53 | s116 => DD x3 x54 | s117 => DD x3 x55 | s118 => DD x3 x56 | s119 => DD x3 x57 | s120 => DD x3 x58 | s121 => DD x3 x59 | s122 => DD x3 x60 | s123 => DD x3 x61 | s124 => DD x3 x62 | s125 => DD x3 x63 | s126 => DD x4 x0 end.
Definition m132 (c : sum2) : dd := match c with s0 => DD x2 x4 | s1 => DD x2 x5 | s2 => DD x2 x6 | s3 => DD x2 x7 | s4 => DD x2 x8 | s5 => DD x2 x9 | s6 => DD x2 x10 | s7 => DD x2 x11 | s8 => DD x2 x12 | s9 => DD x2 x13 | s10 => DD x2 x14 | s11 => DD x2 x15 | s12 => DD x2 x16 | s13 => DD x2 x17 | s14 => DD x2 x18 | s15 => DD x2 x19 | s16 => DD x2 x20 | s17 => DD x2 x21 | s18 => DD x2 x22 | s19 => DD x2 x23 | s20 => DD x2 x24 | s21 => DD x2 x25 | s22 => DD x2 x26 | s23 => DD x2 x27 | s24 => DD x2 x28 | s25 => DD x2 x29 | s26 => DD x2 x30 | s27 => DD x2 x31 | s28 => DD x2 x32 | s29 => DD x2 x33 | s30 => DD x2 x34 | s31 => DD x2 x35 | s32 => DD x2 x36 | s33 => DD x2 x37 | s34 => DD x2 x38 | s35 => DD x2 x39 | s36 => DD x2 x40 | s37 => DD x2 x41 | s38 => DD x2 x42 | s39 => DD x2 x43 | s40 => DD x2 x44 | s41 => DD x2 x45 | s42 => DD x2 x46 | s43 => DD x2 x47 | s44 => DD x2 x48 | s45 => DD x2 x49 | s46 => DD x2 x50 | s47 => DD x2 x51 | s48 => DD x2 x52 | s49 => DD x2 x53 | s50 => DD x2 x54 | s51 => DD x2 x55 | s52 => DD x2 x56 | s53 => DD x2 x57 | s54 => DD x2 x58 | s55 => DD x2 x59 | s56 => DD x2 x60 | s57 => DD x2 x61 | s58 => DD x2 x62 | s59 => DD x2 x63 | s60 => DD x3 x0 | s61 => DD x3 x1 | s62 => DD x3 x2 | s63 => DD x3 x3 | s64 => DD x3 x4 | s65 => DD x3 x5 | s66 => DD x3 x6 | s67 => DD x3 x7 | s68 => DD x3 x8 | s69 => DD x3 x9 | s70 => DD x3 x10 | s71 => DD x3 x11 | s72 => DD x3 x12 | s73 => DD x3 x13 | s74 => DD x3 x14 | s75 => DD x3 x15 | s76 => DD x3 x16 | s77 => DD x3 x17 | s78 => DD x3 x18 | s79 => DD x3 x19 | s80 => DD x3 x20 | s81 => DD x3 x21 | s82 => DD x3 x22 | s83 => DD x3 x23 | s84 => DD x3 x24 | s85 => DD x3 x25 | s86 => DD x3 x26 | s87 => DD x3 x27 | s88 => DD x3 x28 | s89 => DD x3 x29 | s90 => DD x3 x30 | s91 => DD x3 x31 | s92 => DD x3 x32 | s93 => DD x3 x33 | s94 => DD x3 x34 | s95 => DD x3 x35 | s96 => DD x3 x36 | s97 => DD x3 x37 | s98 => DD x3 x38 | s99 => DD x3 x39 | s100 => DD x3 x40 | s101 => DD x3 x41 | s102 => DD x3 x42 | s103 => DD x3 x43 | s104 => DD x3 x44 | s105 => DD x3 x45 | s106 => DD x3 x46 | s107 => DD x3 x47 | s108 => DD x3 x48 | s109 => DD x3 x49 | s110 => DD x3 x50 | s111 => DD x3 x51 | s112 => DD x3 x52 | s113 => DD x3 x53 | s114 => DD x3 x54 | s115 => DD x3 x55 | s116 => DD x3 x56 | s117 => DD x3 x57 | s118 => DD x3 x58 | s119 => DD x3 x59 | s120 => DD x3 x60 | s121 => DD x3 x61 | s122 => DD x3 x62 | s123 => DD x3 x63 | s124 => DD x4 x0 | s125 => DD x4 x1 | s126 => DD x4 x2 end.
Definition m133 (c : sum2) : dd := match c with s0 => DD x2 x5 | s1 => DD x2 x6 | s2 => DD x2 x7 | s3 => DD x2 x8 | s4 => DD x2 x9 | s5 => DD x2 x10 | s6 => DD x2 x11 | s7 => DD x2 x12 | s8 => DD x2 x13 | s9 => DD x2 x14 | s10 => DD x2 x15 | s11 => DD x2 x16 | s12 => DD x2 x17 | s13 => DD x2 x18 | s14 => DD x2 x19 | s15 => DD x2 x20 | s16 => DD x2 x21 | s17 => DD x2 x22 | s18 => DD x2 x23 | s19 => DD x2 x24 | s20 => DD x2 x25 | s21 => DD x2 x26 | s22 => DD x2 x27 | s23 => DD x2 x28 | s24 => DD x2 x29 | s25 => DD x2 x30 | s26 => DD x2 x31 | s27 => DD x2 x32 | s28 => DD x2 x33 | s29 => DD x2 x34 | s30 => DD x2 x35 | s31 => DD x2 x36 | s32 => DD x2 x37 | s33 => DD x2 x38 | s34 => DD x2 x39 | s35 => DD x2 x40 | s36 => DD x2 x41 | s37 => DD x2 x42 | s38 => DD x2 x43 | s39 => DD x2 x44 | s40 => DD x2 x45 | s41 => DD x2 x46 | s42 => DD x2 x47 | s43 => DD x2 x48 | s44 => DD x2 x49 | s45 => DD x2 x50 | s46 => DD x2 x51 | s47 => DD x2 x52 | s48 => DD x2 x53 | s49 => DD x2 x54 | s50 => DD x2 x55 | s51 => DD x2 x56 | s52 => DD x2 x57 | s53 => DD x2 x58 | s54 => DD x2 x59 | s55 => DD x2 x60 | s56 => DD x2 x61 | s57 => DD x2 x62 | s58 => DD x2 x63 | s59 => DD x3 x0 | s60 => DD x3 x1 | s61 => DD x3 x2 | s62 => DD x3 x3 | s63 => DD x3 x4 | s64 => DD x3 x5 | s65 => DD x3 x6 | s66 => DD x3 x7 | s67 => DD x3 x8 | s68 => DD x3 x9 | s69 => DD x3 x10 | s70 => DD x3 x11 | s71 => DD x3 x12 | s72 => DD x3 x13 | s73 => DD x3 x14 | s74 => DD x3 x15 | s75 => DD x3 x16 | s76 => DD x3 x17 | s77 => DD x3 x18 | s78 => DD x3 x19 | s79 => DD x3 x20 | s80 => DD x3 x21 | s81 => DD x3 x22 | s82 => DD x3 x23 | s83 => DD x3 x24 | s84 => DD x3 x25 | s85 => DD x3 x26 | s86 => DD x3 x27 | s87 => DD x3 x28 | s88 => DD x3 x29 | s89 => DD x3 x30 | s90 => DD x3 x31 | s91 => DD x3 x32 | s92 => DD x3 x33 | s93 => DD x3 x34 | s94 => DD x3 x35 | s95 => DD x3 x36 | s96 => DD x3 x37 | s97 => DD x3 x38 | s98 => DD x3 x39 | s99 => DD x3 x40 | s100 => DD x3 x41 | s101 => DD x3 x42 | s102 => DD x3 x43 | s103 => DD x3 x44 | s104 => DD x3 x45 | s105 => DD x3 x46 | s106 => DD x3 x47 | s107 => DD x3 x48 | s108 => DD x3 x49 | s109 => DD x3 x50 | s110 => DD x3 x51 | s111 => DD x3 x52 | s112 => DD x3 x53 | s113 => DD x3 x54 | s114 => DD x3 x55 | s115 => DD x3 x56 | s116 => DD x3 x57 | s117 => DD x3 x58 | s118 => DD x3 x59 | s119 => DD x3 x60 | s120 => DD x3 x61 | s121 => DD x3 x62 | s122 => DD x3 x63 | s123 => DD x4 x0 | s124 => DD x4 x1 | s125 => DD x4 x2 | s126 => DD x4 x3 end.
Definition m135 (c : sum2) : dd := match c with s0 => DD x2 x7 | s1 => DD x2 x8 | s2 => DD x2 x9 | s3 => DD x2 x10 | s4 => DD x2 x11 | s5 => DD x2 x12 | s6 => DD x2 x13 | s7 => DD x2 x14 | s8 => DD x2 x15 | s9 => DD x2 x16 | s10 => DD x2 x17 | s11 => DD x2 x18 | s12 => DD x2 x19 | s13 => DD x2 x20 | s14 => DD x2 x21 | s15 => DD x2 x22 | s16 => DD x2 x23 | s17 => DD x2 x24 | s18 => DD x2 x25 | s19 => DD x2 x26 | s20 => DD x2 x27 | s21 => DD x2 x28 | s22 => DD x2 x29 | s23 => DD x2 x30 | s24 => DD x2 x31 | s25 => DD x2 x32 | s26 => DD x2 x33 | s27 => DD x2 x34 | s28 => DD x2 x35 | s29 => DD x2 x36 | s30 => DD x2 x37 | s31 => DD x2 x38 | s32 => DD x2 x39 | s33 => DD x2 x40 | s34 => DD x2 x41 | s35 => DD x2 x42 | s36 => DD x2 x43 | s37 => DD x2 x44 | s38 => DD x2 x45 | s39 => DD x2 x46 | s40 => DD x2 x47 | s41 => DD x2 x48 | s42 => DD x2 x49 | s43 => DD x2 x50 | s44 => DD x2 x51 | s45 => DD x2 x52 | s46 => DD x2 x53 | s47 => DD x2 x54 | s48 => DD x2 x55 | s49 => DD x2 x56 | s50 => DD x2 x57 | s51 => DD x2 x58 | s52 => DD x2 x59 | s53 => DD x2 x60 | s54 => DD x2 x61 | s55 => DD x2 x62 | s56 => DD x2 x63 | s57 => DD x3 x0 | s58 => DD x3 x1 | s59 => DD x3 x2 | s60 => DD x3 x3 | s61 => DD x3 x4 | s62 => DD x3 x5 | s63 => DD x3 x6 | s64 => DD x3 x7 | s65 => DD x3 x8 | s66 => DD x3 x9 | s67 => DD x3 x10 | s68 => DD x3 x11 | s69 => DD x3 x12 | s70 => DD x3 x13 | s71 => DD x3 x14 | s72 => DD x3 x15 | s73 => DD x3 x16 | s74 => DD x3 x17 | s75 => DD x3 x18 | s76 => DD x3 x19 | s77 => DD x3 x20 | s78 => DD x3 x21 | s79 => DD x3 x22 | s80 => DD x3 x23 | s81 => DD x3 x24 | s82 => DD x3 x25 | s83 => DD x3 x26 | s84 => DD x3 x27 | s85 => DD x3 x28 | s86 => DD x3 x29 | s87 => DD x3 x30 | s88 => DD x3 x31 | s89 => DD x3 x32 | s90 => DD x3 x33 | s91 => DD x3 x34 | s92 => DD x3 x35 | s93 => DD x3 x36 | s94 => DD x3 x37 | s95 => DD x3 x38 | s96 => DD x3 x39 | s97 => DD x3 x40 | s98 => DD x3 x41 | s99 => DD x3 x42 | s100 => DD x3 x43 | s101 => DD x3 x44 | s102 => DD x3 x45 | s103 => DD x3 x46 | s104 => DD x3 x47 | s105 => DD x3 x48 | s106 => DD x3 x49 | s107 => DD x3 x50 | s108 => DD x3 x51 | s109 => DD x3 x52 | s110 => DD x3 x53 | s111 => DD x3 x54 | s112 => DD x3 x55 | s113 => DD x3 x56 | s114 => DD x3 x57 | s115 => DD x3 x58 | s116 => DD x3 x59 | s117 => DD x3 x60 | s118 => DD x3 x61 | s119 => DD x3 x62 | s120 => DD x3 x63 | s121 => DD x4 x0 | s122 => DD x4 x1 | s123 => DD x4 x2 | s124 => DD x4 x3 | s125 => DD x4 x4 | s126 => DD x4 x5 end.
Definition m136 (c : sum2) : dd := match c with s0 => DD x2 x8 | s1 => DD x2 x9 | s2 => DD x2 x10 | s3 => DD x2 x11 | s4 => DD x2 x12 | s5 => DD x2 x13 | s6 => DD x2 x14 | s7 => DD x2 x15 | s8 => DD x2 x16 | s9 => DD x2 x17 | s10 => DD x2 x18 | s11 => DD x2 x19 | s12 => DD x2 x20 | s13 => DD x2 x21 | s14 => DD x2 x22 | s15 => DD x2 x23 | s16 => DD x2 x24 | s17 => DD x2 x25 | s18 => DD x2 x26 | s19 => DD x2 x27 | s20 => DD x2 x28 | s21 => DD x2 x29 | s22 => DD x2 x30 | s23 => DD x2 x31 | s24 => DD x2 x32 | s25 => DD x2 x33 | s26 => DD x2 x34 | s27 => DD x2 x35 | s28 => DD x2 x36 | s29 => DD x2 x37 | s30 => DD x2 x38 | s31 => DD x2 x39 | s32 => DD x2 x40 | s33 => DD x2 x41 | s34 => DD x2 x42 | s35 => DD x2 x43 | s36 => DD x2 x44 | s37 => DD x2 x45 | s38 => DD x2 x46 | s39 => DD x2 x47 | s40 => DD x2 x48 | s41 => DD x2 x49 | s42 => DD x2 x50 | s43 => DD x2 x51 | s44 => DD x2 x52 | s45 => DD x2 x53 | s46 => DD x2 x54 | s47 => DD x2 x55 | s48 => DD x2 x56 | s49 => DD x2 x57 | s50 => DD x2 x58 | s51 => DD x2 x59 | s52 => DD x2 x60 | s53 => DD x2 x61 | s54 => DD x2 x62 | s55 => DD x2 x63 | s56 => DD x3 x0 | s57 => DD x3 x1 | s58 => DD x3 x2 | s59 => DD x3 x3 | s60 => DD x3 x4 | s61 => DD x3 x5 | s62 => DD x3 x6 | s63 => DD x3 x7 | s64 => DD x3 x8 | s65 => DD x3 x9 | s66 => DD x3 x10 | s67 => DD x3 x11 | s68 => DD x3 x12 | s69 => DD x3 x13 | s70 => DD x3 x14 | s71 => DD x3 x15 | s72 => DD x3 x16 | s73 => DD x3 x17 | s74 => DD x3 x18 | s75 => DD x3 x19 | s76 => DD x3 x20 | s77 => DD x3 x21 | s78 => DD x3 x22 | s79 => DD x3 x23 | s80 => DD x3 x24 | s81 => DD x3 x25 | s82 => DD x3 x26 | s83 => DD x3 x27 | s84 => DD x3 x28 | s85 => DD x3 x29 | s86 => DD x3 x30 | s87 => DD x3 x31 | s88 => DD x3 x32 | s89 => DD x3 x33 | s90 => DD x3 x34 | s91 => DD x3 x35 | s92 => DD x3 x36 | s93 => DD x3 x37 | s94 => DD x3 x38 | s95 => DD x3 x39 | s96 => DD x3 x40 | s97 => DD x3 x41 | s98 => DD x3 x42 | s99 => DD x3 x43 | s100 => DD x3 x44 | s101 => DD x3 x45 | s102 => DD x3 x46 | s103 => DD x3 x47 | s104 => DD x3 x48 | s105 => DD x3 x49 | s106 => DD x3 x50 | s107 => DD x3 x51 | s108 => DD x3 x52 | s109 => DD x3 x53 | s110 => DD x3 x54 | s111 => DD x3 x55 | s112 => DD x3 x56 | s113 => DD x3 x57 | s114 => DD x3 x58 | s115 => DD x3 x59 | s116 => DD x3 x60 | s117 => DD x3 x61 | s118 => DD x3 x62 | s119 => DD x3 x63 | s120 => DD x4 x0 | s121 => DD x4 x1 | s122 => DD x4 x2 | s123 => DD x4 x3 | s124 => DD x4 x4 | s125 => DD x4 x5 | s126 => DD x4 x6 end.
Definition m138 (c : sum2) : dd := match c with s0 => DD x2 x10 | s1 => DD x2 x11 | s2 => DD x2 x12 | s3 => DD x2 x13 | s4 => DD x2 x14 | s5 => DD x2 x15 | s6 => DD x2 x16 | s7 => DD x2 x17 | s8 => DD x2 x18 | s9 => DD x2 x19 | s10 => DD x2 x20 | s11 => DD x2 x21 | s12 => DD x2 x22 | s13 => DD x2 x23 | s14 => DD x2 x24 | s15 => DD x2 x25 | s16 => DD x2 x26 | s17 => DD x2 x27 | s18 => DD x2 x28 | s19 => DD x2 x29 | s20 => DD x2 x30 | s21 => DD x2 x31 | s22 => DD x2 x32 | s23 => DD x2 x33 | s24 => DD x2 x34 | s25 => DD x2 x35 | s26 => DD x2 x36 | s27 => DD x2 x37 | s28 => DD x2 x38 | s29 => DD x2 x39 | s30 => DD x2 x40 | s31 => DD x2 x41 | s32 => DD x2 x42 | s33 => DD x2 x43 | s34 => DD x2 x44 | s35 => DD x2 x45 | s36 => DD x2 x46 | s37 => DD x2 x47 | s38 => DD x2 x48 | s39 => DD x2 x49 | s40 => DD x2 x50 | s41 => DD x2 x51 | s42 => DD x2 x52 | s43 => DD x2 x53 | s44 => DD x2 x54 | s45 => DD x2 x55 | s46 => DD x2 x56 | s47 => DD x2 x57 | s48 => DD x2 x58 | s49 => DD x2 x59 | s50 => DD x2 x60 | s51 => DD x2 x61 | s52 => DD x2 x62 | s53 => DD x2 x63 | s54 => DD x3 x0 | s55 => DD x3 x1 | s56 => DD x3 x2 | s57 => DD x3 x3 | s58 => DD x3 x4 | s59 => DD x3 x5 | s60 => DD x3 x6 | s61 => DD x3 x7 | s62 => DD x3 x8 | s63 => DD x3 x9 | s64 => DD x3 x10 | s65 => DD x3 x11 | s66 => DD x3 x12 | s67 => DD x3 x13 | s68 => DD x3 x14 | s69 => DD x3 x15 | s70 => DD x3 x16 | s71 => DD x3 x17 | s72 => DD x3 x18 | s73 => DD x3 x19 | s74 => DD x3 x20 | s75 => DD x3 x21 | s76 => DD x3 x22 | s77 => DD x3 x23 | s78 => DD x3 x24 | s79 => DD x3 x25 | s80 => DD x3 x26 | s81 => DD x3 x27 | s82 => DD x3 x28 | s83 => DD x3 x29 | s84 => DD x3 x30 | s85 => DD x3 x31 | s86 => DD x3 x32 | s87 => DD x3 x33 | s88 => DD x3 x34 | s89 => DD x3 x35 | s90 => DD x3 x36 | s91 => DD x3 x37 | s92 => DD x3 x38 | s93 => DD x3 x39 | s94 => DD x3 x40 | s95 => DD x3 x41 | s96 => DD x3 x42 | s97 => DD x3 x43 | s98 => DD x3 x44 | s99 => DD x3 x45 | s100 => DD x3 x46 | s101 => DD x3 x47 | s102 => DD x3 x48 | s103 => DD x3 x49 | s104 => DD x3 x50 | s105 => DD x3 x51 | s106 => DD x3 x52 | s107 => DD x3 x53 | s108 => DD x3 x54 | s109 => DD x3 x55 | s110 => DD x3 x56 | s111 => DD x3 x57 | s112 => DD x3 x58 | s113 => DD x3 x59 | s114 => DD x3 x60 | s115 => DD x3 x61 | s116 => DD x3 x62 | s117 => DD x3 x63 | s118 => DD x4 x0 | s119 => DD x4 x1 | s120 => DD x4 x2 | s121 => DD x4 x3 | s122 => DD x4 x4 | s123 => DD x4 x5 | s124 => DD x4 x6 | s125 => DD x4 x7 | s126 => DD x4 x8 end.
Definition m140 (c : sum2) : dd := match c with s0 => DD x2 x12 | s1 => DD x2 x13 | s2 => DD x2 x14 | s3 => DD x2 x15 | s4 => DD x2 x16 | s5 => DD x2 x17 | s6 => DD x2 x18 | s7 => DD x2 x19 | s8 => DD x2 x20 | s9 => DD x2 x21 | s10 => DD x2 x22 | s11 => DD x2 x23 | s12 => DD x2 x24 | s13 => DD x2 x25 | s14 => DD x2 x26 | s15 => DD x2 x27 | s16 => DD x2 x28 | s17 => DD x2 x29 | s18 => DD x2 x30 | s19 => DD x2 x31 | s20 => DD x2 x32 | s21 => DD x2 x33 | s22 => DD x2 x34 | s23 => DD x2 x35 | s24 => DD x2 x36 | s25 => DD x2 x37 | s26 => DD x2 x38 | s27 => DD x2 x39 | s28 => DD x2 x40 | s29 => DD x2 x41 | s30 => DD x2 x42 | s31 => DD x2 x43 | s32 => DD x2 x44 | s33 => DD x2 x45 | s34 => DD x2 x46 | s35 => DD x2 x47 | s36 => DD x2 x48 | s37 => DD x2 x49 | s38 => DD x2 x50 | s39 => DD x2 x51 | s40 => DD x2 x52 | s41 => DD x2 x53 | s42 => DD x2 x54 | s43 => DD x2 x55 | s44 => DD x2 x56 | s45 => DD x2 x57 | s46 => DD x2 x58 | s47 => DD x2 x59 | s48 => DD x2 x60 | s49 => DD x2 x61 | s50 => DD x2 x62 | s51 => DD x2 x63 | s52 => DD x3 x0 | s53 => DD x3 x1 | s54 => DD x3 x2 | s55 => DD x3 x3 | s56 => DD x3 x4 | s57 => DD x3 x5 | s58 => DD x3 x6 | s59 => DD x3 x7 | s60 => DD x3 x8 | s61 => DD x3 x9 | s62 => DD x3 x10 | s63 => DD x3 x11 | s64 => DD x3 x12 | s65 => DD x3 x13 | s66 => DD x3 x14 | s67 => DD x3 x15 | s68 => DD x3 x16 | s69 => DD x3 x17 | s70 => DD x3 x18 | s71 => DD x3 x19 | s72 => DD x3 x20 | s73 => DD x3 x21 | s74 => DD x3 x22 | s75 => DD x3 x23 | s76 => DD x3 x24 | s77 => DD x3 x25 | s78 => DD x3 x26 | s79 => DD x3 x27 | s80 => DD x3 x28 | s81 => DD x3 x29 | s82 => DD x3 x30 | s83 => DD x3 x31 | s84 => DD x3 x32 | s85 => DD x3 x33 | s86 => DD x3 x34 | s87 => DD x3 x35 | s88 => DD x3 x36 | s89 => DD x3 x37 | s90 => DD x3 x38 | s91 => DD x3 x39 | s92 => DD x3 x40 | s93 => DD x3 x41 | s94 => DD x3 x42 | s95 => DD x3 x43 | s96 => DD x3 x44 | s97 => DD x3 x45 | s98 => DD x3 x46 | s99 => DD x3 x47 | s100 => DD x3 x48 | s101 => DD x3 x49 | s102 => DD x3 x50 | s103 => DD x3 x51 | s104 => DD x3 x52 | s105 => DD x3 x53 | s106 => DD x3 x54 | s107 => DD x3 x55 | s108 => DD x3 x56 | s109 => DD x3 x57 | s110 => DD x3 x58 | s111 => DD x3 x59 | s112 => DD x3 x60 | s113 => DD x3 x61 | s114 => DD x3 x62 | s115 => DD x3 x63 | s116 => DD x4 x0 | s117 => DD x4 x1 | s118 => DD x4 x2 | s119 => DD x4 x3 | s120 => DD x4 x4 | s121 => DD x4 x5 | s122 => DD x4 x6 | s123 => DD x4 x7 | s124 => DD x4 x8 | s125 => DD x4 x9 | s126 => DD x4 x10 end.
Definition m141 (c : sum2) : dd := match c with s0 => DD x2 x13 | s1 => DD x2 x14 | s2 => DD x2 x15 | s3 => DD x2 x16 | s4 => DD x2 x17 | s5 => DD x2 x18 | s6 => DD x2 x19 | s7 => DD x2 x20 | s8 => DD x2 x21 | s9 => DD x2 x22 | s10 => DD x2 x23 | s11 => DD x2 x24 | s12 => DD x2 x25 | s13 => DD x2 x26 | s14 => DD x2 x27 | s15 => DD x2 x28 | s16 => DD x2 x29 | s17 => DD x2 x30 | s18 => DD x2 x31 | s19 => DD x2 x32 | s20 => DD x2 x33 | s21 => DD x2 x34 | s22 => DD x2 x35 | s23 => DD x2 x36 | s24 => DD x2 x37 | s25 => DD x2 x38 | s26 => DD x2 x39 | s27 => DD x2 x40 | s28 => DD x2 x41 | s29 => DD x2 x42 | s30 => DD x2 x43 | s31 => DD x2 x44 | s32 => DD x2 x45 | s33 => DD x2 x46 | s34 => DD x2 x47 | s35 => DD x2 x48 | s36 => DD x2 x49 | s37 => DD x2 x50 | s38 => DD x2 x51 | s39 => DD x2 x52 | s40 => DD x2 x53 | s41 => DD x2 x54 | s42 => DD x2 x55 | s43 => DD x2 x56 | s44 => DD x2 x57 | s45 => DD x2 x58 | s46 => DD x2 x59 | s47 => DD x2 x60 | s48 => DD x2 x61 | s49 => DD x2 x62 | s50 => DD x2 x63 | s51 => DD x3 x0 | s52 => DD x3 x1 | s53 => DD x3 x2 | s54 => DD x3 x3 | s55 => DD x3 x4 | s56 => DD x3 x5 | s57 => DD x3 x6 | s58 => DD x3 x7 | s59 => DD x3 x8 | s60 => DD x3 x9 | s61 => DD x3 x10 | s62 => DD x3 x11 | s63 => DD x3 x12 | s64 => DD x3 x13 | s65 => DD x3 x14 | s66 => DD x3 x15 | s67 => DD x3 x16 | s68 => DD x3 x17 | s69 => DD x3 x18 | s70 => DD x3 x19 | s71 => DD x3 x20 | s72 => DD x3 x21 | s73 => DD x3 x22 | s74 => DD x3 x23 | s75 => DD x3 x24 | s76 => DD x3 x25 | s77 => DD x3 x26 | s78 => DD x3 x27 | s79 => DD x3 x28 | s80 => DD x3 x29 | s81 => DD x3 x30 | s82 => DD x3 x31 | s83 => DD x3 x32 | s84 => DD x3 x33 | s85 => DD x3 x34 | s86 => DD x3 x35 | s87 => DD x3 x36 | s88 => DD x3 x37 | s89 => DD x3 x38 | s90 => DD x3 x39 | s91 => DD x3 x40 | s92 => DD x3 x41 | s93 => DD x3 x42 | s94 => DD x3 x43 | s95 => DD x3 x44 | s96 => DD x3 x45 | s97 => DD x3 x46 | s98 => DD x3 x47 | s99 => DD x3 x48 | s100 => DD x3 x49 | s101 => DD x3 x50 | s102 => DD x3 x51 | s103 => DD x3 x52 | s104 => DD x3 x53 | s105 => DD x3 x54 | s106 => DD x3 x55 | s107 => DD x3 x56 | s108 => DD x3 x57 | s109 => DD x3 x58 | s110 => DD x3 x59 | s111 => DD x3 x60 | s112 => DD x3 x61 | s113 => DD x3 x62 | s114 => DD x3 x63 | s115 => DD x4 x0 | s116 => DD x4 x1 | s117 => DD x4 x2 | s118 => DD x4 x3 | s119 => DD x4 x4 | s120 => DD x4 x5 | s121 => DD x4 x6 | s122 => DD x4 x7 | s123 => DD x4 x8 | s124 => DD x4 x9 | s125 => DD x4 x10 | s126 => DD x4 x11 end.
Definition m143 (c : sum2) : dd := match c with s0 => DD x2 x15 | s1 => DD x2 x16 | s2 => DD x2 x17 | s3 => DD x2 x18 | s4 => DD x2 x19 | s5 => DD x2 x20 | s6 => DD x2 x21 | s7 => DD x2 x22 | s8 => DD x2 x23 | s9 => DD x2 x24 | s10 => DD x2 x25 | s11 => DD x2 x26 | s12 => DD x2 x27 | s13 => DD x2 x28 | s14 => DD x2 x29 | s15 => DD x2 x30 | s16 => DD x2 x31 | s17 => DD x2 x32 | s18 => DD x2 x33 | s19 => DD x2 x34 | s20 => DD x2 x35 | s21 => DD x2 x36 | s22 => DD x2 x37 | s23 => DD x2 x38 | s24 => DD x2 x39 | s25 => DD x2 x40 | s26 => DD x2 x41 | s27 => DD x2 x42 | s28 => DD x2 x43 | s29 => DD x2 x44 | s30 => DD x2 x45 | s31 => DD x2 x46 | s32 => DD x2 x47 | s33 => DD x2 x48 | s34 => DD x2 x49 | s35 => DD x2 x50 | s36 => DD x2 x51 | s37 => DD x2 x52 | s38 => DD x2 x53 | s39 => DD x2 x54 | s40 => DD x2 x55 | s41 => DD x2 x56 | s42 => DD x2 x57 | s43 => DD x2 x58 | s44 => DD x2 x59 | s45 => DD x2 x60 | s46 => DD x2 x61 | s47 => DD x2 x62 | s48 => DD x2 x63 | s49 => DD x3 x0 | s50 => DD x3 x1 | s51 => DD x3 x2 | s52 => DD x3 x3 | s53 => DD x3 x4 | s54 => DD x3 x5 | s55 => DD x3 x6 | s56 => DD x3 x7 | s57 => DD x3 x8 | s58 => DD x3 x9 | s59 => DD x3 x10 | s60 => DD x3 x11 | s61 => DD x3 x12 | s62 => DD x3 x13 | s63 => DD x3 x14 | s64 => DD x3 x15 | s65 => DD x3 x16 | s66 => DD x3 x17 | s67 => DD x3 x18 | s68 => DD x3 x19 | s69 => DD x3 x20 | s70 => DD x3 x21 | s71 => DD x3 x22 | s72 => DD x3 x23 | s73 => DD x3 x24 | s74 => DD x3 x25 | s75 => DD x3 x26 | s76 => DD x3 x27 | s77 => DD x3 x28 | s78 => DD x3 x29 | s79 => DD x3 x30 | s80 => DD x3 x31 | s81 => DD x3 x32 | s82 => DD x3 x33 | s83 => DD x3 x34 | s84 => DD x3 x35 | s85 => DD x3 x36 | s86 => DD x3 x37 | s87 => DD x3 x38 | s88 => DD x3 x39 | s89 => DD x3 x40 | s90 => DD x3 x41 | s91 => DD x3 x42 | s92 => DD x3 x43 | s93 => DD x3 x44 | s94 => DD x3 x45 | s95 => DD x3 x46 | s96 => DD x3 x47 | s97 => DD x3 x48 | s98 => DD x3 x49 | s99 => DD x3 x50 | s100 => DD x3 x51 | s101 => DD x3 x52 | s102 => DD x3 x53 | s103 => DD x3 x54 | s104 => DD x3 x55 | s105 => DD x3 x56 | s106 => DD x3 x57 | s107 => DD x3 x58 | s108 => DD x3 x59 | s109 => DD x3 x60 | s110 => DD x3 x61 | s111 => DD x3 x62 | s112 => DD x3 x63 | s113 => DD x4 x0 | s114 => DD x4 x1 | s115 => DD x4 x2 | s116 => DD x4 x3 | s117 => DD x4 x4 | s118 => DD x4 x5 | s119 => DD x4 x6 | s120 => DD x4 x7 | s121 => DD x4 x8 | s122 => DD x4 x9 | s123 => DD x4 x10 | s124 => DD x4 x11 | s125 => DD x4 x12 | s126 => DD x4 x13 end.
Definition m144 (c : sum2) : dd := match c with s0 => DD x2 x16 | s1 => DD x2 x17 | s2 => DD x2 x18 | s3 => DD x2 x19 | s4 => DD x2 x20 | s5 => DD x2 x21 | s6 => DD x2 x22 | s7 => DD x2 x23 | s8 => DD x2 x24 | s9 => DD x2 x25 | s10 => DD x2 x26 | s11 => DD x2 x27 | s12 => DD x2 x28 | s13 => DD x2 x29 | s14 => DD x2 x30 | s15 => DD x2 x31 | s16 => DD x2 x32 | s17 => DD x2 x33 | s18 => DD x2 x34 | s19 => DD x2 x35 | s20 => DD x2 x36 | s21 => DD x2 x37 | s22 => DD x2 x38 | s23 => DD x2 x39 | s24 => DD x2 x40 | s25 => DD x2 x41 | s26 => DD x2 x42 | s27 => DD x2 x43 | s28 => DD x2 x44 | s29 => DD x2 x45 | s30 => DD x2 x46 | s31 => DD x2 x47 | s32 => DD x2 x48 | s33 => DD x2 x49 | s34 => DD x2 x50 | s35 => DD x2 x51 | s36 => DD x2 x52 | s37 => DD x2 x53 | s38 => DD x2 x54 | s39 => DD x2 x55 | s40 => DD x2 x56 | s41 => DD x2 x57 | s42 => DD x2 x58 | s43 => DD x2 x59 | s44 => DD x2 x60 | s45 => DD x2 x61 | s46 => DD x2 x62 | s47 => DD x2 x63 | s48 => DD x3 x0 | s49 => DD x3 x1 | s50 => DD x3 x2 | s51 => DD x3 x3 | s52 => DD x3 x4 | s53 => DD x3 x5 | s54 => DD x3 x6 | s55 => DD x3 x7 | s56 => DD x3 x8 | s57 => DD x3 x9 | s58 => DD x3 x10 | s59 => DD x3 x11 | s60 => DD x3 x12 | s61 => DD x3 x13 | s62 => DD x3 x14 | s63 => DD x3 x15 | s64 => DD x3 x16 | s65 => DD x3 x17 | s66 => DD x3 x18 | s67 => DD x3 x19 | s68 => DD x3 x20 | s69 => DD x3 x21 | s70 => DD x3 x22 | s71 => DD x3 x23 | s72 => DD x3 x24 | s73 => DD x3 x25 | s74 => DD x3 x26 | s75 => DD x3 x27 | s76 => DD x3 x28 | s77 => DD x3 x29 | s78 => DD x3 x30 | s79 => DD x3 x31 | s80 => DD x3 x32 | s81 => DD x3 x33 | s82 => DD x3 x34 | s83 => DD x3 x35 | s84 => DD x3 x36 | s85 => DD x3 x37 | s86 => DD x3 x38 | s87 => DD x3 x39 | s88 => DD x3 x40 | s89 => DD x3 x41 | s90 => DD x3 x42 | s91 => DD x3 x43 | s92 => DD x3 x44 | s93 => DD x3 x45 | s94 => DD x3 x46 | s95 => DD x3 x47 | s96 => DD x3 x48 | s97 => DD x3 x49 | s98 => DD x3 x50 | s99 => DD x3 x51 | s100 => DD x3 x52 | s101 => DD x3 x53 | s102 => DD x3 x54 | s103 => DD x3 x55 | s104 => DD x3 x56 | s105 => DD x3 x57 | s106 => DD x3 x58 | s107 => DD x3 x59 | s108 => DD x3 x60 | s109 => DD x3 x61 | s110 => DD x3 x62 | s111 => DD x3 x63 | s112 => DD x4 x0 | s113 => DD x4 x1 | s114 => DD x4 x2 | s115 => DD x4 x3 | s116 => DD x4 x4 | s117 => DD x4 x5 | s118 => DD x4 x6 | s119 => DD x4 x7 | s120 => DD x4 x8 | s121 => DD x4 x9 | s122 => DD x4 x10 | s123 => DD x4 x11 | s124 => DD x4 x12 | s125 => DD x4 x13 | s126 => DD x4 x14 end.
Definition m145 (c : sum2) : dd := match c with s0 => DD x2 x17 | s1 => DD x2 x18 | s2 => DD x2 x19 | s3 => DD x2 x20 | s4 => DD x2 x21 | s5 => DD x2 x22 | s6 => DD x2 x23 | s7 => DD x2 x24 | s8 => DD x2 x25 | s9 => DD x2 x26 | s10 => DD x2 x27 | s11 => DD x2 x28 | s12 => DD x2 x29 | s13 => DD x2 x30 | s14 => DD x2 x31 | s15 => DD x2 x32 | s16 => DD x2 x33 | s17 => DD x2 x34 | s18 => DD x2 x35 | s19 => DD x2 x36 | s20 => DD x2 x37 | s21 => DD x2 x38 | s22 => DD x2 x39 | s23 => DD x2 x40 | s24 => DD x2 x41 | s25 => DD x2 x42 | s26 => DD x2 x43 | s27 => DD x2 x44 | s28 => DD x2 x45 | s29 => DD x2 x46 | s30 => DD x2 x47 | s31 => DD x2 x48 | s32 => DD x2 x49 | s33 => DD x2 x50 | s34 => DD x2 x51 | s35 => DD x2 x52 | s36 => DD x2 x53 | s37 => DD x2 x54 | s38 => DD x2 x55 | s39 => DD x2 x56 | s40 => DD x2 x57 | s41 => DD x2 x58 | s42 => DD x2 x59 | s43 => DD x2 x60 | s44 => DD x2 x61 | s45 => DD x2 x62 | s46 => DD x2 x63 | s47 => DD x3 x0 | s48 => DD x3 x1 | s49 => DD x3 x2 | s50 => DD x3 x3 | s51 => DD x3 x4 | s52 => DD x3 x5 | s53 => DD x3 x6 | s54 => DD x3 x7 | s55 => DD x3 x8 | s56 => DD x3 x9 | s57 => DD x3 x10 | s58 => DD x3 x11 | s59 => DD x3 x12 | s60 => DD x3 x13 | s61 => DD x3 x14 | s62 => DD x3 x15 | s63 => DD x3 x16 | s64 => DD x3 x17 | s65 => DD x3 x18 | s66 => DD x3 x19 | s67 => DD x3 x20 | s68 => DD x3 x21 | s69 => DD x3 x22 | s70 => DD x3 x23 | s71 => DD x3 x24 | s72 => DD x3 x25 | s73 => DD x3 x26 | s74 => DD x3 x27 | s75 => DD x3 x28 | s76 => DD x3 x29 | s77 => DD x3 x30 | s78 => DD x3 x31 | s79 => DD x3 x32 | s80 => DD x3 x33 | s81 => DD x3 x34 | s82 => DD x3 x35 | s83 => DD x3 x36 | s84 => DD x3 x37 | s85 => DD x3 x38 | s86 => DD x3 x39 | s87 => DD x3 x40 | s88 => DD x3 x41 | s89 => DD x3 x42 | s90 => DD x3 x43 | s91 => DD x3 x44 | s92 => DD x3 x45 | s93 => DD x3 x46 | s94 => DD x3 x47 | s95 => DD x3 x48 | s96 => DD x3 x49 | s97 => DD x3 x50 | s98 => DD x3 x51 | s99 => DD x3 x52 | s100 => DD x3 x53 | s101 => DD x3 x54 | s102 => DD x3 x55 | s103 => DD x3 x56 | s104 => DD x3 x57 | s105 => DD x3 x58 | s106 => DD x3 x59 | s107 => DD x3 x60 | s108 => DD x3 x61 | s109 => DD x3 x62 | s110 => DD x3 x63 | s111 => DD x4 x0 | s112 => DD x4 x1 | s113 => DD x4 x2 | s114 => DD x4 x3 | s115 => DD x4 x4 | s116 => DD x4 x5 | s117 => DD x4 x6 | s118 => DD x4 x7 | s119 => DD x4 x8 | s120 => DD x4 x9 | s121 => DD x4 x10 | s122 => DD x4 x11 | s123 => DD x4 x12 | s124 => DD x4 x13 | s125 => DD x4 x14 | s126 => DD x4 x15 end.
Definition m147 (c : sum2) : dd := match c with s0 => DD x2 x19 | s1 => DD x2 x20 | s2 => DD x2 x21 | s3 => DD x2 x22 | s4 => DD x2 x23 | s5 => DD x2 x24 | s6 => DD x2 x25 | s7 => DD x2 x26 | s8 => DD x2 x27 | s9 => DD x2 x28 | s10 => DD x2 x29 | s11 => DD x2 x30 | s12 => DD x2 x31 | s13 => DD x2 x32 | s14 => DD x2 x33 | s15 => DD x2 x34 | s16 => DD x2 x35 | s17 => DD x2 x36 | s18 => DD x2 x37 | s19 => DD x2 x38 | s20 => DD x2 x39 | s21 => DD x2 x40 | s22 => DD x2 x41 | s23 => DD x2 x42 | s24 => DD x2 x43 | s25 => DD x2 x44 | s26 => DD x2 x45 | s27 => DD x2 x46 | s28 => DD x2 x47 | s29 => DD x2 x48 | s30 => DD x2 x49 | s31 => DD x2 x50 | s32 => DD x2 x51 | s33 => DD x2 x52 | s34 => DD x2 x53 | s35 => DD x2 x54 | s36 => DD x2 x55 | s37 => DD x2 x56 | s38 => DD x2 x57 | s39 => DD x2 x58 | s40 => DD x2 x59 | s41 => DD x2 x60 | s42 => DD x2 x61 | s43 => DD x2 x62 | s44 => DD x2 x63 | s45 => DD x3 x0 | s46 => DD x3 x1 | s47 => DD x3 x2 | s48 => DD x3 x3 | s49 => DD x3 x4 | s50 => DD x3 x5 | s51 => DD x3 x6 | s52 => DD x3 x7 | s53 => DD x3 x8 | s54 => DD x3 x9 | s55 => DD x3 x10 | s56 => DD x3 x11 | s57 => DD x3 x12 | s58 => DD x3 x13 | s59 => DD x3 x14 | s60 => DD x3 x15 | s61 => DD x3 x16 | s62 => DD x3 x17 | s63 => DD x3 x18 | s64 => DD x3 x19 | s65 => DD x3 x20 | s66 => DD x3 x21 | s67 => DD x3 x22 | s68 => DD x3 x23 | s69 => DD x3 x24 | s70 => DD x3 x25 | s71 => DD x3 x26 | s72 => DD x3 x27 | s73 => DD x3 x28 | s74 => DD x3 x29 | s75 => DD x3 x30 | s76 => DD x3 x31 | s77 => DD x3 x32 | s78 => DD x3 x33 | s79 => DD x3 x34 | s80 => DD x3 x35 | s81 => DD x3 x36 | s82 => DD x3 x37 | s83 => DD x3 x38 | s84 => DD x3 x39 | s85 => DD x3 x40 | s86 => DD x3 x41 | s87 => DD x3 x42 | s88 => DD x3 x43 | s89 => DD x3 x44 | s90 => DD x3 x45 | s91 => DD x3 x46 | s92 => DD x3 x47 | s93 => DD x3 x48 | s94 => DD x3 x49 | s95 => DD x3 x50 | s96 => DD x3 x51 | s97 => DD x3 x52 | s98 => DD x3 x53 | s99 => DD x3 x54 | s100 => DD x3 x55 | s101 => DD x3 x56 | s102 => DD x3 x57 | s103 => DD x3 x58 | s104 => DD x3 x59 | s105 => DD x3 x60 | s106 => DD x3 x61 | s107 => DD x3 x62 | s108 => DD x3 x63 | s109 => DD x4 x0 | s110 => DD x4 x1 | s111 => DD x4 x2 | s112 => DD x4 x3 | s113 => DD x4 x4 | s114 => DD x4 x5 | s115 => DD x4 x6 | s116 => DD x4 x7 | s117 => DD x4 x8 | s118 => DD x4 x9 | s119 => DD x4 x10 | s120 => DD x4 x11 | s121 => DD x4 x12 | s122 => DD x4 x13 | s123 => DD x4 x14 | s124 => DD x4 x15 | s125 => DD x4 x16 | s126 => DD x4 x17 end.
Definition m148 (c : sum2) : dd := match c with s0 => DD x2 x20 | s1 => DD x2 x21 | s2 => DD x2 x22 | s3 => DD x2 x23 | s4 => DD x2 x24 | s5 => DD x2 x25 | s6 => DD x2 x26 | s7 => DD x2 x27 | s8 => DD x2 x28 | s9 => DD x2 x29 | s10 => DD x2 x30 | s11 => DD x2 x31 | s12 => DD x2 x32 | s13 => DD x2 x33 | s14 => DD x2 x34 | s15 => DD x2 x35 | s16 => DD x2 x36 | s17 => DD x2 x37 | s18 => DD x2 x38 | s19 => DD x2 x39 | s20 => DD x2 x40 | s21 => DD x2 x41 | s22 => DD x2 x42 | s23 => DD x2 x43 | s24 => DD x2 x44 | s25 => DD x2 x45 | s26 => DD x2 x46 | s27 => DD x2 x47 | s28 => DD x2 x48 | s29 => DD x2 x49 | s30 => DD x2 x50 | s31 => DD x2 x51 | s32 => DD x2 x52 | s33 => DD x2 x53 | s34 => DD x2 x54 | s35 => DD x2 x55 | s36 => DD x2 x56 | s37 => DD x2 x57 | s38 => DD x2 x58 | s39 => DD x2 x59 | s40 => DD x2 x60 | s41 => DD x2 x61 | s42 => DD x2 x62 | s43 => DD x2 x63 | s44 => DD x3 x0 | s45 => DD x3 x1 | s46 => DD x3 x2 | s47 => DD x3 x3 | s48 => DD x3 x4 | s49 => DD x3 x5 | s50 => DD x3 x6 | s51 => DD x3 x7 | s52 => DD x3 x8 | s53 => DD x3 x9 | s54 => DD x3 x10 | s55 => DD x3 x11 | s56 => DD x3 x12 | s57 => DD x3 x13 | s58 => DD x3 x14 | s59 => DD x3 x15 | s60 => DD x3 x16 | s61 => DD x3 x17 | s62 => DD x3 x18 | s63 => DD x3 x19 | s64 => DD x3 x20 | s65 => DD x3 x21 | s66 => DD x3 x22 | s67 => DD x3 x23 | s68 => DD x3 x24 | s69 => DD x3 x25 | s70 => DD x3 x26 | s71 => DD x3 x27 | s72 => DD x3 x28 | s73 => DD x3 x29 | s74 => DD x3 x30 | s75 => DD x3 x31 | s76 => DD x3 x32 | s77 => DD x3 x33 | s78 => DD x3 x34 | s79 => DD x3 x35 | s80 => DD x3 x36 | s81 => DD x3 x37 | s82 => DD x3 x38 | s83 => DD x3 x39 | s84 => DD x3 x40 | s85 => DD x3 x41 | s86 => DD x3 x42 | s87 => DD x3 x43 | s88 => DD x3 x44 | s89 => DD x3 x45 | s90 => DD x3 x46 | s91 => DD x3 x47 | s92 => DD x3 x48 | s93 => DD x3 x49 | s94 => DD x3 x50 | s95 => DD x3 x51 | s96 => DD x3 x52 | s97 => DD x3 x53 | s98 => DD x3 x54 | s99 => DD x3 x55 | s100 => DD x3 x56 | s101 => DD x3 x57 | s102 => DD x3 x58 | s103 => DD x3 x59 | s104 => DD x3 x60 | s105 => DD x3 x61 | s106 => DD x3 x62 | s107 => DD x3 x63 | s108 => DD x4 x0 | s109 => DD x4 x1 | s110 => DD x4 x2 | s111 => DD x4 x3 | s112 => DD x4 x4 | s113 => DD x4 x5 | s114 => DD x4 x6 | s115 => DD x4 x7 | s116 => DD x4 x8 | s117 => DD x4 x9 | s118 => DD x4 x10 | s119 => DD x4 x11 | s120 => DD x4 x12 | s121 => DD x4 x13 | s122 => DD x4 x14 | s123 => DD x4 x15 | s124 => DD x4 x16 | s125 => DD x4 x17 | s126 => DD x4 x18 end.
Definition m150 (c : sum2) : dd := match c with s0 => DD x2 x22 | s1 => DD x2 x23 | s2 => DD x2 x24 | s3 => DD x2 x25 | s4 => DD x2 x26 | s5 => DD x2 x27 | s6 => DD x2 x28 | s7 => DD x2 x29 | s8 => DD x2 x30 | s9 => DD x2 x31 | s10 => DD x2 x32 | s11 => DD x2 x33 | s12 => DD x2 x34 | s13 => DD x2 x35 | s14 => DD x2 x36 | s15 => DD x2 x37 | s16 => DD x2 x38 | s17 => DD x2 x39 | s18 => DD x2 x40 | s19 => DD x2 x41 | s20 => DD x2 x42 | s21 => DD x2 x43 | s22 => DD x2 x44 | s23 => DD x2 x45 | s24 => DD x2 x46 | s25 => DD x2 x47 | s26 => DD x2 x48 | s27 => DD x2 x49 | s28 => DD x2 x50 | s29 => DD x2 x51 | s30 => DD x2 x52 | s31 => DD x2 x53 | s32 => DD x2 x54 | s33 => DD x2 x55 | s34 => DD x2 x56 | s35 => DD x2 x57 | s36 => DD x2 x58 | s37 => DD x2 x59 | s38 => DD x2 x60 | s39 => DD x2 x61 | s40 => DD x2 x62 | s41 => DD x2 x63 | s42 => DD x3 x0 | s43 => DD x3 x1 | s44 => DD x3 x2 | s45 => DD x3 x3 | s46 => DD x3 x4 | s47 => DD x3 x5 | s48 => DD x3 x6 | s49 => DD x3 x7 | s50 => DD x3 x8 | s51 => DD x3 x9 | s52 => DD x3 x10 | s53 => DD x3 x11 | s54 => DD x3 x12 | s55 => DD x3 x13 | s56 => DD x3 x14 | s57 => DD x3 x15 | s58 => DD x3 x16 | s59 => DD x3 x17 | s60 => DD x3 x18 | s61 => DD x3 x19 | s62 => DD x3 x20 | s63 => DD x3 x21 | s64 => DD x3 x22 | s65 => DD x3 x23 | s66 => DD x3 x24 | s67 => DD x3 x25 | s68 => DD x3 x26 | s69 => DD x3 x27 | s70 => DD x3 x28 | s71 => DD x3 x29 | s72 => DD x3 x30 | s73 => DD x3 x31 | s74 => DD x3 x32 | s75 => DD x3 x33 | s76 => DD x3 x34 | s77 => DD x3 x35 | s78 => DD x3 x36 | s79 => DD x3 x37 | s80 => DD x3 x38 | s81 => DD x3 x39 | s82 => DD x3 x40 | s83 => DD x3 x41 | s84 => DD x3 x42 | s85 => DD x3 x43 | s86 => DD x3 x44 | s87 => DD x3 x45 | s88 => DD x3 x46 | s89 => DD x3 x47 | s90 => DD x3 x48 | s91 => DD x3 x49 | s92 => DD x3 x50 | s93 => DD x3 x51 | s94 => DD x3 x52 | s95 => DD x3 x53 | s96 => DD x3 x54 | s97 => DD x3 x55 | s98 => DD x3 x56 | s99 => DD x3 x57 | s100 => DD x3 x58 | s101 => DD x3 x59 | s102 => DD x3 x60 | s103 => DD x3 x61 | s104 => DD x3 x62 | s105 => DD x3 x63 | s106 => DD x4 x0 | s107 => DD x4 x1 | s108 => DD x4 x2 | s109 => DD x4 x3 | s110 => DD x4 x4 | s111 => DD x4 x5 | s112 => DD x4 x6 | s113 => DD x4 x7 | s114 => DD x4 x8 | s115 => DD x4 x9 | s116 => DD x4 x10 | s117 => DD x4 x11 | s118 => DD x4 x12 | s119 => DD x4 x13 | s120 => DD x4 x14 | s121 => DD x4 x15 | s122 => DD x4 x16 | s123 => DD x4 x17 | s124 => DD x4 x18 | s125 => DD x4 x19 | s126 => DD x4 x20 end.
Definition m152 (c : sum2) : dd := match c with s0 => DD x2 x24 | s1 => DD x2 x25 | s2 => DD x2 x26 | s3 => DD x2 x27 | s4 => DD x2 x28 | s5 => DD x2 x29 | s6 => DD x2 x30 | s7 => DD x2 x31 | s8 => DD x2 x32 | s9 => DD x2 x33 | s10 => DD x2 x34 | s11 => DD x2 x35 | s12 => DD x2 x36 | s13 => DD x2 x37 | s14 => DD x2 x38 | s15 => DD x2 x39 | s16 => DD x2 x40 | s17 => DD x2 x41 | s18 => DD x2 x42 | s19 => DD x2 x43 | s20 => DD x2 x44 | s21 => DD x2 x45 | s22 => DD x2 x46 | s23 => DD x2 x47 | s24 => DD x2 x48 | s25 => DD x2 x49 | s26 => DD x2 x50 | s27 => DD x2 x51 | s28 => DD x2 x52 | s29 => DD x2 x53 | s30 => DD x2 x54 | s31 => DD x2 x55 | s32 => DD x2 x56 | s33 => DD x2 x57 | s34 => DD x2 x58 | s35 => DD x2 x59 | s36 => DD x2 x60 | s37 => DD x2 x61 | s38 => DD x2 x62 | s39 => DD x2 x63 | s40 => DD x3 x0 | s41 => DD x3 x1 | s42 => DD x3 x2 | s43 => DD x3 x3 | s44 => DD x3 x4 | s45 => DD x3 x5 | s46 => DD x3 x6 | s47 => DD x3 x7 | s48 => DD x3 x8 | s49 => DD x3 x9 | s50 => DD x3 x10 | s51 => DD x3 x11 | s52 => DD x3 x12 | s53 => DD x3 x13 | s54 => DD x3 x14 | s55 => DD x3 x15 | s56 => DD x3 x16 | s57 => DD x3 x17 | s58 => DD x3 x18 | s59 => DD x3 x19 | s60 => DD x3 x20 | s61 => DD x3 x21 | s62 => DD x3 x22 | s63 => DD x3 x23 | s64 => DD x3 x24 | s65 => DD x3 x25 | s66 => DD x3 x26 | s67 => DD x3 x27 | s68 => DD x3 x28 | s69 => DD x3 x29 | s70 => DD x3 x30 | s71 => DD x3 x31 | s72 => DD x3 x32 | s73 => DD x3 x33 | s74 => DD x3 x34 | s75 => DD x3 x35 | s76 => DD x3 x36 | s77 => DD x3 x37 | s78 => DD x3 x38 | s79 => DD x3 x39 | s80 => DD x3 x40 | s81 => DD x3 x41 | s82 => DD x3 x42 | s83 => DD x3 x43 | s84 => DD x3 x44 | s85 => DD x3 x45 | s86 => DD x3 x46 | s87 => DD x3 x47 | s88 => DD x3 x48 | s89 => DD x3 x49 | s90 => DD x3 x50 | s91 => DD x3 x51 | s92 => DD x3 x52 | s93 => DD x3 x53 | s94 => DD x3 x54 | s95 => DD x3 x55 | s96 => DD x3 x56 | s97 => DD x3 x57 | s98 => DD x3 x58 | s99 => DD x3 x59 | s100 => DD x3 x60 | s101 => DD x3 x61 | s102 => DD x3 x62 | s103 => DD x3 x63 | s104 => DD x4 x0 | s105 => DD x4 x1 | s106 => DD x4 x2 | s107 => DD x4 x3 | s108 => DD x4 x4 | s109 => DD x4 x5 | s110 => DD x4 x6 | s111 => DD x4 x7 | s112 => DD x4 x8 | s113 => DD x4 x9 | s114 => DD x4 x10 | s115 => DD x4 x11 | s116 => DD x4 x12 | s117 => DD x4 x13 | s118 => DD x4 x14 | s119 => DD x4 x15 | s120 => DD x4 x16 | s121 => DD x4 x17 | s122 => DD x4 x18 | s123 => DD x4 x19 | s124 => DD x4 x20 | s125 => DD x4 x21 | s126 => DD x4 x22 end.
Definition m153 (c : sum2) : dd := match c with s0 => DD x2 x25 | s1 => DD x2 x26 | s2 => DD x2 x27 | s3 => DD x2 x28 | s4 => DD x2 x29 | s5 => DD x2 x30 | s6 => DD x2 x31 | s7 => DD x2 x32 | s8 => DD x2 x33 | s9 => DD x2 x34 | s10 => DD x2 x35 | s11 => DD x2 x36 | s12 => DD x2 x37 | s13 => DD x2 x38 | s14 => DD x2 x39 | s15 => DD x2 x40 | s16 => DD x2 x41 | s17 => DD x2 x42 | s18 => DD x2 x43 | s19 => DD x2 x44 | s20 => DD x2 x45 | s21 => DD x2 x46 | s22 => DD x2 x47 | s23 => DD x2 x48 | s24 => DD x2 x49 | s25 => DD x2 x50 | s26 => DD x2 x51 | s27 => DD x2 x52 | s28 => DD x2 x53 | s29 => DD x2 x54 | s30 => DD x2 x55 | s31 => DD x2 x56 | s32 => DD x2 x57 | s33 => DD x2 x58 | s34 => DD x2 x59 | s35 => DD x2 x60 | s36 => DD x2 x61 | s37 => DD x2 x62 | s38 => DD x2 x63 | s39 => DD x3 x0 | s40 => DD x3 x1 | s41 => DD x3 x2 | s42 => DD x3 x3 | s43 => DD x3 x4 | s44 => DD x3 x5 | s45 => DD x3 x6 | s46 => DD x3 x7 | s47 => DD x3 x8 | s48 => DD x3 x9 | s49 => DD x3 x10 | s50 => DD x3 x11 | s51 => DD x3 x12 | s52 => DD x3 x13 | s53 => DD x3 x14 | s54 => DD x3 x15 | s55 => DD x3 x16 | s56 => DD x3 x17 | s57 => DD x3 x18 | s58 => DD x3 x19 | s59 => DD x3 x20 | s60 => DD x3 x21 | s61 => DD x3 x22 | s62 => DD x3 x23 | s63 => DD x3 x24 | s64 => DD x3 x25 | s65 => DD x3 x26 | s66 => DD x3 x27 | s67 => DD x3 x28 | s68 => DD x3 x29 | s69 => DD x3 x30 | s70 => DD x3 x31 | s71 => DD x3 x32 | s72 => DD x3 x33 | s73 => DD x3 x34 | s74 => DD x3 x35 | s75 => DD x3 x36 | s76 => DD x3 x37 | s77 => DD x3 x38 | s78 => DD x3 x39 | s79 => DD x3 x40 | s80 => DD x3 x41 | s81 => DD x3 x42 | s82 => DD x3 x43 | s83 => DD x3 x44 | s84 => DD x3 x45 | s85 => DD x3 x46 | s86 => DD x3 x47 | s87 => DD x3 x48 | s88 => DD x3 x49 | s89 => DD x3 x50 | s90 => DD x3 x51 | s91 => DD x3 x52 | s92 => DD x3 x53 | s93 => DD x3 x54 | s94 => DD x3 x55 | s95 => DD x3 x56 | s96 => DD x3 x57 | s97 => DD x3 x58 | s98 => DD x3 x59 | s99 => DD x3 x60 | s100 => DD x3 x61 | s101 => DD x3 x62 | s102 => DD x3 x63 | s103 => DD x4 x0 | s104 => DD x4 x1 | s105 => DD x4 x2 | s106 => DD x4 x3 | s107 => DD x4 x4 | s108 => DD x4 x5 | s109 => DD x4 x6 | s110 => DD x4 x7 | s111 => DD x4 x8 | s112 => DD x4 x9 | s113 => DD x4 x10 | s114 => DD x4 x11 | s115 => DD x4 x12 | s116 => DD x4 x13 | s117 => DD x4 x14 | s118 => DD x4 x15 | s119 => DD x4 x16 | s120 => DD x4 x17 | s121 => DD x4 x18 | s122 => DD x4 x19 | s123 => DD x4 x20 | s124 => DD x4 x21 | s125 => DD x4 x22 | s126 => DD x4 x23 end.
Definition m154 (c : sum2) : dd := match c with s0 => DD x2 x26 | s1 => DD x2 x27 | s2 => DD x2 x28 | s3 => DD x2 x29 | s4 => DD x2 x30 | s5 => DD x2 x31 | s6 => DD x2 x32 | s7 => DD x2 x33 | s8 => DD x2 x34 | s9 => DD x2 x35 | s10 => DD x2 x36 | s11 => DD x2 x37 | s12 => DD x2 x38 | s13 => DD x2 x39 | s14 => DD x2 x40 | s15 => DD x2 x41 | s16 => DD x2 x42 | s17 => DD x2 x43 | s18 => DD x2 x44 | s19 => DD x2 x45 | s20 => DD x2 x46 | s21 => DD x2 x47 | s22 => DD x2 x48 | s23 => DD x2 x49 | s24 => DD x2 x50 | s25 => DD x2 x51 | s26 => DD x2 x52 | s27 => DD x2 x53 | s28 => DD x2 x54 | s29 => DD x2 x55 | s30 => DD x2 x56 | s31 => DD x2 x57 | s32 => DD x2 x58 | s33 => DD x2 x59 | s34 => DD x2 x60 | s35 => DD x2 x61 | s36 => DD x2 x62 | s37 => DD x2 x63 | s38 => DD x3 x0 | s39 => DD x3 x1 | s40 => DD x3 x2 | s41 => DD x3 x3 | s42 => DD x3 x4 | s43 => DD x3 x5 | s44 => DD x3 x6 | s45 => DD x3 x7 | s46 => DD x3 x8 | s47 => DD x3 x9 | s48 => DD x3 x10 | s49 => DD x3 x11 | s50 => DD x3 x12 | s51 => DD x3 x13 | s52 => DD x3 x14 | s53 => DD x3 x15 | s54 => DD x3 x16 | s55 => DD x3 x17 | s56 => DD x3 x18 | s57 => DD x3 x19 | s58 => DD x3 x20 | s59 => DD x3 x21 | s60 => DD x3 x22 | s61 => DD x3 x23 | s62 => DD x3 x24 | s63 => DD x3 x25 | s64 => DD x3 x26 | s65 => DD x3 x27 | s66 => DD x3 x28 | s67 => DD x3 x29 | s68 => DD x3 x30 | s69 => DD x3 x31 | s70 => DD x3 x32 | s71 => DD x3 x33 | s72 => DD x3 x34 | s73 => DD x3 x35 | s74 => DD x3 x36 | s75 => DD x3 x37 | s76 => DD x3 x38 | s77 => DD x3 x39 | s78 => DD x3 x40 | s79 => DD x3 x41 | s80 => DD x3 x42 | s81 => DD x3 x43 | s82 => DD x3 x44 | s83 => DD x3 x45 | s84 => DD x3 x46 | s85 => DD x3 x47 | s86 => DD x3 x48 | s87 => DD x3 x49 | s88 => DD x3 x50 | s89 => DD x3 x51 | s90 => DD x3 x52 | s91 => DD x3 x53 | s92 => DD x3 x54 | s93 => DD x3 x55 | s94 => DD x3 x56 | s95 => DD x3 x57 | s96 => DD x3 x58 | s97 => DD x3 x59 | s98 => DD x3 x60 | s99 => DD x3 x61 | s100 => DD x3 x62 | s101 => DD x3 x63 | s102 => DD x4 x0 | s103 => DD x4 x1 | s104 => DD x4 x2 | s105 => DD x4 x3 | s106 => DD x4 x4 | s107 => DD x4 x5 | s108 => DD x4 x6 | s109 => DD x4 x7 | s110 => DD x4 x8 | s111 => DD x4 x9 | s112 => DD x4 x10 | s113 => DD x4 x11 | s114 => DD x4 x12 | s115 => DD x4 x13 | s116 => DD x4 x14 | s117 => DD x4 x15 | s118 => DD x4 x16 | s119 => DD x4 x17 | s120 => DD x4 x18 | s121 => DD x4 x19 | s122 => DD x4 x20 | s123 => DD x4 x21 | s124 => DD x4 x22 | s125 => DD x4 x23 | s126 => DD x4 x24 end.
Definition m155 (c : sum2) : dd := match c with s0 => DD x2 x27 | s1 => DD x2 x28 | s2 => DD x2 x29 | s3 => DD x2 x30 | s4 => DD x2 x31 | s5 => DD x2 x32 | s6 => DD x2 x33 | s7 => DD x2 x34 | s8 => DD x2 x35 | s9 => DD x2 x36 | s10 => DD x2 x37 | s11 => DD x2 x38 | s12 => DD x2 x39 | s13 => DD x2 x40 | s14 => DD x2 x41 | s15 => DD x2 x42 | s16 => DD x2 x43 | s17 => DD x2 x44 | s18 => DD x2 x45 | s19 => DD x2 x46 | s20 => DD x2 x47 | s21 => DD x2 x48 | s22 => DD x2 x49 | s23 => DD x2 x50 | s24 => DD x2 x51 | s25 => DD x2 x52 | s26 => DD x2 x53 | s27 => DD x2 x54 | s28 => DD x2 x55 | s29 => DD x2 x56 | s30 => DD x2 x57 | s31 => DD x2 x58 | s32 => DD x2 x59 | s33 => DD x2 x60 | s34 => DD x2 x61 | s35 => DD x2 x62 | s36 => DD x2 x63 | s37 => DD x3 x0 | s38 => DD x3 x1 | s39 => DD x3 x2 | s40 => DD x3 x3 | s41 => DD x3 x4 | s42 => DD x3 x5 | s43 => DD x3 x6 | s44 => DD x3 x7 | s45 => DD x3 x8 | s46 => DD x3 x9 | s47 => DD x3 x10 | s48 => DD x3 x11 | s49 => DD x3 x12 | s50 => DD x3 x13 | s51 => DD x3 x14 | s52 => DD x3 x15 | s53 => DD x3 x16 | s54 => DD x3 x17 | s55 => DD x3 x18 | s56 => DD x3 x19 | s57 => DD x3 x20 | s58 => DD x3 x21 | s59 => DD x3 x22 | s60 => DD x3 x23 | s61 => DD x3 x24 | s62 => DD x3 x25 | s63 => DD x3 x26 | s64 => DD x3 x27 | s65 => DD x3 x28 | s66 => DD x3 x29 | s67 => DD x3 x30 | s68 => DD x3 x31 | s69 => DD x3 x32 | s70 => DD x3 x33 | s71 => DD x3 x34 | s72 => DD x3 x35 | s73 => DD x3 x36 | s74 => DD x3 x37 | s75 => DD x3 x38 | s76 => DD x3 x39 | s77 => DD x3 x40 | s78 => DD x3 x41 | s79 => DD x3 x42 | s80 => DD x3 x43 | s81 => DD x3 x44 | s82 => DD x3 x45 | s83 => DD x3 x46 | s84 => DD x3 x47 | s85 => DD x3 x48 | s86 => DD x3 x49 | s87 => DD x3 x50 | s88 => DD x3 x51 | s89 => DD x3 x52 | s90 => DD x3 x53 | s91 => DD x3 x54 | s92 => DD x3 x55 | s93 => DD x3 x56 | s94 => DD x3 x57 | s95 => DD x3 x58 | s96 => DD x3 x59 | s97 => DD x3 x60 | s98 => DD x3 x61 | s99 => DD x3 x62 | s100 => DD x3 x63 | s101 => DD x4 x0 | s102 => DD x4 x1 | s103 => DD x4 x2 | s104 => DD x4 x3 | s105 => DD x4 x4 | s106 => DD x4 x5 | s107 => DD x4 x6 | s108 => DD x4 x7 | s109 => DD x4 x8 | s110 => DD x4 x9 | s111 => DD x4 x10 | s112 => DD x4 x11 | s113 => DD x4 x12 | s114 => DD x4 x13 | s115 => DD x4 x14 | s116 => DD x4 x15 | s117 => DD x4 x16 | s118 => DD x4 x17 | s119 => DD x4 x18 | s120 => DD x4 x19 | s121 => DD x4 x20 | s122 => DD x4 x21 | s123 => DD x4 x22 | s124 => DD x4 x23 | s125 => DD x4 x24 | s126 => DD x4 x25 end.
Definition m156 (c : sum2) : dd := match c with s0 => DD x2 x28 | s1 => DD x2 x29 | s2 => DD x2 x30 | s3 => DD x2 x31 | s4 => DD x2 x32 | s5 => DD x2 x33 | s6 => DD x2 x34 | s7 => DD x2 x35 | s8 => DD x2 x36 | s9 => DD x2 x37 | s10 => DD x2 x38 | s11 => DD x2 x39 | s12 => DD x2 x40 | s13 => DD x2 x41 | s14 => DD x2 x42 | s15 => DD x2 x43 | s16 => DD x2 x44 | s17 => DD x2 x45 | s18 => DD x2 x46 | s19 => DD x2 x47 | s20 => DD x2 x48 | s21 => DD x2 x49 | s22 => DD x2 x50 | s23 => DD x2 x51 | s24 => DD x2 x52 | s25 => DD x2 x53 | s26 => DD x2 x54 | s27 => DD x2 x55 | s28 => DD x2 x56 | s29 => DD x2 x57 | s30 => DD x2 x58 | s31 => DD x2 x59 | s32 => DD x2 x60 | s33 => DD x2 x61 | s34 => DD x2 x62 | s35 => DD x2 x63 | s36 => DD x3 x0 | s37 => DD x3 x1 | s38 => DD x3 x2 | s39 => DD x3 x3 | s40 => DD x3 x4 | s41 => DD x3 x5 | s42 => DD x3 x6 | s43 => DD x3 x7 | s44 => DD x3 x8 | s45 => DD x3 x9 | s46 => DD x3 x10 | s47 => DD x3 x11 | s48 => DD x3 x12 | s49 => DD x3 x13 | s50 => DD x3 x14 | s51 => DD x3 x15 | s52 => DD x3 x16 | s53 => DD x3 x17 | s54 => DD x3 x18 | s55 => DD x3 x19 | s56 => DD x3 x20 | s57 => DD x3 x21 | s58 => DD x3 x22 | s59 => DD x3 x23 | s60 => DD x3 x24 | s61 => DD x3 x25 | s62 => DD x3 x26 | s63 => DD x3 x27 | s64 => DD x3 x28 | s65 => DD x3 x29 | s66 => DD x3 x30 | s67 => DD x3 x31 | s68 => DD x3 x32 | s69 => DD x3 x33 | s70 => DD x3 x34 | s71 => DD x3 x35 | s72 => DD x3 x36 | s73 => DD x3 x37 | s74 => DD x3 x38 | s75 => DD x3 x39 | s76 => DD x3 x40 | s77 => DD x3 x41 | s78 => DD x3 x42 | s79 => DD x3 x43 | s80 => DD x3 x44 | s81 => DD x3 x45 | s82 => DD x3 x46 | s83 => DD x3 x47 | s84 => DD x3 x48 | s85 => DD x3 x49 | s86 => DD x3 x50 | s87 => DD x3 x51 | s88 => DD x3 x52 | s89 => DD x3 x53 | s90 => DD x3 x54 | s91 => DD x3 x55 | s92 => DD x3 x56 | s93 => DD x3 x57 | s94 => DD x3 x58 | s95 => DD x3 x59 | s96 => DD x3 x60 | s97 => DD x3 x61 | s98 => DD x3 x62 | s99 => DD x3 x63 | s100 => DD x4 x0 | s101 => DD x4 x1 | s102 => DD x4 x2 | s103 => DD x4 x3 | s104 => DD x4 x4 | s105 => DD x4 x5 | s106 => DD x4 x6 | s107 => DD x4 x7 | s108 => DD x4 x8 | s109 => DD x4 x9 | s110 => DD x4 x10 | s111 => DD x4 x11 | s112 => DD x4 x12 | s113 => DD x4 x13 | s114 => DD x4 x14 | s115 => DD x4 x15 | s116 => DD x4 x16 | s117 => DD x4 x17 | s118 => DD x4 x18 | s119 => DD x4 x19 | s120 => DD x4 x20 | s121 => DD x4 x21 | s122 => DD x4 x22 | s123 => DD x4 x23 | s124 => DD x4 x24 | s125 => DD x4 x25 | s126 => DD x4 x26 end.
Definition m159 (c : sum2) : dd := match c with s0 => DD x2 x31 | s1 => DD x2 x32 | s2 => DD x2 x33 | s3 => DD x2 x34 | s4 => DD x2 x35 | s5 => DD x2 x36 | s6 => DD x2 x37 | s7 => DD x2 x38 | s8 => DD x2 x39 | s9 => DD x2 x40 | s10 => DD x2 x41 | s11 => DD x2 x42 | s12 => DD x2 x43 | s13 => DD x2 x44 | s14 => DD x2 x45 | s15 => DD x2 x46 | s16 => DD x2 x47 | s17 => DD x2 x48 | s18 => DD x2 x49 | s19 => DD x2 x50 | s20 => DD x2 x51 | s21 => DD x2 x52 | s22 => DD x2 x53 | s23 => DD x2 x54 | s24 => DD x2 x55 | s25 => DD x2 x56 | s26 => DD x2 x57 | s27 => DD x2 x58 | s28 => DD x2 x59 | s29 => DD x2 x60 | s30 => DD x2 x61 | s31 => DD x2 x62 | s32 => DD x2 x63 | s33 => DD x3 x0 | s34 => DD x3 x1 | s35 => DD x3 x2 | s36 => DD x3 x3 | s37 => DD x3 x4 | s38 => DD x3 x5 | s39 => DD x3 x6 | s40 => DD x3 x7 | s41 => DD x3 x8 | s42 => DD x3 x9 | s43 => DD x3 x10 | s44 => DD x3 x11 | s45 => DD x3 x12 | s46 => DD x3 x13 | s47 => DD x3 x14 | s48 => DD x3 x15 | s49 => DD x3 x16 | s50 => DD x3 x17 | s51 => DD x3 x18 | s52 => DD x3 x19 | s53 => DD x3 x20 | s54 => DD x3 x21 | s55 => DD x3 x22 | s56 => DD x3 x23 | s57 => DD x3 x24 | s58 => DD x3 x25 | s59 => DD x3 x26 | s60 => DD x3 x27 | s61 => DD x3 x28 | s62 => DD x3 x29 | s63 => DD x3 x30 | s64 => DD x3 x31 | s65 => DD x3 x32 | s66 => DD x3 x33 | s67 => DD x3 x34 | s68 => DD x3 x35 | s69 => DD x3 x36 | s70 => DD x3 x37 | s71 => DD x3 x38 | s72 => DD x3 x39 | s73 => DD x3 x40 | s74 => DD x3 x41 | s75 => DD x3 x42 | s76 => DD x3 x43 | s77 => DD x3 x44 | s78 => DD x3 x45 | s79 => DD x3 x46 | s80 => DD x3 x47 | s81 => DD x3 x48 | s82 => DD x3 x49 | s83 => DD x3 x50 | s84 => DD x3 x51 | s85 => DD x3 x52 | s86 => DD x3 x53 | s87 => DD x3 x54 | s88 => DD x3 x55 | s89 => DD x3 x56 | s90 => DD x3 x57 | s91 => DD x3 x58 | s92 => DD x3 x59 | s93 => DD x3 x60 | s94 => DD x3 x61 | s95 => DD x3 x62 | s96 => DD x3 x63 | s97 => DD x4 x0 | s98 => DD x4 x1 | s99 => DD x4 x2 | s100 => DD x4 x3 | s101 => DD x4 x4 | s102 => DD x4 x5 | s103 => DD x4 x6 | s104 => DD x4 x7 | s105 => DD x4 x8 | s106 => DD x4 x9 | s107 => DD x4 x10 | s108 => DD x4 x11 | s109 => DD x4 x12 | s110 => DD x4 x13 | s111 => DD x4 x14 | s112 => DD x4 x15 | s113 => DD x4 x16 | s114 => DD x4 x17 | s115 => DD x4 x18 | s116 => DD x4 x19 | s117 => DD x4 x20 | s118 => DD x4 x21 | s119 => DD x4 x22 | s120 => DD x4 x23 | s121 => DD x4 x24 | s122 => DD x4 x25 | s123 => DD x4 x26 | s124 => DD x4 x27 | s125 => DD x4 x28 | s126 => DD x4 x29 end.
Definition m160 (c : sum2) : dd := match c with s0 => DD x2 x32 | s1 => DD x2 x33 | s2 => DD x2 x34 | s3 => DD x2 x35 | s4 => DD x2 x36 | s5 => DD x2 x37 | s6 => DD x2 x38 | s7 => DD x2 x39 | s8 => DD x2 x40 | s9 => DD x2 x41 | s10 => DD x2 x42 | s11 => DD x2 x43 | s12 => DD x2 x44 | s13 => DD x2 x45 | s14 => DD x2 x46 | s15 => DD x2 x47 | s16 => DD x2 x48 | s17 => DD x2 x49 | s18 => DD x2 x50 | s19 => DD x2 x51 | s20 => DD x2 x52 | s21 => DD x2 x53 | s22 => DD x2 x54 | s23 => DD x2 x55 | s24 => DD x2 x56 | s25 => DD x2 x57 | s26 => DD x2 x58 | s27 => DD x2 x59 | s28 => DD x2 x60 | s29 => DD x2 x61 | s30 => DD x2 x62 | s31 => DD x2 x63 | s32 => DD x3 x0 | s33 => DD x3 x1 | s34 => DD x3 x2 | s35 => DD x3 x3 | s36 => DD x3 x4 | s37 => DD x3 x5 | s38 => DD x3 x6 | s39 => DD x3 x7 | s40 => DD x3 x8 | s41 => DD x3 x9 | s42 => DD x3 x10 | s43 => DD x3 x11 | s44 => DD x3 x12 | s45 => DD x3 x13 | s46 => DD x3 x14 | s47 => DD x3 x15 | s48 => DD x3 x16 | s49 => DD x3 x17 | s50 => DD x3 x18 | s51 => DD x3 x19 | s52 => DD x3 x20 | s53 => DD x3 x21 | s54 => DD x3 x22 | s55 => DD x3 x23 | s56 => DD x3 x24 | s57 => DD x3 x25 | s58 => DD x3 x26 | s59 => DD x3 x27 | s60 => DD x3 x28 | s61 => DD x3 x29 | s62 => DD x3 x30 | s63 => DD x3 x31 | s64 => DD x3 x32 | s65 => DD x3 x33 | s66 => DD x3 x34 | s67 => DD x3 x35 | s68 => DD x3 x36 | s69 => DD x3 x37 | s70 => DD x3 x38 | s71 => DD x3 x39 | s72 => DD x3 x40 | s73 => DD x3 x41 | s74 => DD x3 x42 | s75 => DD x3 x43 | s76 => DD x3 x44 | s77 => DD x3 x45 | s78 => DD x3 x46 | s79 => DD x3 x47 | s80 => DD x3 x48 | s81 => DD x3 x49 | s82 => DD x3 x50 | s83 => DD x3 x51 | s84 => DD x3 x52 | s85 => DD x3 x53 | s86 => DD x3 x54 | s87 => DD x3 x55 | s88 => DD x3 x56 | s89 => DD x3 x57 | s90 => DD x3 x58 | s91 => DD x3 x59 | s92 => DD x3 x60 | s93 => DD x3 x61 | s94 => DD x3 x62 | s95 => DD x3 x63 | s96 => DD x4 x0 | s97 => DD x4 x1 | s98 => DD x4 x2 | s99 => DD x4 x3 | s100 => DD x4 x4 | s101 => DD x4 x5 | s102 => DD x4 x6 | s103 => DD x4 x7 | s104 => DD x4 x8 | s105 => DD x4 x9 | s106 => DD x4 x10 | s107 => DD x4 x11 | s108 => DD x4 x12 | s109 => DD x4 x13 | s110 => DD x4 x14 | s111 => DD x4 x15 | s112 => DD x4 x16 | s113 => DD x4 x17 | s114 => DD x4 x18 | s115 => DD x4 x19 | s116 => DD x4 x20 | s117 => DD x4 x21 | s118 => DD x4 x22 | s119 => DD x4 x23 | s120 => DD x4 x24 | s121 => DD x4 x25 | s122 => DD x4 x26 | s123 => DD x4 x27 | s124 => DD x4 x28 | s125 => DD x4 x29 | s126 => DD x4 x30 end.
Definition m161 (c : sum2) : dd := match c with s0 => DD x2 x33 | s1 => DD x2 x34 | s2 => DD x2 x35 | s3 => DD x2 x36 | s4 => DD x2 x37 | s5 => DD x2 x38 | s6 => DD x2 x39 | s7 => DD x2 x40 | s8 => DD x2 x41 | s9 => DD x2 x42 | s10 => DD x2 x43 | s11 => DD x2 x44 | s12 => DD x2 x45 | s13 => DD x2 x46 | s14 => DD x2 x47 | s15 => DD x2 x48 | s16 => DD x2 x49 | s17 => DD x2 x50 | s18 => DD x2 x51 | s19 => DD x2 x52 | s20 => DD x2 x53 | s21 => DD x2 x54 | s22 => DD x2 x55 | s23 => DD x2 x56 | s24 => DD x2 x57 | s25 => DD x2 x58 | s26 => DD x2 x59 | s27 => DD x2 x60 | s28 => DD x2 x61 | s29 => DD x2 x62 | s30 => DD x2 x63 | s31 => DD x3 x0 | s32 => DD x3 x1 | s33 => DD x3 x2 | s34 => DD x3 x3 | s35 => DD x3 x4 | s36 => DD x3 x5 | s37 => DD x3 x6 | s38 => DD x3 x7 | s39 => DD x3 x8 | s40 => DD x3 x9 | s41 => DD x3 x10 | s42 => DD x3 x11 | s43 => DD x3 x12 | s44 => DD x3 x13 | s45 => DD x3 x14 | s46 => DD x3 x15 | s47 => DD x3 x16 | s48 => DD x3 x17 | s49 => DD x3 x18 | s50 => DD x3 x19 | s51 => DD x3 x20 | s52 => DD x3 x21 | s53 => DD x3 x22 | s54 => DD x3 x23 | s55 => DD x3 x24 | s56 => DD x3 x25 | s57 => DD x3 x26 | s58 => DD x3 x27 | s59 => DD x3 x28 | s60 => DD x3 x29 | s61 => DD x3 x30 | s62 => DD x3 x31 | s63 => DD x3 x32 | s64 => DD x3 x33 | s65 => DD x3 x34 | s66 => DD x3 x35 | s67 => DD x3 x36 | s68 => DD x3 x37 | s69 => DD x3 x38 | s70 => DD x3 x39 | s71 => DD x3 x40 | s72 => DD x3 x41 | s73 => DD x3 x42 | s74 => DD x3 x43 | s75 => DD x3 x44 | s76 => DD x3 x45 | s77 => DD x3 x46 | s78 => DD x3 x47 | s79 => DD x3 x48 | s80 => DD x3 x49 | s81 => DD x3 x50 | s82 => DD x3 x51 | s83 => DD x3 x52 | s84 => DD x3 x53 | s85 => DD x3 x54 | s86 => DD x3 x55 | s87 => DD x3 x56 | s88 => DD x3 x57 | s89 => DD x3 x58 | s90 => DD x3 x59 | s91 => DD x3 x60 | s92 => DD x3 x61 | s93 => DD x3 x62 | s94 => DD x3 x63 | s95 => DD x4 x0 | s96 => DD x4 x1 | s97 => DD x4 x2 | s98 => DD x4 x3 | s99 => DD x4 x4 | s100 => DD x4 x5 | s101 => DD x4 x6 | s102 => DD x4 x7 | s103 => DD x4 x8 | s104 => DD x4 x9 | s105 => DD x4 x10 | s106 => DD x4 x11 | s107 => DD x4 x12 | s108 => DD x4 x13 | s109 => DD x4 x14 | s110 => DD x4 x15 | s111 => DD x4 x16 | s112 => DD x4 x17 | s113 => DD x4 x18 | s114 => DD x4 x19 | s115 => DD x4 x20 | s116 => DD x4 x21 | s117 => DD x4 x22 | s118 => DD x4 x23 | s119 => DD x4 x24 | s120 => DD x4 x25 | s121 => DD x4 x26 | s122 => DD x4 x27 | s123 => DD x4 x28 | s124 => DD x4 x29 | s125 => DD x4 x30 | s126 => DD x4 x31 end.
Definition m162 (c : sum2) : dd := match c with s0 => DD x2 x34 | s1 => DD x2 x35 | s2 => DD x2 x36 | s3 => DD x2 x37 | s4 => DD x2 x38 | s5 => DD x2 x39 | s6 => DD x2 x40 | s7 => DD x2 x41 | s8 => DD x2 x42 | s9 => DD x2 x43 | s10 => DD x2 x44 | s11 => DD x2 x45 | s12 => DD x2 x46 | s13 => DD x2 x47 | s14 => DD x2 x48 | s15 => DD x2 x49 | s16 => DD x2 x50 | s17 => DD x2 x51 | s18 => DD x2 x52 | s19 => DD x2 x53 | s20 => DD x2 x54 | s21 => DD x2 x55 | s22 => DD x2 x56 | s23 => DD x2 x57 | s24 => DD x2 x58 | s25 => DD x2 x59 | s26 => DD x2 x60 | s27 => DD x2 x61 | s28 => DD x2 x62 | s29 => DD x2 x63 | s30 => DD x3 x0 | s31 => DD x3 x1 | s32 => DD x3 x2 | s33 => DD x3 x3 | s34 => DD x3 x4 | s35 => DD x3 x5 | s36 => DD x3 x6 | s37 => DD x3 x7 | s38 => DD x3 x8 | s39 => DD x3 x9 | s40 => DD x3 x10 | s41 => DD x3 x11 | s42 => DD x3 x12 | s43 => DD x3 x13 | s44 => DD x3 x14 | s45 => DD x3 x15 | s46 => DD x3 x16 | s47 => DD x3 x17 | s48 => DD x3 x18 | s49 => DD x3 x19 | s50 => DD x3 x20 | s51 => DD x3 x21 | s52 => DD x3 x22 | s53 => DD x3 x23 | s54 => DD x3 x24 | s55 => DD x3 x25 | s56 => DD x3 x26 | s57 => DD x3 x27 | s58 => DD x3 x28 | s59 => DD x3 x29 | s60 => DD x3 x30 | s61 => DD x3 x31 | s62 => DD x3 x32 | s63 => DD x3 x33 | s64 => DD x3 x34 | s65 => DD x3 x35 | s66 => DD x3 x36 | s67 => DD x3 x37 | s68 => DD x3 x38 | s69 => DD x3 x39 | s70 => DD x3 x40 | s71 => DD x3 x41 | s72 => DD x3 x42 | s73 => DD x3 x43 | s74 => DD x3 x44 | s75 => DD x3 x45 | s76 => DD x3 x46 | s77 => DD x3 x47 | s78 => DD x3 x48 | s79 => DD x3 x49 | s80 => DD x3 x50 | s81 => DD x3 x51 | s82 => DD x3 x52 | s83 => DD x3 x53 | s84 => DD x3 x54 | s85 => DD x3 x55 | s86 => DD x3 x56 | s87 => DD x3 x57 | s88 => DD x3 x58 | s89 => DD x3 x59 | s90 => DD x3 x60 | s91 => DD x3 x61 | s92 => DD x3 x62 | s93 => DD x3 x63 | s94 => DD x4 x0 | s95 => DD x4 x1 | s96 => DD x4 x2 | s97 => DD x4 x3 | s98 => DD x4 x4 | s99 => DD x4 x5 | s100 => DD x4 x6 | s101 => DD x4 x7 | s102 => DD x4 x8 | s103 => DD x4 x9 | s104 => DD x4 x10 | s105 => DD x4 x11 | s106 => DD x4 x12 | s107 => DD x4 x13 | s108 => DD x4 x14 | s109 => DD x4 x15 | s110 => DD x4 x16 | s111 => DD x4 x17 | s112 => DD x4 x18 | s113 => DD x4 x19 | s114 => DD x4 x20 | s115 => DD x4 x21 | s116 => DD x4 x22 | s117 => DD x4 x23 | s118 => DD x4 x24 | s119 => DD x4 x25 | s120 => DD x4 x26 | s121 => DD x4 x27 | s122 => DD x4 x28 | s123 => DD x4 x29 | s124 => DD x4 x30 | s125 => DD x4 x31 | s126 => DD x4 x32 end.
Definition m164 (c : sum2) : dd := match c with s0 => DD x2 x36 | s1 => DD x2 x37 | s2 => DD x2 x38 | s3 => DD x2 x39 | s4 => DD x2 x40 | s5 => DD x2 x41 | s6 => DD x2 x42 | s7 => DD x2 x43 | s8 => DD x2 x44 | s9 => DD x2 x45 | s10 => DD x2 x46 | s11 => DD x2 x47 | s12 => DD x2 x48 | s13 => DD x2 x49 | s14 => DD x2 x50 | s15 => DD x2 x51 | s16 => DD x2 x52 | s17 => DD x2 x53 | s18 => DD x2 x54 | s19 => DD x2 x55 | s20 => DD x2 x56 | s21 => DD x2 x57 | s22 => DD x2 x58 | s23 => DD x2 x59 | s24 => DD x2 x60 | s25 => DD x2 x61 | s26 => DD x2 x62 | s27 => DD x2 x63 | s28 => DD x3 x0 | s29 => DD x3 x1 | s30 => DD x3 x2 | s31 => DD x3 x3 | s32 => DD x3 x4 | s33 => DD x3 x5 | s34 => DD x3 x6 | s35 => DD x3 x7 | s36 => DD x3 x8 | s37 => DD x3 x9 | s38 => DD x3 x10 | s39 => DD x3 x11 | s40 => DD x3 x12 | s41 => DD x3 x13 | s42 => DD x3 x14 | s43 => DD x3 x15 | s44 => DD x3 x16 | s45 => DD x3 x17 | s46 => DD x3 x18 | s47 => DD x3 x19 | s48 => DD x3 x20 | s49 => DD x3 x21 | s50 => DD x3 x22 | s51 => DD x3 x23 | s52 => DD x3 x24 | s53 => DD x3 x25 | s54 => DD x3 x26 | s55 => DD x3 x27 | s56 => DD x3 x28 | s57 => DD x3 x29 | s58 => DD x3 x30 | s59 => DD x3 x31 | s60 => DD x3 x32 | s61 => DD x3 x33 | s62 => DD x3 x34 | s63 => DD x3 x35 | s64 => DD x3 x36 | s65 => DD x3 x37 | s66 => DD x3 x38 | s67 => DD x3 x39 | s68 => DD x3 x40 | s69 => DD x3 x41 | s70 => DD x3 x42 | s71 => DD x3 x43 | s72 => DD x3 x44 | s73 => DD x3 x45 | s74 => DD x3 x46 | s75 => DD x3 x47 | s76 => DD x3 x48 | s77 => DD x3 x49 | s78 => DD x3 x50 | s79 => DD x3 x51 | s80 => DD x3 x52 | s81 => DD x3 x53 | s82 => DD x3 x54 | s83 => DD x3 x55 | s84 => DD x3 x56 | s85 => DD x3 x57 | s86 => DD x3 x58 | s87 => DD x3 x59 | s88 => DD x3 x60 | s89 => DD x3 x61 | s90 => DD x3 x62 | s91 => DD x3 x63 | s92 => DD x4 x0 | s93 => DD x4 x1 | s94 => DD x4 x2 | s95 => DD x4 x3 | s96 => DD x4 x4 | s97 => DD x4 x5 | s98 => DD x4 x6 | s99 => DD x4 x7 | s100 => DD x4 x8 | s101 => DD x4 x9 | s102 => DD x4 x10 | s103 => DD x4 x11 | s104 => DD x4 x12 | s105 => DD x4 x13 | s106 => DD x4 x14 | s107 => DD x4 x15 | s108 => DD x4 x16 | s109 => DD x4 x17 | s110 => DD x4 x18 | s111 => DD x4 x19 | s112 => DD x4 x20 | s113 => DD x4 x21 | s114 => DD x4 x22 | s115 => DD x4 x23 | s116 => DD x4 x24 | s117 => DD x4 x25 | s118 => DD x4 x26 | s119 => DD x4 x27 | s120 => DD x4 x28 | s121 => DD x4 x29 | s122 => DD x4 x30 | s123 => DD x4 x31 | s124 => DD x4 x32 | s125 => DD x4 x33 | s126 => DD x4 x34 end.
Definition m165 (c : sum2) : dd := match c with s0 => DD x2 x37 | s1 => DD x2 x38 | s2 => DD x2 x39 | s3 => DD x2 x40 | s4 => DD x2 x41 | s5 => DD x2 x42 | s6 => DD x2 x43 | s7 => DD x2 x44 | s8 => DD x2 x45 | s9 => DD x2 x46 | s10 => DD x2 x47 | s11 => DD x2 x48 | s12 => DD x2 x49 | s13 => DD x2 x50 | s14 => DD x2 x51 | s15 => DD x2 x52 | s16 => DD x2 x53 | s17 => DD x2 x54 | s18 => DD x2 x55 | s19 => DD x2 x56 | s20 => DD x2 x57 | s21 => DD x2 x58 | s22 => DD x2 x59 | s23 => DD x2 x60 | s24 => DD x2 x61 | s25 => DD x2 x62 | s26 => DD x2 x63 | s27 => DD x3 x0 | s28 => DD x3 x1 | s29 => DD x3 x2 | s30 => DD x3 x3 | s31 => DD x3 x4 | s32 => DD x3 x5 | s33 => DD x3 x6 | s34 => DD x3 x7 | s35 => DD x3 x8 | s36 => DD x3 x9 | s37 => DD x3 x10 | s38 => DD x3 x11 | s39 => DD x3 x12 | s40 => DD x3 x13 | s41 => DD x3 x14 | s42 => DD x3 x15 | s43 => DD x3 x16 | s44 => DD x3 x17 | s45 => DD x3 x18 | s46 => DD x3 x19 | s47 => DD x3 x20 | s48 => DD x3 x21 | s49 => DD x3 x22 | s50 => DD x3 x23 | s51 => DD x3 x24 | s52 => DD x3 x25 | s53 => DD x3 x26 | s54 => DD x3 x27 | s55 => DD x3 x28 | s56 => DD x3 x29 | s57 => DD x3 x30 | s58 => DD x3 x31 | s59 => DD x3 x32 | s60 => DD x3 x33 | s61 => DD x3 x34 | s62 => DD x3 x35 | s63 => DD x3 x36 | s64 => DD x3 x37 | s65 => DD x3 x38 | s66 => DD x3 x39 | s67 => DD x3 x40 | s68 => DD x3 x41 | s69 => DD x3 x42 | s70 => DD x3 x43 | s71 => DD x3 x44 | s72 => DD x3 x45 | s73 => DD x3 x46 | s74 => DD x3 x47 | s75 => DD x3 x48 | s76 => DD x3 x49 | s77 => DD x3 x50 | s78 => DD x3 x51 | s79 => DD x3 x52 | s80 => DD x3 x53 | s81 => DD x3 x54 | s82 => DD x3 x55 | s83 => DD x3 x56 | s84 => DD x3 x57 | s85 => DD x3 x58 | s86 => DD x3 x59 | s87 => DD x3 x60 | s88 => DD x3 x61 | s89 => DD x3 x62 | s90 => DD x3 x63 | s91 => DD x4 x0 | s92 => DD x4 x1 | s93 => DD x4 x2 | s94 => DD x4 x3 | s95 => DD x4 x4 | s96 => DD x4 x5 | s97 => DD x4 x6 | s98 => DD x4 x7 | s99 => DD x4 x8 | s100 => DD x4 x9 | s101 => DD x4 x10 | s102 => DD x4 x11 | s103 => DD x4 x12 | s104 => DD x4 x13 | s105 => DD x4 x14 | s106 => DD x4 x15 | s107 => DD x4 x16 | s108 => DD x4 x17 | s109 => DD x4 x18 | s110 => DD x4 x19 | s111 => DD x4 x20 | s112 => DD x4 x21 | s113 => DD x4 x22 | s114 => DD x4 x23 | s115 => DD x4 x24 | s116 => DD x4 x25 | s117 => DD x4 x26 | s118 => DD x4 x27 | s119 => DD x4 x28 | s120 => DD x4 x29 | s121 => DD x4 x30 | s122 => DD x4 x31 | s123 => DD x4 x32 | s124 => DD x4 x33 | s125 => DD x4 x34 | s126 => DD x4 x35 end.
Definition m168 (c : sum2) : dd := match c with s0 => DD x2 x40 | s1 => DD x2 x41 | s2 => DD x2 x42 | s3 => DD x2 x43 | s4 => DD x2 x44 | s5 => DD x2 x45 | s6 => DD x2 x46 | s7 => DD x2 x47 | s8 => DD x2 x48 | s9 => DD x2 x49 | s10 => DD x2 x50 | s11 => DD x2 x51 | s12 => DD x2 x52 | s13 => DD x2 x53 | s14 => DD x2 x54 | s15 => DD x2 x55 | s16 => DD x2 x56 | s17 => DD x2 x57 | s18 => DD x2 x58 | s19 => DD x2 x59 | s20 => DD x2 x60 | s21 => DD x2 x61 | s22 => DD x2 x62 | s23 => DD x2 x63 | s24 => DD x3 x0 | s25 => DD x3 x1 | s26 => DD x3 x2 | s27 => DD x3 x3 | s28 => DD x3 x4 | s29 => DD x3 x5 | s30 => DD x3 x6 | s31 => DD x3 x7 | s32 => DD x3 x8 | s33 => DD x3 x9 | s34 => DD x3 x10 | s35 => DD x3 x11 | s36 => DD x3 x12 | s37 => DD x3 x13 | s38 => DD x3 x14 | s39 => DD x3 x15 | s40 => DD x3 x16 | s41 => DD x3 x17 | s42 => DD x3 x18 | s43 => DD x3 x19 | s44 => DD x3 x20 | s45 => DD x3 x21 | s46 => DD x3 x22 | s47 => DD x3 x23 | s48 => DD x3 x24 | s49 => DD x3 x25 | s50 => DD x3 x26 | s51 => DD x3 x27 | s52 => DD x3 x28 | s53 => DD x3 x29 | s54 => DD x3 x30 | s55 => DD x3 x31 | s56 => DD x3 x32 | s57 => DD x3 x33 | s58 => DD x3 x34 | s59 => DD x3 x35 | s60 => DD x3 x36 | s61 => DD x3 x37 | s62 => DD x3 x38 | s63 => DD x3 x39 | s64 => DD x3 x40 | s65 => DD x3 x41 | s66 => DD x3 x42 | s67 => DD x3 x43 | s68 => DD x3 x44 | s69 => DD x3 x45 | s70 => DD x3 x46 | s71 => DD x3 x47 | s72 => DD x3 x48 | s73 => DD x3 x49 | s74 => DD x3 x50 | s75 => DD x3 x51 | s76 => DD x3 x52 | s77 => DD x3 x53 | s78 => DD x3 x54 | s79 => DD x3 x55 | s80 => DD x3 x56 | s81 => DD x3 x57 | s82 => DD x3 x58 | s83 => DD x3 x59 | s84 => DD x3 x60 | s85 => DD x3 x61 | s86 => DD x3 x62 | s87 => DD x3 x63 | s88 => DD x4 x0 | s89 => DD x4 x1 | s90 => DD x4 x2 | s91 => DD x4 x3 | s92 => DD x4 x4 | s93 => DD x4 x5 | s94 => DD x4 x6 | s95 => DD x4 x7 | s96 => DD x4 x8 | s97 => DD x4 x9 | s98 => DD x4 x10 | s99 => DD x4 x11 | s100 => DD x4 x12 | s101 => DD x4 x13 | s102 => DD x4 x14 | s103 => DD x4 x15 | s104 => DD x4 x16 | s105 => DD x4 x17 | s106 => DD x4 x18 | s107 => DD x4 x19 | s108 => DD x4 x20 | s109 => DD x4 x21 | s110 => DD x4 x22 | s111 => DD x4 x23 | s112 => DD x4 x24 | s113 => DD x4 x25 | s114 => DD x4 x26 | s115 => DD x4 x27 | s116 => DD x4 x28 | s117 => DD x4 x29 | s118 => DD x4 x30 | s119 => DD x4 x31 | s120 => DD x4 x32 | s121 => DD x4 x33 | s122 => DD x4 x34 | s123 => DD x4 x35 | s124 => DD x4 x36 | s125 => DD x4 x37 | s126 => DD x4 x38 end.
Definition m169 (c : sum2) : dd := match c with s0 => DD x2 x41 | s1 => DD x2 x42 | s2 => DD x2 x43 | s3 => DD x2 x44 | s4 => DD x2 x45 | s5 => DD x2 x46 | s6 => DD x2 x47 | s7 => DD x2 x48 | s8 => DD x2 x49 | s9 => DD x2 x50 | s10 => DD x2 x51 | s11 => DD x2 x52 | s12 => DD x2 x53 | s13 => DD x2 x54 | s14 => DD x2 x55 | s15 => DD x2 x56 | s16 => DD x2 x57 | s17 => DD x2 x58 | s18 => DD x2 x59 | s19 => DD x2 x60 | s20 => DD x2 x61 | s21 => DD x2 x62 | s22 => DD x2 x63 | s23 => DD x3 x0 | s24 => DD x3 x1 | s25 => DD x3 x2 | s26 => DD x3 x3 | s27 => DD x3 x4 | s28 => DD x3 x5 | s29 => DD x3 x6 | s30 => DD x3 x7 | s31 => DD x3 x8 | s32 => DD x3 x9 | s33 => DD x3 x10 | s34 => DD x3 x11 | s35 => DD x3 x12 | s36 => DD x3 x13 | s37 => DD x3 x14 | s38 => DD x3 x15 | s39 => DD x3 x16 | s40 => DD x3 x17 | s41 => DD x3 x18 | s42 => DD x3 x19 | s43 => DD x3 x20 | s44 => DD x3 x21 | s45 => DD x3 x22 | s46 => DD x3 x23 | s47 => DD x3 x24 | s48 => DD x3 x25 | s49 => DD x3 x26 | s50 => DD x3 x27 | s51 => DD x3 x28 | s52 => DD x3 x29 | s53 => DD x3 x30 | s54 => DD x3 x31 | s55 => DD x3 x32 | s56 => DD x3 x33 | s57 => DD x3 x34 | s58 => DD x3 x35 | s59 => DD x3 x36 | s60 => DD x3 x37 | s61 => DD x3 x38 | s62 => DD x3 x39 | s63 => DD x3 x40 | s64 => DD x3 x41 | s65 => DD x3 x42 | s66 => DD x3 x43 | s67 => DD x3 x44 | s68 => DD x3 x45 | s69 => DD x3 x46 | s70 => DD x3 x47 | s71 => DD x3 x48 | s72 => DD x3 x49 | s73 => DD x3 x50 | s74 => DD x3 x51 | s75 => DD x3 x52 | s76 => DD x3 x53 | s77 => DD x3 x54 | s78 => DD x3 x55 | s79 => DD x3 x56 | s80 => DD x3 x57 | s81 => DD x3 x58 | s82 => DD x3 x59 | s83 => DD x3 x60 | s84 => DD x3 x61 | s85 => DD x3 x62 | s86 => DD x3 x63 | s87 => DD x4 x0 | s88 => DD x4 x1 | s89 => DD x4 x2 | s90 => DD x4 x3 | s91 => DD x4 x4 | s92 => DD x4 x5 | s93 => DD x4 x6 | s94 => DD x4 x7 | s95 => DD x4 x8 | s96 => DD x4 x9 | s97 => DD x4 x10 | s98 => DD x4 x11 | s99 => DD x4 x12 | s100 => DD x4 x13 | s101 => DD x4 x14 | s102 => DD x4 x15 | s103 => DD x4 x16 | s104 => DD x4 x17 | s105 => DD x4 x18 | s106 => DD x4 x19 | s107 => DD x4 x20 | s108 => DD x4 x21 | s109 => DD x4 x22 | s110 => DD x4 x23 | s111 => DD x4 x24 | s112 => DD x4 x25 | s113 => DD x4 x26 | s114 => DD x4 x27 | s115 => DD x4 x28 | s116 => DD x4 x29 | s117 => DD x4 x30 | s118 => DD x4 x31 | s119 => DD x4 x32 | s120 => DD x4 x33 | s121 => DD x4 x34 | s122 => DD x4 x35 | s123 => DD x4 x36 | s124 => DD x4 x37 | s125 => DD x4 x38 | s126 => DD x4 x39 end.
Definition m170 (c : sum2) : dd := match c with s0 => DD x2 x42 | s1 => DD x2 x43 | s2 => DD x2 x44 | s3 => DD x2 x45 | s4 => DD x2 x46 | s5 => DD x2 x47 | s6 => DD x2 x48 | s7 => DD x2 x49 | s8 => DD x2 x50 | s9 => DD x2 x51 | s10 => DD x2 x52 | s11 => DD x2 x53 | s12 => DD x2 x54 | s13 => DD x2 x55 | s14 => DD x2 x56 | s15 => DD x2 x57 | s16 => DD x2 x58 | s17 => DD x2 x59 | s18 => DD x2 x60 | s19 => DD x2 x61 | s20 => DD x2 x62 | s21 => DD x2 x63 | s22 => DD x3 x0 | s23 => DD x3 x1 | s24 => DD x3 x2 | s25 => DD x3 x3 | s26 => DD x3 x4 | s27 => DD x3 x5 | s28 => DD x3 x6 | s29 => DD x3 x7 | s30 => DD x3 x8 | s31 => DD x3 x9 | s32 => DD x3 x10 | s33 => DD x3 x11 | s34 => DD x3 x12 | s35 => DD x3 x13 | s36 => DD x3 x14 | s37 => DD x3 x15 | s38 => DD x3 x16 | s39 => DD x3 x17 | s40 => DD x3 x18 | s41 => DD x3 x19 | s42 => DD x3 x20 | s43 => DD x3 x21 | s44 => DD x3 x22 | s45 => DD x3 x23 | s46 => DD x3 x24 | s47 => DD x3 x25 | s48 => DD x3 x26 | s49 => DD x3 x27 | s50 => DD x3 x28 | s51 => DD x3 x29 | s52 => DD x3 x30 | s53 => DD x3 x31 | s54 => DD x3 x32 | s55 => DD x3 x33 | s56 => DD x3 x34 | s57 => DD x3 x35 | s58 => DD x3 x36 | s59 => DD x3 x37 | s60 => DD x3 x38 | s61 => DD x3 x39 | s62 => DD x3 x40 | s63 => DD x3 x41 | s64 => DD x3 x42 | s65 => DD x3 x43 | s66 => DD x3 x44 | s67 => DD x3 x45 | s68 => DD x3 x46 | s69 => DD x3 x47 | s70 => DD x3 x48 | s71 => DD x3 x49 | s72 => DD x3 x50 | s73 => DD x3 x51 | s74 => DD x3 x52 | s75 => DD x3 x53 | s76 => DD x3 x54 | s77 => DD x3 x55 | s78 => DD x3 x56 | s79 => DD x3 x57 | s80 => DD x3 x58 | s81 => DD x3 x59 | s82 => DD x3 x60 | s83 => DD x3 x61 | s84 => DD x3 x62 | s85 => DD x3 x63 | s86 => DD x4 x0 | s87 => DD x4 x1 | s88 => DD x4 x2 | s89 => DD x4 x3 | s90 => DD x4 x4 | s91 => DD x4 x5 | s92 => DD x4 x6 | s93 => DD x4 x7 | s94 => DD x4 x8 | s95 => DD x4 x9 | s96 => DD x4 x10 | s97 => DD x4 x11 | s98 => DD x4 x12 | s99 => DD x4 x13 | s100 => DD x4 x14 | s101 => DD x4 x15 | s102 => DD x4 x16 | s103 => DD x4 x17 | s104 => DD x4 x18 | s105 => DD x4 x19 | s106 => DD x4 x20 | s107 => DD x4 x21 | s108 => DD x4 x22 | s109 => DD x4 x23 | s110 => DD x4 x24 | s111 => DD x4 x25 | s112 => DD x4 x26 | s113 => DD x4 x27 | s114 => DD x4 x28 | s115 => DD x4 x29 | s116 => DD x4 x30 | s117 => DD x4 x31 | s118 => DD x4 x32 | s119 => DD x4 x33 | s120 => DD x4 x34 | s121 => DD x4 x35 | s122 => DD x4 x36 | s123 => DD x4 x37 | s124 => DD x4 x38 | s125 => DD x4 x39 | s126 => DD x4 x40 end.
Definition m171 (c : sum2) : dd := match c with s0 => DD x2 x43 | s1 => DD x2 x44 | s2 => DD x2 x45 | s3 => DD x2 x46 | s4 => DD x2 x47 | s5 => DD x2 x48 | s6 => DD x2 x49 | s7 => DD x2 x50 | s8 => DD x2 x51 | s9 => DD x2 x52 | s10 => DD x2 x53 | s11 => DD x2 x54 | s12 => DD x2 x55 | s13 => DD x2 x56 | s14 => DD x2 x57 | s15 => DD x2 x58 | s16 => DD x2 x59 | s17 => DD x2 x60 | s18 => DD x2 x61 | s19 => DD x2 x62 | s20 => DD x2 x63 | s21 => DD x3 x0 | s22 => DD x3 x1 | s23 => DD x3 x2 | s24 => DD x3 x3 | s25 => DD x3 x4 | s26 => DD x3 x5 | s27 => DD x3 x6 | s28 => DD x3 x7 | s29 => DD x3 x8 | s30 => DD x3 x9 | s31 => DD x3 x10 | s32 => DD x3 x11 | s33 => DD x3 x12 | s34 => DD x3 x13 | s35 => DD x3 x14 | s36 => DD x3 x15 | s37 => DD x3 x16 | s38 => DD x3 x17 | s39 => DD x3 x18 | s40 => DD x3 x19 | s41 => DD x3 x20 | s42 => DD x3 x21 | s43 => DD x3 x22 | s44 => DD x3 x23 | s45 => DD x3 x24 | s46 => DD x3 x25 | s47 => DD x3 x26 | s48 => DD x3 x27 | s49 => DD x3 x28 | s50 => DD x3 x29 | s51 => DD x3 x30 | s52 => DD x3 x31 | s53 => DD x3 x32 | s54 => DD x3 x33 | s55 => DD x3 x34 | s56 => DD x3 x35 | s57 => DD x3 x36 | s58 => DD x3 x37 | s59 => DD x3 x38 | s60 => DD x3 x39 | s61 => DD x3 x40 | s62 => DD x3 x41 | s63 => DD x3 x42 | s64 => DD x3 x43 | s65 => DD x3 x44 | s66 => DD x3 x45 | s67 => DD x3 x46 | s68 => DD x3 x47 | s69 => DD x3 x48 | s70 => DD x3 x49 | s71 => DD x3 x50 | s72 => DD x3 x51 | s73 => DD x3 x52 | s74 => DD x3 x53 | s75 => DD x3 x54 | s76 => DD x3 x55 | s77 => DD x3 x56 | s78 => DD x3 x57 | s79 => DD x3 x58 | s80 => DD x3 x59 | s81 => DD x3 x60 | s82 => DD x3 x61 | s83 => DD x3 x62 | s84 => DD x3 x63 | s85 => DD x4 x0 | s86 => DD x4 x1 | s87 => DD x4 x2 | s88 => DD x4 x3 | s89 => DD x4 x4 | s90 => DD x4 x5 | s91 => DD x4 x6 | s92 => DD x4 x7 | s93 => DD x4 x8 | s94 => DD x4 x9 | s95 => DD x4 x10 | s96 => DD x4 x11 | s97 => DD x4 x12 | s98 => DD x4 x13 | s99 => DD x4 x14 | s100 => DD x4 x15 | s101 => DD x4 x16 | s102 => DD x4 x17 | s103 => DD x4 x18 | s104 => DD x4 x19 | s105 => DD x4 x20 | s106 => DD x4 x21 | s107 => DD x4 x22 | s108 => DD x4 x23 | s109 => DD x4 x24 | s110 => DD x4 x25 | s111 => DD x4 x26 | s112 => DD x4 x27 | s113 => DD x4 x28 | s114 => DD x4 x29 | s115 => DD x4 x30 | s116 => DD x4 x31 | s117 => DD x4 x32 | s118 => DD x4 x33 | s119 => DD x4 x34 | s120 => DD x4 x35 | s121 => DD x4 x36 | s122 => DD x4 x37 | s123 => DD x4 x38 | s124 => DD x4 x39 | s125 => DD x4 x40 | s126 => DD x4 x41 end.
Definition m172 (c : sum2) : dd := match c with s0 => DD x2 x44 | s1 => DD x2 x45 | s2 => DD x2 x46 | s3 => DD x2 x47 | s4 => DD x2 x48 | s5 => DD x2 x49 | s6 => DD x2 x50 | s7 => DD x2 x51 | s8 => DD x2 x52 | s9 => DD x2 x53 | s10 => DD x2 x54 | s11 => DD x2 x55 | s12 => DD x2 x56 | s13 => DD x2 x57 | s14 => DD x2 x58 | s15 => DD x2 x59 | s16 => DD x2 x60 | s17 => DD x2 x61 | s18 => DD x2 x62 | s19 => DD x2 x63 | s20 => DD x3 x0 | s21 => DD x3 x1 | s22 => DD x3 x2 | s23 => DD x3 x3 | s24 => DD x3 x4 | s25 => DD x3 x5 | s26 => DD x3 x6 | s27 => DD x3 x7 | s28 => DD x3 x8 | s29 => DD x3 x9 | s30 => DD x3 x10 | s31 => DD x3 x11 | s32 => DD x3 x12 | s33 => DD x3 x13 | s34 => DD x3 x14 | s35 => DD x3 x15 | s36 => DD x3 x16 | s37 => DD x3 x17 | s38 => DD x3 x18 | s39 => DD x3 x19 | s40 => DD x3 x20 | s41 => DD x3 x21 | s42 => DD x3 x22 | s43 => DD x3 x23 | s44 => DD x3 x24 | s45 => DD x3 x25 | s46 => DD x3 x26 | s47 => DD x3 x27 | s48 => DD x3 x28 | s49 => DD x3 x29 | s50 => DD x3 x30 | s51 => DD x3 x31 | s52 => DD x3 x32 | s53 => DD x3 x33 | s54 => DD x3 x34 | s55 => DD x3 x35 | s56 => DD x3 x36 | s57 => DD x3 x37 | s58 => DD x3 x38 | s59 => DD x3 x39 | s60 => DD x3 x40 | s61 => DD x3 x41 | s62 => DD x3 x42 | s63 => DD x3 x43 | s64 => DD x3 x44 | s65 => DD x3 x45 | s66 => DD x3 x46 | s67 => DD x3 x47 | s68 => DD x3 x48 | s69 => DD x3 x49 | s70 => DD x3 x50 | s71 => DD x3 x51 | s72 => DD x3 x52 | s73 => DD x3 x53 | s74 => DD x3 x54 | s75 => DD x3 x55 | s76 => DD x3 x56 | s77 => DD x3 x57 | s78 => DD x3 x58 | s79 => DD x3 x59 | s80 => DD x3 x60 | s81 => DD x3 x61 | s82 => DD x3 x62 | s83 => DD x3 x63 | s84 => DD x4 x0 | s85 => DD x4 x1 | s86 => DD x4 x2 | s87 => DD x4 x3 | s88 => DD x4 x4 | s89 => DD x4 x5 | s90 => DD x4 x6 | s91 => DD x4 x7 | s92 => DD x4 x8 | s93 => DD x4 x9 | s94 => DD x4 x10 | s95 => DD x4 x11 | s96 => DD x4 x12 | s97 => DD x4 x13 | s98 => DD x4 x14 | s99 => DD x4 x15 | s100 => DD x4 x16 | s101 => DD x4 x17 | s102 => DD x4 x18 | s103 => DD x4 x19 | s104 => DD x4 x20 | s105 => DD x4 x21 | s106 => DD x4 x22 | s107 => DD x4 x23 | s108 => DD x4 x24 | s109 => DD x4 x25 | s110 => DD x4 x26 | s111 => DD x4 x27 | s112 => DD x4 x28 | s113 => DD x4 x29 | s114 => DD x4 x30 | s115 => DD x4 x31 | s116 => DD x4 x32 | s117 => DD x4 x33 | s118 => DD x4 x34 | s119 => DD x4 x35 | s120 => DD x4 x36 | s121 => DD x4 x37 | s122 => DD x4 x38 | s123 => DD x4 x39 | s124 => DD x4 x40 | s125 => DD x4 x41 | s126 => DD x4 x42 end.
Definition m174 (c : sum2) : dd := match c with s0 => DD x2 x46 | s1 => DD x2 x47 | s2 => DD x2 x48 | s3 => DD x2 x49 | s4 => DD x2 x50 | s5 => DD x2 x51 | s6 => DD x2 x52 | s7 => DD x2 x53 | s8 => DD x2 x54 | s9 => DD x2 x55 | s10 => DD x2 x56 | s11 => DD x2 x57 | s12 => DD x2 x58 | s13 => DD x2 x59 | s14 => DD x2 x60 | s15 => DD x2 x61 | s16 => DD x2 x62 | s17 => DD x2 x63 | s18 => DD x3 x0 | s19 => DD x3 x1 | s20 => DD x3 x2 | s21 => DD x3 x3 | s22 => DD x3 x4 | s23 => DD x3 x5 | s24 => DD x3 x6 | s25 => DD x3 x7 | s26 => DD x3 x8 | s27 => DD x3 x9 | s28 => DD x3 x10 | s29 => DD x3 x11 | s30 => DD x3 x12 | s31 => DD x3 x13 | s32 => DD x3 x14 | s33 => DD x3 x15 | s34 => DD x3 x16 | s35 => DD x3 x17 | s36 => DD x3 x18 | s37 => DD x3 x19 | s38 => DD x3 x20 | s39 => DD x3 x21 | s40 => DD x3 x22 | s41 => DD x3 x23 | s42 => DD x3 x24 | s43 => DD x3 x25 | s44 => DD x3 x26 | s45 => DD x3 x27 | s46 => DD x3 x28 | s47 => DD x3 x29 | s48 => DD x3 x30 | s49 => DD x3 x31 | s50 => DD x3 x32 | s51 => DD x3 x33 | s52 => DD x3 x34 | s53 => DD x3 x35 | s54 => DD x3 x36 | s55 => DD x3 x37 | s56 => DD x3 x38 | s57 => DD x3 x39 | s58 => DD x3 x40 | s59 => DD x3 x41 | s60 => DD x3 x42 | s61 => DD x3 x43 | s62 => DD x3 x44 | s63 => DD x3 x45 | s64 => DD x3 x46 | s65 => DD x3 x47 | s66 => DD x3 x48 | s67 => DD x3 x49 | s68 => DD x3 x50 | s69 => DD x3 x51 | s70 => DD x3 x52 | s71 => DD x3 x53 | s72 => DD x3 x54 | s73 => DD x3 x55 | s74 => DD x3 x56 | s75 => DD x3 x57 | s76 => DD x3 x58 | s77 => DD x3 x59 | s78 => DD x3 x60 | s79 => DD x3 x61 | s80 => DD x3 x62 | s81 => DD x3 x63 | s82 => DD x4 x0 | s83 => DD x4 x1 | s84 => DD x4 x2 | s85 => DD x4 x3 | s86 => DD x4 x4 | s87 => DD x4 x5 | s88 => DD x4 x6 | s89 => DD x4 x7 | s90 => DD x4 x8 | s91 => DD x4 x9 | s92 => DD x4 x10 | s93 => DD x4 x11 | s94 => DD x4 x12 | s95 => DD x4 x13 | s96 => DD x4 x14 | s97 => DD x4 x15 | s98 => DD x4 x16 | s99 => DD x4 x17 | s100 => DD x4 x18 | s101 => DD x4 x19 | s102 => DD x4 x20 | s103 => DD x4 x21 | s104 => DD x4 x22 | s105 => DD x4 x23 | s106 => DD x4 x24 | s107 => DD x4 x25 | s108 => DD x4 x26 | s109 => DD x4 x27 | s110 => DD x4 x28 | s111 => DD x4 x29 | s112 => DD x4 x30 | s113 => DD x4 x31 | s114 => DD x4 x32 | s115 => DD x4 x33 | s116 => DD x4 x34 | s117 => DD x4 x35 | s118 => DD x4 x36 | s119 => DD x4 x37 | s120 => DD x4 x38 | s121 => DD x4 x39 | s122 => DD x4 x40 | s123 => DD x4 x41 | s124 => DD x4 x42 | s125 => DD x4 x43 | s126 => DD x4 x44 end.
Definition m175 (c : sum2) : dd := match c with s0 => DD x2 x47 | s1 => DD x2 x48 | s2 => DD x2 x49 | s3 => DD x2 x50 | s4 => DD x2 x51 | s5 => DD x2 x52 | s6 => DD x2 x53 | s7 => DD x2 x54 | s8 => DD x2 x55 | s9 => DD x2 x56 | s10 => DD x2 x57 | s11 => DD x2 x58 | s12 => DD x2 x59 | s13 => DD x2 x60 | s14 => DD x2 x61 | s15 => DD x2 x62 | s16 => DD x2 x63 | s17 => DD x3 x0 | s18 => DD x3 x1 | s19 => DD x3 x2 | s20 => DD x3 x3 | s21 => DD x3 x4 | s22 => DD x3 x5 | s23 => DD x3 x6 | s24 => DD x3 x7 | s25 => DD x3 x8 | s26 => DD x3 x9 | s27 => DD x3 x10 | s28 => DD x3 x11 | s29 => DD x3 x12 | s30 => DD x3 x13 | s31 => DD x3 x14 | s32 => DD x3 x15 | s33 => DD x3 x16 | s34 => DD x3 x17 | s35 => DD x3 x18 | s36 => DD x3 x19 | s37 => DD x3 x20 | s38 => DD x3 x21 | s39 => DD x3 x22 | s40 => DD x3 x23 | s41 => DD x3 x24 | s42 => DD x3 x25 | s43 => DD x3 x26 | s44 => DD x3 x27 | s45 => DD x3 x28 | s46 => DD x3 x29 | s47 => DD x3 x30 | s48 => DD x3 x31 | s49 => DD x3 x32 | s50 => DD x3 x33 | s51 => DD x3 x34 | s52 => DD x3 x35 | s53 => DD x3 x36 | s54 => DD x3 x37 | s55 => DD x3 x38 | s56 => DD x3 x39 | s57 => DD x3 x40 | s58 => DD x3 x41 | s59 => DD x3 x42 | s60 => DD x3 x43 | s61 => DD x3 x44 | s62 => DD x3 x45 | s63 => DD x3 x46 | s64 => DD x3 x47 | s65 => DD x3 x48 | s66 => DD x3 x49 | s67 => DD x3 x50 | s68 => DD x3 x51 | s69 => DD x3 x52 | s70 => DD x3 x53 | s71 => DD x3 x54 | s72 => DD x3 x55 | s73 => DD x3 x56 | s74 => DD x3 x57 | s75 => DD x3 x58 | s76 => DD x3 x59 | s77 => DD x3 x60 | s78 => DD x3 x61 | s79 => DD x3 x62 | s80 => DD x3 x63 | s81 => DD x4 x0 | s82 => DD x4 x1 | s83 => DD x4 x2 | s84 => DD x4 x3 | s85 => DD x4 x4 | s86 => DD x4 x5 | s87 => DD x4 x6 | s88 => DD x4 x7 | s89 => DD x4 x8 | s90 => DD x4 x9 | s91 => DD x4 x10 | s92 => DD x4 x11 | s93 => DD x4 x12 | s94 => DD x4 x13 | s95 => DD x4 x14 | s96 => DD x4 x15 | s97 => DD x4 x16 | s98 => DD x4 x17 | s99 => DD x4 x18 | s100 => DD x4 x19 | s101 => DD x4 x20 | s102 => DD x4 x21 | s103 => DD x4 x22 | s104 => DD x4 x23 | s105 => DD x4 x24 | s106 => DD x4 x25 | s107 => DD x4 x26 | s108 => DD x4 x27 | s109 => DD x4 x28 | s110 => DD x4 x29 | s111 => DD x4 x30 | s112 => DD x4 x31 | s113 => DD x4 x32 | s114 => DD x4 x33 | s115 => DD x4 x34 | s116 => DD x4 x35 | s117 => DD x4 x36 | s118 => DD x4 x37 | s119 => DD x4 x38 | s120 => DD x4 x39 | s121 => DD x4 x40 | s122 => DD x4 x41 | s123 => DD x4 x42 | s124 => DD x4 x43 | s125 => DD x4 x44 | s126 => DD x4 x45 end.
Definition m176 (c : sum2) : dd := match c with s0 => DD x2 x48 | s1 => DD x2 x49 | s2 => DD x2 x50 | s3 => DD x2 x51 | s4 => DD x2 x52 | s5 => DD x2 x53 | s6 => DD x2 x54 | s7 => DD x2 x55 | s8 => DD x2 x56 | s9 => DD x2 x57 | s10 => DD x2 x58 | s11 => DD x2 x59 | s12 => DD x2 x60 | s13 => DD x2 x61 | s14 => DD x2 x62 | s15 => DD x2 x63 | s16 => DD x3 x0 | s17 => DD x3 x1 | s18 => DD x3 x2 | s19 => DD x3 x3 | s20 => DD x3 x4 | s21 => DD x3 x5 | s22 => DD x3 x6 | s23 => DD x3 x7 | s24 => DD x3 x8 | s25 => DD x3 x9 | s26 => DD x3 x10 | s27 => DD x3 x11 | s28 => DD x3 x12 | s29 => DD x3 x13 | s30 => DD x3 x14 | s31 => DD x3 x15 | s32 => DD x3 x16 | s33 => DD x3 x17 | s34 => DD x3 x18 | s35 => DD x3 x19 | s36 => DD x3 x20 | s37 => DD x3 x21 | s38 => DD x3 x22 | s39 => DD x3 x23 | s40 => DD x3 x24 | s41 => DD x3 x25 | s42 => DD x3 x26 | s43 => DD x3 x27 | s44 => DD x3 x28 | s45 => DD x3 x29 | s46 => DD x3 x30 | s47 => DD x3 x31 | s48 => DD x3 x32 | s49 => DD x3 x33 | s50 => DD x3 x34 | s51 => DD x3 x35 | s52 => DD x3 x36 | s53 => DD x3 x37 | s54 => DD x3 x38 | s55 => DD x3 x39 | s56 => DD x3 x40 | s57 => DD x3 x41 | s58 => DD x3 x42 | s59 => DD x3 x43 | s60 => DD x3 x44 | s61 => DD x3 x45 | s62 => DD x3 x46 | s63 => DD x3 x47 | s64 => DD x3 x48 | s65 => DD x3 x49 | s66 => DD x3 x50 | s67 => DD x3 x51 | s68 => DD x3 x52 | s69 => DD x3 x53 | s70 => DD x3 x54 | s71 => DD x3 x55 | s72 => DD x3 x56 | s73 => DD x3 x57 | s74 => DD x3 x58 | s75 => DD x3 x59 | s76 => DD x3 x60 | s77 => DD x3 x61 | s78 => DD x3 x62 | s79 => DD x3 x63 | s80 => DD x4 x0 | s81 => DD x4 x1 | s82 => DD x4 x2 | s83 => DD x4 x3 | s84 => DD x4 x4 | s85 => DD x4 x5 | s86 => DD x4 x6 | s87 => DD x4 x7 | s88 => DD x4 x8 | s89 => DD x4 x9 | s90 => DD x4 x10 | s91 => DD x4 x11 | s92 => DD x4 x12 | s93 => DD x4 x13 | s94 => DD x4 x14 | s95 => DD x4 x15 | s96 => DD x4 x16 | s97 => DD x4 x17 | s98 => DD x4 x18 | s99 => DD x4 x19 | s100 => DD x4 x20 | s101 => DD x4 x21 | s102 => DD x4 x22 | s103 => DD x4 x23 | s104 => DD x4 x24 | s105 => DD x4 x25 | s106 => DD x4 x26 | s107 => DD x4 x27 | s108 => DD x4 x28 | s109 => DD x4 x29 | s110 => DD x4 x30 | s111 => DD x4 x31 | s112 => DD x4 x32 | s113 => DD x4 x33 | s114 => DD x4 x34 | s115 => DD x4 x35 | s116 => DD x4 x36 | s117 => DD x4 x37 | s118 => DD x4 x38 | s119 => DD x4 x39 | s120 => DD x4 x40 | s121 => DD x4 x41 | s122 => DD x4 x42 | s123 => DD x4 x43 | s124 => DD x4 x44 | s125 => DD x4 x45 | s126 => DD x4 x46 end.
Definition m177 (c : sum2) : dd := match c with s0 => DD x2 x49 | s1 => DD x2 x50 | s2 => DD x2 x51 | s3 => DD x2 x52 | s4 => DD x2 x53 | s5 => DD x2 x54 | s6 => DD x2 x55 | s7 => DD x2 x56 | s8 => DD x2 x57 | s9 => DD x2 x58 | s10 => DD x2 x59 | s11 => DD x2 x60 | s12 => DD x2 x61 | s13 => DD x2 x62 | s14 => DD x2 x63 | s15 => DD x3 x0 | s16 => DD x3 x1 | s17 => DD x3 x2 | s18 => DD x3 x3 | s19 => DD x3 x4 | s20 => DD x3 x5 | s21 => DD x3 x6 | s22 => DD x3 x7 | s23 => DD x3 x8 | s24 => DD x3 x9 | s25 => DD x3 x10 | s26 => DD x3 x11 | s27 => DD x3 x12 | s28 => DD x3 x13 | s29 => DD x3 x14 | s30 => DD x3 x15 | s31 => DD x3 x16 | s32 => DD x3 x17 | s33 => DD x3 x18 | s34 => DD x3 x19 | s35 => DD x3 x20 | s36 => DD x3 x21 | s37 => DD x3 x22 | s38 => DD x3 x23 | s39 => DD x3 x24 | s40 => DD x3 x25 | s41 => DD x3 x26 | s42 => DD x3 x27 | s43 => DD x3 x28 | s44 => DD x3 x29 | s45 => DD x3 x30 | s46 => DD x3 x31 | s47 => DD x3 x32 | s48 => DD x3 x33 | s49 => DD x3 x34 | s50 => DD x3 x35 | s51 => DD x3 x36 | s52 => DD x3 x37 | s53 => DD x3 x38 | s54 => DD x3 x39 | s55 => DD x3 x40 | s56 => DD x3 x41 | s57 => DD x3 x42 | s58 => DD x3 x43 | s59 => DD x3 x44 | s60 => DD x3 x45 | s61 => DD x3 x46 | s62 => DD x3 x47 | s63 => DD x3 x48 | s64 => DD x3 x49 | s65 => DD x3 x50 | s66 => DD x3 x51 | s67 => DD x3 x52 | s68 => DD x3 x53 | s69 => DD x3 x54 | s70 => DD x3 x55 | s71 => DD x3 x56 | s72 => DD x3 x57 | s73 => DD x3 x58 | s74 => DD x3 x59 | s75 => DD x3 x60 | s76 => DD x3 x61 | s77 => DD x3 x62 | s78 => DD x3 x63 | s79 => DD x4 x0 | s80 => DD x4 x1 | s81 => DD x4 x2 | s82 => DD x4 x3 | s83 => DD x4 x4 | s84 => DD x4 x5 | s85 => DD x4 x6 | s86 => DD x4 x7 | s87 => DD x4 x8 | s88 => DD x4 x9 | s89 => DD x4 x10 | s90 => DD x4 x11 | s91 => DD x4 x12 | s92 => DD x4 x13 | s93 => DD x4 x14 | s94 => DD x4 x15 | s95 => DD x4 x16 | s96 => DD x4 x17 | s97 => DD x4 x18 | s98 => DD x4 x19 | s99 => DD x4 x20 | s100 => DD x4 x21 | s101 => DD x4 x22 | s102 => DD x4 x23 | s103 => DD x4 x24 | s104 => DD x4 x25 | s105 => DD x4 x26 | s106 => DD x4 x27 | s107 => DD x4 x28 | s108 => DD x4 x29 | s109 => DD x4 x30 | s110 => DD x4 x31 | s111 => DD x4 x32 | s112 => DD x4 x33 | s113 => DD x4 x34 | s114 => DD x4 x35 | s115 => DD x4 x36 | s116 => DD x4 x37 | s117 => DD x4 x38 | s118 => DD x4 x39 | s119 => DD x4 x40 | s120 => DD x4 x41 | s121 => DD x4 x42 | s122 => DD x4 x43 | s123 => DD x4 x44 | s124 => DD x4 x45 | s125 => DD x4 x46 | s126 => DD x4 x47 end.
Definition m180 (c : sum2) : dd := match c with s0 => DD x2 x52 | s1 => DD x2 x53 | s2 => DD x2 x54 | s3 => DD x2 x55 | s4 => DD x2 x56 | s5 => DD x2 x57 | s6 => DD x2 x58 | s7 => DD x2 x59 | s8 => DD x2 x60 | s9 => DD x2 x61 | s10 => DD x2 x62 | s11 => DD x2 x63 | s12 => DD x3 x0 | s13 => DD x3 x1 | s14 => DD x3 x2 | s15 => DD x3 x3 | s16 => DD x3 x4 | s17 => DD x3 x5 | s18 => DD x3 x6 | s19 => DD x3 x7 | s20 => DD x3 x8 | s21 => DD x3 x9 | s22 => DD x3 x10 | s23 => DD x3 x11 | s24 => DD x3 x12 | s25 => DD x3 x13 | s26 => DD x3 x14 | s27 => DD x3 x15 | s28 => DD x3 x16 | s29 => DD x3 x17 | s30 => DD x3 x18 | s31 => DD x3 x19 | s32 => DD x3 x20 | s33 => DD x3 x21 | s34 => DD x3 x22 | s35 => DD x3 x23 | s36 => DD x3 x24 | s37 => DD x3 x25 | s38 => DD x3 x26 | s39 => DD x3 x27 | s40 => DD x3 x28 | s41 => DD x3 x29 | s42 => DD x3 x30 | s43 => DD x3 x31 | s44 => DD x3 x32 | s45 => DD x3 x33 | s46 => DD x3 x34 | s47 => DD x3 x35 | s48 => DD x3 x36 | s49 => DD x3 x37 | s50 => DD x3 x38 | s51 => DD x3 x39 | s52 => DD x3 x40 | s53 => DD x3 x41 | s54 => DD x3 x42 | s55 => DD x3 x43 | s56 => DD x3 x44 | s57 => DD x3 x45 | s58 => DD x3 x46 | s59 => DD x3 x47 | s60 => DD x3 x48 | s61 => DD x3 x49 | s62 => DD x3 x50 | s63 => DD x3 x51 | s64 => DD x3 x52 | s65 => DD x3 x53 | s66 => DD x3 x54 | s67 => DD x3 x55 | s68 => DD x3 x56 | s69 => DD x3 x57 | s70 => DD x3 x58 | s71 => DD x3 x59 | s72 => DD x3 x60 | s73 => DD x3 x61 | s74 => DD x3 x62 | s75 => DD x3 x63 | s76 => DD x4 x0 | s77 => DD x4 x1 | s78 => DD x4 x2 | s79 => DD x4 x3 | s80 => DD x4 x4 | s81 => DD x4 x5 | s82 => DD x4 x6 | s83 => DD x4 x7 | s84 => DD x4 x8 | s85 => DD x4 x9 | s86 => DD x4 x10 | s87 => DD x4 x11 | s88 => DD x4 x12 | s89 => DD x4 x13 | s90 => DD x4 x14 | s91 => DD x4 x15 | s92 => DD x4 x16 | s93 => DD x4 x17 | s94 => DD x4 x18 | s95 => DD x4 x19 | s96 => DD x4 x20 | s97 => DD x4 x21 | s98 => DD x4 x22 | s99 => DD x4 x23 | s100 => DD x4 x24 | s101 => DD x4 x25 | s102 => DD x4 x26 | s103 => DD x4 x27 | s104 => DD x4 x28 | s105 => DD x4 x29 | s106 => DD x4 x30 | s107 => DD x4 x31 | s108 => DD x4 x32 | s109 => DD x4 x33 | s110 => DD x4 x34 | s111 => DD x4 x35 | s112 => DD x4 x36 | s113 => DD x4 x37 | s114 => DD x4 x38 | s115 => DD x4 x39 | s116 => DD x4 x40 | s117 => DD x4 x41 | s118 => DD x4 x42 | s119 => DD x4 x43 | s120 => DD x4 x44 | s121 => DD x4 x45 | s122 => DD x4 x46 | s123 => DD x4 x47 | s124 => DD x4 x48 | s125 => DD x4 x49 | s126 => DD x4 x50 end.
Definition m182 (c : sum2) : dd := match c with s0 => DD x2 x54 | s1 => DD x2 x55 | s2 => DD x2 x56 | s3 => DD x2 x57 | s4 => DD x2 x58 | s5 => DD x2 x59 | s6 => DD x2 x60 | s7 => DD x2 x61 | s8 => DD x2 x62 | s9 => DD x2 x63 | s10 => DD x3 x0 | s11 => DD x3 x1 | s12 => DD x3 x2 | s13 => DD x3 x3 | s14 => DD x3 x4 | s15 => DD x3 x5 | s16 => DD x3 x6 | s17 => DD x3 x7 | s18 => DD x3 x8 | s19 => DD x3 x9 | s20 => DD x3 x10 | s21 => DD x3 x11 | s22 => DD x3 x12 | s23 => DD x3 x13 | s24 => DD x3 x14 | s25 => DD x3 x15 | s26 => DD x3 x16 | s27 => DD x3 x17 | s28 => DD x3 x18 | s29 => DD x3 x19 | s30 => DD x3 x20 | s31 => DD x3 x21 | s32 => DD x3 x22 | s33 => DD x3 x23 | s34 => DD x3 x24 | s35 => DD x3 x25 | s36 => DD x3 x26 | s37 => DD x3 x27 | s38 => DD x3 x28 | s39 => DD x3 x29 | s40 => DD x3 x30 | s41 => DD x3 x31 | s42 => DD x3 x32 | s43 => DD x3 x33 | s44 => DD x3 x34 | s45 => DD x3 x35 | s46 => DD x3 x36 | s47 => DD x3 x37 | s48 => DD x3 x38 | s49 => DD x3 x39 | s50 => DD x3 x40 | s51 => DD x3 x41 | s52 => DD x3 x42 | s53 => DD x3 x43 | s54 => DD x3 x44 | s55 => DD x3 x45 | s56 => DD x3 x46 | s57 => DD x3 x47 | s58 => DD x3 x48 | s59 => DD x3 x49 | s60 => DD x3 x50 | s61 => DD x3 x51 | s62 => DD x3 x52 | s63 => DD x3 x53 | s64 => DD x3 x54 | s65 => DD x3 x55 | s66 => DD x3 x56 | s67 => DD x3 x57 | s68 => DD x3 x58 | s69 => DD x3 x59 | s70 => DD x3 x60 | s71 => DD x3 x61 | s72 => DD x3 x62 | s73 => DD x3 x63 | s74 => DD x4 x0 | s75 => DD x4 x1 | s76 => DD x4 x2 | s77 => DD x4 x3 | s78 => DD x4 x4 | s79 => DD x4 x5 | s80 => DD x4 x6 | s81 => DD x4 x7 | s82 => DD x4 x8 | s83 => DD x4 x9 | s84 => DD x4 x10 | s85 => DD x4 x11 | s86 => DD x4 x12 | s87 => DD x4 x13 | s88 => DD x4 x14 | s89 => DD x4 x15 | s90 => DD x4 x16 | s91 => DD x4 x17 | s92 => DD x4 x18 | s93 => DD x4 x19 | s94 => DD x4 x20 | s95 => DD x4 x21 | s96 => DD x4 x22 | s97 => DD x4 x23 | s98 => DD x4 x24 | s99 => DD x4 x25 | s100 => DD x4 x26 | s101 => DD x4 x27 | s102 => DD x4 x28 | s103 => DD x4 x29 | s104 => DD x4 x30 | s105 => DD x4 x31 | s106 => DD x4 x32 | s107 => DD x4 x33 | s108 => DD x4 x34 | s109 => DD x4 x35 | s110 => DD x4 x36 | s111 => DD x4 x37 | s112 => DD x4 x38 | s113 => DD x4 x39 | s114 => DD x4 x40 | s115 => DD x4 x41 | s116 => DD x4 x42 | s117 => DD x4 x43 | s118 => DD x4 x44 | s119 => DD x4 x45 | s120 => DD x4 x46 | s121 => DD x4 x47 | s122 => DD x4 x48 | s123 => DD x4 x49 | s124 => DD x4 x50 | s125 => DD x4 x51 | s126 => DD x4 x52 end.
Definition m183 (c : sum2) : dd := match c with s0 => DD x2 x55 | s1 => DD x2 x56 | s2 => DD x2 x57 | s3 => DD x2 x58 | s4 => DD x2 x59 | s5 => DD x2 x60 | s6 => DD x2 x61 | s7 => DD x2 x62 | s8 => DD x2 x63 | s9 => DD x3 x0 | s10 => DD x3 x1 | s11 => DD x3 x2 | s12 => DD x3 x3 | s13 => DD x3 x4 | s14 => DD x3 x5 | s15 => DD x3 x6 | s16 => DD x3 x7 | s17 => DD x3 x8 | s18 => DD x3 x9 | s19 => DD x3 x10 | s20 => DD x3 x11 | s21 => DD x3 x12 | s22 => DD x3 x13 | s23 => DD x3 x14 | s24 => DD x3 x15 | s25 => DD x3 x16 | s26 => DD x3 x17 | s27 => DD x3 x18 | s28 => DD x3 x19 | s29 => DD x3 x20 | s30 => DD x3 x21 | s31 => DD x3 x22 | s32 => DD x3 x23 | s33 => DD x3 x24 | s34 => DD x3 x25 | s35 => DD x3 x26 | s36 => DD x3 x27 | s37 => DD x3 x28 | s38 => DD x3 x29 | s39 => DD x3 x30 | s40 => DD x3 x31 | s41 => DD x3 x32 | s42 => DD x3 x33 | s43 => DD x3 x34 | s44 => DD x3 x35 | s45 => DD x3 x36 | s46 => DD x3 x37 | s47 => DD x3 x38 | s48 => DD x3 x39 | s49 => DD x3 x40 | s50 => DD x3 x41 | s51 => DD x3 x42 | s52 => DD x3 x43 | s53 => DD x3 x44 | s54 => DD x3 x45 | s55 => DD x3 x46 | s56 => DD x3 x47 | s57 => DD x3 x48 | s58 => DD x3 x49 | s59 => DD x3 x50 | s60 => DD x3 x51 | s61 => DD x3 x52 | s62 => DD x3 x53 | s63 => DD x3 x54 | s64 => DD x3 x55 | s65 => DD x3 x56 | s66 => DD x3 x57 | s67 => DD x3 x58 | s68 => DD x3 x59 | s69 => DD x3 x60 | s70 => DD x3 x61 | s71 => DD x3 x62 | s72 => DD x3 x63 | s73 => DD x4 x0 | s74 => DD x4 x1 | s75 => DD x4 x2 | s76 => DD x4 x3 | s77 => DD x4 x4 | s78 => DD x4 x5 | s79 => DD x4 x6 | s80 => DD x4 x7 | s81 => DD x4 x8 | s82 => DD x4 x9 | s83 => DD x4 x10 | s84 => DD x4 x11 | s85 => DD x4 x12 | s86 => DD x4 x13 | s87 => DD x4 x14 | s88 => DD x4 x15 | s89 => DD x4 x16 | s90 => DD x4 x17 | s91 => DD x4 x18 | s92 => DD x4 x19 | s93 => DD x4 x20 | s94 => DD x4 x21 | s95 => DD x4 x22 | s96 => DD x4 x23 | s97 => DD x4 x24 | s98 => DD x4 x25 | s99 => DD x4 x26 | s100 => DD x4 x27 | s101 => DD x4 x28 | s102 => DD x4 x29 | s103 => DD x4 x30 | s104 => DD x4 x31 | s105 => DD x4 x32 | s106 => DD x4 x33 | s107 => DD x4 x34 | s108 => DD x4 x35 | s109 => DD x4 x36 | s110 => DD x4 x37 | s111 => DD x4 x38 | s112 => DD x4 x39 | s113 => DD x4 x40 | s114 => DD x4 x41 | s115 => DD x4 x42 | s116 => DD x4 x43 | s117 => DD x4 x44 | s118 => DD x4 x45 | s119 => DD x4 x46 | s120 => DD x4 x47 | s121 => DD x4 x48 | s122 => DD x4 x49 | s123 => DD x4 x50 | s124 => DD x4 x51 | s125 => DD x4 x52 | s126 => DD x4 x53 end.
Definition m184 (c : sum2) : dd := match c with s0 => DD x2 x56 | s1 => DD x2 x57 | s2 => DD x2 x58 | s3 => DD x2 x59 | s4 => DD x2 x60 | s5 => DD x2 x61 | s6 => DD x2 x62 | s7 => DD x2 x63 | s8 => DD x3 x0 | s9 => DD x3 x1 | s10 => DD x3 x2 | s11 => DD x3 x3 | s12 => DD x3 x4 | s13 => DD x3 x5 | s14 => DD x3 x6 | s15 => DD x3 x7 | s16 => DD x3 x8 | s17 => DD x3 x9 | s18 => DD x3 x10 | s19 => DD x3 x11 | s20 => DD x3 x12 | s21 => DD x3 x13 | s22 => DD x3 x14 | s23 => DD x3 x15 | s24 => DD x3 x16 | s25 => DD x3 x17 | s26 => DD x3 x18 | s27 => DD x3 x19 | s28 => DD x3 x20 | s29 => DD x3 x21 | s30 => DD x3 x22 | s31 => DD x3 x23 | s32 => DD x3 x24 | s33 => DD x3 x25 | s34 => DD x3 x26 | s35 => DD x3 x27 | s36 => DD x3 x28 | s37 => DD x3 x29 | s38 => DD x3 x30 | s39 => DD x3 x31 | s40 => DD x3 x32 | s41 => DD x3 x33 | s42 => DD x3 x34 | s43 => DD x3 x35 | s44 => DD x3 x36 | s45 => DD x3 x37 | s46 => DD x3 x38 | s47 => DD x3 x39 | s48 => DD x3 x40 | s49 => DD x3 x41 | s50 => DD x3 x42 | s51 => DD x3 x43 | s52 => DD x3 x44 | s53 => DD x3 x45 | s54 => DD x3 x46 | s55 => DD x3 x47 | s56 => DD x3 x48 | s57 => DD x3 x49 | s58 => DD x3 x50 | s59 => DD x3 x51 | s60 => DD x3 x52 | s61 => DD x3 x53 | s62 => DD x3 x54 | s63 => DD x3 x55 | s64 => DD x3 x56 | s65 => DD x3 x57 | s66 => DD x3 x58 | s67 => DD x3 x59 | s68 => DD x3 x60 | s69 => DD x3 x61 | s70 => DD x3 x62 | s71 => DD x3 x63 | s72 => DD x4 x0 | s73 => DD x4 x1 | s74 => DD x4 x2 | s75 => DD x4 x3 | s76 => DD x4 x4 | s77 => DD x4 x5 | s78 => DD x4 x6 | s79 => DD x4 x7 | s80 => DD x4 x8 | s81 => DD x4 x9 | s82 => DD x4 x10 | s83 => DD x4 x11 | s84 => DD x4 x12 | s85 => DD x4 x13 | s86 => DD x4 x14 | s87 => DD x4 x15 | s88 => DD x4 x16 | s89 => DD x4 x17 | s90 => DD x4 x18 | s91 => DD x4 x19 | s92 => DD x4 x20 | s93 => DD x4 x21 | s94 => DD x4 x22 | s95 => DD x4 x23 | s96 => DD x4 x24 | s97 => DD x4 x25 | s98 => DD x4 x26 | s99 => DD x4 x27 | s100 => DD x4 x28 | s101 => DD x4 x29 | s102 => DD x4 x30 | s103 => DD x4 x31 | s104 => DD x4 x32 | s105 => DD x4 x33 | s106 => DD x4 x34 | s107 => DD x4 x35 | s108 => DD x4 x36 | s109 => DD x4 x37 | s110 => DD x4 x38 | s111 => DD x4 x39 | s112 => DD x4 x40 | s113 => DD x4 x41 | s114 => DD x4 x42 | s115 => DD x4 x43 | s116 => DD x4 x44 | s117 => DD x4 x45 | s118 => DD x4 x46 | s119 => DD x4 x47 | s120 => DD x4 x48 | s121 => DD x4 x49 | s122 => DD x4 x50 | s123 => DD x4 x51 | s124 => DD x4 x52 | s125 => DD x4 x53 | s126 => DD x4 x54 end.
Definition m185 (c : sum2) : dd := match c with s0 => DD x2 x57 | s1 => DD x2 x58 | s2 => DD x2 x59 | s3 => DD x2 x60 | s4 => DD x2 x61 | s5 => DD x2 x62 | s6 => DD x2 x63 | s7 => DD x3 x0 | s8 => DD x3 x1 | s9 => DD x3 x2 | s10 => DD x3 x3 | s11 => DD x3 x4 | s12 => DD x3 x5 | s13 => DD x3 x6 | s14 => DD x3 x7 | s15 => DD x3 x8 | s16 => DD x3 x9 | s17 => DD x3 x10 | s18 => DD x3 x11 | s19 => DD x3 x12 | s20 => DD x3 x13 | s21 => DD x3 x14 | s22 => DD x3 x15 | s23 => DD x3 x16 | s24 => DD x3 x17 | s25 => DD x3 x18 | s26 => DD x3 x19 | s27 => DD x3 x20 | s28 => DD x3 x21 | s29 => DD x3 x22 | s30 => DD x3 x23 | s31 => DD x3 x24 | s32 => DD x3 x25 | s33 => DD x3 x26 | s34 => DD x3 x27 | s35 => DD x3 x28 | s36 => DD x3 x29 | s37 => DD x3 x30 | s38 => DD x3 x31 | s39 => DD x3 x32 | s40 => DD x3 x33 | s41 => DD x3 x34 | s42 => DD x3 x35 | s43 => DD x3 x36 | s44 => DD x3 x37 | s45 => DD x3 x38 | s46 => DD x3 x39 | s47 => DD x3 x40 | s48 => DD x3 x41 | s49 => DD x3 x42 | s50 => DD x3 x43 | s51 => DD x3 x44 | s52 => DD x3 x45 | s53 => DD x3 x46 | s54 => DD x3 x47 | s55 => DD x3 x48 | s56 => DD x3 x49 | s57 => DD x3 x50 | s58 => DD x3 x51 | s59 => DD x3 x52 | s60 => DD x3 x53 | s61 => DD x3 x54 | s62 => DD x3 x55 | s63 => DD x3 x56 | s64 => DD x3 x57 | s65 => DD x3 x58 | s66 => DD x3 x59 | s67 => DD x3 x60 | s68 => DD x3 x61 | s69 => DD x3 x62 | s70 => DD x3 x63 | s71 => DD x4 x0 | s72 => DD x4 x1 | s73 => DD x4 x2 | s74 => DD x4 x3 | s75 => DD x4 x4 | s76 => DD x4 x5 | s77 => DD x4 x6 | s78 => DD x4 x7 | s79 => DD x4 x8 | s80 => DD x4 x9 | s81 => DD x4 x10 | s82 => DD x4 x11 | s83 => DD x4 x12 | s84 => DD x4 x13 | s85 => DD x4 x14 | s86 => DD x4 x15 | s87 => DD x4 x16 | s88 => DD x4 x17 | s89 => DD x4 x18 | s90 => DD x4 x19 | s91 => DD x4 x20 | s92 => DD x4 x21 | s93 => DD x4 x22 | s94 => DD x4 x23 | s95 => DD x4 x24 | s96 => DD x4 x25 | s97 => DD x4 x26 | s98 => DD x4 x27 | s99 => DD x4 x28 | s100 => DD x4 x29 | s101 => DD x4 x30 | s102 => DD x4 x31 | s103 => DD x4 x32 | s104 => DD x4 x33 | s105 => DD x4 x34 | s106 => DD x4 x35 | s107 => DD x4 x36 | s108 => DD x4 x37 | s109 => DD x4 x38 | s110 => DD x4 x39 | s111 => DD x4 x40 | s112 => DD x4 x41 | s113 => DD x4 x42 | s114 => DD x4 x43 | s115 => DD x4 x44 | s116 => DD x4 x45 | s117 => DD x4 x46 | s118 => DD x4 x47 | s119 => DD x4 x48 | s120 => DD x4 x49 | s121 => DD x4 x50 | s122 => DD x4 x51 | s123 => DD x4 x52 | s124 => DD x4 x53 | s125 => DD x4 x54 | s126 => DD x4 x55 end.
Definition m186 (c : sum2) : dd := match c with s0 => DD x2 x58 | s1 => DD x2 x59 | s2 => DD x2 x60 | s3 => DD x2 x61 | s4 => DD x2 x62 | s5 => DD x2 x63 | s6 => DD x3 x0 | s7 => DD x3 x1 | s8 => DD x3 x2 | s9 => DD x3 x3 | s10 => DD x3 x4 | s11 => DD x3 x5 | s12 => DD x3 x6 | s13 => DD x3 x7 | s14 => DD x3 x8 | s15 => DD x3 x9 | s16 => DD x3 x10 | s17 => DD x3 x11 | s18 => DD x3 x12 | s19 => DD x3 x13 | s20 => DD x3 x14 | s21 => DD x3 x15 | s22 => DD x3 x16 | s23 => DD x3 x17 | s24 => DD x3 x18 | s25 => DD x3 x19 | s26 => DD x3 x20 | s27 => DD x3 x21 | s28 => DD x3 x22 | s29 => DD x3 x23 | s30 => DD x3 x24 | s31 => DD x3 x25 | s32 => DD x3 x26 | s33 => DD x3 x27 | s34 => DD x3 x28 | s35 => DD x3 x29 | s36 => DD x3 x30 | s37 => DD x3 x31 | s38 => DD x3 x32 | s39 => DD x3 x33 | s40 => DD x3 x34 | s41 => DD x3 x35 | s42 => DD x3 x36 | s43 => DD x3 x37 | s44 => DD x3 x38 | s45 => DD x3 x39 | s46 => DD x3 x40 | s47 => DD x3 x41 | s48 => DD x3 x42 | s49 => DD x3 x43 | s50 => DD x3 x44 | s51 => DD x3 x45 | s52 => DD x3 x46 | s53 => DD x3 x47 | s54 => DD x3 x48 | s55 => DD x3 x49 | s56 => DD x3 x50 | s57 => DD x3 x51 | s58 => DD x3 x52 | s59 => DD x3 x53 | s60 => DD x3 x54 | s61 => DD x3 x55 | s62 => DD x3 x56 | s63 => DD x3 x57 | s64 => DD x3 x58 | s65 => DD x3 x59 | s66 => DD x3 x60 | s67 => DD x3 x61 | s68 => DD x3 x62 | s69 => DD x3 x63 | s70 => DD x4 x0 | s71 => DD x4 x1 | s72 => DD x4 x2 | s73 => DD x4 x3 | s74 => DD x4 x4 | s75 => DD x4 x5 | s76 => DD x4 x6 | s77 => DD x4 x7 | s78 => DD x4 x8 | s79 => DD x4 x9 | s80 => DD x4 x10 | s81 => DD x4 x11 | s82 => DD x4 x12 | s83 => DD x4 x13 | s84 => DD x4 x14 | s85 => DD x4 x15 | s86 => DD x4 x16 | s87 => DD x4 x17 | s88 => DD x4 x18 | s89 => DD x4 x19 | s90 => DD x4 x20 | s91 => DD x4 x21 | s92 => DD x4 x22 | s93 => DD x4 x23 | s94 => DD x4 x24 | s95 => DD x4 x25 | s96 => DD x4 x26 | s97 => DD x4 x27 | s98 => DD x4 x28 | s99 => DD x4 x29 | s100 => DD x4 x30 | s101 => DD x4 x31 | s102 => DD x4 x32 | s103 => DD x4 x33 | s104 => DD x4 x34 | s105 => DD x4 x35 | s106 => DD x4 x36 | s107 => DD x4 x37 | s108 => DD x4 x38 | s109 => DD x4 x39 | s110 => DD x4 x40 | s111 => DD x4 x41 | s112 => DD x4 x42 | s113 => DD x4 x43 | s114 => DD x4 x44 | s115 => DD x4 x45 | s116 => DD x4 x46 | s117 => DD x4 x47 | s118 => DD x4 x48 | s119 => DD x4 x49 | s120 => DD x4 x50 | s121 => DD x4 x51 | s122 => DD x4 x52 | s123 => DD x4 x53 | s124 => DD x4 x54 | s125 => DD x4 x55 | s126 => DD x4 x56 end.
Definition m187 (c : sum2) : dd := match c with s0 => DD x2 x59 | s1 => DD x2 x60 | s2 => DD x2 x61 | s3 => DD x2 x62 | s4 => DD x2 x63 | s5 => DD x3 x0 | s6 => DD x3 x1 | s7 => DD x3 x2 | s8 => DD x3 x3 | s9 => DD x3 x4 | s10 => DD x3 x5 | s11 => DD x3 x6 | s12 => DD x3 x7 | s13 => DD x3 x8 | s14 => DD x3 x9 | s15 => DD x3 x10 | s16 => DD x3 x11 | s17 => DD x3 x12 | s18 => DD x3 x13 | s19 => DD x3 x14 | s20 => DD x3 x15 | s21 => DD x3 x16 | s22 => DD x3 x17 | s23 => DD x3 x18 | s24 => DD x3 x19 | s25 => DD x3 x20 | s26 => DD x3 x21 | s27 => DD x3 x22 | s28 => DD x3 x23 | s29 => DD x3 x24 | s30 => DD x3 x25 | s31 => DD x3 x26 | s32 => DD x3 x27 | s33 => DD x3 x28 | s34 => DD x3 x29 | s35 => DD x3 x30 | s36 => DD x3 x31 | s37 => DD x3 x32 | s38 => DD x3 x33 | s39 => DD x3 x34 | s40 => DD x3 x35 | s41 => DD x3 x36 | s42 => DD x3 x37 | s43 => DD x3 x38 | s44 => DD x3 x39 | s45 => DD x3 x40 | s46 => DD x3 x41 | s47 => DD x3 x42 | s48 => DD x3 x43 | s49 => DD x3 x44 | s50 => DD x3 x45 | s51 => DD x3 x46 | s52 => DD x3 x47 | s53 => DD x3 x48 | s54 => DD x3 x49 | s55 => DD x3 x50 | s56 => DD x3 x51 | s57 => DD x3 x52 | s58 => DD x3 x53 | s59 => DD x3 x54 | s60 => DD x3 x55 | s61 => DD x3 x56 | s62 => DD x3 x57 | s63 => DD x3 x58 | s64 => DD x3 x59 | s65 => DD x3 x60 | s66 => DD x3 x61 | s67 => DD x3 x62 | s68 => DD x3 x63 | s69 => DD x4 x0 | s70 => DD x4 x1 | s71 => DD x4 x2 | s72 => DD x4 x3 | s73 => DD x4 x4 | s74 => DD x4 x5 | s75 => DD x4 x6 | s76 => DD x4 x7 | s77 => DD x4 x8 | s78 => DD x4 x9 | s79 => DD x4 x10 | s80 => DD x4 x11 | s81 => DD x4 x12 | s82 => DD x4 x13 | s83 => DD x4 x14 | s84 => DD x4 x15 | s85 => DD x4 x16 | s86 => DD x4 x17 | s87 => DD x4 x18 | s88 => DD x4 x19 | s89 => DD x4 x20 | s90 => DD x4 x21 | s91 => DD x4 x22 | s92 => DD x4 x23 | s93 => DD x4 x24 | s94 => DD x4 x25 | s95 => DD x4 x26 | s96 => DD x4 x27 | s97 => DD x4 x28 | s98 => DD x4 x29 | s99 => DD x4 x30 | s100 => DD x4 x31 | s101 => DD x4 x32 | s102 => DD x4 x33 | s103 => DD x4 x34 | s104 => DD x4 x35 | s105 => DD x4 x36 | s106 => DD x4 x37 | s107 => DD x4 x38 | s108 => DD x4 x39 | s109 => DD x4 x40 | s110 => DD x4 x41 | s111 => DD x4 x42 | s112 => DD x4 x43 | s113 => DD x4 x44 | s114 => DD x4 x45 | s115 => DD x4 x46 | s116 => DD x4 x47 | s117 => DD x4 x48 | s118 => DD x4 x49 | s119 => DD x4 x50 | s120 => DD x4 x51 | s121 => DD x4 x52 | s122 => DD x4 x53 | s123 => DD x4 x54 | s124 => DD x4 x55 | s125 => DD x4 x56 | s126 => DD x4 x57 end.
Definition m188 (c : sum2) : dd := match c with s0 => DD x2 x60 | s1 => DD x2 x61 | s2 => DD x2 x62 | s3 => DD x2 x63 | s4 => DD x3 x0 | s5 => DD x3 x1 | s6 => DD x3 x2 | s7 => DD x3 x3 | s8 => DD x3 x4 | s9 => DD x3 x5 | s10 => DD x3 x6 | s11 => DD x3 x7 | s12 => DD x3 x8 | s13 => DD x3 x9 | s14 => DD x3 x10 | s15 => DD x3 x11 | s16 => DD x3 x12 | s17 => DD x3 x13 | s18 => DD x3 x14 | s19 => DD x3 x15 | s20 => DD x3 x16 | s21 => DD x3 x17 | s22 => DD x3 x18 | s23 => DD x3 x19 | s24 => DD x3 x20 | s25 => DD x3 x21 | s26 => DD x3 x22 | s27 => DD x3 x23 | s28 => DD x3 x24 | s29 => DD x3 x25 | s30 => DD x3 x26 | s31 => DD x3 x27 | s32 => DD x3 x28 | s33 => DD x3 x29 | s34 => DD x3 x30 | s35 => DD x3 x31 | s36 => DD x3 x32 | s37 => DD x3 x33 | s38 => DD x3 x34 | s39 => DD x3 x35 | s40 => DD x3 x36 | s41 => DD x3 x37 | s42 => DD x3 x38 | s43 => DD x3 x39 | s44 => DD x3 x40 | s45 => DD x3 x41 | s46 => DD x3 x42 | s47 => DD x3 x43 | s48 => DD x3 x44 | s49 => DD x3 x45 | s50 => DD x3 x46 | s51 => DD x3 x47 | s52 => DD x3 x48 | s53 => DD x3 x49 | s54 => DD x3 x50 | s55 => DD x3 x51 | s56 => DD x3 x52 | s57 => DD x3 x53 | s58 => DD x3 x54 | s59 => DD x3 x55 | s60 => DD x3 x56 | s61 => DD x3 x57 | s62 => DD x3 x58 | s63 => DD x3 x59 | s64 => DD x3 x60 | s65 => DD x3 x61 | s66 => DD x3 x62 | s67 => DD x3 x63 | s68 => DD x4 x0 | s69 => DD x4 x1 | s70 => DD x4 x2 | s71 => DD x4 x3 | s72 => DD x4 x4 | s73 => DD x4 x5 | s74 => DD x4 x6 | s75 => DD x4 x7 | s76 => DD x4 x8 | s77 => DD x4 x9 | s78 => DD x4 x10 | s79 => DD x4 x11 | s80 => DD x4 x12 | s81 => DD x4 x13 | s82 => DD x4 x14 | s83 => DD x4 x15 | s84 => DD x4 x16 | s85 => DD x4 x17 | s86 => DD x4 x18 | s87 => DD x4 x19 | s88 => DD x4 x20 | s89 => DD x4 x21 | s90 => DD x4 x22 | s91 => DD x4 x23 | s92 => DD x4 x24 | s93 => DD x4 x25 | s94 => DD x4 x26 | s95 => DD x4 x27 | s96 => DD x4 x28 | s97 => DD x4 x29 | s98 => DD x4 x30 | s99 => DD x4 x31 | s100 => DD x4 x32 | s101 => DD x4 x33 | s102 => DD x4 x34 | s103 => DD x4 x35 | s104 => DD x4 x36 | s105 => DD x4 x37 | s106 => DD x4 x38 | s107 => DD x4 x39 | s108 => DD x4 x40 | s109 => DD x4 x41 | s110 => DD x4 x42 | s111 => DD x4 x43 | s112 => DD x4 x44 | s113 => DD x4 x45 | s114 => DD x4 x46 | s115 => DD x4 x47 | s116 => DD x4 x48 | s117 => DD x4 x49 | s118 => DD x4 x50 | s119 => DD x4 x51 | s120 => DD x4 x52 | s121 => DD x4 x53 | s122 => DD x4 x54 | s123 => DD x4 x55 | s124 => DD x4 x56 | s125 => DD x4 x57 | s126 => DD x4 x58 end.
Definition m189 (c : sum2) : dd := match c with s0 => DD x2 x61 | s1 => DD x2 x62 | s2 => DD x2 x63 | s3 => DD x3 x0 | s4 => DD x3 x1 | s5 => DD x3 x2 | s6 => DD x3 x3 | s7 => DD x3 x4 | s8 => DD x3 x5 | s9 => DD x3 x6 | s10 => DD x3 x7 | s11 => DD x3 x8 | s12 => DD x3 x9 | s13 => DD x3 x10 | s14 => DD x3 x11 | s15 => DD x3 x12 | s16 => DD x3 x13 | s17 => DD x3 x14 | s18 => DD x3 x15 | s19 => DD x3 x16 | s20 => DD x3 x17 | s21 => DD x3 x18 | s22 => DD x3 x19 | s23 => DD x3 x20 | s24 => DD x3 x21 | s25 => DD x3 x22 | s26 => DD x3 x23 | s27 => DD x3 x24 | s28 => DD x3 x25 | s29 => DD x3 x26 | s30 => DD x3 x27 | s31 => DD x3 x28 | s32 => DD x3 x29 | s33 => DD x3 x30 | s34 => DD x3 x31 | s35 => DD x3 x32 | s36 => DD x3 x33 | s37 => DD x3 x34 | s38 => DD x3 x35 | s39 => DD x3 x36 | s40 => DD x3 x37 | s41 => DD x3 x38 | s42 => DD x3 x39 | s43 => DD x3 x40 | s44 => DD x3 x41 | s45 => DD x3 x42 | s46 => DD x3 x43 | s47 => DD x3 x44 | s48 => DD x3 x45 | s49 => DD x3 x46 | s50 => DD x3 x47 | s51 => DD x3 x48 | s52 => DD x3 x49 | s53 => DD x3 x50 | s54 => DD x3 x51 | s55 => DD x3 x52 | s56 => DD x3 x53 | s57 => DD x3 x54 | s58 => DD x3 x55 | s59 => DD x3 x56 | s60 => DD x3 x57 | s61 => DD x3 x58 | s62 => DD x3 x59 | s63 => DD x3 x60 | s64 => DD x3 x61 | s65 => DD x3 x62 | s66 => DD x3 x63 | s67 => DD x4 x0 | s68 => DD x4 x1 | s69 => DD x4 x2 | s70 => DD x4 x3 | s71 => DD x4 x4 | s72 => DD x4 x5 | s73 => DD x4 x6 | s74 => DD x4 x7 | s75 => DD x4 x8 | s76 => DD x4 x9 | s77 => DD x4 x10 | s78 => DD x4 x11 | s79 => DD x4 x12 | s80 => DD x4 x13 | s81 => DD x4 x14 | s82 => DD x4 x15 | s83 => DD x4 x16 | s84 => DD x4 x17 | s85 => DD x4 x18 | s86 => DD x4 x19 | s87 => DD x4 x20 | s88 => DD x4 x21 | s89 => DD x4 x22 | s90 => DD x4 x23 | s91 => DD x4 x24 | s92 => DD x4 x25 | s93 => DD x4 x26 | s94 => DD x4 x27 | s95 => DD x4 x28 | s96 => DD x4 x29 | s97 => DD x4 x30 | s98 => DD x4 x31 | s99 => DD x4 x32 | s100 => DD x4 x33 | s101 => DD x4 x34 | s102 => DD x4 x35 | s103 => DD x4 x36 | s104 => DD x4 x37 | s105 => DD x4 x38 | s106 => DD x4 x39 | s107 => DD x4 x40 | s108 => DD x4 x41 | s109 => DD x4 x42 | s110 => DD x4 x43 | s111 => DD x4 x44 | s112 => DD x4 x45 | s113 => DD x4 x46 | s114 => DD x4 x47 | s115 => DD x4 x48 | s116 => DD x4 x49 | s117 => DD x4 x50 | s118 => DD x4 x51 | s119 => DD x4 x52 | s120 => DD x4 x53 | s121 => DD x4 x54 | s122 => DD x4 x55 | s123 => DD x4 x56 | s124 => DD x4 x57 | s125 => DD x4 x58 | s126 => DD x4 x59 end.
Definition m190 (c : sum2) : dd := match c with s0 => DD x2 x62 | s1 => DD x2 x63 | s2 => DD x3 x0 | s3 => DD x3 x1 | s4 => DD x3 x2 | s5 => DD x3 x3 | s6 => DD x3 x4 | s7 => DD x3 x5 | s8 => DD x3 x6 | s9 => DD x3 x7 | s10 => DD x3 x8 | s11 => DD x3 x9 | s12 => DD x3 x10 | s13 => DD x3 x11 | s14 => DD x3 x12 | s15 => DD x3 x13 | s16 => DD x3 x14 | s17 => DD x3 x15 | s18 => DD x3 x16 | s19 => DD x3 x17 | s20 => DD x3 x18 | s21 => DD x3 x19 | s22 => DD x3 x20 | s23 => DD x3 x21 | s24 => DD x3 x22 | s25 => DD x3 x23 | s26 => DD x3 x24 | s27 => DD x3 x25 | s28 => DD x3 x26 | s29 => DD x3 x27 | s30 => DD x3 x28 | s31 => DD x3 x29 | s32 => DD x3 x30 | s33 => DD x3 x31 | s34 => DD x3 x32 | s35 => DD x3 x33 | s36 => DD x3 x34 | s37 => DD x3 x35 | s38 => DD x3 x36 | s39 => DD x3 x37 | s40 => DD x3 x38 | s41 => DD x3 x39 | s42 => DD x3 x40 | s43 => DD x3 x41 | s44 => DD x3 x42 | s45 => DD x3 x43 | s46 => DD x3 x44 | s47 => DD x3 x45 | s48 => DD x3 x46 | s49 => DD x3 x47 | s50 => DD x3 x48 | s51 => DD x3 x49 | s52 => DD x3 x50 | s53 => DD x3 x51 | s54 => DD x3 x52 | s55 => DD x3 x53 | s56 => DD x3 x54 | s57 => DD x3 x55 | s58 => DD x3 x56 | s59 => DD x3 x57 | s60 => DD x3 x58 | s61 => DD x3 x59 | s62 => DD x3 x60 | s63 => DD x3 x61 | s64 => DD x3 x62 | s65 => DD x3 x63 | s66 => DD x4 x0 | s67 => DD x4 x1 | s68 => DD x4 x2 | s69 => DD x4 x3 | s70 => DD x4 x4 | s71 => DD x4 x5 | s72 => DD x4 x6 | s73 => DD x4 x7 | s74 => DD x4 x8 | s75 => DD x4 x9 | s76 => DD x4 x10 | s77 => DD x4 x11 | s78 => DD x4 x12 | s79 => DD x4 x13 | s80 => DD x4 x14 | s81 => DD x4 x15 | s82 => DD x4 x16 | s83 => DD x4 x17 | s84 => DD x4 x18 | s85 => DD x4 x19 | s86 => DD x4 x20 | s87 => DD x4 x21 | s88 => DD x4 x22 | s89 => DD x4 x23 | s90 => DD x4 x24 | s91 => DD x4 x25 | s92 => DD x4 x26 | s93 => DD x4 x27 | s94 => DD x4 x28 | s95 => DD x4 x29 | s96 => DD x4 x30 | s97 => DD x4 x31 | s98 => DD x4 x32 | s99 => DD x4 x33 | s100 => DD x4 x34 | s101 => DD x4 x35 | s102 => DD x4 x36 | s103 => DD x4 x37 | s104 => DD x4 x38 | s105 => DD x4 x39 | s106 => DD x4 x40 | s107 => DD x4 x41 | s108 => DD x4 x42 | s109 => DD x4 x43 | s110 => DD x4 x44 | s111 => DD x4 x45 | s112 => DD x4 x46 | s113 => DD x4 x47 | s114 => DD x4 x48 | s115 => DD x4 x49 | s116 => DD x4 x50 | s117 => DD x4 x51 | s118 => DD x4 x52 | s119 => DD x4 x53 | s120 => DD x4 x54 | s121 => DD x4 x55 | s122 => DD x4 x56 | s123 => DD x4 x57 | s124 => DD x4 x58 | s125 => DD x4 x59 | s126 => DD x4 x60 end.
Definition m192 (c : sum2) : dd := match c with s0 => DD x3 x0 | s1 => DD x3 x1 | s2 => DD x3 x2 | s3 => DD x3 x3 | s4 => DD x3 x4 | s5 => DD x3 x5 | s6 => DD x3 x6 | s7 => DD x3 x7 | s8 => DD x3 x8 | s9 => DD x3 x9 | s10 => DD x3 x10 | s11 => DD x3 x11 | s12 => DD x3 x12 | s13 => DD x3 x13 | s14 => DD x3 x14 | s15 => DD x3 x15 | s16 => DD x3 x16 | s17 => DD x3 x17 | s18 => DD x3 x18 | s19 => DD x3 x19 | s20 => DD x3 x20 | s21 => DD x3 x21 | s22 => DD x3 x22 | s23 => DD x3 x23 | s24 => DD x3 x24 | s25 => DD x3 x25 | s26 => DD x3 x26 | s27 => DD x3 x27 | s28 => DD x3 x28 | s29 => DD x3 x29 | s30 => DD x3 x30 | s31 => DD x3 x31 | s32 => DD x3 x32 | s33 => DD x3 x33 | s34 => DD x3 x34 | s35 => DD x3 x35 | s36 => DD x3 x36 | s37 => DD x3 x37 | s38 => DD x3 x38 | s39 => DD x3 x39 | s40 => DD x3 x40 | s41 => DD x3 x41 | s42 => DD x3 x42 | s43 => DD x3 x43 | s44 => DD x3 x44 | s45 => DD x3 x45 | s46 => DD x3 x46 | s47 => DD x3 x47 | s48 => DD x3 x48 | s49 => DD x3 x49 | s50 => DD x3 x50 | s51 => DD x3 x51 | s52 => DD x3 x52 | s53 => DD x3 x53 | s54 => DD x3 x54 | s55 => DD x3 x55 | s56 => DD x3 x56 | s57 => DD x3 x57 | s58 => DD x3 x58 | s59 => DD x3 x59 | s60 => DD x3 x60 | s61 => DD x3 x61 | s62 => DD x3 x62 | s63 => DD x3 x63 | s64 => DD x4 x0 | s65 => DD x4 x1 | s66 => DD x4 x2 | s67 => DD x4 x3 | s68 => DD x4 x4 | s69 => DD x4 x5 | s70 => DD x4 x6 | s71 => DD x4 x7 | s72 => DD x4 x8 | s73 => DD x4 x9 | s74 => DD x4 x10 | s75 => DD x4 x11 | s76 => DD x4 x12 | s77 => DD x4 x13 | s78 => DD x4 x14 | s79 => DD x4 x15 | s80 => DD x4 x16 | s81 => DD x4 x17 | s82 => DD x4 x18 | s83 => DD x4 x19 | s84 => DD x4 x20 | s85 => DD x4 x21 | s86 => DD x4 x22 | s87 => DD x4 x23 | s88 => DD x4 x24 | s89 => DD x4 x25 | s90 => DD x4 x26 | s91 => DD x4 x27 | s92 => DD x4 x28 | s93 => DD x4 x29 | s94 => DD x4 x30 | s95 => DD x4 x31 | s96 => DD x4 x32 | s97 => DD x4 x33 | s98 => DD x4 x34 | s99 => DD x4 x35 | s100 => DD x4 x36 | s101 => DD x4 x37 | s102 => DD x4 x38 | s103 => DD x4 x39 | s104 => DD x4 x40 | s105 => DD x4 x41 | s106 => DD x4 x42 | s107 => DD x4 x43 | s108 => DD x4 x44 | s109 => DD x4 x45 | s110 => DD x4 x46 | s111 => DD x4 x47 | s112 => DD x4 x48 | s113 => DD x4 x49 | s114 => DD x4 x50 | s115 => DD x4 x51 | s116 => DD x4 x52 | s117 => DD x4 x53 | s118 => DD x4 x54 | s119 => DD x4 x55 | s120 => DD x4 x56 | s121 => DD x4 x57 | s122 => DD x4 x58 | s123 => DD x4 x59 | s124 => DD x4 x60 | s125 => DD x4 x61 | s126 => DD x4 x62 end.
Definition m195 (c : sum2) : dd := match c with s0 => DD x3 x3 | s1 => DD x3 x4 | s2 => DD x3 x5 | s3 => DD x3 x6 | s4 => DD x3 x7 | s5 => DD x3 x8 | s6 => DD x3 x9 | s7 => DD x3 x10 | s8 => DD x3 x11 | s9 => DD x3 x12 | s10 => DD x3 x13 | s11 => DD x3 x14 | s12 => DD x3 x15 | s13 => DD x3 x16 | s14 => DD x3 x17 | s15 => DD x3 x18 | s16 => DD x3 x19 | s17 => DD x3 x20 | s18 => DD x3 x21 | s19 => DD x3 x22 | s20 => DD x3 x23 | s21 => DD x3 x24 | s22 => DD x3 x25 | s23 => DD x3 x26 | s24 => DD x3 x27 | s25 => DD x3 x28 | s26 => DD x3 x29 | s27 => DD x3 x30 | s28 => DD x3 x31 | s29 => DD x3 x32 | s30 => DD x3 x33 | s31 => DD x3 x34 | s32 => DD x3 x35 | s33 => DD x3 x36 | s34 => DD x3 x37 | s35 => DD x3 x38 | s36 => DD x3 x39 | s37 => DD x3 x40 | s38 => DD x3 x41 | s39 => DD x3 x42 | s40 => DD x3 x43 | s41 => DD x3 x44 | s42 => DD x3 x45 | s43 => DD x3 x46 | s44 => DD x3 x47 | s45 => DD x3 x48 | s46 => DD x3 x49 | s47 => DD x3 x50 | s48 => DD x3 x51 | s49 => DD x3 x52 | s50 => DD x3 x53 | s51 => DD x3 x54 | s52 => DD x3 x55 | s53 => DD x3 x56 | s54 => DD x3 x57 | s55 => DD x3 x58 | s56 => DD x3 x59 | s57 => DD x3 x60 | s58 => DD x3 x61 | s59 => DD x3 x62 | s60 => DD x3 x63 | s61 => DD x4 x0 | s62 => DD x4 x1 | s63 => DD x4 x2 | s64 => DD x4 x3 | s65 => DD x4 x4 | s66 => DD x4 x5 | s67 => DD x4 x6 | s68 => DD x4 x7 | s69 => DD x4 x8 | s70 => DD x4 x9 | s71 => DD x4 x10 | s72 => DD x4 x11 | s73 => DD x4 x12 | s74 => DD x4 x13 | s75 => DD x4 x14 | s76 => DD x4 x15 | s77 => DD x4 x16 | s78 => DD x4 x17 | s79 => DD x4 x18 | s80 => DD x4 x19 | s81 => DD x4 x20 | s82 => DD x4 x21 | s83 => DD x4 x22 | s84 => DD x4 x23 | s85 => DD x4 x24 | s86 => DD x4 x25 | s87 => DD x4 x26 | s88 => DD x4 x27 | s89 => DD x4 x28 | s90 => DD x4 x29 | s91 => DD x4 x30 | s92 => DD x4 x31 | s93 => DD x4 x32 | s94 => DD x4 x33 | s95 => DD x4 x34 | s96 => DD x4 x35 | s97 => DD x4 x36 | s98 => DD x4 x37 | s99 => DD x4 x38 | s100 => DD x4 x39 | s101 => DD x4 x40 | s102 => DD x4 x41 | s103 => DD x4 x42 | s104 => DD x4 x43 | s105 => DD x4 x44 | s106 => DD x4 x45 | s107 => DD x4 x46 | s108 => DD x4 x47 | s109 => DD x4 x48 | s110 => DD x4 x49 | s111 => DD x4 x50 | s112 => DD x4 x51 | s113 => DD x4 x52 | s114 => DD x4 x53 | s115 => DD x4 x54 | s116 => DD x4 x55 | s117 => DD x4 x56 | s118 => DD x4 x57 | s119 => DD x4 x58 | s120 => DD x4 x59 | s121 => DD x4 x60 | s122 => DD x4 x61 | s123 => DD x4 x62 | s124 => DD x4 x63 | s125 => DD x5 x0 | s126 => DD x5 x1 end.
Definition m196 (c : sum2) : dd := match c with s0 => DD x3 x4 | s1 => DD x3 x5 | s2 => DD x3 x6 | s3 => DD x3 x7 | s4 => DD x3 x8 | s5 => DD x3 x9 | s6 => DD x3 x10 | s7 => DD x3 x11 | s8 => DD x3 x12 | s9 => DD x3 x13 | s10 => DD x3 x14 | s11 => DD x3 x15 | s12 => DD x3 x16 | s13 => DD x3 x17 | s14 => DD x3 x18 | s15 => DD x3 x19 | s16 => DD x3 x20 | s17 => DD x3 x21 | s18 => DD x3 x22 | s19 => DD x3 x23 | s20 => DD x3 x24 | s21 => DD x3 x25 | s22 => DD x3 x26 | s23 => DD x3 x27 | s24 => DD x3 x28 | s25 => DD x3 x29 | s26 => DD x3 x30 | s27 => DD x3 x31 | s28 => DD x3 x32 | s29 => DD x3 x33 | s30 => DD x3 x34 | s31 => DD x3 x35 | s32 => DD x3 x36 | s33 => DD x3 x37 | s34 => DD x3 x38 | s35 => DD x3 x39 | s36 => DD x3 x40 | s37 => DD x3 x41 | s38 => DD x3 x42 | s39 => DD x3 x43 | s40 => DD x3 x44 | s41 => DD x3 x45 | s42 => DD x3 x46 | s43 => DD x3 x47 | s44 => DD x3 x48 | s45 => DD x3 x49 | s46 => DD x3 x50 | s47 => DD x3 x51 | s48 => DD x3 x52 | s49 => DD x3 x53 | s50 => DD x3 x54 | s51 => DD x3 x55 | s52 => DD x3 x56 | s53 => DD x3 x57 | s54 => DD x3 x58 | s55 => DD x3 x59 | s56 => DD x3 x60 | s57 => DD x3 x61 | s58 => DD x3 x62 | s59 => DD x3 x63 | s60 => DD x4 x0 | s61 => DD x4 x1 | s62 => DD x4 x2 | s63 => DD x4 x3 | s64 => DD x4 x4 | s65 => DD x4 x5 | s66 => DD x4 x6 | s67 => DD x4 x7 | s68 => DD x4 x8 | s69 => DD x4 x9 | s70 => DD x4 x10 | s71 => DD x4 x11 | s72 => DD x4 x12 | s73 => DD x4 x13 | s74 => DD x4 x14 | s75 => DD x4 x15 | s76 => DD x4 x16 | s77 => DD x4 x17 | s78 => DD x4 x18 | s79 => DD x4 x19 | s80 => DD x4 x20 | s81 => DD x4 x21 | s82 => DD x4 x22 | s83 => DD x4 x23 | s84 => DD x4 x24 | s85 => DD x4 x25 | s86 => DD x4 x26 | s87 => DD x4 x27 | s88 => DD x4 x28 | s89 => DD x4 x29 | s90 => DD x4 x30 | s91 => DD x4 x31 | s92 => DD x4 x32 | s93 => DD x4 x33 | s94 => DD x4 x34 | s95 => DD x4 x35 | s96 => DD x4 x36 | s97 => DD x4 x37 | s98 => DD x4 x38 | s99 => DD x4 x39 | s100 => DD x4 x40 | s101 => DD x4 x41 | s102 => DD x4 x42 | s103 => DD x4 x43 | s104 => DD x4 x44 | s105 => DD x4 x45 | s106 => DD x4 x46 | s107 => DD x4 x47 | s108 => DD x4 x48 | s109 => DD x4 x49 | s110 => DD x4 x50 | s111 => DD x4 x51 | s112 => DD x4 x52 | s113 => DD x4 x53 | s114 => DD x4 x54 | s115 => DD x4 x55 | s116 => DD x4 x56 | s117 => DD x4 x57 | s118 => DD x4 x58 | s119 => DD x4 x59 | s120 => DD x4 x60 | s121 => DD x4 x61 | s122 => DD x4 x62 | s123 => DD x4 x63 | s124 => DD x5 x0 | s125 => DD x5 x1 | s126 => DD x5 x2 end.
Definition m198 (c : sum2) : dd := match c with s0 => DD x3 x6 | s1 => DD x3 x7 | s2 => DD x3 x8 | s3 => DD x3 x9 | s4 => DD x3 x10 | s5 => DD x3 x11 | s6 => DD x3 x12 | s7 => DD x3 x13 | s8 => DD x3 x14 | s9 => DD x3 x15 | s10 => DD x3 x16 | s11 => DD x3 x17 | s12 => DD x3 x18 | s13 => DD x3 x19 | s14 => DD x3 x20 | s15 => DD x3 x21 | s16 => DD x3 x22 | s17 => DD x3 x23 | s18 => DD x3 x24 | s19 => DD x3 x25 | s20 => DD x3 x26 | s21 => DD x3 x27 | s22 => DD x3 x28 | s23 => DD x3 x29 | s24 => DD x3 x30 | s25 => DD x3 x31 | s26 => DD x3 x32 | s27 => DD x3 x33 | s28 => DD x3 x34 | s29 => DD x3 x35 | s30 => DD x3 x36 | s31 => DD x3 x37 | s32 => DD x3 x38 | s33 => DD x3 x39 | s34 => DD x3 x40 | s35 => DD x3 x41 | s36 => DD x3 x42 | s37 => DD x3 x43 | s38 => DD x3 x44 | s39 => DD x3 x45 | s40 => DD x3 x46 | s41 => DD x3 x47 | s42 => DD x3 x48 | s43 => DD x3 x49 | s44 => DD x3 x50 | s45 => DD x3 x51 | s46 => DD x3 x52 | s47 => DD x3 x53 | s48 => DD x3 x54 | s49 => DD x3 x55 | s50 => DD x3 x56 | s51 => DD x3 x57 | s52 => DD x3 x58 | s53 => DD x3 x59 | s54 => DD x3 x60 | s55 => DD x3 x61 | s56 => DD x3 x62 | s57 => DD x3 x63 | s58 => DD x4 x0 | s59 => DD x4 x1 | s60 => DD x4 x2 | s61 => DD x4 x3 | s62 => DD x4 x4 | s63 => DD x4 x5 | s64 => DD x4 x6 | s65 => DD x4 x7 | s66 => DD x4 x8 | s67 => DD x4 x9 | s68 => DD x4 x10 | s69 => DD x4 x11 | s70 => DD x4 x12 | s71 => DD x4 x13 | s72 => DD x4 x14 | s73 => DD x4 x15 | s74 => DD x4 x16 | s75 => DD x4 x17 | s76 => DD x4 x18 | s77 => DD x4 x19 | s78 => DD x4 x20 | s79 => DD x4 x21 | s80 => DD x4 x22 | s81 => DD x4 x23 | s82 => DD x4 x24 | s83 => DD x4 x25 | s84 => DD x4 x26 | s85 => DD x4 x27 | s86 => DD x4 x28 | s87 => DD x4 x29 | s88 => DD x4 x30 | s89 => DD x4 x31 | s90 => DD x4 x32 | s91 => DD x4 x33 | s92 => DD x4 x34 | s93 => DD x4 x35 | s94 => DD x4 x36 | s95 => DD x4 x37 | s96 => DD x4 x38 | s97 => DD x4 x39 | s98 => DD x4 x40 | s99 => DD x4 x41 | s100 => DD x4 x42 | s101 => DD x4 x43 | s102 => DD x4 x44 | s103 => DD x4 x45 | s104 => DD x4 x46 | s105 => DD x4 x47 | s106 => DD x4 x48 | s107 => DD x4 x49 | s108 => DD x4 x50 | s109 => DD x4 x51 | s110 => DD x4 x52 | s111 => DD x4 x53 | s112 => DD x4 x54 | s113 => DD x4 x55 | s114 => DD x4 x56 | s115 => DD x4 x57 | s116 => DD x4 x58 | s117 => DD x4 x59 | s118 => DD x4 x60 | s119 => DD x4 x61 | s120 => DD x4 x62 | s121 => DD x4 x63 | s122 => DD x5 x0 | s123 => DD x5 x1 | s124 => DD x5 x2 | s125 => DD x5 x3 | s126 => DD x5 x4 end.
Definition m200 (c : sum2) : dd := match c with s0 => DD x3 x8 | s1 => DD x3 x9 | s2 => DD x3 x10 | s3 => DD x3 x11 | s4 => DD x3 x12 | s5 => DD x3 x13 | s6 => DD x3 x14 | s7 => DD x3 x15 | s8 => DD x3 x16 | s9 => DD x3 x17 | s10 => DD x3 x18 | s11 => DD x3 x19 | s12 => DD x3 x20 | s13 => DD x3 x21 | s14 => DD x3 x22 | s15 => DD x3 x23 | s16 => DD x3 x24 | s17 => DD x3 x25 | s18 => DD x3 x26 | s19 => DD x3 x27 | s20 => DD x3 x28 | s21 => DD x3 x29 | s22 => DD x3 x30 | s23 => DD x3 x31 | s24 => DD x3 x32 | s25 => DD x3 x33 | s26 => DD x3 x34 | s27 => DD x3 x35 | s28 => DD x3 x36 | s29 => DD x3 x37 | s30 => DD x3 x38 | s31 => DD x3 x39 | s32 => DD x3 x40 | s33 => DD x3 x41 | s34 => DD x3 x42 | s35 => DD x3 x43 | s36 => DD x3 x44 | s37 => DD x3 x45 | s38 => DD x3 x46 | s39 => DD x3 x47 | s40 => DD x3 x48 | s41 => DD x3 x49 | s42 => DD x3 x50 | s43 => DD x3 x51 | s44 => DD x3 x52 | s45 => DD x3 x53 | s46 => DD x3 x54 | s47 => DD x3 x55 | s48 => DD x3 x56 | s49 => DD x3 x57 | s50 => DD x3 x58 | s51 => DD x3 x59 | s52 => DD x3 x60 | s53 => DD x3 x61 | s54 => DD x3 x62 | s55 => DD x3 x63 | s56 => DD x4 x0 | s57 => DD x4 x1 | s58 => DD x4 x2 | s59 => DD x4 x3 | s60 => DD x4 x4 | s61 => DD x4 x5 | s62 => DD x4 x6 | s63 => DD x4 x7 | s64 => DD x4 x8 | s65 => DD x4 x9 | s66 => DD x4 x10 | s67 => DD x4 x11 | s68 => DD x4 x12 | s69 => DD x4 x13 | s70 => DD x4 x14 | s71 => DD x4 x15 | s72 => DD x4 x16 | s73 => DD x4 x17 | s74 => DD x4 x18 | s75 => DD x4 x19 | s76 => DD x4 x20 | s77 => DD x4 x21 | s78 => DD x4 x22 | s79 => DD x4 x23 | s80 => DD x4 x24 | s81 => DD x4 x25 | s82 => DD x4 x26 | s83 => DD x4 x27 | s84 => DD x4 x28 | s85 => DD x4 x29 | s86 => DD x4 x30 | s87 => DD x4 x31 | s88 => DD x4 x32 | s89 => DD x4 x33 | s90 => DD x4 x34 | s91 => DD x4 x35 | s92 => DD x4 x36 | s93 => DD x4 x37 | s94 => DD x4 x38 | s95 => DD x4 x39 | s96 => DD x4 x40 | s97 => DD x4 x41 | s98 => DD x4 x42 | s99 => DD x4 x43 | s100 => DD x4 x44 | s101 => DD x4 x45 | s102 => DD x4 x46 | s103 => DD x4 x47 | s104 => DD x4 x48 | s105 => DD x4 x49 | s106 => DD x4 x50 | s107 => DD x4 x51 | s108 => DD x4 x52 | s109 => DD x4 x53 | s110 => DD x4 x54 | s111 => DD x4 x55 | s112 => DD x4 x56 | s113 => DD x4 x57 | s114 => DD x4 x58 | s115 => DD x4 x59 | s116 => DD x4 x60 | s117 => DD x4 x61 | s118 => DD x4 x62 | s119 => DD x4 x63 | s120 => DD x5 x0 | s121 => DD x5 x1 | s122 => DD x5 x2 | s123 => DD x5 x3 | s124 => DD x5 x4 | s125 => DD x5 x5 | s126 => DD x5 x6 end.
Definition m203 (c : sum2) : dd := match c with s0 => DD x3 x11 | s1 => DD x3 x12 | s2 => DD x3 x13 | s3 => DD x3 x14 | s4 => DD x3 x15 | s5 => DD x3 x16 | s6 => DD x3 x17 | s7 => DD x3 x18 | s8 => DD x3 x19 | s9 => DD x3 x20 | s10 => DD x3 x21 | s11 => DD x3 x22 | s12 => DD x3 x23 | s13 => DD x3 x24 | s14 => DD x3 x25 | s15 => DD x3 x26 | s16 => DD x3 x27 | s17 => DD x3 x28 | s18 => DD x3 x29 | s19 => DD x3 x30 | s20 => DD x3 x31 | s21 => DD x3 x32 | s22 => DD x3 x33 | s23 => DD x3 x34 | s24 => DD x3 x35 | s25 => DD x3 x36 | s26 => DD x3 x37 | s27 => DD x3 x38 | s28 => DD x3 x39 | s29 => DD x3 x40 | s30 => DD x3 x41 | s31 => DD x3 x42 | s32 => DD x3 x43 | s33 => DD x3 x44 | s34 => DD x3 x45 | s35 => DD x3 x46 | s36 => DD x3 x47 | s37 => DD x3 x48 | s38 => DD x3 x49 | s39 => DD x3 x50 | s40 => DD x3 x51 | s41 => DD x3 x52 | s42 => DD x3 x53 | s43 => DD x3 x54 | s44 => DD x3 x55 | s45 => DD x3 x56 | s46 => DD x3 x57 | s47 => DD x3 x58 | s48 => DD x3 x59 | s49 => DD x3 x60 | s50 => DD x3 x61 | s51 => DD x3 x62 | s52 => DD x3 x63 | s53 => DD x4 x0 | s54 => DD x4 x1 | s55 => DD x4 x2 | s56 => DD x4 x3 | s57 => DD x4 x4 | s58 => DD x4 x5 | s59 => DD x4 x6 | s60 => DD x4 x7 | s61 => DD x4 x8 | s62 => DD x4 x9 | s63 => DD x4 x10 | s64 => DD x4 x11 | s65 => DD x4 x12 | s66 => DD x4 x13 | s67 => DD x4 x14 | s68 => DD x4 x15 | s69 => DD x4 x16 | s70 => DD x4 x17 | s71 => DD x4 x18 | s72 => DD x4 x19 | s73 => DD x4 x20 | s74 => DD x4 x21 | s75 => DD x4 x22 | s76 => DD x4 x23 | s77 => DD x4 x24 | s78 => DD x4 x25 | s79 => DD x4 x26 | s80 => DD x4 x27 | s81 => DD x4 x28 | s82 => DD x4 x29 | s83 => DD x4 x30 | s84 => DD x4 x31 | s85 => DD x4 x32 | s86 => DD x4 x33 | s87 => DD x4 x34 | s88 => DD x4 x35 | s89 => DD x4 x36 | s90 => DD x4 x37 | s91 => DD x4 x38 | s92 => DD x4 x39 | s93 => DD x4 x40 | s94 => DD x4 x41 | s95 => DD x4 x42 | s96 => DD x4 x43 | s97 => DD x4 x44 | s98 => DD x4 x45 | s99 => DD x4 x46 | s100 => DD x4 x47 | s101 => DD x4 x48 | s102 => DD x4 x49 | s103 => DD x4 x50 | s104 => DD x4 x51 | s105 => DD x4 x52 | s106 => DD x4 x53 | s107 => DD x4 x54 | s108 => DD x4 x55 | s109 => DD x4 x56 | s110 => DD x4 x57 | s111 => DD x4 x58 | s112 => DD x4 x59 | s113 => DD x4 x60 | s114 => DD x4 x61 | s115 => DD x4 x62 | s116 => DD x4 x63 | s117 => DD x5 x0 | s118 => DD x5 x1 | s119 => DD x5 x2 | s120 => DD x5 x3 | s121 => DD x5 x4 | s122 => DD x5 x5 | s123 => DD x5 x6 | s124 => DD x5 x7 | s125 => DD x5 x8 | s126 => DD x5 x9 end.
Definition m204 (c : sum2) : dd := match c with s0 => DD x3 x12 | s1 => DD x3 x13 | s2 => DD x3 x14 | s3 => DD x3 x15 | s4 => DD x3 x16 | s5 => DD x3 x17 | s6 => DD x3 x18 | s7 => DD x3 x19 | s8 => DD x3 x20 | s9 => DD x3 x21 | s10 => DD x3 x22 | s11 => DD x3 x23 | s12 => DD x3 x24 | s13 => DD x3 x25 | s14 => DD x3 x26 | s15 => DD x3 x27 | s16 => DD x3 x28 | s17 => DD x3 x29 | s18 => DD x3 x30 | s19 => DD x3 x31 | s20 => DD x3 x32 | s21 => DD x3 x33 | s22 => DD x3 x34 | s23 => DD x3 x35 | s24 => DD x3 x36 | s25 => DD x3 x37 | s26 => DD x3 x38 | s27 => DD x3 x39 | s28 => DD x3 x40 | s29 => DD x3 x41 | s30 => DD x3 x42 | s31 => DD x3 x43 | s32 => DD x3 x44 | s33 => DD x3 x45 | s34 => DD x3 x46 | s35 => DD x3 x47 | s36 => DD x3 x48 | s37 => DD x3 x49 | s38 => DD x3 x50 | s39 => DD x3 x51 | s40 => DD x3 x52 | s41 => DD x3 x53 | s42 => DD x3 x54 | s43 => DD x3 x55 | s44 => DD x3 x56 | s45 => DD x3 x57 | s46 => DD x3 x58 | s47 => DD x3 x59 | s48 => DD x3 x60 | s49 => DD x3 x61 | s50 => DD x3 x62 | s51 => DD x3 x63 | s52 => DD x4 x0 | s53 => DD x4 x1 | s54 => DD x4 x2 | s55 => DD x4 x3 | s56 => DD x4 x4 | s57 => DD x4 x5 | s58 => DD x4 x6 | s59 => DD x4 x7 | s60 => DD x4 x8 | s61 => DD x4 x9 | s62 => DD x4 x10 | s63 => DD x4 x11 | s64 => DD x4 x12 | s65 => DD x4 x13 | s66 => DD x4 x14 | s67 => DD x4 x15 | s68 => DD x4 x16 | s69 => DD x4 x17 | s70 => DD x4 x18 | s71 => DD x4 x19 | s72 => DD x4 x20 | s73 => DD x4 x21 | s74 => DD x4 x22 | s75 => DD x4 x23 | s76 => DD x4 x24 | s77 => DD x4 x25 | s78 => DD x4 x26 | s79 => DD x4 x27 | s80 => DD x4 x28 | s81 => DD x4 x29 | s82 => DD x4 x30 | s83 => DD x4 x31 | s84 => DD x4 x32 | s85 => DD x4 x33 | s86 => DD x4 x34 | s87 => DD x4 x35 | s88 => DD x4 x36 | s89 => DD x4 x37 | s90 => DD x4 x38 | s91 => DD x4 x39 | s92 => DD x4 x40 | s93 => DD x4 x41 | s94 => DD x4 x42 | s95 => DD x4 x43 | s96 => DD x4 x44 | s97 => DD x4 x45 | s98 => DD x4 x46 | s99 => DD x4 x47 | s100 => DD x4 x48 | s101 => DD x4 x49 | s102 => DD x4 x50 | s103 => DD x4 x51 | s104 => DD x4 x52 | s105 => DD x4 x53 | s106 => DD x4 x54 | s107 => DD x4 x55 | s108 => DD x4 x56 | s109 => DD x4 x57 | s110 => DD x4 x58 | s111 => DD x4 x59 | s112 => DD x4 x60 | s113 => DD x4 x61 | s114 => DD x4 x62 | s115 => DD x4 x63 | s116 => DD x5 x0 | s117 => DD x5 x1 | s118 => DD x5 x2 | s119 => DD x5 x3 | s120 => DD x5 x4 | s121 => DD x5 x5 | s122 => DD x5 x6 | s123 => DD x5 x7 | s124 => DD x5 x8 | s125 => DD x5 x9 | s126 => DD x5 x10 end.
Definition m205 (c : sum2) : dd := match c with s0 => DD x3 x13 | s1 => DD x3 x14 | s2 => DD x3 x15 | s3 => DD x3 x16 | s4 => DD x3 x17 | s5 => DD x3 x18 | s6 => DD x3 x19 | s7 => DD x3 x20 | s8 => DD x3 x21 | s9 => DD x3 x22 | s10 => DD x3 x23 | s11 => DD x3 x24 | s12 => DD x3 x25 | s13 => DD x3 x26 | s14 => DD x3 x27 | s15 => DD x3 x28 | s16 => DD x3 x29 | s17 => DD x3 x30 | s18 => DD x3 x31 | s19 => DD x3 x32 | s20 => DD x3 x33 | s21 => DD x3 x34 | s22 => DD x3 x35 | s23 => DD x3 x36 | s24 => DD x3 x37 | s25 => DD x3 x38 | s26 => DD x3 x39 | s27 => DD x3 x40 | s28 => DD x3 x41 | s29 => DD x3 x42 | s30 => DD x3 x43 | s31 => DD x3 x44 | s32 => DD x3 x45 | s33 => DD x3 x46 | s34 => DD x3 x47 | s35 => DD x3 x48 | s36 => DD x3 x49 | s37 => DD x3 x50 | s38 => DD x3 x51 | s39 => DD x3 x52 | s40 => DD x3 x53 | s41 => DD x3 x54 | s42 => DD x3 x55 | s43 => DD x3 x56 | s44 => DD x3 x57 | s45 => DD x3 x58 | s46 => DD x3 x59 | s47 => DD x3 x60 | s48 => DD x3 x61 | s49 => DD x3 x62 | s50 => DD x3 x63 | s51 => DD x4 x0 | s52 => DD x4 x1 | s53 => DD x4 x2 | s54 => DD x4 x3 | s55 => DD x4 x4 | s56 => DD x4 x5 | s57 => DD x4 x6 | s58 => DD x4 x7 | s59 => DD x4 x8 | s60 => DD x4 x9 | s61 => DD x4 x10 | s62 => DD x4 x11 | s63 => DD x4 x12 | s64 => DD x4 x13 | s65 => DD x4 x14 | s66 => DD x4 x15 | s67 => DD x4 x16 | s68 => DD x4 x17 | s69 => DD x4 x18 | s70 => DD x4 x19 | s71 => DD x4 x20 | s72 => DD x4 x21 | s73 => DD x4 x22 | s74 => DD x4 x23 | s75 => DD x4 x24 | s76 => DD x4 x25 | s77 => DD x4 x26 | s78 => DD x4 x27 | s79 => DD x4 x28 | s80 => DD x4 x29 | s81 => DD x4 x30 | s82 => DD x4 x31 | s83 => DD x4 x32 | s84 => DD x4 x33 | s85 => DD x4 x34 | s86 => DD x4 x35 | s87 => DD x4 x36 | s88 => DD x4 x37 | s89 => DD x4 x38 | s90 => DD x4 x39 | s91 => DD x4 x40 | s92 => DD x4 x41 | s93 => DD x4 x42 | s94 => DD x4 x43 | s95 => DD x4 x44 | s96 => DD x4 x45 | s97 => DD x4 x46 | s98 => DD x4 x47 | s99 => DD x4 x48 | s100 => DD x4 x49 | s101 => DD x4 x50 | s102 => DD x4 x51 | s103 => DD x4 x52 | s104 => DD x4 x53 | s105 => DD x4 x54 | s106 => DD x4 x55 | s107 => DD x4 x56 | s108 => DD x4 x57 | s109 => DD x4 x58 | s110 => DD x4 x59 | s111 => DD x4 x60 | s112 => DD x4 x61 | s113 => DD x4 x62 | s114 => DD x4 x63 | s115 => DD x5 x0 | s116 => DD x5 x1 | s117 => DD x5 x2 | s118 => DD x5 x3 | s119 => DD x5 x4 | s120 => DD x5 x5 | s121 => DD x5 x6 | s122 => DD x5 x7 | s123 => DD x5 x8 | s124 => DD x5 x9 | s125 => DD x5 x10 | s126 => DD x5 x11 end.
Definition m207 (c : sum2) : dd := match c with s0 => DD x3 x15 | s1 => DD x3 x16 | s2 => DD x3 x17 | s3 => DD x3 x18 | s4 => DD x3 x19 | s5 => DD x3 x20 | s6 => DD x3 x21 | s7 => DD x3 x22 | s8 => DD x3 x23 | s9 => DD x3 x24 | s10 => DD x3 x25 | s11 => DD x3 x26 | s12 => DD x3 x27 | s13 => DD x3 x28 | s14 => DD x3 x29 | s15 => DD x3 x30 | s16 => DD x3 x31 | s17 => DD x3 x32 | s18 => DD x3 x33 | s19 => DD x3 x34 | s20 => DD x3 x35 | s21 => DD x3 x36 | s22 => DD x3 x37 | s23 => DD x3 x38 | s24 => DD x3 x39 | s25 => DD x3 x40 | s26 => DD x3 x41 | s27 => DD x3 x42 | s28 => DD x3 x43 | s29 => DD x3 x44 | s30 => DD x3 x45 | s31 => DD x3 x46 | s32 => DD x3 x47 | s33 => DD x3 x48 | s34 => DD x3 x49 | s35 => DD x3 x50 | s36 => DD x3 x51 | s37 => DD x3 x52 | s38 => DD x3 x53 | s39 => DD x3 x54 | s40 => DD x3 x55 | s41 => DD x3 x56 | s42 => DD x3 x57 | s43 => DD x3 x58 | s44 => DD x3 x59 | s45 => DD x3 x60 | s46 => DD x3 x61 | s47 => DD x3 x62 | s48 => DD x3 x63 | s49 => DD x4 x0 | s50 => DD x4 x1 | s51 => DD x4 x2 | s52 => DD x4 x3 | s53 => DD x4 x4 | s54 => DD x4 x5 | s55 => DD x4 x6 | s56 => DD x4 x7 | s57 => DD x4 x8 | s58 => DD x4 x9 | s59 => DD x4 x10 | s60 => DD x4 x11 | s61 => DD x4 x12 | s62 => DD x4 x13 | s63 => DD x4 x14 | s64 => DD x4 x15 | s65 => DD x4 x16 | s66 => DD x4 x17 | s67 => DD x4 x18 | s68 => DD x4 x19 | s69 => DD x4 x20 | s70 => DD x4 x21 | s71 => DD x4 x22 | s72 => DD x4 x23 | s73 => DD x4 x24 | s74 => DD x4 x25 | s75 => DD x4 x26 | s76 => DD x4 x27 | s77 => DD x4 x28 | s78 => DD x4 x29 | s79 => DD x4 x30 | s80 => DD x4 x31 | s81 => DD x4 x32 | s82 => DD x4 x33 | s83 => DD x4 x34 | s84 => DD x4 x35 | s85 => DD x4 x36 | s86 => DD x4 x37 | s87 => DD x4 x38 | s88 => DD x4 x39 | s89 => DD x4 x40 | s90 => DD x4 x41 | s91 => DD x4 x42 | s92 => DD x4 x43 | s93 => DD x4 x44 | s94 => DD x4 x45 | s95 => DD x4 x46 | s96 => DD x4 x47 | s97 => DD x4 x48 | s98 => DD x4 x49 | s99 => DD x4 x50 | s100 => DD x4 x51 | s101 => DD x4 x52 | s102 => DD x4 x53 | s103 => DD x4 x54 | s104 => DD x4 x55 | s105 => DD x4 x56 | s106 => DD x4 x57 | s107 => DD x4 x58 | s108 => DD x4 x59 | s109 => DD x4 x60 | s110 => DD x4 x61 | s111 => DD x4 x62 | s112 => DD x4 x63 | s113 => DD x5 x0 | s114 => DD x5 x1 | s115 => DD x5 x2 | s116 => DD x5 x3 | s117 => DD x5 x4 | s118 => DD x5 x5 | s119 => DD x5 x6 | s120 => DD x5 x7 | s121 => DD x5 x8 | s122 => DD x5 x9 | s123 => DD x5 x10 | s124 => DD x5 x11 | s125 => DD x5 x12 | s126 => DD x5 x13 end.
Definition m208 (c : sum2) : dd := match c with s0 => DD x3 x16 | s1 => DD x3 x17 | s2 => DD x3 x18 | s3 => DD x3 x19 | s4 => DD x3 x20 | s5 => DD x3 x21 | s6 => DD x3 x22 | s7 => DD x3 x23 | s8 => DD x3 x24 | s9 => DD x3 x25 | s10 => DD x3 x26 | s11 => DD x3 x27 | s12 => DD x3 x28 | s13 => DD x3 x29 | s14 => DD x3 x30 | s15 => DD x3 x31 | s16 => DD x3 x32 | s17 => DD x3 x33 | s18 => DD x3 x34 | s19 => DD x3 x35 | s20 => DD x3 x36 | s21 => DD x3 x37 | s22 => DD x3 x38 | s23 => DD x3 x39 | s24 => DD x3 x40 | s25 => DD x3 x41 | s26 => DD x3 x42 | s27 => DD x3 x43 | s28 => DD x3 x44 | s29 => DD x3 x45 | s30 => DD x3 x46 | s31 => DD x3 x47 | s32 => DD x3 x48 | s33 => DD x3 x49 | s34 => DD x3 x50 | s35 => DD x3 x51 | s36 => DD x3 x52 | s37 => DD x3 x53 | s38 => DD x3 x54 | s39 => DD x3 x55 | s40 => DD x3 x56 | s41 => DD x3 x57 | s42 => DD x3 x58 | s43 => DD x3 x59 | s44 => DD x3 x60 | s45 => DD x3 x61 | s46 => DD x3 x62 | s47 => DD x3 x63 | s48 => DD x4 x0 | s49 => DD x4 x1 | s50 => DD x4 x2 | s51 => DD x4 x3 | s52 => DD x4 x4 | s53 => DD x4 x5 | s54 => DD x4 x6 | s55 => DD x4 x7 | s56 => DD x4 x8 | s57 => DD x4 x9 | s58 => DD x4 x10 | s59 => DD x4 x11 | s60 => DD x4 x12 | s61 => DD x4 x13 | s62 => DD x4 x14 | s63 => DD x4 x15 | s64 => DD x4 x16 | s65 => DD x4 x17 | s66 => DD x4 x18 | s67 => DD x4 x19 | s68 => DD x4 x20 | s69 => DD x4 x21 | s70 => DD x4 x22 | s71 => DD x4 x23 | s72 => DD x4 x24 | s73 => DD x4 x25 | s74 => DD x4 x26 | s75 => DD x4 x27 | s76 => DD x4 x28 | s77 => DD x4 x29 | s78 => DD x4 x30 | s79 => DD x4 x31 | s80 => DD x4 x32 | s81 => DD x4 x33 | s82 => DD x4 x34 | s83 => DD x4 x35 | s84 => DD x4 x36 | s85 => DD x4 x37 | s86 => DD x4 x38 | s87 => DD x4 x39 | s88 => DD x4 x40 | s89 => DD x4 x41 | s90 => DD x4 x42 | s91 => DD x4 x43 | s92 => DD x4 x44 | s93 => DD x4 x45 | s94 => DD x4 x46 | s95 => DD x4 x47 | s96 => DD x4 x48 | s97 => DD x4 x49 | s98 => DD x4 x50 | s99 => DD x4 x51 | s100 => DD x4 x52 | s101 => DD x4 x53 | s102 => DD x4 x54 | s103 => DD x4 x55 | s104 => DD x4 x56 | s105 => DD x4 x57 | s106 => DD x4 x58 | s107 => DD x4 x59 | s108 => DD x4 x60 | s109 => DD x4 x61 | s110 => DD x4 x62 | s111 => DD x4 x63 | s112 => DD x5 x0 | s113 => DD x5 x1 | s114 => DD x5 x2 | s115 => DD x5 x3 | s116 => DD x5 x4 | s117 => DD x5 x5 | s118 => DD x5 x6 | s119 => DD x5 x7 | s120 => DD x5 x8 | s121 => DD x5 x9 | s122 => DD x5 x10 | s123 => DD x5 x11 | s124 => DD x5 x12 | s125 => DD x5 x13 | s126 => DD x5 x14 end.
Definition m209 (c : sum2) : dd := match c with s0 => DD x3 x17 | s1 => DD x3 x18 | s2 => DD x3 x19 | s3 => DD x3 x20 | s4 => DD x3 x21 | s5 => DD x3 x22 | s6 => DD x3 x23 | s7 => DD x3 x24 | s8 => DD x3 x25 | s9 => DD x3 x26 | s10 => DD x3 x27 | s11 => DD x3 x28 | s12 => DD x3 x29 | s13 => DD x3 x30 | s14 => DD x3 x31 | s15 => DD x3 x32 | s16 => DD x3 x33 | s17 => DD x3 x34 | s18 => DD x3 x35 | s19 => DD x3 x36 | s20 => DD x3 x37 | s21 => DD x3 x38 | s22 => DD x3 x39 | s23 => DD x3 x40 | s24 => DD x3 x41 | s25 => DD x3 x42 | s26 => DD x3 x43 | s27 => DD x3 x44 | s28 => DD x3 x45 | s29 => DD x3 x46 | s30 => DD x3 x47 | s31 => DD x3 x48 | s32 => DD x3 x49 | s33 => DD x3 x50 | s34 => DD x3 x51 | s35 => DD x3 x52 | s36 => DD x3 x53 | s37 => DD x3 x54 | s38 => DD x3 x55 | s39 => DD x3 x56 | s40 => DD x3 x57 | s41 => DD x3 x58 | s42 => DD x3 x59 | s43 => DD x3 x60 | s44 => DD x3 x61 | s45 => DD x3 x62 | s46 => DD x3 x63 | s47 => DD x4 x0 | s48 => DD x4 x1 | s49 => DD x4 x2 | s50 => DD x4 x3 | s51 => DD x4 x4 | s52 => DD x4 x5 | s53 => DD x4 x6 | s54 => DD x4 x7 | s55 => DD x4 x8 | s56 => DD x4 x9 | s57 => DD x4 x10 | s58 => DD x4 x11 | s59 => DD x4 x12 | s60 => DD x4 x13 | s61 => DD x4 x14 | s62 => DD x4 x15 | s63 => DD x4 x16 | s64 => DD x4 x17 | s65 => DD x4 x18 | s66 => DD x4 x19 | s67 => DD x4 x20 | s68 => DD x4 x21 | s69 => DD x4 x22 | s70 => DD x4 x23 | s71 => DD x4 x24 | s72 => DD x4 x25 | s73 => DD x4 x26 | s74 => DD x4 x27 | s75 => DD x4 x28 | s76 => DD x4 x29 | s77 => DD x4 x30 | s78 => DD x4 x31 | s79 => DD x4 x32 | s80 => DD x4 x33 | s81 => DD x4 x34 | s82 => DD x4 x35 | s83 => DD x4 x36 | s84 => DD x4 x37 | s85 => DD x4 x38 | s86 => DD x4 x39 | s87 => DD x4 x40 | s88 => DD x4 x41 | s89 => DD x4 x42 | s90 => DD x4 x43 | s91 => DD x4 x44 | s92 => DD x4 x45 | s93 => DD x4 x46 | s94 => DD x4 x47 | s95 => DD x4 x48 | s96 => DD x4 x49 | s97 => DD x4 x50 | s98 => DD x4 x51 | s99 => DD x4 x52 | s100 => DD x4 x53 | s101 => DD x4 x54 | s102 => DD x4 x55 | s103 => DD x4 x56 | s104 => DD x4 x57 | s105 => DD x4 x58 | s106 => DD x4 x59 | s107 => DD x4 x60 | s108 => DD x4 x61 | s109 => DD x4 x62 | s110 => DD x4 x63 | s111 => DD x5 x0 | s112 => DD x5 x1 | s113 => DD x5 x2 | s114 => DD x5 x3 | s115 => DD x5 x4 | s116 => DD x5 x5 | s117 => DD x5 x6 | s118 => DD x5 x7 | s119 => DD x5 x8 | s120 => DD x5 x9 | s121 => DD x5 x10 | s122 => DD x5 x11 | s123 => DD x5 x12 | s124 => DD x5 x13 | s125 => DD x5 x14 | s126 => DD x5 x15 end.
Definition m210 (c : sum2) : dd := match c with s0 => DD x3 x18 | s1 => DD x3 x19 | s2 => DD x3 x20 | s3 => DD x3 x21 | s4 => DD x3 x22 | s5 => DD x3 x23 | s6 => DD x3 x24 | s7 => DD x3 x25 | s8 => DD x3 x26 | s9 => DD x3 x27 | s10 => DD x3 x28 | s11 => DD x3 x29 | s12 => DD x3 x30 | s13 => DD x3 x31 | s14 => DD x3 x32 | s15 => DD x3 x33 | s16 => DD x3 x34 | s17 => DD x3 x35 | s18 => DD x3 x36 | s19 => DD x3 x37 | s20 => DD x3 x38 | s21 => DD x3 x39 | s22 => DD x3 x40 | s23 => DD x3 x41 | s24 => DD x3 x42 | s25 => DD x3 x43 | s26 => DD x3 x44 | s27 => DD x3 x45 | s28 => DD x3 x46 | s29 => DD x3 x47 | s30 => DD x3 x48 | s31 => DD x3 x49 | s32 => DD x3 x50 | s33 => DD x3 x51 | s34 => DD x3 x52 | s35 => DD x3 x53 | s36 => DD x3 x54 | s37 => DD x3 x55 | s38 => DD x3 x56 | s39 => DD x3 x57 | s40 => DD x3 x58 | s41 => DD x3 x59 | s42 => DD x3 x60 | s43 => DD x3 x61 | s44 => DD x3 x62 | s45 => DD x3 x63 | s46 => DD x4 x0 | s47 => DD x4 x1 | s48 => DD x4 x2 | s49 => DD x4 x3 | s50 => DD x4 x4 | s51 => DD x4 x5 | s52 => DD x4 x6 | s53 => DD x4 x7 | s54 => DD x4 x8 | s55 => DD x4 x9 | s56 => DD x4 x10 | s57 => DD x4 x11 | s58 => DD x4 x12 | s59 => DD x4 x13 | s60 => DD x4 x14 | s61 => DD x4 x15 | s62 => DD x4 x16 | s63 => DD x4 x17 | s64 => DD x4 x18 | s65 => DD x4 x19 | s66 => DD x4 x20 | s67 => DD x4 x21 | s68 => DD x4 x22 | s69 => DD x4 x23 | s70 => DD x4 x24 | s71 => DD x4 x25 | s72 => DD x4 x26 | s73 => DD x4 x27 | s74 => DD x4 x28 | s75 => DD x4 x29 | s76 => DD x4 x30 | s77 => DD x4 x31 | s78 => DD x4 x32 | s79 => DD x4 x33 | s80 => DD x4 x34 | s81 => DD x4 x35 | s82 => DD x4 x36 | s83 => DD x4 x37 | s84 => DD x4 x38 | s85 => DD x4 x39 | s86 => DD x4 x40 | s87 => DD x4 x41 | s88 => DD x4 x42 | s89 => DD x4 x43 | s90 => DD x4 x44 | s91 => DD x4 x45 | s92 => DD x4 x46 | s93 => DD x4 x47 | s94 => DD x4 x48 | s95 => DD x4 x49 | s96 => DD x4 x50 | s97 => DD x4 x51 | s98 => DD x4 x52 | s99 => DD x4 x53 | s100 => DD x4 x54 | s101 => DD x4 x55 | s102 => DD x4 x56 | s103 => DD x4 x57 | s104 => DD x4 x58 | s105 => DD x4 x59 | s106 => DD x4 x60 | s107 => DD x4 x61 | s108 => DD x4 x62 | s109 => DD x4 x63 | s110 => DD x5 x0 | s111 => DD x5 x1 | s112 => DD x5 x2 | s113 => DD x5 x3 | s114 => DD x5 x4 | s115 => DD x5 x5 | s116 => DD x5 x6 | s117 => DD x5 x7 | s118 => DD x5 x8 | s119 => DD x5 x9 | s120 => DD x5 x10 | s121 => DD x5 x11 | s122 => DD x5 x12 | s123 => DD x5 x13 | s124 => DD x5 x14 | s125 => DD x5 x15 | s126 => DD x5 x16 end.
Definition m212 (c : sum2) : dd := match c with s0 => DD x3 x20 | s1 => DD x3 x21 | s2 => DD x3 x22 | s3 => DD x3 x23 | s4 => DD x3 x24 | s5 => DD x3 x25 | s6 => DD x3 x26 | s7 => DD x3 x27 | s8 => DD x3 x28 | s9 => DD x3 x29 | s10 => DD x3 x30 | s11 => DD x3 x31 | s12 => DD x3 x32 | s13 => DD x3 x33 | s14 => DD x3 x34 | s15 => DD x3 x35 | s16 => DD x3 x36 | s17 => DD x3 x37 | s18 => DD x3 x38 | s19 => DD x3 x39 | s20 => DD x3 x40 | s21 => DD x3 x41 | s22 => DD x3 x42 | s23 => DD x3 x43 | s24 => DD x3 x44 | s25 => DD x3 x45 | s26 => DD x3 x46 | s27 => DD x3 x47 | s28 => DD x3 x48 | s29 => DD x3 x49 | s30 => DD x3 x50 | s31 => DD x3 x51 | s32 => DD x3 x52 | s33 => DD x3 x53 | s34 => DD x3 x54 | s35 => DD x3 x55 | s36 => DD x3 x56 | s37 => DD x3 x57 | s38 => DD x3 x58 | s39 => DD x3 x59 | s40 => DD x3 x60 | s41 => DD x3 x61 | s42 => DD x3 x62 | s43 => DD x3 x63 | s44 => DD x4 x0 | s45 => DD x4 x1 | s46 => DD x4 x2 | s47 => DD x4 x3 | s48 => DD x4 x4 | s49 => DD x4 x5 | s50 => DD x4 x6 | s51 => DD x4 x7 | s52 => DD x4 x8 | s53 => DD x4 x9 | s54 => DD x4 x10 | s55 => DD x4 x11 | s56 => DD x4 x12 | s57 => DD x4 x13 | s58 => DD x4 x14 | s59 => DD x4 x15 | s60 => DD x4 x16 | s61 => DD x4 x17 | s62 => DD x4 x18 | s63 => DD x4 x19 | s64 => DD x4 x20 | s65 => DD x4 x21 | s66 => DD x4 x22 | s67 => DD x4 x23 | s68 => DD x4 x24 | s69 => DD x4 x25 | s70 => DD x4 x26 | s71 => DD x4 x27 | s72 => DD x4 x28 | s73 => DD x4 x29 | s74 => DD x4 x30 | s75 => DD x4 x31 | s76 => DD x4 x32 | s77 => DD x4 x33 | s78 => DD x4 x34 | s79 => DD x4 x35 | s80 => DD x4 x36 | s81 => DD x4 x37 | s82 => DD x4 x38 | s83 => DD x4 x39 | s84 => DD x4 x40 | s85 => DD x4 x41 | s86 => DD x4 x42 | s87 => DD x4 x43 | s88 => DD x4 x44 | s89 => DD x4 x45 | s90 => DD x4 x46 | s91 => DD x4 x47 | s92 => DD x4 x48 | s93 => DD x4 x49 | s94 => DD x4 x50 | s95 => DD x4 x51 | s96 => DD x4 x52 | s97 => DD x4 x53 | s98 => DD x4 x54 | s99 => DD x4 x55 | s100 => DD x4 x56 | s101 => DD x4 x57 | s102 => DD x4 x58 | s103 => DD x4 x59 | s104 => DD x4 x60 | s105 => DD x4 x61 | s106 => DD x4 x62 | s107 => DD x4 x63 | s108 => DD x5 x0 | s109 => DD x5 x1 | s110 => DD x5 x2 | s111 => DD x5 x3 | s112 => DD x5 x4 | s113 => DD x5 x5 | s114 => DD x5 x6 | s115 => DD x5 x7 | s116 => DD x5 x8 | s117 => DD x5 x9 | s118 => DD x5 x10 | s119 => DD x5 x11 | s120 => DD x5 x12 | s121 => DD x5 x13 | s122 => DD x5 x14 | s123 => DD x5 x15 | s124 => DD x5 x16 | s125 => DD x5 x17 | s126 => DD x5 x18 end.
Definition m215 (c : sum2) : dd := match c with s0 => DD x3 x23 | s1 => DD x3 x24 | s2 => DD x3 x25 | s3 => DD x3 x26 | s4 => DD x3 x27 | s5 => DD x3 x28 | s6 => DD x3 x29 | s7 => DD x3 x30 | s8 => DD x3 x31 | s9 => DD x3 x32 | s10 => DD x3 x33 | s11 => DD x3 x34 | s12 => DD x3 x35 | s13 => DD x3 x36 | s14 => DD x3 x37 | s15 => DD x3 x38 | s16 => DD x3 x39 | s17 => DD x3 x40 | s18 => DD x3 x41 | s19 => DD x3 x42 | s20 => DD x3 x43 | s21 => DD x3 x44 | s22 => DD x3 x45 | s23 => DD x3 x46 | s24 => DD x3 x47 | s25 => DD x3 x48 | s26 => DD x3 x49 | s27 => DD x3 x50 | s28 => DD x3 x51 | s29 => DD x3 x52 | s30 => DD x3 x53 | s31 => DD x3 x54 | s32 => DD x3 x55 | s33 => DD x3 x56 | s34 => DD x3 x57 | s35 => DD x3 x58 | s36 => DD x3 x59 | s37 => DD x3 x60 | s38 => DD x3 x61 | s39 => DD x3 x62 | s40 => DD x3 x63 | s41 => DD x4 x0 | s42 => DD x4 x1 | s43 => DD x4 x2 | s44 => DD x4 x3 | s45 => DD x4 x4 | s46 => DD x4 x5 | s47 => DD x4 x6 | s48 => DD x4 x7 | s49 => DD x4 x8 | s50 => DD x4 x9 | s51 => DD x4 x10 | s52 => DD x4 x11 | s53 => DD x4 x12 | s54 => DD x4 x13 | s55 => DD x4 x14 | s56 => DD x4 x15 | s57 => DD x4 x16 | s58 => DD x4 x17 | s59 => DD x4 x18 | s60 => DD x4 x19 | s61 => DD x4 x20 | s62 => DD x4 x21 | s63 => DD x4 x22 | s64 => DD x4 x23 | s65 => DD x4 x24 | s66 => DD x4 x25 | s67 => DD x4 x26 | s68 => DD x4 x27 | s69 => DD x4 x28 | s70 => DD x4 x29 | s71 => DD x4 x30 | s72 => DD x4 x31 | s73 => DD x4 x32 | s74 => DD x4 x33 | s75 => DD x4 x34 | s76 => DD x4 x35 | s77 => DD x4 x36 | s78 => DD x4 x37 | s79 => DD x4 x38 | s80 => DD x4 x39 | s81 => DD x4 x40 | s82 => DD x4 x41 | s83 => DD x4 x42 | s84 => DD x4 x43 | s85 => DD x4 x44 | s86 => DD x4 x45 | s87 => DD x4 x46 | s88 => DD x4 x47 | s89 => DD x4 x48 | s90 => DD x4 x49 | s91 => DD x4 x50 | s92 => DD x4 x51 | s93 => DD x4 x52 | s94 => DD x4 x53 | s95 => DD x4 x54 | s96 => DD x4 x55 | s97 => DD x4 x56 | s98 => DD x4 x57 | s99 => DD x4 x58 | s100 => DD x4 x59 | s101 => DD x4 x60 | s102 => DD x4 x61 | s103 => DD x4 x62 | s104 => DD x4 x63 | s105 => DD x5 x0 | s106 => DD x5 x1 | s107 => DD x5 x2 | s108 => DD x5 x3 | s109 => DD x5 x4 | s110 => DD x5 x5 | s111 => DD x5 x6 | s112 => DD x5 x7 | s113 => DD x5 x8 | s114 => DD x5 x9 | s115 => DD x5 x10 | s116 => DD x5 x11 | s117 => DD x5 x12 | s118 => DD x5 x13 | s119 => DD x5 x14 | s120 => DD x5 x15 | s121 => DD x5 x16 | s122 => DD x5 x17 | s123 => DD x5 x18 | s124 => DD x5 x19 | s125 => DD x5 x20 | s126 => DD x5 x21 end.
Definition m216 (c : sum2) : dd := match c with s0 => DD x3 x24 | s1 => DD x3 x25 | s2 => DD x3 x26 | s3 => DD x3 x27 | s4 => DD x3 x28 | s5 => DD x3 x29 | s6 => DD x3 x30 | s7 => DD x3 x31 | s8 => DD x3 x32 | s9 => DD x3 x33 | s10 => DD x3 x34 | s11 => DD x3 x35 | s12 => DD x3 x36 | s13 => DD x3 x37 | s14 => DD x3 x38 | s15 => DD x3 x39 | s16 => DD x3 x40 | s17 => DD x3 x41 | s18 => DD x3 x42 | s19 => DD x3 x43 | s20 => DD x3 x44 | s21 => DD x3 x45 | s22 => DD x3 x46 | s23 => DD x3 x47 | s24 => DD x3 x48 | s25 => DD x3 x49 | s26 => DD x3 x50 | s27 => DD x3 x51 | s28 => DD x3 x52 | s29 => DD x3 x53 | s30 => DD x3 x54 | s31 => DD x3 x55 | s32 => DD x3 x56 | s33 => DD x3 x57 | s34 => DD x3 x58 | s35 => DD x3 x59 | s36 => DD x3 x60 | s37 => DD x3 x61 | s38 => DD x3 x62 | s39 => DD x3 x63 | s40 => DD x4 x0 | s41 => DD x4 x1 | s42 => DD x4 x2 | s43 => DD x4 x3 | s44 => DD x4 x4 | s45 => DD x4 x5 | s46 => DD x4 x6 | s47 => DD x4 x7 | s48 => DD x4 x8 | s49 => DD x4 x9 | s50 => DD x4 x10 | s51 => DD x4 x11 | s52 => DD x4 x12 | s53 => DD x4 x13 | s54 => DD x4 x14 | s55 => DD x4 x15 | s56 => DD x4 x16 | s57 => DD x4 x17 | s58 => DD x4 x18 | s59 => DD x4 x19 | s60 => DD x4 x20 | s61 => DD x4 x21 | s62 => DD x4 x22 | s63 => DD x4 x23 | s64 => DD x4 x24 | s65 => DD x4 x25 | s66 => DD x4 x26 | s67 => DD x4 x27 | s68 => DD x4 x28 | s69 => DD x4 x29 | s70 => DD x4 x30 | s71 => DD x4 x31 | s72 => DD x4 x32 | s73 => DD x4 x33 | s74 => DD x4 x34 | s75 => DD x4 x35 | s76 => DD x4 x36 | s77 => DD x4 x37 | s78 => DD x4 x38 | s79 => DD x4 x39 | s80 => DD x4 x40 | s81 => DD x4 x41 | s82 => DD x4 x42 | s83 => DD x4 x43 | s84 => DD x4 x44 | s85 => DD x4 x45 | s86 => DD x4 x46 | s87 => DD x4 x47 | s88 => DD x4 x48 | s89 => DD x4 x49 | s90 => DD x4 x50 | s91 => DD x4 x51 | s92 => DD x4 x52 | s93 => DD x4 x53 | s94 => DD x4 x54 | s95 => DD x4 x55 | s96 => DD x4 x56 | s97 => DD x4 x57 | s98 => DD x4 x58 | s99 => DD x4 x59 | s100 => DD x4 x60 | s101 => DD x4 x61 | s102 => DD x4 x62 | s103 => DD x4 x63 | s104 => DD x5 x0 | s105 => DD x5 x1 | s106 => DD x5 x2 | s107 => DD x5 x3 | s108 => DD x5 x4 | s109 => DD x5 x5 | s110 => DD x5 x6 | s111 => DD x5 x7 | s112 => DD x5 x8 | s113 => DD x5 x9 | s114 => DD x5 x10 | s115 => DD x5 x11 | s116 => DD x5 x12 | s117 => DD x5 x13 | s118 => DD x5 x14 | s119 => DD x5 x15 | s120 => DD x5 x16 | s121 => DD x5 x17 | s122 => DD x5 x18 | s123 => DD x5 x19 | s124 => DD x5 x20 | s125 => DD x5 x21 | s126 => DD x5 x22 end.
Definition m217 (c : sum2) : dd := match c with s0 => DD x3 x25 | s1 => DD x3 x26 | s2 => DD x3 x27 | s3 => DD x3 x28 | s4 => DD x3 x29 | s5 => DD x3 x30 | s6 => DD x3 x31 | s7 => DD x3 x32 | s8 => DD x3 x33 | s9 => DD x3 x34 | s10 => DD x3 x35 | s11 => DD x3 x36 | s12 => DD x3 x37 | s13 => DD x3 x38 | s14 => DD x3 x39 | s15 => DD x3 x40 | s16 => DD x3 x41 | s17 => DD x3 x42 | s18 => DD x3 x43 | s19 => DD x3 x44 | s20 => DD x3 x45 | s21 => DD x3 x46 | s22 => DD x3 x47 | s23 => DD x3 x48 | s24 => DD x3 x49 | s25 => DD x3 x50 | s26 => DD x3 x51 | s27 => DD x3 x52 | s28 => DD x3 x53 | s29 => DD x3 x54 | s30 => DD x3 x55 | s31 => DD x3 x56 | s32 => DD x3 x57 | s33 => DD x3 x58 | s34 => DD x3 x59 | s35 => DD x3 x60 | s36 => DD x3 x61 | s37 => DD x3 x62 | s38 => DD x3 x63 | s39 => DD x4 x0 | s40 => DD x4 x1 | s41 => DD x4 x2 | s42 => DD x4 x3 | s43 => DD x4 x4 | s44 => DD x4 x5 | s45 => DD x4 x6 | s46 => DD x4 x7 | s47 => DD x4 x8 | s48 => DD x4 x9 | s49 => DD x4 x10 | s50 => DD x4 x11 | s51 => DD x4 x12 | s52 => DD x4 x13 | s53 => DD x4 x14 | s54 => DD x4 x15 | s55 => DD x4 x16 | s56 => DD x4 x17 | s57 => DD x4 x18 | s58 => DD x4 x19 | s59 => DD x4 x20 | s60 => DD x4 x21 | s61 => DD x4 x22 | s62 => DD x4 x23 | s63 => DD x4 x24 | s64 => DD x4 x25 | s65 => DD x4 x26 | s66 => DD x4 x27 | s67 => DD x4 x28 | s68 => DD x4 x29 | s69 => DD x4 x30 | s70 => DD x4 x31 | s71 => DD x4 x32 | s72 => DD x4 x33 | s73 => DD x4 x34 | s74 => DD x4 x35 | s75 => DD x4 x36 | s76 => DD x4 x37 | s77 => DD x4 x38 | s78 => DD x4 x39 | s79 => DD x4 x40 | s80 => DD x4 x41 | s81 => DD x4 x42 | s82 => DD x4 x43 | s83 => DD x4 x44 | s84 => DD x4 x45 | s85 => DD x4 x46 | s86 => DD x4 x47 | s87 => DD x4 x48 | s88 => DD x4 x49 | s89 => DD x4 x50 | s90 => DD x4 x51 | s91 => DD x4 x52 | s92 => DD x4 x53 | s93 => DD x4 x54 | s94 => DD x4 x55 | s95 => DD x4 x56 | s96 => DD x4 x57 | s97 => DD x4 x58 | s98 => DD x4 x59 | s99 => DD x4 x60 | s100 => DD x4 x61 | s101 => DD x4 x62 | s102 => DD x4 x63 | s103 => DD x5 x0 | s104 => DD x5 x1 | s105 => DD x5 x2 | s106 => DD x5 x3 | s107 => DD x5 x4 | s108 => DD x5 x5 | s109 => DD x5 x6 | s110 => DD x5 x7 | s111 => DD x5 x8 | s112 => DD x5 x9 | s113 => DD x5 x10 | s114 => DD x5 x11 | s115 => DD x5 x12 | s116 => DD x5 x13 | s117 => DD x5 x14 | s118 => DD x5 x15 | s119 => DD x5 x16 | s120 => DD x5 x17 | s121 => DD x5 x18 | s122 => DD x5 x19 | s123 => DD x5 x20 | s124 => DD x5 x21 | s125 => DD x5 x22 | s126 => DD x5 x23 end.
Definition m220 (c : sum2) : dd := match c with s0 => DD x3 x28 | s1 => DD x3 x29 | s2 => DD x3 x30 | s3 => DD x3 x31 | s4 => DD x3 x32 | s5 => DD x3 x33 | s6 => DD x3 x34 | s7 => DD x3 x35 | s8 => DD x3 x36 | s9 => DD x3 x37 | s10 => DD x3 x38 | s11 => DD x3 x39 | s12 => DD x3 x40 | s13 => DD x3 x41 | s14 => DD x3 x42 | s15 => DD x3 x43 | s16 => DD x3 x44 | s17 => DD x3 x45 | s18 => DD x3 x46 | s19 => DD x3 x47 | s20 => DD x3 x48 | s21 => DD x3 x49 | s22 => DD x3 x50 | s23 => DD x3 x51 | s24 => DD x3 x52 | s25 => DD x3 x53 | s26 => DD x3 x54 | s27 => DD x3 x55 | s28 => DD x3 x56 | s29 => DD x3 x57 | s30 => DD x3 x58 | s31 => DD x3 x59 | s32 => DD x3 x60 | s33 => DD x3 x61 | s34 => DD x3 x62 | s35 => DD x3 x63 | s36 => DD x4 x0 | s37 => DD x4 x1 | s38 => DD x4 x2 | s39 => DD x4 x3 | s40 => DD x4 x4 | s41 => DD x4 x5 | s42 => DD x4 x6 | s43 => DD x4 x7 | s44 => DD x4 x8 | s45 => DD x4 x9 | s46 => DD x4 x10 | s47 => DD x4 x11 | s48 => DD x4 x12 | s49 => DD x4 x13 | s50 => DD x4 x14 | s51 => DD x4 x15 | s52 => DD x4 x16 | s53 => DD x4 x17 | s54 => DD x4 x18 | s55 => DD x4 x19 | s56 => DD x4 x20 | s57 => DD x4 x21 | s58 => DD x4 x22 | s59 => DD x4 x23 | s60 => DD x4 x24 | s61 => DD x4 x25 | s62 => DD x4 x26 | s63 => DD x4 x27 | s64 => DD x4 x28 | s65 => DD x4 x29 | s66 => DD x4 x30 | s67 => DD x4 x31 | s68 => DD x4 x32 | s69 => DD x4 x33 | s70 => DD x4 x34 | s71 => DD x4 x35 | s72 => DD x4 x36 | s73 => DD x4 x37 | s74 => DD x4 x38 | s75 => DD x4 x39 | s76 => DD x4 x40 | s77 => DD x4 x41 | s78 => DD x4 x42 | s79 => DD x4 x43 | s80 => DD x4 x44 | s81 => DD x4 x45 | s82 => DD x4 x46 | s83 => DD x4 x47 | s84 => DD x4 x48 | s85 => DD x4 x49 | s86 => DD x4 x50 | s87 => DD x4 x51 | s88 => DD x4 x52 | s89 => DD x4 x53 | s90 => DD x4 x54 | s91 => DD x4 x55 | s92 => DD x4 x56 | s93 => DD x4 x57 | s94 => DD x4 x58 | s95 => DD x4 x59 | s96 => DD x4 x60 | s97 => DD x4 x61 | s98 => DD x4 x62 | s99 => DD x4 x63 | s100 => DD x5 x0 | s101 => DD x5 x1 | s102 => DD x5 x2 | s103 => DD x5 x3 | s104 => DD x5 x4 | s105 => DD x5 x5 | s106 => DD x5 x6 | s107 => DD x5 x7 | s108 => DD x5 x8 | s109 => DD x5 x9 | s110 => DD x5 x10 | s111 => DD x5 x11 | s112 => DD x5 x12 | s113 => DD x5 x13 | s114 => DD x5 x14 | s115 => DD x5 x15 | s116 => DD x5 x16 | s117 => DD x5 x17 | s118 => DD x5 x18 | s119 => DD x5 x19 | s120 => DD x5 x20 | s121 => DD x5 x21 | s122 => DD x5 x22 | s123 => DD x5 x23 | s124 => DD x5 x24 | s125 => DD x5 x25 | s126 => DD x5 x26 end.
Definition m221 (c : sum2) : dd := match c with s0 => DD x3 x29 | s1 => DD x3 x30 | s2 => DD x3 x31 | s3 => DD x3 x32 | s4 => DD x3 x33 | s5 => DD x3 x34 | s6 => DD x3 x35 | s7 => DD x3 x36 | s8 => DD x3 x37 | s9 => DD x3 x38 | s10 => DD x3 x39 | s11 => DD x3 x40 | s12 => DD x3 x41 | s13 => DD x3 x42 | s14 => DD x3 x43 | s15 => DD x3 x44 | s16 => DD x3 x45 | s17 => DD x3 x46 | s18 => DD x3 x47 | s19 => DD x3 x48 | s20 => DD x3 x49 | s21 => DD x3 x50 | s22 => DD x3 x51 | s23 => DD x3 x52 | s24 => DD x3 x53 | s25 => DD x3 x54 | s26 => DD x3 x55 | s27 => DD x3 x56 | s28 => DD x3 x57 | s29 => DD x3 x58 | s30 => DD x3 x59 | s31 => DD x3 x60 | s32 => DD x3 x61 | s33 => DD x3 x62 | s34 => DD x3 x63 | s35 => DD x4 x0 | s36 => DD x4 x1 | s37 => DD x4 x2 | s38 => DD x4 x3 | s39 => DD x4 x4 | s40 => DD x4 x5 | s41 => DD x4 x6 | s42 => DD x4 x7 | s43 => DD x4 x8 | s44 => DD x4 x9 | s45 => DD x4 x10 | s46 => DD x4 x11 | s47 => DD x4 x12 | s48 => DD x4 x13 | s49 => DD x4 x14 | s50 => DD x4 x15 | s51 => DD x4 x16 | s52 => DD x4 x17 | s53 => DD x4 x18 | s54 => DD x4 x19 | s55 => DD x4 x20 | s56 => DD x4 x21 | s57 => DD x4 x22 | s58 => DD x4 x23 | s59 => DD x4 x24 | s60 => DD x4 x25 | s61 => DD x4 x26 | s62 => DD x4 x27 | s63 => DD x4 x28 | s64 => DD x4 x29 | s65 => DD x4 x30 | s66 => DD x4 x31 | s67 => DD x4 x32 | s68 => DD x4 x33 | s69 => DD x4 x34 | s70 => DD x4 x35 | s71 => DD x4 x36 | s72 => DD x4 x37 | s73 => DD x4 x38 | s74 => DD x4 x39 | s75 => DD x4 x40 | s76 => DD x4 x41 | s77 => DD x4 x42 | s78 => DD x4 x43 | s79 => DD x4 x44 | s80 => DD x4 x45 | s81 => DD x4 x46 | s82 => DD x4 x47 | s83 => DD x4 x48 | s84 => DD x4 x49 | s85 => DD x4 x50 | s86 => DD x4 x51 | s87 => DD x4 x52 | s88 => DD x4 x53 | s89 => DD x4 x54 | s90 => DD x4 x55 | s91 => DD x4 x56 | s92 => DD x4 x57 | s93 => DD x4 x58 | s94 => DD x4 x59 | s95 => DD x4 x60 | s96 => DD x4 x61 | s97 => DD x4 x62 | s98 => DD x4 x63 | s99 => DD x5 x0 | s100 => DD x5 x1 | s101 => DD x5 x2 | s102 => DD x5 x3 | s103 => DD x5 x4 | s104 => DD x5 x5 | s105 => DD x5 x6 | s106 => DD x5 x7 | s107 => DD x5 x8 | s108 => DD x5 x9 | s109 => DD x5 x10 | s110 => DD x5 x11 | s111 => DD x5 x12 | s112 => DD x5 x13 | s113 => DD x5 x14 | s114 => DD x5 x15 | s115 => DD x5 x16 | s116 => DD x5 x17 | s117 => DD x5 x18 | s118 => DD x5 x19 | s119 => DD x5 x20 | s120 => DD x5 x21 | s121 => DD x5 x22 | s122 => DD x5 x23 | s123 => DD x5 x24 | s124 => DD x5 x25 | s125 => DD x5 x26 | s126 => DD x5 x27 end.
Definition m222 (c : sum2) : dd := match c with s0 => DD x3 x30 | s1 => DD x3 x31 | s2 => DD x3 x32 | s3 => DD x3 x33 | s4 => DD x3 x34 | s5 => DD x3 x35 | s6 => DD x3 x36 | s7 => DD x3 x37 | s8 => DD x3 x38 | s9 => DD x3 x39 | s10 => DD x3 x40 | s11 => DD x3 x41 | s12 => DD x3 x42 | s13 => DD x3 x43 | s14 => DD x3 x44 | s15 => DD x3 x45 | s16 => DD x3 x46 | s17 => DD x3 x47 | s18 => DD x3 x48 | s19 => DD x3 x49 | s20 => DD x3 x50 | s21 => DD x3 x51 | s22 => DD x3 x52 | s23 => DD x3 x53 | s24 => DD x3 x54 | s25 => DD x3 x55 | s26 => DD x3 x56 | s27 => DD x3 x57 | s28 => DD x3 x58 | s29 => DD x3 x59 | s30 => DD x3 x60 | s31 => DD x3 x61 | s32 => DD x3 x62 | s33 => DD x3 x63 | s34 => DD x4 x0 | s35 => DD x4 x1 | s36 => DD x4 x2 | s37 => DD x4 x3 | s38 => DD x4 x4 | s39 => DD x4 x5 | s40 => DD x4 x6 | s41 => DD x4 x7 | s42 => DD x4 x8 | s43 => DD x4 x9 | s44 => DD x4 x10 | s45 => DD x4 x11 | s46 => DD x4 x12 | s47 => DD x4 x13 | s48 => DD x4 x14 | s49 => DD x4 x15 | s50 => DD x4 x16 | s51 => DD x4 x17 | s52 => DD x4 x18 | s53 => DD x4 x19 | s54 => DD x4 x20 | s55 => DD x4 x21 | s56 => DD x4 x22 | s57 => DD x4 x23 | s58 => DD x4 x24 | s59 => DD x4 x25 | s60 => DD x4 x26 | s61 => DD x4 x27 | s62 => DD x4 x28 | s63 => DD x4 x29 | s64 => DD x4 x30 | s65 => DD x4 x31 | s66 => DD x4 x32 | s67 => DD x4 x33 | s68 => DD x4 x34 | s69 => DD x4 x35 | s70 => DD x4 x36 | s71 => DD x4 x37 | s72 => DD x4 x38 | s73 => DD x4 x39 | s74 => DD x4 x40 | s75 => DD x4 x41 | s76 => DD x4 x42 | s77 => DD x4 x43 | s78 => DD x4 x44 | s79 => DD x4 x45 | s80 => DD x4 x46 | s81 => DD x4 x47 | s82 => DD x4 x48 | s83 => DD x4 x49 | s84 => DD x4 x50 | s85 => DD x4 x51 | s86 => DD x4 x52 | s87 => DD x4 x53 | s88 => DD x4 x54 | s89 => DD x4 x55 | s90 => DD x4 x56 | s91 => DD x4 x57 | s92 => DD x4 x58 | s93 => DD x4 x59 | s94 => DD x4 x60 | s95 => DD x4 x61 | s96 => DD x4 x62 | s97 => DD x4 x63 | s98 => DD x5 x0 | s99 => DD x5 x1 | s100 => DD x5 x2 | s101 => DD x5 x3 | s102 => DD x5 x4 | s103 => DD x5 x5 | s104 => DD x5 x6 | s105 => DD x5 x7 | s106 => DD x5 x8 | s107 => DD x5 x9 | s108 => DD x5 x10 | s109 => DD x5 x11 | s110 => DD x5 x12 | s111 => DD x5 x13 | s112 => DD x5 x14 | s113 => DD x5 x15 | s114 => DD x5 x16 | s115 => DD x5 x17 | s116 => DD x5 x18 | s117 => DD x5 x19 | s118 => DD x5 x20 | s119 => DD x5 x21 | s120 => DD x5 x22 | s121 => DD x5 x23 | s122 => DD x5 x24 | s123 => DD x5 x25 | s124 => DD x5 x26 | s125 => DD x5 x27 | s126 => DD x5 x28 end.
Definition m224 (c : sum2) : dd := match c with s0 => DD x3 x32 | s1 => DD x3 x33 | s2 => DD x3 x34 | s3 => DD x3 x35 | s4 => DD x3 x36 | s5 => DD x3 x37 | s6 => DD x3 x38 | s7 => DD x3 x39 | s8 => DD x3 x40 | s9 => DD x3 x41 | s10 => DD x3 x42 | s11 => DD x3 x43 | s12 => DD x3 x44 | s13 => DD x3 x45 | s14 => DD x3 x46 | s15 => DD x3 x47 | s16 => DD x3 x48 | s17 => DD x3 x49 | s18 => DD x3 x50 | s19 => DD x3 x51 | s20 => DD x3 x52 | s21 => DD x3 x53 | s22 => DD x3 x54 | s23 => DD x3 x55 | s24 => DD x3 x56 | s25 => DD x3 x57 | s26 => DD x3 x58 | s27 => DD x3 x59 | s28 => DD x3 x60 | s29 => DD x3 x61 | s30 => DD x3 x62 | s31 => DD x3 x63 | s32 => DD x4 x0 | s33 => DD x4 x1 | s34 => DD x4 x2 | s35 => DD x4 x3 | s36 => DD x4 x4 | s37 => DD x4 x5 | s38 => DD x4 x6 | s39 => DD x4 x7 | s40 => DD x4 x8 | s41 => DD x4 x9 | s42 => DD x4 x10 | s43 => DD x4 x11 | s44 => DD x4 x12 | s45 => DD x4 x13 | s46 => DD x4 x14 | s47 => DD x4 x15 | s48 => DD x4 x16 | s49 => DD x4 x17 | s50 => DD x4 x18 | s51 => DD x4 x19 | s52 => DD x4 x20 | s53 => DD x4 x21 | s54 => DD x4 x22 | s55 => DD x4 x23 | s56 => DD x4 x24 | s57 => DD x4 x25 | s58 => DD x4 x26 | s59 => DD x4 x27 | s60 => DD x4 x28 | s61 => DD x4 x29 | s62 => DD x4 x30 | s63 => DD x4 x31 | s64 => DD x4 x32 | s65 => DD x4 x33 | s66 => DD x4 x34 | s67 => DD x4 x35 | s68 => DD x4 x36 | s69 => DD x4 x37 | s70 => DD x4 x38 | s71 => DD x4 x39 | s72 => DD x4 x40 | s73 => DD x4 x41 | s74 => DD x4 x42 | s75 => DD x4 x43 | s76 => DD x4 x44 | s77 => DD x4 x45 | s78 => DD x4 x46 | s79 => DD x4 x47 | s80 => DD x4 x48 | s81 => DD x4 x49 | s82 => DD x4 x50 | s83 => DD x4 x51 | s84 => DD x4 x52 | s85 => DD x4 x53 | s86 => DD x4 x54 | s87 => DD x4 x55 | s88 => DD x4 x56 | s89 => DD x4 x57 | s90 => DD x4 x58 | s91 => DD x4 x59 | s92 => DD x4 x60 | s93 => DD x4 x61 | s94 => DD x4 x62 | s95 => DD x4 x63 | s96 => DD x5 x0 | s97 => DD x5 x1 | s98 => DD x5 x2 | s99 => DD x5 x3 | s100 => DD x5 x4 | s101 => DD x5 x5 | s102 => DD x5 x6 | s103 => DD x5 x7 | s104 => DD x5 x8 | s105 => DD x5 x9 | s106 => DD x5 x10 | s107 => DD x5 x11 | s108 => DD x5 x12 | s109 => DD x5 x13 | s110 => DD x5 x14 | s111 => DD x5 x15 | s112 => DD x5 x16 | s113 => DD x5 x17 | s114 => DD x5 x18 | s115 => DD x5 x19 | s116 => DD x5 x20 | s117 => DD x5 x21 | s118 => DD x5 x22 | s119 => DD x5 x23 | s120 => DD x5 x24 | s121 => DD x5 x25 | s122 => DD x5 x26 | s123 => DD x5 x27 | s124 => DD x5 x28 | s125 => DD x5 x29 | s126 => DD x5 x30 end.
Definition m225 (c : sum2) : dd := match c with s0 => DD x3 x33 | s1 => DD x3 x34 | s2 => DD x3 x35 | s3 => DD x3 x36 | s4 => DD x3 x37 | s5 => DD x3 x38 | s6 => DD x3 x39 | s7 => DD x3 x40 | s8 => DD x3 x41 | s9 => DD x3 x42 | s10 => DD x3 x43 | s11 => DD x3 x44 | s12 => DD x3 x45 | s13 => DD x3 x46 | s14 => DD x3 x47 | s15 => DD x3 x48 | s16 => DD x3 x49 | s17 => DD x3 x50 | s18 => DD x3 x51 | s19 => DD x3 x52 | s20 => DD x3 x53 | s21 => DD x3 x54 | s22 => DD x3 x55 | s23 => DD x3 x56 | s24 => DD x3 x57 | s25 => DD x3 x58 | s26 => DD x3 x59 | s27 => DD x3 x60 | s28 => DD x3 x61 | s29 => DD x3 x62 | s30 => DD x3 x63 | s31 => DD x4 x0 | s32 => DD x4 x1 | s33 => DD x4 x2 | s34 => DD x4 x3 | s35 => DD x4 x4 | s36 => DD x4 x5 | s37 => DD x4 x6 | s38 => DD x4 x7 | s39 => DD x4 x8 | s40 => DD x4 x9 | s41 => DD x4 x10 | s42 => DD x4 x11 | s43 => DD x4 x12 | s44 => DD x4 x13 | s45 => DD x4 x14 | s46 => DD x4 x15 | s47 => DD x4 x16 | s48 => DD x4 x17 | s49 => DD x4 x18 | s50 => DD x4 x19 | s51 => DD x4 x20 | s52 => DD x4 x21 | s53 => DD x4 x22 | s54 => DD x4 x23 | s55 => DD x4 x24 | s56 => DD x4 x25 | s57 => DD x4 x26 | s58 => DD x4 x27 | s59 => DD x4 x28 | s60 => DD x4 x29 | s61 => DD x4 x30 | s62 => DD x4 x31 | s63 => DD x4 x32 | s64 => DD x4 x33 | s65 => DD x4 x34 | s66 => DD x4 x35 | s67 => DD x4 x36 | s68 => DD x4 x37 | s69 => DD x4 x38 | s70 => DD x4 x39 | s71 => DD x4 x40 | s72 => DD x4 x41 | s73 => DD x4 x42 | s74 => DD x4 x43 | s75 => DD x4 x44 | s76 => DD x4 x45 | s77 => DD x4 x46 | s78 => DD x4 x47 | s79 => DD x4 x48 | s80 => DD x4 x49 | s81 => DD x4 x50 | s82 => DD x4 x51 | s83 => DD x4 x52 | s84 => DD x4 x53 | s85 => DD x4 x54 | s86 => DD x4 x55 | s87 => DD x4 x56 | s88 => DD x4 x57 | s89 => DD x4 x58 | s90 => DD x4 x59 | s91 => DD x4 x60 | s92 => DD x4 x61 | s93 => DD x4 x62 | s94 => DD x4 x63 | s95 => DD x5 x0 | s96 => DD x5 x1 | s97 => DD x5 x2 | s98 => DD x5 x3 | s99 => DD x5 x4 | s100 => DD x5 x5 | s101 => DD x5 x6 | s102 => DD x5 x7 | s103 => DD x5 x8 | s104 => DD x5 x9 | s105 => DD x5 x10 | s106 => DD x5 x11 | s107 => DD x5 x12 | s108 => DD x5 x13 | s109 => DD x5 x14 | s110 => DD x5 x15 | s111 => DD x5 x16 | s112 => DD x5 x17 | s113 => DD x5 x18 | s114 => DD x5 x19 | s115 => DD x5 x20 | s116 => DD x5 x21 | s117 => DD x5 x22 | s118 => DD x5 x23 | s119 => DD x5 x24 | s120 => DD x5 x25 | s121 => DD x5 x26 | s122 => DD x5 x27 | s123 => DD x5 x28 | s124 => DD x5 x29 | s125 => DD x5 x30 | s126 => DD x5 x31 end.
Definition m228 (c : sum2) : dd := match c with s0 => DD x3 x36 | s1 => DD x3 x37 | s2 => DD x3 x38 | s3 => DD x3 x39 | s4 => DD x3 x40 | s5 => DD x3 x41 | s6 => DD x3 x42 | s7 => DD x3 x43 | s8 => DD x3 x44 | s9 => DD x3 x45 | s10 => DD x3 x46 | s11 => DD x3 x47 | s12 => DD x3 x48 | s13 => DD x3 x49 | s14 => DD x3 x50 | s15 => DD x3 x51 | s16 => DD x3 x52 | s17 => DD x3 x53 | s18 => DD x3 x54 | s19 => DD x3 x55 | s20 => DD x3 x56 | s21 => DD x3 x57 | s22 => DD x3 x58 | s23 => DD x3 x59 | s24 => DD x3 x60 | s25 => DD x3 x61 | s26 => DD x3 x62 | s27 => DD x3 x63 | s28 => DD x4 x0 | s29 => DD x4 x1 | s30 => DD x4 x2 | s31 => DD x4 x3 | s32 => DD x4 x4 | s33 => DD x4 x5 | s34 => DD x4 x6 | s35 => DD x4 x7 | s36 => DD x4 x8 | s37 => DD x4 x9 | s38 => DD x4 x10 | s39 => DD x4 x11 | s40 => DD x4 x12 | s41 => DD x4 x13 | s42 => DD x4 x14 | s43 => DD x4 x15 | s44 => DD x4 x16 | s45 => DD x4 x17 | s46 => DD x4 x18 | s47 => DD x4 x19 | s48 => DD x4 x20 | s49 => DD x4 x21 | s50 => DD x4 x22 | s51 => DD x4 x23 | s52 => DD x4 x24 | s53 => DD x4 x25 | s54 => DD x4 x26 | s55 => DD x4 x27 | s56 => DD x4 x28 | s57 => DD x4 x29 | s58 => DD x4 x30 | s59 => DD x4 x31 | s60 => DD x4 x32 | s61 => DD x4 x33 | s62 => DD x4 x34 | s63 => DD x4 x35 | s64 => DD x4 x36 | s65 => DD x4 x37 | s66 => DD x4 x38 | s67 => DD x4 x39 | s68 => DD x4 x40 | s69 => DD x4 x41 | s70 => DD x4 x42 | s71 => DD x4 x43 | s72 => DD x4 x44 | s73 => DD x4 x45 | s74 => DD x4 x46 | s75 => DD x4 x47 | s76 => DD x4 x48 | s77 => DD x4 x49 | s78 => DD x4 x50 | s79 => DD x4 x51 | s80 => DD x4 x52 | s81 => DD x4 x53 | s82 => DD x4 x54 | s83 => DD x4 x55 | s84 => DD x4 x56 | s85 => DD x4 x57 | s86 => DD x4 x58 | s87 => DD x4 x59 | s88 => DD x4 x60 | s89 => DD x4 x61 | s90 => DD x4 x62 | s91 => DD x4 x63 | s92 => DD x5 x0 | s93 => DD x5 x1 | s94 => DD x5 x2 | s95 => DD x5 x3 | s96 => DD x5 x4 | s97 => DD x5 x5 | s98 => DD x5 x6 | s99 => DD x5 x7 | s100 => DD x5 x8 | s101 => DD x5 x9 | s102 => DD x5 x10 | s103 => DD x5 x11 | s104 => DD x5 x12 | s105 => DD x5 x13 | s106 => DD x5 x14 | s107 => DD x5 x15 | s108 => DD x5 x16 | s109 => DD x5 x17 | s110 => DD x5 x18 | s111 => DD x5 x19 | s112 => DD x5 x20 | s113 => DD x5 x21 | s114 => DD x5 x22 | s115 => DD x5 x23 | s116 => DD x5 x24 | s117 => DD x5 x25 | s118 => DD x5 x26 | s119 => DD x5 x27 | s120 => DD x5 x28 | s121 => DD x5 x29 | s122 => DD x5 x30 | s123 => DD x5 x31 | s124 => DD x5 x32 | s125 => DD x5 x33 | s126 => DD x5 x34 end.
Definition m230 (c : sum2) : dd := match c with s0 => DD x3 x38 | s1 => DD x3 x39 | s2 => DD x3 x40 | s3 => DD x3 x41 | s4 => DD x3 x42 | s5 => DD x3 x43 | s6 => DD x3 x44 | s7 => DD x3 x45 | s8 => DD x3 x46 | s9 => DD x3 x47 | s10 => DD x3 x48 | s11 => DD x3 x49 | s12 => DD x3 x50 | s13 => DD x3 x51 | s14 => DD x3 x52 | s15 => DD x3 x53 | s16 => DD x3 x54 | s17 => DD x3 x55 | s18 => DD x3 x56 | s19 => DD x3 x57 | s20 => DD x3 x58 | s21 => DD x3 x59 | s22 => DD x3 x60 | s23 => DD x3 x61 | s24 => DD x3 x62 | s25 => DD x3 x63 | s26 => DD x4 x0 | s27 => DD x4 x1 | s28 => DD x4 x2 | s29 => DD x4 x3 | s30 => DD x4 x4 | s31 => DD x4 x5 | s32 => DD x4 x6 | s33 => DD x4 x7 | s34 => DD x4 x8 | s35 => DD x4 x9 | s36 => DD x4 x10 | s37 => DD x4 x11 | s38 => DD x4 x12 | s39 => DD x4 x13 | s40 => DD x4 x14 | s41 => DD x4 x15 | s42 => DD x4 x16 | s43 => DD x4 x17 | s44 => DD x4 x18 | s45 => DD x4 x19 | s46 => DD x4 x20 | s47 => DD x4 x21 | s48 => DD x4 x22 | s49 => DD x4 x23 | s50 => DD x4 x24 | s51 => DD x4 x25 | s52 => DD x4 x26 | s53 => DD x4 x27 | s54 => DD x4 x28 | s55 => DD x4 x29 | s56 => DD x4 x30 | s57 => DD x4 x31 | s58 => DD x4 x32 | s59 => DD x4 x33 | s60 => DD x4 x34 | s61 => DD x4 x35 | s62 => DD x4 x36 | s63 => DD x4 x37 | s64 => DD x4 x38 | s65 => DD x4 x39 | s66 => DD x4 x40 | s67 => DD x4 x41 | s68 => DD x4 x42 | s69 => DD x4 x43 | s70 => DD x4 x44 | s71 => DD x4 x45 | s72 => DD x4 x46 | s73 => DD x4 x47 | s74 => DD x4 x48 | s75 => DD x4 x49 | s76 => DD x4 x50 | s77 => DD x4 x51 | s78 => DD x4 x52 | s79 => DD x4 x53 | s80 => DD x4 x54 | s81 => DD x4 x55 | s82 => DD x4 x56 | s83 => DD x4 x57 | s84 => DD x4 x58 | s85 => DD x4 x59 | s86 => DD x4 x60 | s87 => DD x4 x61 | s88 => DD x4 x62 | s89 => DD x4 x63 | s90 => DD x5 x0 | s91 => DD x5 x1 | s92 => DD x5 x2 | s93 => DD x5 x3 | s94 => DD x5 x4 | s95 => DD x5 x5 | s96 => DD x5 x6 | s97 => DD x5 x7 | s98 => DD x5 x8 | s99 => DD x5 x9 | s100 => DD x5 x10 | s101 => DD x5 x11 | s102 => DD x5 x12 | s103 => DD x5 x13 | s104 => DD x5 x14 | s105 => DD x5 x15 | s106 => DD x5 x16 | s107 => DD x5 x17 | s108 => DD x5 x18 | s109 => DD x5 x19 | s110 => DD x5 x20 | s111 => DD x5 x21 | s112 => DD x5 x22 | s113 => DD x5 x23 | s114 => DD x5 x24 | s115 => DD x5 x25 | s116 => DD x5 x26 | s117 => DD x5 x27 | s118 => DD x5 x28 | s119 => DD x5 x29 | s120 => DD x5 x30 | s121 => DD x5 x31 | s122 => DD x5 x32 | s123 => DD x5 x33 | s124 => DD x5 x34 | s125 => DD x5 x35 | s126 => DD x5 x36 end.
Definition m231 (c : sum2) : dd := match c with s0 => DD x3 x39 | s1 => DD x3 x40 | s2 => DD x3 x41 | s3 => DD x3 x42 | s4 => DD x3 x43 | s5 => DD x3 x44 | s6 => DD x3 x45 | s7 => DD x3 x46 | s8 => DD x3 x47 | s9 => DD x3 x48 | s10 => DD x3 x49 | s11 => DD x3 x50 | s12 => DD x3 x51 | s13 => DD x3 x52 | s14 => DD x3 x53 | s15 => DD x3 x54 | s16 => DD x3 x55 | s17 => DD x3 x56 | s18 => DD x3 x57 | s19 => DD x3 x58 | s20 => DD x3 x59 | s21 => DD x3 x60 | s22 => DD x3 x61 | s23 => DD x3 x62 | s24 => DD x3 x63 | s25 => DD x4 x0 | s26 => DD x4 x1 | s27 => DD x4 x2 | s28 => DD x4 x3 | s29 => DD x4 x4 | s30 => DD x4 x5 | s31 => DD x4 x6 | s32 => DD x4 x7 | s33 => DD x4 x8 | s34 => DD x4 x9 | s35 => DD x4 x10 | s36 => DD x4 x11 | s37 => DD x4 x12 | s38 => DD x4 x13 | s39 => DD x4 x14 | s40 => DD x4 x15 | s41 => DD x4 x16 | s42 => DD x4 x17 | s43 => DD x4 x18 | s44 => DD x4 x19 | s45 => DD x4 x20 | s46 => DD x4 x21 | s47 => DD x4 x22 | s48 => DD x4 x23 | s49 => DD x4 x24 | s50 => DD x4 x25 | s51 => DD x4 x26 | s52 => DD x4 x27 | s53 => DD x4 x28 | s54 => DD x4 x29 | s55 => DD x4 x30 | s56 => DD x4 x31 | s57 => DD x4 x32 | s58 => DD x4 x33 | s59 => DD x4 x34 | s60 => DD x4 x35 | s61 => DD x4 x36 | s62 => DD x4 x37 | s63 => DD x4 x38 | s64 => DD x4 x39 | s65 => DD x4 x40 | s66 => DD x4 x41 | s67 => DD x4 x42 | s68 => DD x4 x43 | s69 => DD x4 x44 | s70 => DD x4 x45 | s71 => DD x4 x46 | s72 => DD x4 x47 | s73 => DD x4 x48 | s74 => DD x4 x49 | s75 => DD x4 x50 | s76 => DD x4 x51 | s77 => DD x4 x52 | s78 => DD x4 x53 | s79 => DD x4 x54 | s80 => DD x4 x55 | s81 => DD x4 x56 | s82 => DD x4 x57 | s83 => DD x4 x58 | s84 => DD x4 x59 | s85 => DD x4 x60 | s86 => DD x4 x61 | s87 => DD x4 x62 | s88 => DD x4 x63 | s89 => DD x5 x0 | s90 => DD x5 x1 | s91 => DD x5 x2 | s92 => DD x5 x3 | s93 => DD x5 x4 | s94 => DD x5 x5 | s95 => DD x5 x6 | s96 => DD x5 x7 | s97 => DD x5 x8 | s98 => DD x5 x9 | s99 => DD x5 x10 | s100 => DD x5 x11 | s101 => DD x5 x12 | s102 => DD x5 x13 | s103 => DD x5 x14 | s104 => DD x5 x15 | s105 => DD x5 x16 | s106 => DD x5 x17 | s107 => DD x5 x18 | s108 => DD x5 x19 | s109 => DD x5 x20 | s110 => DD x5 x21 | s111 => DD x5 x22 | s112 => DD x5 x23 | s113 => DD x5 x24 | s114 => DD x5 x25 | s115 => DD x5 x26 | s116 => DD x5 x27 | s117 => DD x5 x28 | s118 => DD x5 x29 | s119 => DD x5 x30 | s120 => DD x5 x31 | s121 => DD x5 x32 | s122 => DD x5 x33 | s123 => DD x5 x34 | s124 => DD x5 x35 | s125 => DD x5 x36 | s126 => DD x5 x37 end.
Definition m232 (c : sum2) : dd := match c with s0 => DD x3 x40 | s1 => DD x3 x41 | s2 => DD x3 x42 | s3 => DD x3 x43 | s4 => DD x3 x44 | s5 => DD x3 x45 | s6 => DD x3 x46 | s7 => DD x3 x47 | s8 => DD x3 x48 | s9 => DD x3 x49 | s10 => DD x3 x50 | s11 => DD x3 x51 | s12 => DD x3 x52 | s13 => DD x3 x53 | s14 => DD x3 x54 | s15 => DD x3 x55 | s16 => DD x3 x56 | s17 => DD x3 x57 | s18 => DD x3 x58 | s19 => DD x3 x59 | s20 => DD x3 x60 | s21 => DD x3 x61 | s22 => DD x3 x62 | s23 => DD x3 x63 | s24 => DD x4 x0 | s25 => DD x4 x1 | s26 => DD x4 x2 | s27 => DD x4 x3 | s28 => DD x4 x4 | s29 => DD x4 x5 | s30 => DD x4 x6 | s31 => DD x4 x7 | s32 => DD x4 x8 | s33 => DD x4 x9 | s34 => DD x4 x10 | s35 => DD x4 x11 | s36 => DD x4 x12 | s37 => DD x4 x13 | s38 => DD x4 x14 | s39 => DD x4 x15 | s40 => DD x4 x16 | s41 => DD x4 x17 | s42 => DD x4 x18 | s43 => DD x4 x19 | s44 => DD x4 x20 | s45 => DD x4 x21 | s46 => DD x4 x22 | s47 => DD x4 x23 | s48 => DD x4 x24 | s49 => DD x4 x25 | s50 => DD x4 x26 | s51 => DD x4 x27 | s52 => DD x4 x28 | s53 => DD x4 x29 | s54 => DD x4 x30 | s55 => DD x4 x31 | s56 => DD x4 x32 | s57 => DD x4 x33 | s58 => DD x4 x34 | s59 => DD x4 x35 | s60 => DD x4 x36 | s61 => DD x4 x37 | s62 => DD x4 x38 | s63 => DD x4 x39 | s64 => DD x4 x40 | s65 => DD x4 x41 | s66 => DD x4 x42 | s67 => DD x4 x43 | s68 => DD x4 x44 | s69 => DD x4 x45 | s70 => DD x4 x46 | s71 => DD x4 x47 | s72 => DD x4 x48 | s73 => DD x4 x49 | s74 => DD x4 x50 | s75 => DD x4 x51 | s76 => DD x4 x52 | s77 => DD x4 x53 | s78 => DD x4 x54 | s79 => DD x4 x55 | s80 => DD x4 x56 | s81 => DD x4 x57 | s82 => DD x4 x58 | s83 => DD x4 x59 | s84 => DD x4 x60 | s85 => DD x4 x61 | s86 => DD x4 x62 | s87 => DD x4 x63 | s88 => DD x5 x0 | s89 => DD x5 x1 | s90 => DD x5 x2 | s91 => DD x5 x3 | s92 => DD x5 x4 | s93 => DD x5 x5 | s94 => DD x5 x6 | s95 => DD x5 x7 | s96 => DD x5 x8 | s97 => DD x5 x9 | s98 => DD x5 x10 | s99 => DD x5 x11 | s100 => DD x5 x12 | s101 => DD x5 x13 | s102 => DD x5 x14 | s103 => DD x5 x15 | s104 => DD x5 x16 | s105 => DD x5 x17 | s106 => DD x5 x18 | s107 => DD x5 x19 | s108 => DD x5 x20 | s109 => DD x5 x21 | s110 => DD x5 x22 | s111 => DD x5 x23 | s112 => DD x5 x24 | s113 => DD x5 x25 | s114 => DD x5 x26 | s115 => DD x5 x27 | s116 => DD x5 x28 | s117 => DD x5 x29 | s118 => DD x5 x30 | s119 => DD x5 x31 | s120 => DD x5 x32 | s121 => DD x5 x33 | s122 => DD x5 x34 | s123 => DD x5 x35 | s124 => DD x5 x36 | s125 => DD x5 x37 | s126 => DD x5 x38 end.
Definition m234 (c : sum2) : dd := match c with s0 => DD x3 x42 | s1 => DD x3 x43 | s2 => DD x3 x44 | s3 => DD x3 x45 | s4 => DD x3 x46 | s5 => DD x3 x47 | s6 => DD x3 x48 | s7 => DD x3 x49 | s8 => DD x3 x50 | s9 => DD x3 x51 | s10 => DD x3 x52 | s11 => DD x3 x53 | s12 => DD x3 x54 | s13 => DD x3 x55 | s14 => DD x3 x56 | s15 => DD x3 x57 | s16 => DD x3 x58 | s17 => DD x3 x59 | s18 => DD x3 x60 | s19 => DD x3 x61 | s20 => DD x3 x62 | s21 => DD x3 x63 | s22 => DD x4 x0 | s23 => DD x4 x1 | s24 => DD x4 x2 | s25 => DD x4 x3 | s26 => DD x4 x4 | s27 => DD x4 x5 | s28 => DD x4 x6 | s29 => DD x4 x7 | s30 => DD x4 x8 | s31 => DD x4 x9 | s32 => DD x4 x10 | s33 => DD x4 x11 | s34 => DD x4 x12 | s35 => DD x4 x13 | s36 => DD x4 x14 | s37 => DD x4 x15 | s38 => DD x4 x16 | s39 => DD x4 x17 | s40 => DD x4 x18 | s41 => DD x4 x19 | s42 => DD x4 x20 | s43 => DD x4 x21 | s44 => DD x4 x22 | s45 => DD x4 x23 | s46 => DD x4 x24 | s47 => DD x4 x25 | s48 => DD x4 x26 | s49 => DD x4 x27 | s50 => DD x4 x28 | s51 => DD x4 x29 | s52 => DD x4 x30 | s53 => DD x4 x31 | s54 => DD x4 x32 | s55 => DD x4 x33 | s56 => DD x4 x34 | s57 => DD x4 x35 | s58 => DD x4 x36 | s59 => DD x4 x37 | s60 => DD x4 x38 | s61 => DD x4 x39 | s62 => DD x4 x40 | s63 => DD x4 x41 | s64 => DD x4 x42 | s65 => DD x4 x43 | s66 => DD x4 x44 | s67 => DD x4 x45 | s68 => DD x4 x46 | s69 => DD x4 x47 | s70 => DD x4 x48 | s71 => DD x4 x49 | s72 => DD x4 x50 | s73 => DD x4 x51 | s74 => DD x4 x52 | s75 => DD x4 x53 | s76 => DD x4 x54 | s77 => DD x4 x55 | s78 => DD x4 x56 | s79 => DD x4 x57 | s80 => DD x4 x58 | s81 => DD x4 x59 | s82 => DD x4 x60 | s83 => DD x4 x61 | s84 => DD x4 x62 | s85 => DD x4 x63 | s86 => DD x5 x0 | s87 => DD x5 x1 | s88 => DD x5 x2 | s89 => DD x5 x3 | s90 => DD x5 x4 | s91 => DD x5 x5 | s92 => DD x5 x6 | s93 => DD x5 x7 | s94 => DD x5 x8 | s95 => DD x5 x9 | s96 => DD x5 x10 | s97 => DD x5 x11 | s98 => DD x5 x12 | s99 => DD x5 x13 | s100 => DD x5 x14 | s101 => DD x5 x15 | s102 => DD x5 x16 | s103 => DD x5 x17 | s104 => DD x5 x18 | s105 => DD x5 x19 | s106 => DD x5 x20 | s107 => DD x5 x21 | s108 => DD x5 x22 | s109 => DD x5 x23 | s110 => DD x5 x24 | s111 => DD x5 x25 | s112 => DD x5 x26 | s113 => DD x5 x27 | s114 => DD x5 x28 | s115 => DD x5 x29 | s116 => DD x5 x30 | s117 => DD x5 x31 | s118 => DD x5 x32 | s119 => DD x5 x33 | s120 => DD x5 x34 | s121 => DD x5 x35 | s122 => DD x5 x36 | s123 => DD x5 x37 | s124 => DD x5 x38 | s125 => DD x5 x39 | s126 => DD x5 x40 end.
Definition m235 (c : sum2) : dd := match c with s0 => DD x3 x43 | s1 => DD x3 x44 | s2 => DD x3 x45 | s3 => DD x3 x46 | s4 => DD x3 x47 | s5 => DD x3 x48 | s6 => DD x3 x49 | s7 => DD x3 x50 | s8 => DD x3 x51 | s9 => DD x3 x52 | s10 => DD x3 x53 | s11 => DD x3 x54 | s12 => DD x3 x55 | s13 => DD x3 x56 | s14 => DD x3 x57 | s15 => DD x3 x58 | s16 => DD x3 x59 | s17 => DD x3 x60 | s18 => DD x3 x61 | s19 => DD x3 x62 | s20 => DD x3 x63 | s21 => DD x4 x0 | s22 => DD x4 x1 | s23 => DD x4 x2 | s24 => DD x4 x3 | s25 => DD x4 x4 | s26 => DD x4 x5 | s27 => DD x4 x6 | s28 => DD x4 x7 | s29 => DD x4 x8 | s30 => DD x4 x9 | s31 => DD x4 x10 | s32 => DD x4 x11 | s33 => DD x4 x12 | s34 => DD x4 x13 | s35 => DD x4 x14 | s36 => DD x4 x15 | s37 => DD x4 x16 | s38 => DD x4 x17 | s39 => DD x4 x18 | s40 => DD x4 x19 | s41 => DD x4 x20 | s42 => DD x4 x21 | s43 => DD x4 x22 | s44 => DD x4 x23 | s45 => DD x4 x24 | s46 => DD x4 x25 | s47 => DD x4 x26 | s48 => DD x4 x27 | s49 => DD x4 x28 | s50 => DD x4 x29 | s51 => DD x4 x30 | s52 => DD x4 x31 | s53 => DD x4 x32 | s54 => DD x4 x33 | s55 => DD x4 x34 | s56 => DD x4 x35 | s57 => DD x4 x36 | s58 => DD x4 x37 | s59 => DD x4 x38 | s60 => DD x4 x39 | s61 => DD x4 x40 | s62 => DD x4 x41 | s63 => DD x4 x42 | s64 => DD x4 x43 | s65 => DD x4 x44 | s66 => DD x4 x45 | s67 => DD x4 x46 | s68 => DD x4 x47 | s69 => DD x4 x48 | s70 => DD x4 x49 | s71 => DD x4 x50 | s72 => DD x4 x51 | s73 => DD x4 x52 | s74 => DD x4 x53 | s75 => DD x4 x54 | s76 => DD x4 x55 | s77 => DD x4 x56 | s78 => DD x4 x57 | s79 => DD x4 x58 | s80 => DD x4 x59 | s81 => DD x4 x60 | s82 => DD x4 x61 | s83 => DD x4 x62 | s84 => DD x4 x63 | s85 => DD x5 x0 | s86 => DD x5 x1 | s87 => DD x5 x2 | s88 => DD x5 x3 | s89 => DD x5 x4 | s90 => DD x5 x5 | s91 => DD x5 x6 | s92 => DD x5 x7 | s93 => DD x5 x8 | s94 => DD x5 x9 | s95 => DD x5 x10 | s96 => DD x5 x11 | s97 => DD x5 x12 | s98 => DD x5 x13 | s99 => DD x5 x14 | s100 => DD x5 x15 | s101 => DD x5 x16 | s102 => DD x5 x17 | s103 => DD x5 x18 | s104 => DD x5 x19 | s105 => DD x5 x20 | s106 => DD x5 x21 | s107 => DD x5 x22 | s108 => DD x5 x23 | s109 => DD x5 x24 | s110 => DD x5 x25 | s111 => DD x5 x26 | s112 => DD x5 x27 | s113 => DD x5 x28 | s114 => DD x5 x29 | s115 => DD x5 x30 | s116 => DD x5 x31 | s117 => DD x5 x32 | s118 => DD x5 x33 | s119 => DD x5 x34 | s120 => DD x5 x35 | s121 => DD x5 x36 | s122 => DD x5 x37 | s123 => DD x5 x38 | s124 => DD x5 x39 | s125 => DD x5 x40 | s126 => DD x5 x41 end.
Definition m236 (c : sum2) : dd := match c with s0 => DD x3 x44 | s1 => DD x3 x45 | s2 => DD x3 x46 | s3 => DD x3 x47 | s4 => DD x3 x48 | s5 => DD x3 x49 | s6 => DD x3 x50 | s7 => DD x3 x51 | s8 => DD x3 x52 | s9 => DD x3 x53 | s10 => DD x3 x54 | s11 => DD x3 x55 | s12 => DD x3 x56 | s13 => DD x3 x57 | s14 => DD x3 x58 | s15 => DD x3 x59 | s16 => DD x3 x60 | s17 => DD x3 x61 | s18 => DD x3 x62 | s19 => DD x3 x63 | s20 => DD x4 x0 | s21 => DD x4 x1 | s22 => DD x4 x2 | s23 => DD x4 x3 | s24 => DD x4 x4 | s25 => DD x4 x5 | s26 => DD x4 x6 | s27 => DD x4 x7 | s28 => DD x4 x8 | s29 => DD x4 x9 | s30 => DD x4 x10 | s31 => DD x4 x11 | s32 => DD x4 x12 | s33 => DD x4 x13 | s34 => DD x4 x14 | s35 => DD x4 x15 | s36 => DD x4 x16 | s37 => DD x4 x17 | s38 => DD x4 x18 | s39 => DD x4 x19 | s40 => DD x4 x20 | s41 => DD x4 x21 | s42 => DD x4 x22 | s43 => DD x4 x23 | s44 => DD x4 x24 | s45 => DD x4 x25 | s46 => DD x4 x26 | s47 => DD x4 x27 | s48 => DD x4 x28 | s49 => DD x4 x29 | s50 => DD x4 x30 | s51 => DD x4 x31 | s52 => DD x4 x32 | s53 => DD x4 x33 | s54 => DD x4 x34 | s55 => DD x4 x35 | s56 => DD x4 x36 | s57 => DD x4 x37 | s58 => DD x4 x38 | s59 => DD x4 x39 | s60 => DD x4 x40 | s61 => DD x4 x41 | s62 => DD x4 x42 | s63 => DD x4 x43 | s64 => DD x4 x44 | s65 => DD x4 x45 | s66 => DD x4 x46 | s67 => DD x4 x47 | s68 => DD x4 x48 | s69 => DD x4 x49 | s70 => DD x4 x50 | s71 => DD x4 x51 | s72 => DD x4 x52 | s73 => DD x4 x53 | s74 => DD x4 x54 | s75 => DD x4 x55 | s76 => DD x4 x56 | s77 => DD x4 x57 | s78 => DD x4 x58 | s79 => DD x4 x59 | s80 => DD x4 x60 | s81 => DD x4 x61 | s82 => DD x4 x62 | s83 => DD x4 x63 | s84 => DD x5 x0 | s85 => DD x5 x1 | s86 => DD x5 x2 | s87 => DD x5 x3 | s88 => DD x5 x4 | s89 => DD x5 x5 | s90 => DD x5 x6 | s91 => DD x5 x7 | s92 => DD x5 x8 | s93 => DD x5 x9 | s94 => DD x5 x10 | s95 => DD x5 x11 | s96 => DD x5 x12 | s97 => DD x5 x13 | s98 => DD x5 x14 | s99 => DD x5 x15 | s100 => DD x5 x16 | s101 => DD x5 x17 | s102 => DD x5 x18 | s103 => DD x5 x19 | s104 => DD x5 x20 | s105 => DD x5 x21 | s106 => DD x5 x22 | s107 => DD x5 x23 | s108 => DD x5 x24 | s109 => DD x5 x25 | s110 => DD x5 x26 | s111 => DD x5 x27 | s112 => DD x5 x28 | s113 => DD x5 x29 | s114 => DD x5 x30 | s115 => DD x5 x31 | s116 => DD x5 x32 | s117 => DD x5 x33 | s118 => DD x5 x34 | s119 => DD x5 x35 | s120 => DD x5 x36 | s121 => DD x5 x37 | s122 => DD x5 x38 | s123 => DD x5 x39 | s124 => DD x5 x40 | s125 => DD x5 x41 | s126 => DD x5 x42 end.
Definition m238 (c : sum2) : dd := match c with s0 => DD x3 x46 | s1 => DD x3 x47 | s2 => DD x3 x48 | s3 => DD x3 x49 | s4 => DD x3 x50 | s5 => DD x3 x51 | s6 => DD x3 x52 | s7 => DD x3 x53 | s8 => DD x3 x54 | s9 => DD x3 x55 | s10 => DD x3 x56 | s11 => DD x3 x57 | s12 => DD x3 x58 | s13 => DD x3 x59 | s14 => DD x3 x60 | s15 => DD x3 x61 | s16 => DD x3 x62 | s17 => DD x3 x63 | s18 => DD x4 x0 | s19 => DD x4 x1 | s20 => DD x4 x2 | s21 => DD x4 x3 | s22 => DD x4 x4 | s23 => DD x4 x5 | s24 => DD x4 x6 | s25 => DD x4 x7 | s26 => DD x4 x8 | s27 => DD x4 x9 | s28 => DD x4 x10 | s29 => DD x4 x11 | s30 => DD x4 x12 | s31 => DD x4 x13 | s32 => DD x4 x14 | s33 => DD x4 x15 | s34 => DD x4 x16 | s35 => DD x4 x17 | s36 => DD x4 x18 | s37 => DD x4 x19 | s38 => DD x4 x20 | s39 => DD x4 x21 | s40 => DD x4 x22 | s41 => DD x4 x23 | s42 => DD x4 x24 | s43 => DD x4 x25 | s44 => DD x4 x26 | s45 => DD x4 x27 | s46 => DD x4 x28 | s47 => DD x4 x29 | s48 => DD x4 x30 | s49 => DD x4 x31 | s50 => DD x4 x32 | s51 => DD x4 x33 | s52 => DD x4 x34 | s53 => DD x4 x35 | s54 => DD x4 x36 | s55 => DD x4 x37 | s56 => DD x4 x38 | s57 => DD x4 x39 | s58 => DD x4 x40 | s59 => DD x4 x41 | s60 => DD x4 x42 | s61 => DD x4 x43 | s62 => DD x4 x44 | s63 => DD x4 x45 | s64 => DD x4 x46 | s65 => DD x4 x47 | s66 => DD x4 x48 | s67 => DD x4 x49 | s68 => DD x4 x50 | s69 => DD x4 x51 | s70 => DD x4 x52 | s71 => DD x4 x53 | s72 => DD x4 x54 | s73 => DD x4 x55 | s74 => DD x4 x56 | s75 => DD x4 x57 | s76 => DD x4 x58 | s77 => DD x4 x59 | s78 => DD x4 x60 | s79 => DD x4 x61 | s80 => DD x4 x62 | s81 => DD x4 x63 | s82 => DD x5 x0 | s83 => DD x5 x1 | s84 => DD x5 x2 | s85 => DD x5 x3 | s86 => DD x5 x4 | s87 => DD x5 x5 | s88 => DD x5 x6 | s89 => DD x5 x7 | s90 => DD x5 x8 | s91 => DD x5 x9 | s92 => DD x5 x10 | s93 => DD x5 x11 | s94 => DD x5 x12 | s95 => DD x5 x13 | s96 => DD x5 x14 | s97 => DD x5 x15 | s98 => DD x5 x16 | s99 => DD x5 x17 | s100 => DD x5 x18 | s101 => DD x5 x19 | s102 => DD x5 x20 | s103 => DD x5 x21 | s104 => DD x5 x22 | s105 => DD x5 x23 | s106 => DD x5 x24 | s107 => DD x5 x25 | s108 => DD x5 x26 | s109 => DD x5 x27 | s110 => DD x5 x28 | s111 => DD x5 x29 | s112 => DD x5 x30 | s113 => DD x5 x31 | s114 => DD x5 x32 | s115 => DD x5 x33 | s116 => DD x5 x34 | s117 => DD x5 x35 | s118 => DD x5 x36 | s119 => DD x5 x37 | s120 => DD x5 x38 | s121 => DD x5 x39 | s122 => DD x5 x40 | s123 => DD x5 x41 | s124 => DD x5 x42 | s125 => DD x5 x43 | s126 => DD x5 x44 end.
Definition m240 (c : sum2) : dd := match c with s0 => DD x3 x48 | s1 => DD x3 x49 | s2 => DD x3 x50 | s3 => DD x3 x51 | s4 => DD x3 x52 | s5 => DD x3 x53 | s6 => DD x3 x54 | s7 => DD x3 x55 | s8 => DD x3 x56 | s9 => DD x3 x57 | s10 => DD x3 x58 | s11 => DD x3 x59 | s12 => DD x3 x60 | s13 => DD x3 x61 | s14 => DD x3 x62 | s15 => DD x3 x63 | s16 => DD x4 x0 | s17 => DD x4 x1 | s18 => DD x4 x2 | s19 => DD x4 x3 | s20 => DD x4 x4 | s21 => DD x4 x5 | s22 => DD x4 x6 | s23 => DD x4 x7 | s24 => DD x4 x8 | s25 => DD x4 x9 | s26 => DD x4 x10 | s27 => DD x4 x11 | s28 => DD x4 x12 | s29 => DD x4 x13 | s30 => DD x4 x14 | s31 => DD x4 x15 | s32 => DD x4 x16 | s33 => DD x4 x17 | s34 => DD x4 x18 | s35 => DD x4 x19 | s36 => DD x4 x20 | s37 => DD x4 x21 | s38 => DD x4 x22 | s39 => DD x4 x23 | s40 => DD x4 x24 | s41 => DD x4 x25 | s42 => DD x4 x26 | s43 => DD x4 x27 | s44 => DD x4 x28 | s45 => DD x4 x29 | s46 => DD x4 x30 | s47 => DD x4 x31 | s48 => DD x4 x32 | s49 => DD x4 x33 | s50 => DD x4 x34 | s51 => DD x4 x35 | s52 => DD x4 x36 | s53 => DD x4 x37 | s54 => DD x4 x38 | s55 => DD x4 x39 | s56 => DD x4 x40 | s57 => DD x4 x41 | s58 => DD x4 x42 | s59 => DD x4 x43 | s60 => DD x4 x44 | s61 => DD x4 x45 | s62 => DD x4 x46 | s63 => DD x4 x47 | s64 => DD x4 x48 | s65 => DD x4 x49 | s66 => DD x4 x50 | s67 => DD x4 x51 | s68 => DD x4 x52 | s69 => DD x4 x53 | s70 => DD x4 x54 | s71 => DD x4 x55 | s72 => DD x4 x56 | s73 => DD x4 x57 | s74 => DD x4 x58 | s75 => DD x4 x59 | s76 => DD x4 x60 | s77 => DD x4 x61 | s78 => DD x4 x62 | s79 => DD x4 x63 | s80 => DD x5 x0 | s81 => DD x5 x1 | s82 => DD x5 x2 | s83 => DD x5 x3 | s84 => DD x5 x4 | s85 => DD x5 x5 | s86 => DD x5 x6 | s87 => DD x5 x7 | s88 => DD x5 x8 | s89 => DD x5 x9 | s90 => DD x5 x10 | s91 => DD x5 x11 | s92 => DD x5 x12 | s93 => DD x5 x13 | s94 => DD x5 x14 | s95 => DD x5 x15 | s96 => DD x5 x16 | s97 => DD x5 x17 | s98 => DD x5 x18 | s99 => DD x5 x19 | s100 => DD x5 x20 | s101 => DD x5 x21 | s102 => DD x5 x22 | s103 => DD x5 x23 | s104 => DD x5 x24 | s105 => DD x5 x25 | s106 => DD x5 x26 | s107 => DD x5 x27 | s108 => DD x5 x28 | s109 => DD x5 x29 | s110 => DD x5 x30 | s111 => DD x5 x31 | s112 => DD x5 x32 | s113 => DD x5 x33 | s114 => DD x5 x34 | s115 => DD x5 x35 | s116 => DD x5 x36 | s117 => DD x5 x37 | s118 => DD x5 x38 | s119 => DD x5 x39 | s120 => DD x5 x40 | s121 => DD x5 x41 | s122 => DD x5 x42 | s123 => DD x5 x43 | s124 => DD x5 x44 | s125 => DD x5 x45 | s126 => DD x5 x46 end.
Definition m242 (c : sum2) : dd := match c with s0 => DD x3 x50 | s1 => DD x3 x51 | s2 => DD x3 x52 | s3 => DD x3 x53 | s4 => DD x3 x54 | s5 => DD x3 x55 | s6 => DD x3 x56 | s7 => DD x3 x57 | s8 => DD x3 x58 | s9 => DD x3 x59 | s10 => DD x3 x60 | s11 => DD x3 x61 | s12 => DD x3 x62 | s13 => DD x3 x63 | s14 => DD x4 x0 | s15 => DD x4 x1 | s16 => DD x4 x2 | s17 => DD x4 x3 | s18 => DD x4 x4 | s19 => DD x4 x5 | s20 => DD x4 x6 | s21 => DD x4 x7 | s22 => DD x4 x8 | s23 => DD x4 x9 | s24 => DD x4 x10 | s25 => DD x4 x11 | s26 => DD x4 x12 | s27 => DD x4 x13 | s28 => DD x4 x14 | s29 => DD x4 x15 | s30 => DD x4 x16 | s31 => DD x4 x17 | s32 => DD x4 x18 | s33 => DD x4 x19 | s34 => DD x4 x20 | s35 => DD x4 x21 | s36 => DD x4 x22 | s37 => DD x4 x23 | s38 => DD x4 x24 | s39 => DD x4 x25 | s40 => DD x4 x26 | s41 => DD x4 x27 | s42 => DD x4 x28 | s43 => DD x4 x29 | s44 => DD x4 x30 | s45 => DD x4 x31 | s46 => DD x4 x32 | s47 => DD x4 x33 | s48 => DD x4 x34 | s49 => DD x4 x35 | s50 => DD x4 x36 | s51 => DD x4 x37 | s52 => DD x4 x38 | s53 => DD x4 x39 | s54 => DD x4 x40 | s55 => DD x4 x41 | s56 => DD x4 x42 | s57 => DD x4 x43 | s58 => DD x4 x44 | s59 => DD x4 x45 | s60 => DD x4 x46 | s61 => DD x4 x47 | s62 => DD x4 x48 | s63 => DD x4 x49 | s64 => DD x4 x50 | s65 => DD x4 x51 | s66 => DD x4 x52 | s67 => DD x4 x53 | s68 => DD x4 x54 | s69 => DD x4 x55 | s70 => DD x4 x56 | s71 => DD x4 x57 | s72 => DD x4 x58 | s73 => DD x4 x59 | s74 => DD x4 x60 | s75 => DD x4 x61 | s76 => DD x4 x62 | s77 => DD x4 x63 | s78 => DD x5 x0 | s79 => DD x5 x1 | s80 => DD x5 x2 | s81 => DD x5 x3 | s82 => DD x5 x4 | s83 => DD x5 x5 | s84 => DD x5 x6 | s85 => DD x5 x7 | s86 => DD x5 x8 | s87 => DD x5 x9 | s88 => DD x5 x10 | s89 => DD x5 x11 | s90 => DD x5 x12 | s91 => DD x5 x13 | s92 => DD x5 x14 | s93 => DD x5 x15 | s94 => DD x5 x16 | s95 => DD x5 x17 | s96 => DD x5 x18 | s97 => DD x5 x19 | s98 => DD x5 x20 | s99 => DD x5 x21 | s100 => DD x5 x22 | s101 => DD x5 x23 | s102 => DD x5 x24 | s103 => DD x5 x25 | s104 => DD x5 x26 | s105 => DD x5 x27 | s106 => DD x5 x28 | s107 => DD x5 x29 | s108 => DD x5 x30 | s109 => DD x5 x31 | s110 => DD x5 x32 | s111 => DD x5 x33 | s112 => DD x5 x34 | s113 => DD x5 x35 | s114 => DD x5 x36 | s115 => DD x5 x37 | s116 => DD x5 x38 | s117 => DD x5 x39 | s118 => DD x5 x40 | s119 => DD x5 x41 | s120 => DD x5 x42 | s121 => DD x5 x43 | s122 => DD x5 x44 | s123 => DD x5 x45 | s124 => DD x5 x46 | s125 => DD x5 x47 | s126 => DD x5 x48 end.
Definition m243 (c : sum2) : dd := match c with s0 => DD x3 x51 | s1 => DD x3 x52 | s2 => DD x3 x53 | s3 => DD x3 x54 | s4 => DD x3 x55 | s5 => DD x3 x56 | s6 => DD x3 x57 | s7 => DD x3 x58 | s8 => DD x3 x59 | s9 => DD x3 x60 | s10 => DD x3 x61 | s11 => DD x3 x62 | s12 => DD x3 x63 | s13 => DD x4 x0 | s14 => DD x4 x1 | s15 => DD x4 x2 | s16 => DD x4 x3 | s17 => DD x4 x4 | s18 => DD x4 x5 | s19 => DD x4 x6 | s20 => DD x4 x7 | s21 => DD x4 x8 | s22 => DD x4 x9 | s23 => DD x4 x10 | s24 => DD x4 x11 | s25 => DD x4 x12 | s26 => DD x4 x13 | s27 => DD x4 x14 | s28 => DD x4 x15 | s29 => DD x4 x16 | s30 => DD x4 x17 | s31 => DD x4 x18 | s32 => DD x4 x19 | s33 => DD x4 x20 | s34 => DD x4 x21 | s35 => DD x4 x22 | s36 => DD x4 x23 | s37 => DD x4 x24 | s38 => DD x4 x25 | s39 => DD x4 x26 | s40 => DD x4 x27 | s41 => DD x4 x28 | s42 => DD x4 x29 | s43 => DD x4 x30 | s44 => DD x4 x31 | s45 => DD x4 x32 | s46 => DD x4 x33 | s47 => DD x4 x34 | s48 => DD x4 x35 | s49 => DD x4 x36 | s50 => DD x4 x37 | s51 => DD x4 x38 | s52 => DD x4 x39 | s53 => DD x4 x40 | s54 => DD x4 x41 | s55 => DD x4 x42 | s56 => DD x4 x43 | s57 => DD x4 x44 | s58 => DD x4 x45 | s59 => DD x4 x46 | s60 => DD x4 x47 | s61 => DD x4 x48 | s62 => DD x4 x49 | s63 => DD x4 x50 | s64 => DD x4 x51 | s65 => DD x4 x52 | s66 => DD x4 x53 | s67 => DD x4 x54 | s68 => DD x4 x55 | s69 => DD x4 x56 | s70 => DD x4 x57 | s71 => DD x4 x58 | s72 => DD x4 x59 | s73 => DD x4 x60 | s74 => DD x4 x61 | s75 => DD x4 x62 | s76 => DD x4 x63 | s77 => DD x5 x0 | s78 => DD x5 x1 | s79 => DD x5 x2 | s80 => DD x5 x3 | s81 => DD x5 x4 | s82 => DD x5 x5 | s83 => DD x5 x6 | s84 => DD x5 x7 | s85 => DD x5 x8 | s86 => DD x5 x9 | s87 => DD x5 x10 | s88 => DD x5 x11 | s89 => DD x5 x12 | s90 => DD x5 x13 | s91 => DD x5 x14 | s92 => DD x5 x15 | s93 => DD x5 x16 | s94 => DD x5 x17 | s95 => DD x5 x18 | s96 => DD x5 x19 | s97 => DD x5 x20 | s98 => DD x5 x21 | s99 => DD x5 x22 | s100 => DD x5 x23 | s101 => DD x5 x24 | s102 => DD x5 x25 | s103 => DD x5 x26 | s104 => DD x5 x27 | s105 => DD x5 x28 | s106 => DD x5 x29 | s107 => DD x5 x30 | s108 => DD x5 x31 | s109 => DD x5 x32 | s110 => DD x5 x33 | s111 => DD x5 x34 | s112 => DD x5 x35 | s113 => DD x5 x36 | s114 => DD x5 x37 | s115 => DD x5 x38 | s116 => DD x5 x39 | s117 => DD x5 x40 | s118 => DD x5 x41 | s119 => DD x5 x42 | s120 => DD x5 x43 | s121 => DD x5 x44 | s122 => DD x5 x45 | s123 => DD x5 x46 | s124 => DD x5 x47 | s125 => DD x5 x48 | s126 => DD x5 x49 end.
Definition m244 (c : sum2) : dd := match c with s0 => DD x3 x52 | s1 => DD x3 x53 | s2 => DD x3 x54 | s3 => DD x3 x55 | s4 => DD x3 x56 | s5 => DD x3 x57 | s6 => DD x3 x58 | s7 => DD x3 x59 | s8 => DD x3 x60 | s9 => DD x3 x61 | s10 => DD x3 x62 | s11 => DD x3 x63 | s12 => DD x4 x0 | s13 => DD x4 x1 | s14 => DD x4 x2 | s15 => DD x4 x3 | s16 => DD x4 x4 | s17 => DD x4 x5 | s18 => DD x4 x6 | s19 => DD x4 x7 | s20 => DD x4 x8 | s21 => DD x4 x9 | s22 => DD x4 x10 | s23 => DD x4 x11 | s24 => DD x4 x12 | s25 => DD x4 x13 | s26 => DD x4 x14 | s27 => DD x4 x15 | s28 => DD x4 x16 | s29 => DD x4 x17 | s30 => DD x4 x18 | s31 => DD x4 x19 | s32 => DD x4 x20 | s33 => DD x4 x21 | s34 => DD x4 x22 | s35 => DD x4 x23 | s36 => DD x4 x24 | s37 => DD x4 x25 | s38 => DD x4 x26 | s39 => DD x4 x27 | s40 => DD x4 x28 | s41 => DD x4 x29 | s42 => DD x4 x30 | s43 => DD x4 x31 | s44 => DD x4 x32 | s45 => DD x4 x33 | s46 => DD x4 x34 | s47 => DD x4 x35 | s48 => DD x4 x36 | s49 => DD x4 x37 | s50 => DD x4 x38 | s51 => DD x4 x39 | s52 => DD x4 x40 | s53 => DD x4 x41 | s54 => DD x4 x42 | s55 => DD x4 x43 | s56 => DD x4 x44 | s57 => DD x4 x45 | s58 => DD x4 x46 | s59 => DD x4 x47 | s60 => DD x4 x48 | s61 => DD x4 x49 | s62 => DD x4 x50 | s63 => DD x4 x51 | s64 => DD x4 x52 | s65 => DD x4 x53 | s66 => DD x4 x54 | s67 => DD x4 x55 | s68 => DD x4 x56 | s69 => DD x4 x57 | s70 => DD x4 x58 | s71 => DD x4 x59 | s72 => DD x4 x60 | s73 => DD x4 x61 | s74 => DD x4 x62 | s75 => DD x4 x63 | s76 => DD x5 x0 | s77 => DD x5 x1 | s78 => DD x5 x2 | s79 => DD x5 x3 | s80 => DD x5 x4 | s81 => DD x5 x5 | s82 => DD x5 x6 | s83 => DD x5 x7 | s84 => DD x5 x8 | s85 => DD x5 x9 | s86 => DD x5 x10 | s87 => DD x5 x11 | s88 => DD x5 x12 | s89 => DD x5 x13 | s90 => DD x5 x14 | s91 => DD x5 x15 | s92 => DD x5 x16 | s93 => DD x5 x17 | s94 => DD x5 x18 | s95 => DD x5 x19 | s96 => DD x5 x20 | s97 => DD x5 x21 | s98 => DD x5 x22 | s99 => DD x5 x23 | s100 => DD x5 x24 | s101 => DD x5 x25 | s102 => DD x5 x26 | s103 => DD x5 x27 | s104 => DD x5 x28 | s105 => DD x5 x29 | s106 => DD x5 x30 | s107 => DD x5 x31 | s108 => DD x5 x32 | s109 => DD x5 x33 | s110 => DD x5 x34 | s111 => DD x5 x35 | s112 => DD x5 x36 | s113 => DD x5 x37 | s114 => DD x5 x38 | s115 => DD x5 x39 | s116 => DD x5 x40 | s117 => DD x5 x41 | s118 => DD x5 x42 | s119 => DD x5 x43 | s120 => DD x5 x44 | s121 => DD x5 x45 | s122 => DD x5 x46 | s123 => DD x5 x47 | s124 => DD x5 x48 | s125 => DD x5 x49 | s126 => DD x5 x50 end.
Definition m245 (c : sum2) : dd := match c with s0 => DD x3 x53 | s1 => DD x3 x54 | s2 => DD x3 x55 | s3 => DD x3 x56 | s4 => DD x3 x57 | s5 => DD x3 x58 | s6 => DD x3 x59 | s7 => DD x3 x60 | s8 => DD x3 x61 | s9 => DD x3 x62 | s10 => DD x3 x63 | s11 => DD x4 x0 | s12 => DD x4 x1 | s13 => DD x4 x2 | s14 => DD x4 x3 | s15 => DD x4 x4 | s16 => DD x4 x5 | s17 => DD x4 x6 | s18 => DD x4 x7 | s19 => DD x4 x8 | s20 => DD x4 x9 | s21 => DD x4 x10 | s22 => DD x4 x11 | s23 => DD x4 x12 | s24 => DD x4 x13 | s25 => DD x4 x14 | s26 => DD x4 x15 | s27 => DD x4 x16 | s28 => DD x4 x17 | s29 => DD x4 x18 | s30 => DD x4 x19 | s31 => DD x4 x20 | s32 => DD x4 x21 | s33 => DD x4 x22 | s34 => DD x4 x23 | s35 => DD x4 x24 | s36 => DD x4 x25 | s37 => DD x4 x26 | s38 => DD x4 x27 | s39 => DD x4 x28 | s40 => DD x4 x29 | s41 => DD x4 x30 | s42 => DD x4 x31 | s43 => DD x4 x32 | s44 => DD x4 x33 | s45 => DD x4 x34 | s46 => DD x4 x35 | s47 => DD x4 x36 | s48 => DD x4 x37 | s49 => DD x4 x38 | s50 => DD x4 x39 | s51 => DD x4 x40 | s52 => DD x4 x41 | s53 => DD x4 x42 | s54 => DD x4 x43 | s55 => DD x4 x44 | s56 => DD x4 x45 | s57 => DD x4 x46 | s58 => DD x4 x47 | s59 => DD x4 x48 | s60 => DD x4 x49 | s61 => DD x4 x50 | s62 => DD x4 x51 | s63 => DD x4 x52 | s64 => DD x4 x53 | s65 => DD x4 x54 | s66 => DD x4 x55 | s67 => DD x4 x56 | s68 => DD x4 x57 | s69 => DD x4 x58 | s70 => DD x4 x59 | s71 => DD x4 x60 | s72 => DD x4 x61 | s73 => DD x4 x62 | s74 => DD x4 x63 | s75 => DD x5 x0 | s76 => DD x5 x1 | s77 => DD x5 x2 | s78 => DD x5 x3 | s79 => DD x5 x4 | s80 => DD x5 x5 | s81 => DD x5 x6 | s82 => DD x5 x7 | s83 => DD x5 x8 | s84 => DD x5 x9 | s85 => DD x5 x10 | s86 => DD x5 x11 | s87 => DD x5 x12 | s88 => DD x5 x13 | s89 => DD x5 x14 | s90 => DD x5 x15 | s91 => DD x5 x16 | s92 => DD x5 x17 | s93 => DD x5 x18 | s94 => DD x5 x19 | s95 => DD x5 x20 | s96 => DD x5 x21 | s97 => DD x5 x22 | s98 => DD x5 x23 | s99 => DD x5 x24 | s100 => DD x5 x25 | s101 => DD x5 x26 | s102 => DD x5 x27 | s103 => DD x5 x28 | s104 => DD x5 x29 | s105 => DD x5 x30 | s106 => DD x5 x31 | s107 => DD x5 x32 | s108 => DD x5 x33 | s109 => DD x5 x34 | s110 => DD x5 x35 | s111 => DD x5 x36 | s112 => DD x5 x37 | s113 => DD x5 x38 | s114 => DD x5 x39 | s115 => DD x5 x40 | s116 => DD x5 x41 | s117 => DD x5 x42 | s118 => DD x5 x43 | s119 => DD x5 x44 | s120 => DD x5 x45 | s121 => DD x5 x46 | s122 => DD x5 x47 | s123 => DD x5 x48 | s124 => DD x5 x49 | s125 => DD x5 x50 | s126 => DD x5 x51 end.
Definition m246 (c : sum2) : dd := match c with s0 => DD x3 x54 | s1 => DD x3 x55 | s2 => DD x3 x56 | s3 => DD x3 x57 | s4 => DD x3 x58 | s5 => DD x3 x59 | s6 => DD x3 x60 | s7 => DD x3 x61 | s8 => DD x3 x62 | s9 => DD x3 x63 | s10 => DD x4 x0 | s11 => DD x4 x1 | s12 => DD x4 x2 | s13 => DD x4 x3 | s14 => DD x4 x4 | s15 => DD x4 x5 | s16 => DD x4 x6 | s17 => DD x4 x7 | s18 => DD x4 x8 | s19 => DD x4 x9 | s20 => DD x4 x10 | s21 => DD x4 x11 | s22 => DD x4 x12 | s23 => DD x4 x13 | s24 => DD x4 x14 | s25 => DD x4 x15 | s26 => DD x4 x16 | s27 => DD x4 x17 | s28 => DD x4 x18 | s29 => DD x4 x19 | s30 => DD x4 x20 | s31 => DD x4 x21 | s32 => DD x4 x22 | s33 => DD x4 x23 | s34 => DD x4 x24 | s35 => DD x4 x25 | s36 => DD x4 x26 | s37 => DD x4 x27 | s38 => DD x4 x28 | s39 => DD x4 x29 | s40 => DD x4 x30 | s41 => DD x4 x31 | s42 => DD x4 x32 | s43 => DD x4 x33 | s44 => DD x4 x34 | s45 => DD x4 x35 | s46 => DD x4 x36 | s47 => DD x4 x37 | s48 => DD x4 x38 | s49 => DD x4 x39 | s50 => DD x4 x40 | s51 => DD x4 x41 | s52 => DD x4 x42 | s53 => DD x4 x43 | s54 => DD x4 x44 | s55 => DD x4 x45 | s56 => DD x4 x46 | s57 => DD x4 x47 | s58 => DD x4 x48 | s59 => DD x4 x49 | s60 => DD x4 x50 | s61 => DD x4 x51 | s62 => DD x4 x52 | s63 => DD x4 x53 | s64 => DD x4 x54 | s65 => DD x4 x55 | s66 => DD x4 x56 | s67 => DD x4 x57 | s68 => DD x4 x58 | s69 => DD x4 x59 | s70 => DD x4 x60 | s71 => DD x4 x61 | s72 => DD x4 x62 | s73 => DD x4 x63 | s74 => DD x5 x0 | s75 => DD x5 x1 | s76 => DD x5 x2 | s77 => DD x5 x3 | s78 => DD x5 x4 | s79 => DD x5 x5 | s80 => DD x5 x6 | s81 => DD x5 x7 | s82 => DD x5 x8 | s83 => DD x5 x9 | s84 => DD x5 x10 | s85 => DD x5 x11 | s86 => DD x5 x12 | s87 => DD x5 x13 | s88 => DD x5 x14 | s89 => DD x5 x15 | s90 => DD x5 x16 | s91 => DD x5 x17 | s92 => DD x5 x18 | s93 => DD x5 x19 | s94 => DD x5 x20 | s95 => DD x5 x21 | s96 => DD x5 x22 | s97 => DD x5 x23 | s98 => DD x5 x24 | s99 => DD x5 x25 | s100 => DD x5 x26 | s101 => DD x5 x27 | s102 => DD x5 x28 | s103 => DD x5 x29 | s104 => DD x5 x30 | s105 => DD x5 x31 | s106 => DD x5 x32 | s107 => DD x5 x33 | s108 => DD x5 x34 | s109 => DD x5 x35 | s110 => DD x5 x36 | s111 => DD x5 x37 | s112 => DD x5 x38 | s113 => DD x5 x39 | s114 => DD x5 x40 | s115 => DD x5 x41 | s116 => DD x5 x42 | s117 => DD x5 x43 | s118 => DD x5 x44 | s119 => DD x5 x45 | s120 => DD x5 x46 | s121 => DD x5 x47 | s122 => DD x5 x48 | s123 => DD x5 x49 | s124 => DD x5 x50 | s125 => DD x5 x51 | s126 => DD x5 x52 end.
Definition m247 (c : sum2) : dd := match c with s0 => DD x3 x55 | s1 => DD x3 x56 | s2 => DD x3 x57 | s3 => DD x3 x58 | s4 => DD x3 x59 | s5 => DD x3 x60 | s6 => DD x3 x61 | s7 => DD x3 x62 | s8 => DD x3 x63 | s9 => DD x4 x0 | s10 => DD x4 x1 | s11 => DD x4 x2 | s12 => DD x4 x3 | s13 => DD x4 x4 | s14 => DD x4 x5 | s15 => DD x4 x6 | s16 => DD x4 x7 | s17 => DD x4 x8 | s18 => DD x4 x9 | s19 => DD x4 x10 | s20 => DD x4 x11 | s21 => DD x4 x12 | s22 => DD x4 x13 | s23 => DD x4 x14 | s24 => DD x4 x15 | s25 => DD x4 x16 | s26 => DD x4 x17 | s27 => DD x4 x18 | s28 => DD x4 x19 | s29 => DD x4 x20 | s30 => DD x4 x21 | s31 => DD x4 x22 | s32 => DD x4 x23 | s33 => DD x4 x24 | s34 => DD x4 x25 | s35 => DD x4 x26 | s36 => DD x4 x27 | s37 => DD x4 x28 | s38 => DD x4 x29 | s39 => DD x4 x30 | s40 => DD x4 x31 | s41 => DD x4 x32 | s42 => DD x4 x33 | s43 => DD x4 x34 | s44 => DD x4 x35 | s45 => DD x4 x36 | s46 => DD x4 x37 | s47 => DD x4 x38 | s48 => DD x4 x39 | s49 => DD x4 x40 | s50 => DD x4 x41 | s51 => DD x4 x42 | s52 => DD x4 x43 | s53 => DD x4 x44 | s54 => DD x4 x45 | s55 => DD x4 x46 | s56 => DD x4 x47 | s57 => DD x4 x48 | s58 => DD x4 x49 | s59 => DD x4 x50 | s60 => DD x4 x51 | s61 => DD x4 x52 | s62 => DD x4 x53 | s63 => DD x4 x54 | s64 => DD x4 x55 | s65 => DD x4 x56 | s66 => DD x4 x57 | s67 => DD x4 x58 | s68 => DD x4 x59 | s69 => DD x4 x60 | s70 => DD x4 x61 | s71 => DD x4 x62 | s72 => DD x4 x63 | s73 => DD x5 x0 | s74 => DD x5 x1 | s75 => DD x5 x2 | s76 => DD x5 x3 | s77 => DD x5 x4 | s78 => DD x5 x5 | s79 => DD x5 x6 | s80 => DD x5 x7 | s81 => DD x5 x8 | s82 => DD x5 x9 | s83 => DD x5 x10 | s84 => DD x5 x11 | s85 => DD x5 x12 | s86 => DD x5 x13 | s87 => DD x5 x14 | s88 => DD x5 x15 | s89 => DD x5 x16 | s90 => DD x5 x17 | s91 => DD x5 x18 | s92 => DD x5 x19 | s93 => DD x5 x20 | s94 => DD x5 x21 | s95 => DD x5 x22 | s96 => DD x5 x23 | s97 => DD x5 x24 | s98 => DD x5 x25 | s99 => DD x5 x26 | s100 => DD x5 x27 | s101 => DD x5 x28 | s102 => DD x5 x29 | s103 => DD x5 x30 | s104 => DD x5 x31 | s105 => DD x5 x32 | s106 => DD x5 x33 | s107 => DD x5 x34 | s108 => DD x5 x35 | s109 => DD x5 x36 | s110 => DD x5 x37 | s111 => DD x5 x38 | s112 => DD x5 x39 | s113 => DD x5 x40 | s114 => DD x5 x41 | s115 => DD x5 x42 | s116 => DD x5 x43 | s117 => DD x5 x44 | s118 => DD x5 x45 | s119 => DD x5 x46 | s120 => DD x5 x47 | s121 => DD x5 x48 | s122 => DD x5 x49 | s123 => DD x5 x50 | s124 => DD x5 x51 | s125 => DD x5 x52 | s126 => DD x5 x53 end.
Definition m248 (c : sum2) : dd := match c with s0 => DD x3 x56 | s1 => DD x3 x57 | s2 => DD x3 x58 | s3 => DD x3 x59 | s4 => DD x3 x60 | s5 => DD x3 x61 | s6 => DD x3 x62 | s7 => DD x3 x63 | s8 => DD x4 x0 | s9 => DD x4 x1 | s10 => DD x4 x2 | s11 => DD x4 x3 | s12 => DD x4 x4 | s13 => DD x4 x5 | s14 => DD x4 x6 | s15 => DD x4 x7 | s16 => DD x4 x8 | s17 => DD x4 x9 | s18 => DD x4 x10 | s19 => DD x4 x11 | s20 => DD x4 x12 | s21 => DD x4 x13 | s22 => DD x4 x14 | s23 => DD x4 x15 | s24 => DD x4 x16 | s25 => DD x4 x17 | s26 => DD x4 x18 | s27 => DD x4 x19 | s28 => DD x4 x20 | s29 => DD x4 x21 | s30 => DD x4 x22 | s31 => DD x4 x23 | s32 => DD x4 x24 | s33 => DD x4 x25 | s34 => DD x4 x26 | s35 => DD x4 x27 | s36 => DD x4 x28 | s37 => DD x4 x29 | s38 => DD x4 x30 | s39 => DD x4 x31 | s40 => DD x4 x32 | s41 => DD x4 x33 | s42 => DD x4 x34 | s43 => DD x4 x35 | s44 => DD x4 x36 | s45 => DD x4 x37 | s46 => DD x4 x38 | s47 => DD x4 x39 | s48 => DD x4 x40 | s49 => DD x4 x41 | s50 => DD x4 x42 | s51 => DD x4 x43 | s52 => DD x4 x44 | s53 => DD x4 x45 | s54 => DD x4 x46 | s55 => DD x4 x47 | s56 => DD x4 x48 | s57 => DD x4 x49 | s58 => DD x4 x50 | s59 => DD x4 x51 | s60 => DD x4 x52 | s61 => DD x4 x53 | s62 => DD x4 x54 | s63 => DD x4 x55 | s64 => DD x4 x56 | s65 => DD x4 x57 | s66 => DD x4 x58 | s67 => DD x4 x59 | s68 => DD x4 x60 | s69 => DD x4 x61 | s70 => DD x4 x62 | s71 => DD x4 x63 | s72 => DD x5 x0 | s73 => DD x5 x1 | s74 => DD x5 x2 | s75 => DD x5 x3 | s76 => DD x5 x4 | s77 => DD x5 x5 | s78 => DD x5 x6 | s79 => DD x5 x7 | s80 => DD x5 x8 | s81 => DD x5 x9 | s82 => DD x5 x10 | s83 => DD x5 x11 | s84 => DD x5 x12 | s85 => DD x5 x13 | s86 => DD x5 x14 | s87 => DD x5 x15 | s88 => DD x5 x16 | s89 => DD x5 x17 | s90 => DD x5 x18 | s91 => DD x5 x19 | s92 => DD x5 x20 | s93 => DD x5 x21 | s94 => DD x5 x22 | s95 => DD x5 x23 | s96 => DD x5 x24 | s97 => DD x5 x25 | s98 => DD x5 x26 | s99 => DD x5 x27 | s100 => DD x5 x28 | s101 => DD x5 x29 | s102 => DD x5 x30 | s103 => DD x5 x31 | s104 => DD x5 x32 | s105 => DD x5 x33 | s106 => DD x5 x34 | s107 => DD x5 x35 | s108 => DD x5 x36 | s109 => DD x5 x37 | s110 => DD x5 x38 | s111 => DD x5 x39 | s112 => DD x5 x40 | s113 => DD x5 x41 | s114 => DD x5 x42 | s115 => DD x5 x43 | s116 => DD x5 x44 | s117 => DD x5 x45 | s118 => DD x5 x46 | s119 => DD x5 x47 | s120 => DD x5 x48 | s121 => DD x5 x49 | s122 => DD x5 x50 | s123 => DD x5 x51 | s124 => DD x5 x52 | s125 => DD x5 x53 | s126 => DD x5 x54 end.
Definition m250 (c : sum2) : dd := match c with s0 => DD x3 x58 | s1 => DD x3 x59 | s2 => DD x3 x60 | s3 => DD x3 x61 | s4 => DD x3 x62 | s5 => DD x3 x63 | s6 => DD x4 x0 | s7 => DD x4 x1 | s8 => DD x4 x2 | s9 => DD x4 x3 | s10 => DD x4 x4 | s11 => DD x4 x5 | s12 => DD x4 x6 | s13 => DD x4 x7 | s14 => DD x4 x8 | s15 => DD x4 x9 | s16 => DD x4 x10 | s17 => DD x4 x11 | s18 => DD x4 x12 | s19 => DD x4 x13 | s20 => DD x4 x14 | s21 => DD x4 x15 | s22 => DD x4 x16 | s23 => DD x4 x17 | s24 => DD x4 x18 | s25 => DD x4 x19 | s26 => DD x4 x20 | s27 => DD x4 x21 | s28 => DD x4 x22 | s29 => DD x4 x23 | s30 => DD x4 x24 | s31 => DD x4 x25 | s32 => DD x4 x26 | s33 => DD x4 x27 | s34 => DD x4 x28 | s35 => DD x4 x29 | s36 => DD x4 x30 | s37 => DD x4 x31 | s38 => DD x4 x32 | s39 => DD x4 x33 | s40 => DD x4 x34 | s41 => DD x4 x35 | s42 => DD x4 x36 | s43 => DD x4 x37 | s44 => DD x4 x38 | s45 => DD x4 x39 | s46 => DD x4 x40 | s47 => DD x4 x41 | s48 => DD x4 x42 | s49 => DD x4 x43 | s50 => DD x4 x44 | s51 => DD x4 x45 | s52 => DD x4 x46 | s53 => DD x4 x47 | s54 => DD x4 x48 | s55 => DD x4 x49 | s56 => DD x4 x50 | s57 => DD x4 x51 | s58 => DD x4 x52 | s59 => DD x4 x53 | s60 => DD x4 x54 | s61 => DD x4 x55 | s62 => DD x4 x56 | s63 => DD x4 x57 | s64 => DD x4 x58 | s65 => DD x4 x59 | s66 => DD x4 x60 | s67 => DD x4 x61 | s68 => DD x4 x62 | s69 => DD x4 x63 | s70 => DD x5 x0 | s71 => DD x5 x1 | s72 => DD x5 x2 | s73 => DD x5 x3 | s74 => DD x5 x4 | s75 => DD x5 x5 | s76 => DD x5 x6 | s77 => DD x5 x7 | s78 => DD x5 x8 | s79 => DD x5 x9 | s80 => DD x5 x10 | s81 => DD x5 x11 | s82 => DD x5 x12 | s83 => DD x5 x13 | s84 => DD x5 x14 | s85 => DD x5 x15 | s86 => DD x5 x16 | s87 => DD x5 x17 | s88 => DD x5 x18 | s89 => DD x5 x19 | s90 => DD x5 x20 | s91 => DD x5 x21 | s92 => DD x5 x22 | s93 => DD x5 x23 | s94 => DD x5 x24 | s95 => DD x5 x25 | s96 => DD x5 x26 | s97 => DD x5 x27 | s98 => DD x5 x28 | s99 => DD x5 x29 | s100 => DD x5 x30 | s101 => DD x5 x31 | s102 => DD x5 x32 | s103 => DD x5 x33 | s104 => DD x5 x34 | s105 => DD x5 x35 | s106 => DD x5 x36 | s107 => DD x5 x37 | s108 => DD x5 x38 | s109 => DD x5 x39 | s110 => DD x5 x40 | s111 => DD x5 x41 | s112 => DD x5 x42 | s113 => DD x5 x43 | s114 => DD x5 x44 | s115 => DD x5 x45 | s116 => DD x5 x46 | s117 => DD x5 x47 | s118 => DD x5 x48 | s119 => DD x5 x49 | s120 => DD x5 x50 | s121 => DD x5 x51 | s122 => DD x5 x52 | s123 => DD x5 x53 | s124 => DD x5 x54 | s125 => DD x5 x55 | s126 => DD x5 x56 end.
Definition m252 (c : sum2) : dd := match c with s0 => DD x3 x60 | s1 => DD x3 x61 | s2 => DD x3 x62 | s3 => DD x3 x63 | s4 => DD x4 x0 | s5 => DD x4 x1 | s6 => DD x4 x2 | s7 => DD x4 x3 | s8 => DD x4 x4 | s9 => DD x4 x5 | s10 => DD x4 x6 | s11 => DD x4 x7 | s12 => DD x4 x8 | s13 => DD x4 x9 | s14 => DD x4 x10 | s15 => DD x4 x11 | s16 => DD x4 x12 | s17 => DD x4 x13 | s18 => DD x4 x14 | s19 => DD x4 x15 | s20 => DD x4 x16 | s21 => DD x4 x17 | s22 => DD x4 x18 | s23 => DD x4 x19 | s24 => DD x4 x20 | s25 => DD x4 x21 | s26 => DD x4 x22 | s27 => DD x4 x23 | s28 => DD x4 x24 | s29 => DD x4 x25 | s30 => DD x4 x26 | s31 => DD x4 x27 | s32 => DD x4 x28 | s33 => DD x4 x29 | s34 => DD x4 x30 | s35 => DD x4 x31 | s36 => DD x4 x32 | s37 => DD x4 x33 | s38 => DD x4 x34 | s39 => DD x4 x35 | s40 => DD x4 x36 | s41 => DD x4 x37 | s42 => DD x4 x38 | s43 => DD x4 x39 | s44 => DD x4 x40 | s45 => DD x4 x41 | s46 => DD x4 x42 | s47 => DD x4 x43 | s48 => DD x4 x44 | s49 => DD x4 x45 | s50 => DD x4 x46 | s51 => DD x4 x47 | s52 => DD x4 x48 | s53 => DD x4 x49 | s54 => DD x4 x50 | s55 => DD x4 x51 | s56 => DD x4 x52 | s57 => DD x4 x53 | s58 => DD x4 x54 | s59 => DD x4 x55 | s60 => DD x4 x56 | s61 => DD x4 x57 | s62 => DD x4 x58 | s63 => DD x4 x59 | s64 => DD x4 x60 | s65 => DD x4 x61 | s66 => DD x4 x62 | s67 => DD x4 x63 | s68 => DD x5 x0 | s69 => DD x5 x1 | s70 => DD x5 x2 | s71 => DD x5 x3 | s72 => DD x5 x4 | s73 => DD x5 x5 | s74 => DD x5 x6 | s75 => DD x5 x7 | s76 => DD x5 x8 | s77 => DD x5 x9 | s78 => DD x5 x10 | s79 => DD x5 x11 | s80 => DD x5 x12 | s81 => DD x5 x13 | s82 => DD x5 x14 | s83 => DD x5 x15 | s84 => DD x5 x16 | s85 => DD x5 x17 | s86 => DD x5 x18 | s87 => DD x5 x19 | s88 => DD x5 x20 | s89 => DD x5 x21 | s90 => DD x5 x22 | s91 => DD x5 x23 | s92 => DD x5 x24 | s93 => DD x5 x25 | s94 => DD x5 x26 | s95 => DD x5 x27 | s96 => DD x5 x28 | s97 => DD x5 x29 | s98 => DD x5 x30 | s99 => DD x5 x31 | s100 => DD x5 x32 | s101 => DD x5 x33 | s102 => DD x5 x34 | s103 => DD x5 x35 | s104 => DD x5 x36 | s105 => DD x5 x37 | s106 => DD x5 x38 | s107 => DD x5 x39 | s108 => DD x5 x40 | s109 => DD x5 x41 | s110 => DD x5 x42 | s111 => DD x5 x43 | s112 => DD x5 x44 | s113 => DD x5 x45 | s114 => DD x5 x46 | s115 => DD x5 x47 | s116 => DD x5 x48 | s117 => DD x5 x49 | s118 => DD x5 x50 | s119 => DD x5 x51 | s120 => DD x5 x52 | s121 => DD x5 x53 | s122 => DD x5 x54 | s123 => DD x5 x55 | s124 => DD x5 x56 | s125 => DD x5 x57 | s126 => DD x5 x58 end.
Definition m253 (c : sum2) : dd := match c with s0 => DD x3 x61 | s1 => DD x3 x62 | s2 => DD x3 x63 | s3 => DD x4 x0 | s4 => DD x4 x1 | s5 => DD x4 x2 | s6 => DD x4 x3 | s7 => DD x4 x4 | s8 => DD x4 x5 | s9 => DD x4 x6 | s10 => DD x4 x7 | s11 => DD x4 x8 | s12 => DD x4 x9 | s13 => DD x4 x10 | s14 => DD x4 x11 | s15 => DD x4 x12 | s16 => DD x4 x13 | s17 => DD x4 x14 | s18 => DD x4 x15 | s19 => DD x4 x16 | s20 => DD x4 x17 | s21 => DD x4 x18 | s22 => DD x4 x19 | s23 => DD x4 x20 | s24 => DD x4 x21 | s25 => DD x4 x22 | s26 => DD x4 x23 | s27 => DD x4 x24 | s28 => DD x4 x25 | s29 => DD x4 x26 | s30 => DD x4 x27 | s31 => DD x4 x28 | s32 => DD x4 x29 | s33 => DD x4 x30 | s34 => DD x4 x31 | s35 => DD x4 x32 | s36 => DD x4 x33 | s37 => DD x4 x34 | s38 => DD x4 x35 | s39 => DD x4 x36 | s40 => DD x4 x37 | s41 => DD x4 x38 | s42 => DD x4 x39 | s43 => DD x4 x40 | s44 => DD x4 x41 | s45 => DD x4 x42 | s46 => DD x4 x43 | s47 => DD x4 x44 | s48 => DD x4 x45 | s49 => DD x4 x46 | s50 => DD x4 x47 | s51 => DD x4 x48 | s52 => DD x4 x49 | s53 => DD x4 x50 | s54 => DD x4 x51 | s55 => DD x4 x52 | s56 => DD x4 x53 | s57 => DD x4 x54 | s58 => DD x4 x55 | s59 => DD x4 x56 | s60 => DD x4 x57 | s61 => DD x4 x58 | s62 => DD x4 x59 | s63 => DD x4 x60 | s64 => DD x4 x61 | s65 => DD x4 x62 | s66 => DD x4 x63 | s67 => DD x5 x0 | s68 => DD x5 x1 | s69 => DD x5 x2 | s70 => DD x5 x3 | s71 => DD x5 x4 | s72 => DD x5 x5 | s73 => DD x5 x6 | s74 => DD x5 x7 | s75 => DD x5 x8 | s76 => DD x5 x9 | s77 => DD x5 x10 | s78 => DD x5 x11 | s79 => DD x5 x12 | s80 => DD x5 x13 | s81 => DD x5 x14 | s82 => DD x5 x15 | s83 => DD x5 x16 | s84 => DD x5 x17 | s85 => DD x5 x18 | s86 => DD x5 x19 | s87 => DD x5 x20 | s88 => DD x5 x21 | s89 => DD x5 x22 | s90 => DD x5 x23 | s91 => DD x5 x24 | s92 => DD x5 x25 | s93 => DD x5 x26 | s94 => DD x5 x27 | s95 => DD x5 x28 | s96 => DD x5 x29 | s97 => DD x5 x30 | s98 => DD x5 x31 | s99 => DD x5 x32 | s100 => DD x5 x33 | s101 => DD x5 x34 | s102 => DD x5 x35 | s103 => DD x5 x36 | s104 => DD x5 x37 | s105 => DD x5 x38 | s106 => DD x5 x39 | s107 => DD x5 x40 | s108 => DD x5 x41 | s109 => DD x5 x42 | s110 => DD x5 x43 | s111 => DD x5 x44 | s112 => DD x5 x45 | s113 => DD x5 x46 | s114 => DD x5 x47 | s115 => DD x5 x48 | s116 => DD x5 x49 | s117 => DD x5 x50 | s118 => DD x5 x51 | s119 => DD x5 x52 | s120 => DD x5 x53 | s121 => DD x5 x54 | s122 => DD x5 x55 | s123 => DD x5 x56 | s124 => DD x5 x57 | s125 => DD x5 x58 | s126 => DD x5 x59 end.
Definition m255 (c : sum2) : dd := match c with s0 => DD x3 x63 | s1 => DD x4 x0 | s2 => DD x4 x1 | s3 => DD x4 x2 | s4 => DD x4 x3 | s5 => DD x4 x4 | s6 => DD x4 x5 | s7 => DD x4 x6 | s8 => DD x4 x7 | s9 => DD x4 x8 | s10 => DD x4 x9 | s11 => DD x4 x10 | s12 => DD x4 x11 | s13 => DD x4 x12 | s14 => DD x4 x13 | s15 => DD x4 x14 | s16 => DD x4 x15 | s17 => DD x4 x16 | s18 => DD x4 x17 | s19 => DD x4 x18 | s20 => DD x4 x19 | s21 => DD x4 x20 | s22 => DD x4 x21 | s23 => DD x4 x22 | s24 => DD x4 x23 | s25 => DD x4 x24 | s26 => DD x4 x25 | s27 => DD x4 x26 | s28 => DD x4 x27 | s29 => DD x4 x28 | s30 => DD x4 x29 | s31 => DD x4 x30 | s32 => DD x4 x31 | s33 => DD x4 x32 | s34 => DD x4 x33 | s35 => DD x4 x34 | s36 => DD x4 x35 | s37 => DD x4 x36 | s38 => DD x4 x37 | s39 => DD x4 x38 | s40 => DD x4 x39 | s41 => DD x4 x40 | s42 => DD x4 x41 | s43 => DD x4 x42 | s44 => DD x4 x43 | s45 => DD x4 x44 | s46 => DD x4 x45 | s47 => DD x4 x46 | s48 => DD x4 x47 | s49 => DD x4 x48 | s50 => DD x4 x49 | s51 => DD x4 x50 | s52 => DD x4 x51 | s53 => DD x4 x52 | s54 => DD x4 x53 | s55 => DD x4 x54 | s56 => DD x4 x55 | s57 => DD x4 x56 | s58 => DD x4 x57 | s59 => DD x4 x58 | s60 => DD x4 x59 | s61 => DD x4 x60 | s62 => DD x4 x61 | s63 => DD x4 x62 | s64 => DD x4 x63 | s65 => DD x5 x0 | s66 => DD x5 x1 | s67 => DD x5 x2 | s68 => DD x5 x3 | s69 => DD x5 x4 | s70 => DD x5 x5 | s71 => DD x5 x6 | s72 => DD x5 x7 | s73 => DD x5 x8 | s74 => DD x5 x9 | s75 => DD x5 x10 | s76 => DD x5 x11 | s77 => DD x5 x12 | s78 => DD x5 x13 | s79 => DD x5 x14 | s80 => DD x5 x15 | s81 => DD x5 x16 | s82 => DD x5 x17 | s83 => DD x5 x18 | s84 => DD x5 x19 | s85 => DD x5 x20 | s86 => DD x5 x21 | s87 => DD x5 x22 | s88 => DD x5 x23 | s89 => DD x5 x24 | s90 => DD x5 x25 | s91 => DD x5 x26 | s92 => DD x5 x27 | s93 => DD x5 x28 | s94 => DD x5 x29 | s95 => DD x5 x30 | s96 => DD x5 x31 | s97 => DD x5 x32 | s98 => DD x5 x33 | s99 => DD x5 x34 | s100 => DD x5 x35 | s101 => DD x5 x36 | s102 => DD x5 x37 | s103 => DD x5 x38 | s104 => DD x5 x39 | s105 => DD x5 x40 | s106 => DD x5 x41 | s107 => DD x5 x42 | s108 => DD x5 x43 | s109 => DD x5 x44 | s110 => DD x5 x45 | s111 => DD x5 x46 | s112 => DD x5 x47 | s113 => DD x5 x48 | s114 => DD x5 x49 | s115 => DD x5 x50 | s116 => DD x5 x51 | s117 => DD x5 x52 | s118 => DD x5 x53 | s119 => DD x5 x54 | s120 => DD x5 x55 | s121 => DD x5 x56 | s122 => DD x5 x57 | s123 => DD x5 x58 | s124 => DD x5 x59 | s125 => DD x5 x60 | s126 => DD x5 x61 end.
Definition m256 (c : sum2) : dd := match c with s0 => DD x4 x0 | s1 => DD x4 x1 | s2 => DD x4 x2 | s3 => DD x4 x3 | s4 => DD x4 x4 | s5 => DD x4 x5 | s6 => DD x4 x6 | s7 => DD x4 x7 | s8 => DD x4 x8 | s9 => DD x4 x9 | s10 => DD x4 x10 | s11 => DD x4 x11 | s12 => DD x4 x12 | s13 => DD x4 x13 | s14 => DD x4 x14 | s15 => DD x4 x15 | s16 => DD x4 x16 | s17 => DD x4 x17 | s18 => DD x4 x18 | s19 => DD x4 x19 | s20 => DD x4 x20 | s21 => DD x4 x21 | s22 => DD x4 x22 | s23 => DD x4 x23 | s24 => DD x4 x24 | s25 => DD x4 x25 | s26 => DD x4 x26 | s27 => DD x4 x27 | s28 => DD x4 x28 | s29 => DD x4 x29 | s30 => DD x4 x30 | s31 => DD x4 x31 | s32 => DD x4 x32 | s33 => DD x4 x33 | s34 => DD x4 x34 | s35 => DD x4 x35 | s36 => DD x4 x36 | s37 => DD x4 x37 | s38 => DD x4 x38 | s39 => DD x4 x39 | s40 => DD x4 x40 | s41 => DD x4 x41 | s42 => DD x4 x42 | s43 => DD x4 x43 | s44 => DD x4 x44 | s45 => DD x4 x45 | s46 => DD x4 x46 | s47 => DD x4 x47 | s48 => DD x4 x48 | s49 => DD x4 x49 | s50 => DD x4 x50 | s51 => DD x4 x51 | s52 => DD x4 x52 | s53 => DD x4 x53 | s54 => DD x4 x54 | s55 => DD x4 x55 | s56 => DD x4 x56 | s57 => DD x4 x57 | s58 => DD x4 x58 | s59 => DD x4 x59 | s60 => DD x4 x60 | s61 => DD x4 x61 | s62 => DD x4 x62 | s63 => DD x4 x63 | s64 => DD x5 x0 | s65 => DD x5 x1 | s66 => DD x5 x2 | s67 => DD x5 x3 | s68 => DD x5 x4 | s69 => DD x5 x5 | s70 => DD x5 x6 | s71 => DD x5 x7 | s72 => DD x5 x8 | s73 => DD x5 x9 | s74 => DD x5 x10 | s75 => DD x5 x11 | s76 => DD x5 x12 | s77 => DD x5 x13 | s78 => DD x5 x14 | s79 => DD x5 x15 | s80 => DD x5 x16 | s81 => DD x5 x17 | s82 => DD x5 x18 | s83 => DD x5 x19 | s84 => DD x5 x20 | s85 => DD x5 x21 | s86 => DD x5 x22 | s87 => DD x5 x23 | s88 => DD x5 x24 | s89 => DD x5 x25 | s90 => DD x5 x26 | s91 => DD x5 x27 | s92 => DD x5 x28 | s93 => DD x5 x29 | s94 => DD x5 x30 | s95 => DD x5 x31 | s96 => DD x5 x32 | s97 => DD x5 x33 | s98 => DD x5 x34 | s99 => DD x5 x35 | s100 => DD x5 x36 | s101 => DD x5 x37 | s102 => DD x5 x38 | s103 => DD x5 x39 | s104 => DD x5 x40 | s105 => DD x5 x41 | s106 => DD x5 x42 | s107 => DD x5 x43 | s108 => DD x5 x44 | s109 => DD x5 x45 | s110 => DD x5 x46 | s111 => DD x5 x47 | s112 => DD x5 x48 | s113 => DD x5 x49 | s114 => DD x5 x50 | s115 => DD x5 x51 | s116 => DD x5 x52 | s117 => DD x5 x53 | s118 => DD x5 x54 | s119 => DD x5 x55 | s120 => DD x5 x56 | s121 => DD x5 x57 | s122 => DD x5 x58 | s123 => DD x5 x59 | s124 => DD x5 x60 | s125 => DD x5 x61 | s126 => DD x5 x62 end.
Definition m258 (c : sum2) : dd := match c with s0 => DD x4 x2 | s1 => DD x4 x3 | s2 => DD x4 x4 | s3 => DD x4 x5 | s4 => DD x4 x6 | s5 => DD x4 x7 | s6 => DD x4 x8 | s7 => DD x4 x9 | s8 => DD x4 x10 | s9 => DD x4 x11 | s10 => DD x4 x12 | s11 => DD x4 x13 | s12 => DD x4 x14 | s13 => DD x4 x15 | s14 => DD x4 x16 | s15 => DD x4 x17 | s16 => DD x4 x18 | s17 => DD x4 x19 | s18 => DD x4 x20 | s19 => DD x4 x21 | s20 => DD x4 x22 | s21 => DD x4 x23 | s22 => DD x4 x24 | s23 => DD x4 x25 | s24 => DD x4 x26 | s25 => DD x4 x27 | s26 => DD x4 x28 | s27 => DD x4 x29 | s28 => DD x4 x30 | s29 => DD x4 x31 | s30 => DD x4 x32 | s31 => DD x4 x33 | s32 => DD x4 x34 | s33 => DD x4 x35 | s34 => DD x4 x36 | s35 => DD x4 x37 | s36 => DD x4 x38 | s37 => DD x4 x39 | s38 => DD x4 x40 | s39 => DD x4 x41 | s40 => DD x4 x42 | s41 => DD x4 x43 | s42 => DD x4 x44 | s43 => DD x4 x45 | s44 => DD x4 x46 | s45 => DD x4 x47 | s46 => DD x4 x48 | s47 => DD x4 x49 | s48 => DD x4 x50 | s49 => DD x4 x51 | s50 => DD x4 x52 | s51 => DD x4 x53 | s52 => DD x4 x54 | s53 => DD x4 x55 | s54 => DD x4 x56 | s55 => DD x4 x57 | s56 => DD x4 x58 | s57 => DD x4 x59 | s58 => DD x4 x60 | s59 => DD x4 x61 | s60 => DD x4 x62 | s61 => DD x4 x63 | s62 => DD x5 x0 | s63 => DD x5 x1 | s64 => DD x5 x2 | s65 => DD x5 x3 | s66 => DD x5 x4 | s67 => DD x5 x5 | s68 => DD x5 x6 | s69 => DD x5 x7 | s70 => DD x5 x8 | s71 => DD x5 x9 | s72 => DD x5 x10 | s73 => DD x5 x11 | s74 => DD x5 x12 | s75 => DD x5 x13 | s76 => DD x5 x14 | s77 => DD x5 x15 | s78 => DD x5 x16 | s79 => DD x5 x17 | s80 => DD x5 x18 | s81 => DD x5 x19 | s82 => DD x5 x20 | s83 => DD x5 x21 | s84 => DD x5 x22 | s85 => DD x5 x23 | s86 => DD x5 x24 | s87 => DD x5 x25 | s88 => DD x5 x26 | s89 => DD x5 x27 | s90 => DD x5 x28 | s91 => DD x5 x29 | s92 => DD x5 x30 | s93 => DD x5 x31 | s94 => DD x5 x32 | s95 => DD x5 x33 | s96 => DD x5 x34 | s97 => DD x5 x35 | s98 => DD x5 x36 | s99 => DD x5 x37 | s100 => DD x5 x38 | s101 => DD x5 x39 | s102 => DD x5 x40 | s103 => DD x5 x41 | s104 => DD x5 x42 | s105 => DD x5 x43 | s106 => DD x5 x44 | s107 => DD x5 x45 | s108 => DD x5 x46 | s109 => DD x5 x47 | s110 => DD x5 x48 | s111 => DD x5 x49 | s112 => DD x5 x50 | s113 => DD x5 x51 | s114 => DD x5 x52 | s115 => DD x5 x53 | s116 => DD x5 x54 | s117 => DD x5 x55 | s118 => DD x5 x56 | s119 => DD x5 x57 | s120 => DD x5 x58 | s121 => DD x5 x59 | s122 => DD x5 x60 | s123 => DD x5 x61 | s124 => DD x5 x62 | s125 => DD x5 x63 | s126 => DD x6 x0 end.
Definition m259 (c : sum2) : dd := match c with s0 => DD x4 x3 | s1 => DD x4 x4 | s2 => DD x4 x5 | s3 => DD x4 x6 | s4 => DD x4 x7 | s5 => DD x4 x8 | s6 => DD x4 x9 | s7 => DD x4 x10 | s8 => DD x4 x11 | s9 => DD x4 x12 | s10 => DD x4 x13 | s11 => DD x4 x14 | s12 => DD x4 x15 | s13 => DD x4 x16 | s14 => DD x4 x17 | s15 => DD x4 x18 | s16 => DD x4 x19 | s17 => DD x4 x20 | s18 => DD x4 x21 | s19 => DD x4 x22 | s20 => DD x4 x23 | s21 => DD x4 x24 | s22 => DD x4 x25 | s23 => DD x4 x26 | s24 => DD x4 x27 | s25 => DD x4 x28 | s26 => DD x4 x29 | s27 => DD x4 x30 | s28 => DD x4 x31 | s29 => DD x4 x32 | s30 => DD x4 x33 | s31 => DD x4 x34 | s32 => DD x4 x35 | s33 => DD x4 x36 | s34 => DD x4 x37 | s35 => DD x4 x38 | s36 => DD x4 x39 | s37 => DD x4 x40 | s38 => DD x4 x41 | s39 => DD x4 x42 | s40 => DD x4 x43 | s41 => DD x4 x44 | s42 => DD x4 x45 | s43 => DD x4 x46 | s44 => DD x4 x47 | s45 => DD x4 x48 | s46 => DD x4 x49 | s47 => DD x4 x50 | s48 => DD x4 x51 | s49 => DD x4 x52 | s50 => DD x4 x53 | s51 => DD x4 x54 | s52 => DD x4 x55 | s53 => DD x4 x56 | s54 => DD x4 x57 | s55 => DD x4 x58 | s56 => DD x4 x59 | s57 => DD x4 x60 | s58 => DD x4 x61 | s59 => DD x4 x62 | s60 => DD x4 x63 | s61 => DD x5 x0 | s62 => DD x5 x1 | s63 => DD x5 x2 | s64 => DD x5 x3 | s65 => DD x5 x4 | s66 => DD x5 x5 | s67 => DD x5 x6 | s68 => DD x5 x7 | s69 => DD x5 x8 | s70 => DD x5 x9 | s71 => DD x5 x10 | s72 => DD x5 x11 | s73 => DD x5 x12 | s74 => DD x5 x13 | s75 => DD x5 x14 | s76 => DD x5 x15 | s77 => DD x5 x16 | s78 => DD x5 x17 | s79 => DD x5 x18 | s80 => DD x5 x19 | s81 => DD x5 x20 | s82 => DD x5 x21 | s83 => DD x5 x22 | s84 => DD x5 x23 | s85 => DD x5 x24 | s86 => DD x5 x25 | s87 => DD x5 x26 | s88 => DD x5 x27 | s89 => DD x5 x28 | s90 => DD x5 x29 | s91 => DD x5 x30 | s92 => DD x5 x31 | s93 => DD x5 x32 | s94 => DD x5 x33 | s95 => DD x5 x34 | s96 => DD x5 x35 | s97 => DD x5 x36 | s98 => DD x5 x37 | s99 => DD x5 x38 | s100 => DD x5 x39 | s101 => DD x5 x40 | s102 => DD x5 x41 | s103 => DD x5 x42 | s104 => DD x5 x43 | s105 => DD x5 x44 | s106 => DD x5 x45 | s107 => DD x5 x46 | s108 => DD x5 x47 | s109 => DD x5 x48 | s110 => DD x5 x49 | s111 => DD x5 x50 | s112 => DD x5 x51 | s113 => DD x5 x52 | s114 => DD x5 x53 | s115 => DD x5 x54 | s116 => DD x5 x55 | s117 => DD x5 x56 | s118 => DD x5 x57 | s119 => DD x5 x58 | s120 => DD x5 x59 | s121 => DD x5 x60 | s122 => DD x5 x61 | s123 => DD x5 x62 | s124 => DD x5 x63 | s125 => DD x6 x0 | s126 => DD x6 x1 end.
Definition m260 (c : sum2) : dd := match c with s0 => DD x4 x4 | s1 => DD x4 x5 | s2 => DD x4 x6 | s3 => DD x4 x7 | s4 => DD x4 x8 | s5 => DD x4 x9 | s6 => DD x4 x10 | s7 => DD x4 x11 | s8 => DD x4 x12 | s9 => DD x4 x13 | s10 => DD x4 x14 | s11 => DD x4 x15 | s12 => DD x4 x16 | s13 => DD x4 x17 | s14 => DD x4 x18 | s15 => DD x4 x19 | s16 => DD x4 x20 | s17 => DD x4 x21 | s18 => DD x4 x22 | s19 => DD x4 x23 | s20 => DD x4 x24 | s21 => DD x4 x25 | s22 => DD x4 x26 | s23 => DD x4 x27 | s24 => DD x4 x28 | s25 => DD x4 x29 | s26 => DD x4 x30 | s27 => DD x4 x31 | s28 => DD x4 x32 | s29 => DD x4 x33 | s30 => DD x4 x34 | s31 => DD x4 x35 | s32 => DD x4 x36 | s33 => DD x4 x37 | s34 => DD x4 x38 | s35 => DD x4 x39 | s36 => DD x4 x40 | s37 => DD x4 x41 | s38 => DD x4 x42 | s39 => DD x4 x43 | s40 => DD x4 x44 | s41 => DD x4 x45 | s42 => DD x4 x46 | s43 => DD x4 x47 | s44 => DD x4 x48 | s45 => DD x4 x49 | s46 => DD x4 x50 | s47 => DD x4 x51 | s48 => DD x4 x52 | s49 => DD x4 x53 | s50 => DD x4 x54 | s51 => DD x4 x55 | s52 => DD x4 x56 | s53 => DD x4 x57 | s54 => DD x4 x58 | s55 => DD x4 x59 | s56 => DD x4 x60 | s57 => DD x4 x61 | s58 => DD x4 x62 | s59 => DD x4 x63 | s60 => DD x5 x0 | s61 => DD x5 x1 | s62 => DD x5 x2 | s63 => DD x5 x3 | s64 => DD x5 x4 | s65 => DD x5 x5 | s66 => DD x5 x6 | s67 => DD x5 x7 | s68 => DD x5 x8 | s69 => DD x5 x9 | s70 => DD x5 x10 | s71 => DD x5 x11 | s72 => DD x5 x12 | s73 => DD x5 x13 | s74 => DD x5 x14 | s75 => DD x5 x15 | s76 => DD x5 x16 | s77 => DD x5 x17 | s78 => DD x5 x18 | s79 => DD x5 x19 | s80 => DD x5 x20 | s81 => DD x5 x21 | s82 => DD x5 x22 | s83 => DD x5 x23 | s84 => DD x5 x24 | s85 => DD x5 x25 | s86 => DD x5 x26 | s87 => DD x5 x27 | s88 => DD x5 x28 | s89 => DD x5 x29 | s90 => DD x5 x30 | s91 => DD x5 x31 | s92 => DD x5 x32 | s93 => DD x5 x33 | s94 => DD x5 x34 | s95 => DD x5 x35 | s96 => DD x5 x36 | s97 => DD x5 x37 | s98 => DD x5 x38 | s99 => DD x5 x39 | s100 => DD x5 x40 | s101 => DD x5 x41 | s102 => DD x5 x42 | s103 => DD x5 x43 | s104 => DD x5 x44 | s105 => DD x5 x45 | s106 => DD x5 x46 | s107 => DD x5 x47 | s108 => DD x5 x48 | s109 => DD x5 x49 | s110 => DD x5 x50 | s111 => DD x5 x51 | s112 => DD x5 x52 | s113 => DD x5 x53 | s114 => DD x5 x54 | s115 => DD x5 x55 | s116 => DD x5 x56 | s117 => DD x5 x57 | s118 => DD x5 x58 | s119 => DD x5 x59 | s120 => DD x5 x60 | s121 => DD x5 x61 | s122 => DD x5 x62 | s123 => DD x5 x63 | s124 => DD x6 x0 | s125 => DD x6 x1 | s126 => DD x6 x2 end.
Definition m261 (c : sum2) : dd := match c with s0 => DD x4 x5 | s1 => DD x4 x6 | s2 => DD x4 x7 | s3 => DD x4 x8 | s4 => DD x4 x9 | s5 => DD x4 x10 | s6 => DD x4 x11 | s7 => DD x4 x12 | s8 => DD x4 x13 | s9 => DD x4 x14 | s10 => DD x4 x15 | s11 => DD x4 x16 | s12 => DD x4 x17 | s13 => DD x4 x18 | s14 => DD x4 x19 | s15 => DD x4 x20 | s16 => DD x4 x21 | s17 => DD x4 x22 | s18 => DD x4 x23 | s19 => DD x4 x24 | s20 => DD x4 x25 | s21 => DD x4 x26 | s22 => DD x4 x27 | s23 => DD x4 x28 | s24 => DD x4 x29 | s25 => DD x4 x30 | s26 => DD x4 x31 | s27 => DD x4 x32 | s28 => DD x4 x33 | s29 => DD x4 x34 | s30 => DD x4 x35 | s31 => DD x4 x36 | s32 => DD x4 x37 | s33 => DD x4 x38 | s34 => DD x4 x39 | s35 => DD x4 x40 | s36 => DD x4 x41 | s37 => DD x4 x42 | s38 => DD x4 x43 | s39 => DD x4 x44 | s40 => DD x4 x45 | s41 => DD x4 x46 | s42 => DD x4 x47 | s43 => DD x4 x48 | s44 => DD x4 x49 | s45 => DD x4 x50 | s46 => DD x4 x51 | s47 => DD x4 x52 | s48 => DD x4 x53 | s49 => DD x4 x54 | s50 => DD x4 x55 | s51 => DD x4 x56 | s52 => DD x4 x57 | s53 => DD x4 x58 | s54 => DD x4 x59 | s55 => DD x4 x60 | s56 => DD x4 x61 | s57 => DD x4 x62 | s58 => DD x4 x63 | s59 => DD x5 x0 | s60 => DD x5 x1 | s61 => DD x5 x2 | s62 => DD x5 x3 | s63 => DD x5 x4 | s64 => DD x5 x5 | s65 => DD x5 x6 | s66 => DD x5 x7 | s67 => DD x5 x8 | s68 => DD x5 x9 | s69 => DD x5 x10 | s70 => DD x5 x11 | s71 => DD x5 x12 | s72 => DD x5 x13 | s73 => DD x5 x14 | s74 => DD x5 x15 | s75 => DD x5 x16 | s76 => DD x5 x17 | s77 => DD x5 x18 | s78 => DD x5 x19 | s79 => DD x5 x20 | s80 => DD x5 x21 | s81 => DD x5 x22 | s82 => DD x5 x23 | s83 => DD x5 x24 | s84 => DD x5 x25 | s85 => DD x5 x26 | s86 => DD x5 x27 | s87 => DD x5 x28 | s88 => DD x5 x29 | s89 => DD x5 x30 | s90 => DD x5 x31 | s91 => DD x5 x32 | s92 => DD x5 x33 | s93 => DD x5 x34 | s94 => DD x5 x35 | s95 => DD x5 x36 | s96 => DD x5 x37 | s97 => DD x5 x38 | s98 => DD x5 x39 | s99 => DD x5 x40 | s100 => DD x5 x41 | s101 => DD x5 x42 | s102 => DD x5 x43 | s103 => DD x5 x44 | s104 => DD x5 x45 | s105 => DD x5 x46 | s106 => DD x5 x47 | s107 => DD x5 x48 | s108 => DD x5 x49 | s109 => DD x5 x50 | s110 => DD x5 x51 | s111 => DD x5 x52 | s112 => DD x5 x53 | s113 => DD x5 x54 | s114 => DD x5 x55 | s115 => DD x5 x56 | s116 => DD x5 x57 | s117 => DD x5 x58 | s118 => DD x5 x59 | s119 => DD x5 x60 | s120 => DD x5 x61 | s121 => DD x5 x62 | s122 => DD x5 x63 | s123 => DD x6 x0 | s124 => DD x6 x1 | s125 => DD x6 x2 | s126 => DD x6 x3 end.
Definition m264 (c : sum2) : dd := match c with s0 => DD x4 x8 | s1 => DD x4 x9 | s2 => DD x4 x10 | s3 => DD x4 x11 | s4 => DD x4 x12 | s5 => DD x4 x13 | s6 => DD x4 x14 | s7 => DD x4 x15 | s8 => DD x4 x16 | s9 => DD x4 x17 | s10 => DD x4 x18 | s11 => DD x4 x19 | s12 => DD x4 x20 | s13 => DD x4 x21 | s14 => DD x4 x22 | s15 => DD x4 x23 | s16 => DD x4 x24 | s17 => DD x4 x25 | s18 => DD x4 x26 | s19 => DD x4 x27 | s20 => DD x4 x28 | s21 => DD x4 x29 | s22 => DD x4 x30 | s23 => DD x4 x31 | s24 => DD x4 x32 | s25 => DD x4 x33 | s26 => DD x4 x34 | s27 => DD x4 x35 | s28 => DD x4 x36 | s29 => DD x4 x37 | s30 => DD x4 x38 | s31 => DD x4 x39 | s32 => DD x4 x40 | s33 => DD x4 x41 | s34 => DD x4 x42 | s35 => DD x4 x43 | s36 => DD x4 x44 | s37 => DD x4 x45 | s38 => DD x4 x46 | s39 => DD x4 x47 | s40 => DD x4 x48 | s41 => DD x4 x49 | s42 => DD x4 x50 | s43 => DD x4 x51 | s44 => DD x4 x52 | s45 => DD x4 x53 | s46 => DD x4 x54 | s47 => DD x4 x55 | s48 => DD x4 x56 | s49 => DD x4 x57 | s50 => DD x4 x58 | s51 => DD x4 x59 | s52 => DD x4 x60 | s53 => DD x4 x61 | s54 => DD x4 x62 | s55 => DD x4 x63 | s56 => DD x5 x0 | s57 => DD x5 x1 | s58 => DD x5 x2 | s59 => DD x5 x3 | s60 => DD x5 x4 | s61 => DD x5 x5 | s62 => DD x5 x6 | s63 => DD x5 x7 | s64 => DD x5 x8 | s65 => DD x5 x9 | s66 => DD x5 x10 | s67 => DD x5 x11 | s68 => DD x5 x12 | s69 => DD x5 x13 | s70 => DD x5 x14 | s71 => DD x5 x15 | s72 => DD x5 x16 | s73 => DD x5 x17 | s74 => DD x5 x18 | s75 => DD x5 x19 | s76 => DD x5 x20 | s77 => DD x5 x21 | s78 => DD x5 x22 | s79 => DD x5 x23 | s80 => DD x5 x24 | s81 => DD x5 x25 | s82 => DD x5 x26 | s83 => DD x5 x27 | s84 => DD x5 x28 | s85 => DD x5 x29 | s86 => DD x5 x30 | s87 => DD x5 x31 | s88 => DD x5 x32 | s89 => DD x5 x33 | s90 => DD x5 x34 | s91 => DD x5 x35 | s92 => DD x5 x36 | s93 => DD x5 x37 | s94 => DD x5 x38 | s95 => DD x5 x39 | s96 => DD x5 x40 | s97 => DD x5 x41 | s98 => DD x5 x42 | s99 => DD x5 x43 | s100 => DD x5 x44 | s101 => DD x5 x45 | s102 => DD x5 x46 | s103 => DD x5 x47 | s104 => DD x5 x48 | s105 => DD x5 x49 | s106 => DD x5 x50 | s107 => DD x5 x51 | s108 => DD x5 x52 | s109 => DD x5 x53 | s110 => DD x5 x54 | s111 => DD x5 x55 | s112 => DD x5 x56 | s113 => DD x5 x57 | s114 => DD x5 x58 | s115 => DD x5 x59 | s116 => DD x5 x60 | s117 => DD x5 x61 | s118 => DD x5 x62 | s119 => DD x5 x63 | s120 => DD x6 x0 | s121 => DD x6 x1 | s122 => DD x6 x2 | s123 => DD x6 x3 | s124 => DD x6 x4 | s125 => DD x6 x5 | s126 => DD x6 x6 end.
Definition m265 (c : sum2) : dd := match c with s0 => DD x4 x9 | s1 => DD x4 x10 | s2 => DD x4 x11 | s3 => DD x4 x12 | s4 => DD x4 x13 | s5 => DD x4 x14 | s6 => DD x4 x15 | s7 => DD x4 x16 | s8 => DD x4 x17 | s9 => DD x4 x18 | s10 => DD x4 x19 | s11 => DD x4 x20 | s12 => DD x4 x21 | s13 => DD x4 x22 | s14 => DD x4 x23 | s15 => DD x4 x24 | s16 => DD x4 x25 | s17 => DD x4 x26 | s18 => DD x4 x27 | s19 => DD x4 x28 | s20 => DD x4 x29 | s21 => DD x4 x30 | s22 => DD x4 x31 | s23 => DD x4 x32 | s24 => DD x4 x33 | s25 => DD x4 x34 | s26 => DD x4 x35 | s27 => DD x4 x36 | s28 => DD x4 x37 | s29 => DD x4 x38 | s30 => DD x4 x39 | s31 => DD x4 x40 | s32 => DD x4 x41 | s33 => DD x4 x42 | s34 => DD x4 x43 | s35 => DD x4 x44 | s36 => DD x4 x45 | s37 => DD x4 x46 | s38 => DD x4 x47 | s39 => DD x4 x48 | s40 => DD x4 x49 | s41 => DD x4 x50 | s42 => DD x4 x51 | s43 => DD x4 x52 | s44 => DD x4 x53 | s45 => DD x4 x54 | s46 => DD x4 x55 | s47 => DD x4 x56 | s48 => DD x4 x57 | s49 => DD x4 x58 | s50 => DD x4 x59 | s51 => DD x4 x60 | s52 => DD x4 x61 | s53 => DD x4 x62 | s54 => DD x4 x63 | s55 => DD x5 x0 | s56 => DD x5 x1 | s57 => DD x5 x2 | s58 => DD x5 x3 | s59 => DD x5 x4 | s60 => DD x5 x5 | s61 => DD x5 x6 | s62 => DD x5 x7 | s63 => DD x5 x8 | s64 => DD x5 x9 | s65 => DD x5 x10 | s66 => DD x5 x11 | s67 => DD x5 x12 | s68 => DD x5 x13 | s69 => DD x5 x14 | s70 => DD x5 x15 | s71 => DD x5 x16 | s72 => DD x5 x17 | s73 => DD x5 x18 | s74 => DD x5 x19 | s75 => DD x5 x20 | s76 => DD x5 x21 | s77 => DD x5 x22 | s78 => DD x5 x23 | s79 => DD x5 x24 | s80 => DD x5 x25 | s81 => DD x5 x26 | s82 => DD x5 x27 | s83 => DD x5 x28 | s84 => DD x5 x29 | s85 => DD x5 x30 | s86 => DD x5 x31 | s87 => DD x5 x32 | s88 => DD x5 x33 | s89 => DD x5 x34 | s90 => DD x5 x35 | s91 => DD x5 x36 | s92 => DD x5 x37 | s93 => DD x5 x38 | s94 => DD x5 x39 | s95 => DD x5 x40 | s96 => DD x5 x41 | s97 => DD x5 x42 | s98 => DD x5 x43 | s99 => DD x5 x44 | s100 => DD x5 x45 | s101 => DD x5 x46 | s102 => DD x5 x47 | s103 => DD x5 x48 | s104 => DD x5 x49 | s105 => DD x5 x50 | s106 => DD x5 x51 | s107 => DD x5 x52 | s108 => DD x5 x53 | s109 => DD x5 x54 | s110 => DD x5 x55 | s111 => DD x5 x56 | s112 => DD x5 x57 | s113 => DD x5 x58 | s114 => DD x5 x59 | s115 => DD x5 x60 | s116 => DD x5 x61 | s117 => DD x5 x62 | s118 => DD x5 x63 | s119 => DD x6 x0 | s120 => DD x6 x1 | s121 => DD x6 x2 | s122 => DD x6 x3 | s123 => DD x6 x4 | s124 => DD x6 x5 | s125 => DD x6 x6 | s126 => DD x6 x7 end.
Definition m266 (c : sum2) : dd := match c with s0 => DD x4 x10 | s1 => DD x4 x11 | s2 => DD x4 x12 | s3 => DD x4 x13 | s4 => DD x4 x14 | s5 => DD x4 x15 | s6 => DD x4 x16 | s7 => DD x4 x17 | s8 => DD x4 x18 | s9 => DD x4 x19 | s10 => DD x4 x20 | s11 => DD x4 x21 | s12 => DD x4 x22 | s13 => DD x4 x23 | s14 => DD x4 x24 | s15 => DD x4 x25 | s16 => DD x4 x26 | s17 => DD x4 x27 | s18 => DD x4 x28 | s19 => DD x4 x29 | s20 => DD x4 x30 | s21 => DD x4 x31 | s22 => DD x4 x32 | s23 => DD x4 x33 | s24 => DD x4 x34 | s25 => DD x4 x35 | s26 => DD x4 x36 | s27 => DD x4 x37 | s28 => DD x4 x38 | s29 => DD x4 x39 | s30 => DD x4 x40 | s31 => DD x4 x41 | s32 => DD x4 x42 | s33 => DD x4 x43 | s34 => DD x4 x44 | s35 => DD x4 x45 | s36 => DD x4 x46 | s37 => DD x4 x47 | s38 => DD x4 x48 | s39 => DD x4 x49 | s40 => DD x4 x50 | s41 => DD x4 x51 | s42 => DD x4 x52 | s43 => DD x4 x53 | s44 => DD x4 x54 | s45 => DD x4 x55 | s46 => DD x4 x56 | s47 => DD x4 x57 | s48 => DD x4 x58 | s49 => DD x4 x59 | s50 => DD x4 x60 | s51 => DD x4 x61 | s52 => DD x4 x62 | s53 => DD x4 x63 | s54 => DD x5 x0 | s55 => DD x5 x1 | s56 => DD x5 x2 | s57 => DD x5 x3 | s58 => DD x5 x4 | s59 => DD x5 x5 | s60 => DD x5 x6 | s61 => DD x5 x7 | s62 => DD x5 x8 | s63 => DD x5 x9 | s64 => DD x5 x10 | s65 => DD x5 x11 | s66 => DD x5 x12 | s67 => DD x5 x13 | s68 => DD x5 x14 | s69 => DD x5 x15 | s70 => DD x5 x16 | s71 => DD x5 x17 | s72 => DD x5 x18 | s73 => DD x5 x19 | s74 => DD x5 x20 | s75 => DD x5 x21 | s76 => DD x5 x22 | s77 => DD x5 x23 | s78 => DD x5 x24 | s79 => DD x5 x25 | s80 => DD x5 x26 | s81 => DD x5 x27 | s82 => DD x5 x28 | s83 => DD x5 x29 | s84 => DD x5 x30 | s85 => DD x5 x31 | s86 => DD x5 x32 | s87 => DD x5 x33 | s88 => DD x5 x34 | s89 => DD x5 x35 | s90 => DD x5 x36 | s91 => DD x5 x37 | s92 => DD x5 x38 | s93 => DD x5 x39 | s94 => DD x5 x40 | s95 => DD x5 x41 | s96 => DD x5 x42 | s97 => DD x5 x43 | s98 => DD x5 x44 | s99 => DD x5 x45 | s100 => DD x5 x46 | s101 => DD x5 x47 | s102 => DD x5 x48 | s103 => DD x5 x49 | s104 => DD x5 x50 | s105 => DD x5 x51 | s106 => DD x5 x52 | s107 => DD x5 x53 | s108 => DD x5 x54 | s109 => DD x5 x55 | s110 => DD x5 x56 | s111 => DD x5 x57 | s112 => DD x5 x58 | s113 => DD x5 x59 | s114 => DD x5 x60 | s115 => DD x5 x61 | s116 => DD x5 x62 | s117 => DD x5 x63 | s118 => DD x6 x0 | s119 => DD x6 x1 | s120 => DD x6 x2 | s121 => DD x6 x3 | s122 => DD x6 x4 | s123 => DD x6 x5 | s124 => DD x6 x6 | s125 => DD x6 x7 | s126 => DD x6 x8 end.
Definition m270 (c : sum2) : dd := match c with s0 => DD x4 x14 | s1 => DD x4 x15 | s2 => DD x4 x16 | s3 => DD x4 x17 | s4 => DD x4 x18 | s5 => DD x4 x19 | s6 => DD x4 x20 | s7 => DD x4 x21 | s8 => DD x4 x22 | s9 => DD x4 x23 | s10 => DD x4 x24 | s11 => DD x4 x25 | s12 => DD x4 x26 | s13 => DD x4 x27 | s14 => DD x4 x28 | s15 => DD x4 x29 | s16 => DD x4 x30 | s17 => DD x4 x31 | s18 => DD x4 x32 | s19 => DD x4 x33 | s20 => DD x4 x34 | s21 => DD x4 x35 | s22 => DD x4 x36 | s23 => DD x4 x37 | s24 => DD x4 x38 | s25 => DD x4 x39 | s26 => DD x4 x40 | s27 => DD x4 x41 | s28 => DD x4 x42 | s29 => DD x4 x43 | s30 => DD x4 x44 | s31 => DD x4 x45 | s32 => DD x4 x46 | s33 => DD x4 x47 | s34 => DD x4 x48 | s35 => DD x4 x49 | s36 => DD x4 x50 | s37 => DD x4 x51 | s38 => DD x4 x52 | s39 => DD x4 x53 | s40 => DD x4 x54 | s41 => DD x4 x55 | s42 => DD x4 x56 | s43 => DD x4 x57 | s44 => DD x4 x58 | s45 => DD x4 x59 | s46 => DD x4 x60 | s47 => DD x4 x61 | s48 => DD x4 x62 | s49 => DD x4 x63 | s50 => DD x5 x0 | s51 => DD x5 x1 | s52 => DD x5 x2 | s53 => DD x5 x3 | s54 => DD x5 x4 | s55 => DD x5 x5 | s56 => DD x5 x6 | s57 => DD x5 x7 | s58 => DD x5 x8 | s59 => DD x5 x9 | s60 => DD x5 x10 | s61 => DD x5 x11 | s62 => DD x5 x12 | s63 => DD x5 x13 | s64 => DD x5 x14 | s65 => DD x5 x15 | s66 => DD x5 x16 | s67 => DD x5 x17 | s68 => DD x5 x18 | s69 => DD x5 x19 | s70 => DD x5 x20 | s71 => DD x5 x21 | s72 => DD x5 x22 | s73 => DD x5 x23 | s74 => DD x5 x24 | s75 => DD x5 x25 | s76 => DD x5 x26 | s77 => DD x5 x27 | s78 => DD x5 x28 | s79 => DD x5 x29 | s80 => DD x5 x30 | s81 => DD x5 x31 | s82 => DD x5 x32 | s83 => DD x5 x33 | s84 => DD x5 x34 | s85 => DD x5 x35 | s86 => DD x5 x36 | s87 => DD x5 x37 | s88 => DD x5 x38 | s89 => DD x5 x39 | s90 => DD x5 x40 | s91 => DD x5 x41 | s92 => DD x5 x42 | s93 => DD x5 x43 | s94 => DD x5 x44 | s95 => DD x5 x45 | s96 => DD x5 x46 | s97 => DD x5 x47 | s98 => DD x5 x48 | s99 => DD x5 x49 | s100 => DD x5 x50 | s101 => DD x5 x51 | s102 => DD x5 x52 | s103 => DD x5 x53 | s104 => DD x5 x54 | s105 => DD x5 x55 | s106 => DD x5 x56 | s107 => DD x5 x57 | s108 => DD x5 x58 | s109 => DD x5 x59 | s110 => DD x5 x60 | s111 => DD x5 x61 | s112 => DD x5 x62 | s113 => DD x5 x63 | s114 => DD x6 x0 | s115 => DD x6 x1 | s116 => DD x6 x2 | s117 => DD x6 x3 | s118 => DD x6 x4 | s119 => DD x6 x5 | s120 => DD x6 x6 | s121 => DD x6 x7 | s122 => DD x6 x8 | s123 => DD x6 x9 | s124 => DD x6 x10 | s125 => DD x6 x11 | s126 => DD x6 x12 end.
Definition m272 (c : sum2) : dd := match c with s0 => DD x4 x16 | s1 => DD x4 x17 | s2 => DD x4 x18 | s3 => DD x4 x19 | s4 => DD x4 x20 | s5 => DD x4 x21 | s6 => DD x4 x22 | s7 => DD x4 x23 | s8 => DD x4 x24 | s9 => DD x4 x25 | s10 => DD x4 x26 | s11 => DD x4 x27 | s12 => DD x4 x28 | s13 => DD x4 x29 | s14 => DD x4 x30 | s15 => DD x4 x31 | s16 => DD x4 x32 | s17 => DD x4 x33 | s18 => DD x4 x34 | s19 => DD x4 x35 | s20 => DD x4 x36 | s21 => DD x4 x37 | s22 => DD x4 x38 | s23 => DD x4 x39 | s24 => DD x4 x40 | s25 => DD x4 x41 | s26 => DD x4 x42 | s27 => DD x4 x43 | s28 => DD x4 x44 | s29 => DD x4 x45 | s30 => DD x4 x46 | s31 => DD x4 x47 | s32 => DD x4 x48 | s33 => DD x4 x49 | s34 => DD x4 x50 | s35 => DD x4 x51 | s36 => DD x4 x52 | s37 => DD x4 x53 | s38 => DD x4 x54 | s39 => DD x4 x55 | s40 => DD x4 x56 | s41 => DD x4 x57 | s42 => DD x4 x58 | s43 => DD x4 x59 | s44 => DD x4 x60 | s45 => DD x4 x61 | s46 => DD x4 x62 | s47 => DD x4 x63 | s48 => DD x5 x0 | s49 => DD x5 x1 | s50 => DD x5 x2 | s51 => DD x5 x3 | s52 => DD x5 x4 | s53 => DD x5 x5 | s54 => DD x5 x6 | s55 => DD x5 x7 | s56 => DD x5 x8 | s57 => DD x5 x9 | s58 => DD x5 x10 | s59 => DD x5 x11 | s60 => DD x5 x12 | s61 => DD x5 x13 | s62 => DD x5 x14 | s63 => DD x5 x15 | s64 => DD x5 x16 | s65 => DD x5 x17 | s66 => DD x5 x18 | s67 => DD x5 x19 | s68 => DD x5 x20 | s69 => DD x5 x21 | s70 => DD x5 x22 | s71 => DD x5 x23 | s72 => DD x5 x24 | s73 => DD x5 x25 | s74 => DD x5 x26 | s75 => DD x5 x27 | s76 => DD x5 x28 | s77 => DD x5 x29 | s78 => DD x5 x30 | s79 => DD x5 x31 | s80 => DD x5 x32 | s81 => DD x5 x33 | s82 => DD x5 x34 | s83 => DD x5 x35 | s84 => DD x5 x36 | s85 => DD x5 x37 | s86 => DD x5 x38 | s87 => DD x5 x39 | s88 => DD x5 x40 | s89 => DD x5 x41 | s90 => DD x5 x42 | s91 => DD x5 x43 | s92 => DD x5 x44 | s93 => DD x5 x45 | s94 => DD x5 x46 | s95 => DD x5 x47 | s96 => DD x5 x48 | s97 => DD x5 x49 | s98 => DD x5 x50 | s99 => DD x5 x51 | s100 => DD x5 x52 | s101 => DD x5 x53 | s102 => DD x5 x54 | s103 => DD x5 x55 | s104 => DD x5 x56 | s105 => DD x5 x57 | s106 => DD x5 x58 | s107 => DD x5 x59 | s108 => DD x5 x60 | s109 => DD x5 x61 | s110 => DD x5 x62 | s111 => DD x5 x63 | s112 => DD x6 x0 | s113 => DD x6 x1 | s114 => DD x6 x2 | s115 => DD x6 x3 | s116 => DD x6 x4 | s117 => DD x6 x5 | s118 => DD x6 x6 | s119 => DD x6 x7 | s120 => DD x6 x8 | s121 => DD x6 x9 | s122 => DD x6 x10 | s123 => DD x6 x11 | s124 => DD x6 x12 | s125 => DD x6 x13 | s126 => DD x6 x14 end.
Definition m273 (c : sum2) : dd := match c with s0 => DD x4 x17 | s1 => DD x4 x18 | s2 => DD x4 x19 | s3 => DD x4 x20 | s4 => DD x4 x21 | s5 => DD x4 x22 | s6 => DD x4 x23 | s7 => DD x4 x24 | s8 => DD x4 x25 | s9 => DD x4 x26 | s10 => DD x4 x27 | s11 => DD x4 x28 | s12 => DD x4 x29 | s13 => DD x4 x30 | s14 => DD x4 x31 | s15 => DD x4 x32 | s16 => DD x4 x33 | s17 => DD x4 x34 | s18 => DD x4 x35 | s19 => DD x4 x36 | s20 => DD x4 x37 | s21 => DD x4 x38 | s22 => DD x4 x39 | s23 => DD x4 x40 | s24 => DD x4 x41 | s25 => DD x4 x42 | s26 => DD x4 x43 | s27 => DD x4 x44 | s28 => DD x4 x45 | s29 => DD x4 x46 | s30 => DD x4 x47 | s31 => DD x4 x48 | s32 => DD x4 x49 | s33 => DD x4 x50 | s34 => DD x4 x51 | s35 => DD x4 x52 | s36 => DD x4 x53 | s37 => DD x4 x54 | s38 => DD x4 x55 | s39 => DD x4 x56 | s40 => DD x4 x57 | s41 => DD x4 x58 | s42 => DD x4 x59 | s43 => DD x4 x60 | s44 => DD x4 x61 | s45 => DD x4 x62 | s46 => DD x4 x63 | s47 => DD x5 x0 | s48 => DD x5 x1 | s49 => DD x5 x2 | s50 => DD x5 x3 | s51 => DD x5 x4 | s52 => DD x5 x5 | s53 => DD x5 x6 | s54 => DD x5 x7 | s55 => DD x5 x8 | s56 => DD x5 x9 | s57 => DD x5 x10 | s58 => DD x5 x11 | s59 => DD x5 x12 | s60 => DD x5 x13 | s61 => DD x5 x14 | s62 => DD x5 x15 | s63 => DD x5 x16 | s64 => DD x5 x17 | s65 => DD x5 x18 | s66 => DD x5 x19 | s67 => DD x5 x20 | s68 => DD x5 x21 | s69 => DD x5 x22 | s70 => DD x5 x23 | s71 => DD x5 x24 | s72 => DD x5 x25 | s73 => DD x5 x26 | s74 => DD x5 x27 | s75 => DD x5 x28 | s76 => DD x5 x29 | s77 => DD x5 x30 | s78 => DD x5 x31 | s79 => DD x5 x32 | s80 => DD x5 x33 | s81 => DD x5 x34 | s82 => DD x5 x35 | s83 => DD x5 x36 | s84 => DD x5 x37 | s85 => DD x5 x38 | s86 => DD x5 x39 | s87 => DD x5 x40 | s88 => DD x5 x41 | s89 => DD x5 x42 | s90 => DD x5 x43 | s91 => DD x5 x44 | s92 => DD x5 x45 | s93 => DD x5 x46 | s94 => DD x5 x47 | s95 => DD x5 x48 | s96 => DD x5 x49 | s97 => DD x5 x50 | s98 => DD x5 x51 | s99 => DD x5 x52 | s100 => DD x5 x53 | s101 => DD x5 x54 | s102 => DD x5 x55 | s103 => DD x5 x56 | s104 => DD x5 x57 | s105 => DD x5 x58 | s106 => DD x5 x59 | s107 => DD x5 x60 | s108 => DD x5 x61 | s109 => DD x5 x62 | s110 => DD x5 x63 | s111 => DD x6 x0 | s112 => DD x6 x1 | s113 => DD x6 x2 | s114 => DD x6 x3 | s115 => DD x6 x4 | s116 => DD x6 x5 | s117 => DD x6 x6 | s118 => DD x6 x7 | s119 => DD x6 x8 | s120 => DD x6 x9 | s121 => DD x6 x10 | s122 => DD x6 x11 | s123 => DD x6 x12 | s124 => DD x6 x13 | s125 => DD x6 x14 | s126 => DD x6 x15 end.
Definition m275 (c : sum2) : dd := match c with s0 => DD x4 x19 | s1 => DD x4 x20 | s2 => DD x4 x21 | s3 => DD x4 x22 | s4 => DD x4 x23 | s5 => DD x4 x24 | s6 => DD x4 x25 | s7 => DD x4 x26 | s8 => DD x4 x27 | s9 => DD x4 x28 | s10 => DD x4 x29 | s11 => DD x4 x30 | s12 => DD x4 x31 | s13 => DD x4 x32 | s14 => DD x4 x33 | s15 => DD x4 x34 | s16 => DD x4 x35 | s17 => DD x4 x36 | s18 => DD x4 x37 | s19 => DD x4 x38 | s20 => DD x4 x39 | s21 => DD x4 x40 | s22 => DD x4 x41 | s23 => DD x4 x42 | s24 => DD x4 x43 | s25 => DD x4 x44 | s26 => DD x4 x45 | s27 => DD x4 x46 | s28 => DD x4 x47 | s29 => DD x4 x48 | s30 => DD x4 x49 | s31 => DD x4 x50 | s32 => DD x4 x51 | s33 => DD x4 x52 | s34 => DD x4 x53 | s35 => DD x4 x54 | s36 => DD x4 x55 | s37 => DD x4 x56 | s38 => DD x4 x57 | s39 => DD x4 x58 | s40 => DD x4 x59 | s41 => DD x4 x60 | s42 => DD x4 x61 | s43 => DD x4 x62 | s44 => DD x4 x63 | s45 => DD x5 x0 | s46 => DD x5 x1 | s47 => DD x5 x2 | s48 => DD x5 x3 | s49 => DD x5 x4 | s50 => DD x5 x5 | s51 => DD x5 x6 | s52 => DD x5 x7 | s53 => DD x5 x8 | s54 => DD x5 x9 | s55 => DD x5 x10 | s56 => DD x5 x11 | s57 => DD x5 x12 | s58 => DD x5 x13 | s59 => DD x5 x14 | s60 => DD x5 x15 | s61 => DD x5 x16 | s62 => DD x5 x17 | s63 => DD x5 x18 | s64 => DD x5 x19 | s65 => DD x5 x20 | s66 => DD x5 x21 | s67 => DD x5 x22 | s68 => DD x5 x23 | s69 => DD x5 x24 | s70 => DD x5 x25 | s71 => DD x5 x26 | s72 => DD x5 x27 | s73 => DD x5 x28 | s74 => DD x5 x29 | s75 => DD x5 x30 | s76 => DD x5 x31 | s77 => DD x5 x32 | s78 => DD x5 x33 | s79 => DD x5 x34 | s80 => DD x5 x35 | s81 => DD x5 x36 | s82 => DD x5 x37 | s83 => DD x5 x38 | s84 => DD x5 x39 | s85 => DD x5 x40 | s86 => DD x5 x41 | s87 => DD x5 x42 | s88 => DD x5 x43 | s89 => DD x5 x44 | s90 => DD x5 x45 | s91 => DD x5 x46 | s92 => DD x5 x47 | s93 => DD x5 x48 | s94 => DD x5 x49 | s95 => DD x5 x50 | s96 => DD x5 x51 | s97 => DD x5 x52 | s98 => DD x5 x53 | s99 => DD x5 x54 | s100 => DD x5 x55 | s101 => DD x5 x56 | s102 => DD x5 x57 | s103 => DD x5 x58 | s104 => DD x5 x59 | s105 => DD x5 x60 | s106 => DD x5 x61 | s107 => DD x5 x62 | s108 => DD x5 x63 | s109 => DD x6 x0 | s110 => DD x6 x1 | s111 => DD x6 x2 | s112 => DD x6 x3 | s113 => DD x6 x4 | s114 => DD x6 x5 | s115 => DD x6 x6 | s116 => DD x6 x7 | s117 => DD x6 x8 | s118 => DD x6 x9 | s119 => DD x6 x10 | s120 => DD x6 x11 | s121 => DD x6 x12 | s122 => DD x6 x13 | s123 => DD x6 x14 | s124 => DD x6 x15 | s125 => DD x6 x16 | s126 => DD x6 x17 end.
Definition m276 (c : sum2) : dd := match c with s0 => DD x4 x20 | s1 => DD x4 x21 | s2 => DD x4 x22 | s3 => DD x4 x23 | s4 => DD x4 x24 | s5 => DD x4 x25 | s6 => DD x4 x26 | s7 => DD x4 x27 | s8 => DD x4 x28 | s9 => DD x4 x29 | s10 => DD x4 x30 | s11 => DD x4 x31 | s12 => DD x4 x32 | s13 => DD x4 x33 | s14 => DD x4 x34 | s15 => DD x4 x35 | s16 => DD x4 x36 | s17 => DD x4 x37 | s18 => DD x4 x38 | s19 => DD x4 x39 | s20 => DD x4 x40 | s21 => DD x4 x41 | s22 => DD x4 x42 | s23 => DD x4 x43 | s24 => DD x4 x44 | s25 => DD x4 x45 | s26 => DD x4 x46 | s27 => DD x4 x47 | s28 => DD x4 x48 | s29 => DD x4 x49 | s30 => DD x4 x50 | s31 => DD x4 x51 | s32 => DD x4 x52 | s33 => DD x4 x53 | s34 => DD x4 x54 | s35 => DD x4 x55 | s36 => DD x4 x56 | s37 => DD x4 x57 | s38 => DD x4 x58 | s39 => DD x4 x59 | s40 => DD x4 x60 | s41 => DD x4 x61 | s42 => DD x4 x62 | s43 => DD x4 x63 | s44 => DD x5 x0 | s45 => DD x5 x1 | s46 => DD x5 x2 | s47 => DD x5 x3 | s48 => DD x5 x4 | s49 => DD x5 x5 | s50 => DD x5 x6 | s51 => DD x5 x7 | s52 => DD x5 x8 | s53 => DD x5 x9 | s54 => DD x5 x10 | s55 => DD x5 x11 | s56 => DD x5 x12 | s57 => DD x5 x13 | s58 => DD x5 x14 | s59 => DD x5 x15 | s60 => DD x5 x16 | s61 => DD x5 x17 | s62 => DD x5 x18 | s63 => DD x5 x19 | s64 => DD x5 x20 | s65 => DD x5 x21 | s66 => DD x5 x22 | s67 => DD x5 x23 | s68 => DD x5 x24 | s69 => DD x5 x25 | s70 => DD x5 x26 | s71 => DD x5 x27 | s72 => DD x5 x28 | s73 => DD x5 x29 | s74 => DD x5 x30 | s75 => DD x5 x31 | s76 => DD x5 x32 | s77 => DD x5 x33 | s78 => DD x5 x34 | s79 => DD x5 x35 | s80 => DD x5 x36 | s81 => DD x5 x37 | s82 => DD x5 x38 | s83 => DD x5 x39 | s84 => DD x5 x40 | s85 => DD x5 x41 | s86 => DD x5 x42 | s87 => DD x5 x43 | s88 => DD x5 x44 | s89 => DD x5 x45 | s90 => DD x5 x46 | s91 => DD x5 x47 | s92 => DD x5 x48 | s93 => DD x5 x49 | s94 => DD x5 x50 | s95 => DD x5 x51 | s96 => DD x5 x52 | s97 => DD x5 x53 | s98 => DD x5 x54 | s99 => DD x5 x55 | s100 => DD x5 x56 | s101 => DD x5 x57 | s102 => DD x5 x58 | s103 => DD x5 x59 | s104 => DD x5 x60 | s105 => DD x5 x61 | s106 => DD x5 x62 | s107 => DD x5 x63 | s108 => DD x6 x0 | s109 => DD x6 x1 | s110 => DD x6 x2 | s111 => DD x6 x3 | s112 => DD x6 x4 | s113 => DD x6 x5 | s114 => DD x6 x6 | s115 => DD x6 x7 | s116 => DD x6 x8 | s117 => DD x6 x9 | s118 => DD x6 x10 | s119 => DD x6 x11 | s120 => DD x6 x12 | s121 => DD x6 x13 | s122 => DD x6 x14 | s123 => DD x6 x15 | s124 => DD x6 x16 | s125 => DD x6 x17 | s126 => DD x6 x18 end.
Definition m279 (c : sum2) : dd := match c with s0 => DD x4 x23 | s1 => DD x4 x24 | s2 => DD x4 x25 | s3 => DD x4 x26 | s4 => DD x4 x27 | s5 => DD x4 x28 | s6 => DD x4 x29 | s7 => DD x4 x30 | s8 => DD x4 x31 | s9 => DD x4 x32 | s10 => DD x4 x33 | s11 => DD x4 x34 | s12 => DD x4 x35 | s13 => DD x4 x36 | s14 => DD x4 x37 | s15 => DD x4 x38 | s16 => DD x4 x39 | s17 => DD x4 x40 | s18 => DD x4 x41 | s19 => DD x4 x42 | s20 => DD x4 x43 | s21 => DD x4 x44 | s22 => DD x4 x45 | s23 => DD x4 x46 | s24 => DD x4 x47 | s25 => DD x4 x48 | s26 => DD x4 x49 | s27 => DD x4 x50 | s28 => DD x4 x51 | s29 => DD x4 x52 | s30 => DD x4 x53 | s31 => DD x4 x54 | s32 => DD x4 x55 | s33 => DD x4 x56 | s34 => DD x4 x57 | s35 => DD x4 x58 | s36 => DD x4 x59 | s37 => DD x4 x60 | s38 => DD x4 x61 | s39 => DD x4 x62 | s40 => DD x4 x63 | s41 => DD x5 x0 | s42 => DD x5 x1 | s43 => DD x5 x2 | s44 => DD x5 x3 | s45 => DD x5 x4 | s46 => DD x5 x5 | s47 => DD x5 x6 | s48 => DD x5 x7 | s49 => DD x5 x8 | s50 => DD x5 x9 | s51 => DD x5 x10 | s52 => DD x5 x11 | s53 => DD x5 x12 | s54 => DD x5 x13 | s55 => DD x5 x14 | s56 => DD x5 x15 | s57 => DD x5 x16 | s58 => DD x5 x17 | s59 => DD x5 x18 | s60 => DD x5 x19 | s61 => DD x5 x20 | s62 => DD x5 x21 | s63 => DD x5 x22 | s64 => DD x5 x23 | s65 => DD x5 x24 | s66 => DD x5 x25 | s67 => DD x5 x26 | s68 => DD x5 x27 | s69 => DD x5 x28 | s70 => DD x5 x29 | s71 => DD x5 x30 | s72 => DD x5 x31 | s73 => DD x5 x32 | s74 => DD x5 x33 | s75 => DD x5 x34 | s76 => DD x5 x35 | s77 => DD x5 x36 | s78 => DD x5 x37 | s79 => DD x5 x38 | s80 => DD x5 x39 | s81 => DD x5 x40 | s82 => DD x5 x41 | s83 => DD x5 x42 | s84 => DD x5 x43 | s85 => DD x5 x44 | s86 => DD x5 x45 | s87 => DD x5 x46 | s88 => DD x5 x47 | s89 => DD x5 x48 | s90 => DD x5 x49 | s91 => DD x5 x50 | s92 => DD x5 x51 | s93 => DD x5 x52 | s94 => DD x5 x53 | s95 => DD x5 x54 | s96 => DD x5 x55 | s97 => DD x5 x56 | s98 => DD x5 x57 | s99 => DD x5 x58 | s100 => DD x5 x59 | s101 => DD x5 x60 | s102 => DD x5 x61 | s103 => DD x5 x62 | s104 => DD x5 x63 | s105 => DD x6 x0 | s106 => DD x6 x1 | s107 => DD x6 x2 | s108 => DD x6 x3 | s109 => DD x6 x4 | s110 => DD x6 x5 | s111 => DD x6 x6 | s112 => DD x6 x7 | s113 => DD x6 x8 | s114 => DD x6 x9 | s115 => DD x6 x10 | s116 => DD x6 x11 | s117 => DD x6 x12 | s118 => DD x6 x13 | s119 => DD x6 x14 | s120 => DD x6 x15 | s121 => DD x6 x16 | s122 => DD x6 x17 | s123 => DD x6 x18 | s124 => DD x6 x19 | s125 => DD x6 x20 | s126 => DD x6 x21 end.
Definition m280 (c : sum2) : dd := match c with s0 => DD x4 x24 | s1 => DD x4 x25 | s2 => DD x4 x26 | s3 => DD x4 x27 | s4 => DD x4 x28 | s5 => DD x4 x29 | s6 => DD x4 x30 | s7 => DD x4 x31 | s8 => DD x4 x32 | s9 => DD x4 x33 | s10 => DD x4 x34 | s11 => DD x4 x35 | s12 => DD x4 x36 | s13 => DD x4 x37 | s14 => DD x4 x38 | s15 => DD x4 x39 | s16 => DD x4 x40 | s17 => DD x4 x41 | s18 => DD x4 x42 | s19 => DD x4 x43 | s20 => DD x4 x44 | s21 => DD x4 x45 | s22 => DD x4 x46 | s23 => DD x4 x47 | s24 => DD x4 x48 | s25 => DD x4 x49 | s26 => DD x4 x50 | s27 => DD x4 x51 | s28 => DD x4 x52 | s29 => DD x4 x53 | s30 => DD x4 x54 | s31 => DD x4 x55 | s32 => DD x4 x56 | s33 => DD x4 x57 | s34 => DD x4 x58 | s35 => DD x4 x59 | s36 => DD x4 x60 | s37 => DD x4 x61 | s38 => DD x4 x62 | s39 => DD x4 x63 | s40 => DD x5 x0 | s41 => DD x5 x1 | s42 => DD x5 x2 | s43 => DD x5 x3 | s44 => DD x5 x4 | s45 => DD x5 x5 | s46 => DD x5 x6 | s47 => DD x5 x7 | s48 => DD x5 x8 | s49 => DD x5 x9 | s50 => DD x5 x10 | s51 => DD x5 x11 | s52 => DD x5 x12 | s53 => DD x5 x13 | s54 => DD x5 x14 | s55 => DD x5 x15 | s56 => DD x5 x16 | s57 => DD x5 x17 | s58 => DD x5 x18 | s59 => DD x5 x19 | s60 => DD x5 x20 | s61 => DD x5 x21 | s62 => DD x5 x22 | s63 => DD x5 x23 | s64 => DD x5 x24 | s65 => DD x5 x25 | s66 => DD x5 x26 | s67 => DD x5 x27 | s68 => DD x5 x28 | s69 => DD x5 x29 | s70 => DD x5 x30 | s71 => DD x5 x31 | s72 => DD x5 x32 | s73 => DD x5 x33 | s74 => DD x5 x34 | s75 => DD x5 x35 | s76 => DD x5 x36 | s77 => DD x5 x37 | s78 => DD x5 x38 | s79 => DD x5 x39 | s80 => DD x5 x40 | s81 => DD x5 x41 | s82 => DD x5 x42 | s83 => DD x5 x43 | s84 => DD x5 x44 | s85 => DD x5 x45 | s86 => DD x5 x46 | s87 => DD x5 x47 | s88 => DD x5 x48 | s89 => DD x5 x49 | s90 => DD x5 x50 | s91 => DD x5 x51 | s92 => DD x5 x52 | s93 => DD x5 x53 | s94 => DD x5 x54 | s95 => DD x5 x55 | s96 => DD x5 x56 | s97 => DD x5 x57 | s98 => DD x5 x58 | s99 => DD x5 x59 | s100 => DD x5 x60 | s101 => DD x5 x61 | s102 => DD x5 x62 | s103 => DD x5 x63 | s104 => DD x6 x0 | s105 => DD x6 x1 | s106 => DD x6 x2 | s107 => DD x6 x3 | s108 => DD x6 x4 | s109 => DD x6 x5 | s110 => DD x6 x6 | s111 => DD x6 x7 | s112 => DD x6 x8 | s113 => DD x6 x9 | s114 => DD x6 x10 | s115 => DD x6 x11 | s116 => DD x6 x12 | s117 => DD x6 x13 | s118 => DD x6 x14 | s119 => DD x6 x15 | s120 => DD x6 x16 | s121 => DD x6 x17 | s122 => DD x6 x18 | s123 => DD x6 x19 | s124 => DD x6 x20 | s125 => DD x6 x21 | s126 => DD x6 x22 end.
Definition m282 (c : sum2) : dd := match c with s0 => DD x4 x26 | s1 => DD x4 x27 | s2 => DD x4 x28 | s3 => DD x4 x29 | s4 => DD x4 x30 | s5 => DD x4 x31 | s6 => DD x4 x32 | s7 => DD x4 x33 | s8 => DD x4 x34 | s9 => DD x4 x35 | s10 => DD x4 x36 | s11 => DD x4 x37 | s12 => DD x4 x38 | s13 => DD x4 x39 | s14 => DD x4 x40 | s15 => DD x4 x41 | s16 => DD x4 x42 | s17 => DD x4 x43 | s18 => DD x4 x44 | s19 => DD x4 x45 | s20 => DD x4 x46 | s21 => DD x4 x47 | s22 => DD x4 x48 | s23 => DD x4 x49 | s24 => DD x4 x50 | s25 => DD x4 x51 | s26 => DD x4 x52 | s27 => DD x4 x53 | s28 => DD x4 x54 | s29 => DD x4 x55 | s30 => DD x4 x56 | s31 => DD x4 x57 | s32 => DD x4 x58 | s33 => DD x4 x59 | s34 => DD x4 x60 | s35 => DD x4 x61 | s36 => DD x4 x62 | s37 => DD x4 x63 | s38 => DD x5 x0 | s39 => DD x5 x1 | s40 => DD x5 x2 | s41 => DD x5 x3 | s42 => DD x5 x4 | s43 => DD x5 x5 | s44 => DD x5 x6 | s45 => DD x5 x7 | s46 => DD x5 x8 | s47 => DD x5 x9 | s48 => DD x5 x10 | s49 => DD x5 x11 | s50 => DD x5 x12 | s51 => DD x5 x13 | s52 => DD x5 x14 | s53 => DD x5 x15 | s54 => DD x5 x16 | s55 => DD x5 x17 | s56 => DD x5 x18 | s57 => DD x5 x19 | s58 => DD x5 x20 | s59 => DD x5 x21 | s60 => DD x5 x22 | s61 => DD x5 x23 | s62 => DD x5 x24 | s63 => DD x5 x25 | s64 => DD x5 x26 | s65 => DD x5 x27 | s66 => DD x5 x28 | s67 => DD x5 x29 | s68 => DD x5 x30 | s69 => DD x5 x31 | s70 => DD x5 x32 | s71 => DD x5 x33 | s72 => DD x5 x34 | s73 => DD x5 x35 | s74 => DD x5 x36 | s75 => DD x5 x37 | s76 => DD x5 x38 | s77 => DD x5 x39 | s78 => DD x5 x40 | s79 => DD x5 x41 | s80 => DD x5 x42 | s81 => DD x5 x43 | s82 => DD x5 x44 | s83 => DD x5 x45 | s84 => DD x5 x46 | s85 => DD x5 x47 | s86 => DD x5 x48 | s87 => DD x5 x49 | s88 => DD x5 x50 | s89 => DD x5 x51 | s90 => DD x5 x52 | s91 => DD x5 x53 | s92 => DD x5 x54 | s93 => DD x5 x55 | s94 => DD x5 x56 | s95 => DD x5 x57 | s96 => DD x5 x58 | s97 => DD x5 x59 | s98 => DD x5 x60 | s99 => DD x5 x61 | s100 => DD x5 x62 | s101 => DD x5 x63 | s102 => DD x6 x0 | s103 => DD x6 x1 | s104 => DD x6 x2 | s105 => DD x6 x3 | s106 => DD x6 x4 | s107 => DD x6 x5 | s108 => DD x6 x6 | s109 => DD x6 x7 | s110 => DD x6 x8 | s111 => DD x6 x9 | s112 => DD x6 x10 | s113 => DD x6 x11 | s114 => DD x6 x12 | s115 => DD x6 x13 | s116 => DD x6 x14 | s117 => DD x6 x15 | s118 => DD x6 x16 | s119 => DD x6 x17 | s120 => DD x6 x18 | s121 => DD x6 x19 | s122 => DD x6 x20 | s123 => DD x6 x21 | s124 => DD x6 x22 | s125 => DD x6 x23 | s126 => DD x6 x24 end.
Definition m285 (c : sum2) : dd := match c with s0 => DD x4 x29 | s1 => DD x4 x30 | s2 => DD x4 x31 | s3 => DD x4 x32 | s4 => DD x4 x33 | s5 => DD x4 x34 | s6 => DD x4 x35 | s7 => DD x4 x36 | s8 => DD x4 x37 | s9 => DD x4 x38 | s10 => DD x4 x39 | s11 => DD x4 x40 | s12 => DD x4 x41 | s13 => DD x4 x42 | s14 => DD x4 x43 | s15 => DD x4 x44 | s16 => DD x4 x45 | s17 => DD x4 x46 | s18 => DD x4 x47 | s19 => DD x4 x48 | s20 => DD x4 x49 | s21 => DD x4 x50 | s22 => DD x4 x51 | s23 => DD x4 x52 | s24 => DD x4 x53 | s25 => DD x4 x54 | s26 => DD x4 x55 | s27 => DD x4 x56 | s28 => DD x4 x57 | s29 => DD x4 x58 | s30 => DD x4 x59 | s31 => DD x4 x60 | s32 => DD x4 x61 | s33 => DD x4 x62 | s34 => DD x4 x63 | s35 => DD x5 x0 | s36 => DD x5 x1 | s37 => DD x5 x2 | s38 => DD x5 x3 | s39 => DD x5 x4 | s40 => DD x5 x5 | s41 => DD x5 x6 | s42 => DD x5 x7 | s43 => DD x5 x8 | s44 => DD x5 x9 | s45 => DD x5 x10 | s46 => DD x5 x11 | s47 => DD x5 x12 | s48 => DD x5 x13 | s49 => DD x5 x14 | s50 => DD x5 x15 | s51 => DD x5 x16 | s52 => DD x5 x17 | s53 => DD x5 x18 | s54 => DD x5 x19 | s55 => DD x5 x20 | s56 => DD x5 x21 | s57 => DD x5 x22 | s58 => DD x5 x23 | s59 => DD x5 x24 | s60 => DD x5 x25 | s61 => DD x5 x26 | s62 => DD x5 x27 | s63 => DD x5 x28 | s64 => DD x5 x29 | s65 => DD x5 x30 | s66 => DD x5 x31 | s67 => DD x5 x32 | s68 => DD x5 x33 | s69 => DD x5 x34 | s70 => DD x5 x35 | s71 => DD x5 x36 | s72 => DD x5 x37 | s73 => DD x5 x38 | s74 => DD x5 x39 | s75 => DD x5 x40 | s76 => DD x5 x41 | s77 => DD x5 x42 | s78 => DD x5 x43 | s79 => DD x5 x44 | s80 => DD x5 x45 | s81 => DD x5 x46 | s82 => DD x5 x47 | s83 => DD x5 x48 | s84 => DD x5 x49 | s85 => DD x5 x50 | s86 => DD x5 x51 | s87 => DD x5 x52 | s88 => DD x5 x53 | s89 => DD x5 x54 | s90 => DD x5 x55 | s91 => DD x5 x56 | s92 => DD x5 x57 | s93 => DD x5 x58 | s94 => DD x5 x59 | s95 => DD x5 x60 | s96 => DD x5 x61 | s97 => DD x5 x62 | s98 => DD x5 x63 | s99 => DD x6 x0 | s100 => DD x6 x1 | s101 => DD x6 x2 | s102 => DD x6 x3 | s103 => DD x6 x4 | s104 => DD x6 x5 | s105 => DD x6 x6 | s106 => DD x6 x7 | s107 => DD x6 x8 | s108 => DD x6 x9 | s109 => DD x6 x10 | s110 => DD x6 x11 | s111 => DD x6 x12 | s112 => DD x6 x13 | s113 => DD x6 x14 | s114 => DD x6 x15 | s115 => DD x6 x16 | s116 => DD x6 x17 | s117 => DD x6 x18 | s118 => DD x6 x19 | s119 => DD x6 x20 | s120 => DD x6 x21 | s121 => DD x6 x22 | s122 => DD x6 x23 | s123 => DD x6 x24 | s124 => DD x6 x25 | s125 => DD x6 x26 | s126 => DD x6 x27 end.
Definition m286 (c : sum2) : dd := match c with s0 => DD x4 x30 | s1 => DD x4 x31 | s2 => DD x4 x32 | s3 => DD x4 x33 | s4 => DD x4 x34 | s5 => DD x4 x35 | s6 => DD x4 x36 | s7 => DD x4 x37 | s8 => DD x4 x38 | s9 => DD x4 x39 | s10 => DD x4 x40 | s11 => DD x4 x41 | s12 => DD x4 x42 | s13 => DD x4 x43 | s14 => DD x4 x44 | s15 => DD x4 x45 | s16 => DD x4 x46 | s17 => DD x4 x47 | s18 => DD x4 x48 | s19 => DD x4 x49 | s20 => DD x4 x50 | s21 => DD x4 x51 | s22 => DD x4 x52 | s23 => DD x4 x53 | s24 => DD x4 x54 | s25 => DD x4 x55 | s26 => DD x4 x56 | s27 => DD x4 x57 | s28 => DD x4 x58 | s29 => DD x4 x59 | s30 => DD x4 x60 | s31 => DD x4 x61 | s32 => DD x4 x62 | s33 => DD x4 x63 | s34 => DD x5 x0 | s35 => DD x5 x1 | s36 => DD x5 x2 | s37 => DD x5 x3 | s38 => DD x5 x4 | s39 => DD x5 x5 | s40 => DD x5 x6 | s41 => DD x5 x7 | s42 => DD x5 x8 | s43 => DD x5 x9 | s44 => DD x5 x10 | s45 => DD x5 x11 | s46 => DD x5 x12 | s47 => DD x5 x13 | s48 => DD x5 x14 | s49 => DD x5 x15 | s50 => DD x5 x16 | s51 => DD x5 x17 | s52 => DD x5 x18 | s53 => DD x5 x19 | s54 => DD x5 x20 | s55 => DD x5 x21 | s56 => DD x5 x22 | s57 => DD x5 x23 | s58 => DD x5 x24 | s59 => DD x5 x25 | s60 => DD x5 x26 | s61 => DD x5 x27 | s62 => DD x5 x28 | s63 => DD x5 x29 | s64 => DD x5 x30 | s65 => DD x5 x31 | s66 => DD x5 x32 | s67 => DD x5 x33 | s68 => DD x5 x34 | s69 => DD x5 x35 | s70 => DD x5 x36 | s71 => DD x5 x37 | s72 => DD x5 x38 | s73 => DD x5 x39 | s74 => DD x5 x40 | s75 => DD x5 x41 | s76 => DD x5 x42 | s77 => DD x5 x43 | s78 => DD x5 x44 | s79 => DD x5 x45 | s80 => DD x5 x46 | s81 => DD x5 x47 | s82 => DD x5 x48 | s83 => DD x5 x49 | s84 => DD x5 x50 | s85 => DD x5 x51 | s86 => DD x5 x52 | s87 => DD x5 x53 | s88 => DD x5 x54 | s89 => DD x5 x55 | s90 => DD x5 x56 | s91 => DD x5 x57 | s92 => DD x5 x58 | s93 => DD x5 x59 | s94 => DD x5 x60 | s95 => DD x5 x61 | s96 => DD x5 x62 | s97 => DD x5 x63 | s98 => DD x6 x0 | s99 => DD x6 x1 | s100 => DD x6 x2 | s101 => DD x6 x3 | s102 => DD x6 x4 | s103 => DD x6 x5 | s104 => DD x6 x6 | s105 => DD x6 x7 | s106 => DD x6 x8 | s107 => DD x6 x9 | s108 => DD x6 x10 | s109 => DD x6 x11 | s110 => DD x6 x12 | s111 => DD x6 x13 | s112 => DD x6 x14 | s113 => DD x6 x15 | s114 => DD x6 x16 | s115 => DD x6 x17 | s116 => DD x6 x18 | s117 => DD x6 x19 | s118 => DD x6 x20 | s119 => DD x6 x21 | s120 => DD x6 x22 | s121 => DD x6 x23 | s122 => DD x6 x24 | s123 => DD x6 x25 | s124 => DD x6 x26 | s125 => DD x6 x27 | s126 => DD x6 x28 end.
Definition m287 (c : sum2) : dd := match c with s0 => DD x4 x31 | s1 => DD x4 x32 | s2 => DD x4 x33 | s3 => DD x4 x34 | s4 => DD x4 x35 | s5 => DD x4 x36 | s6 => DD x4 x37 | s7 => DD x4 x38 | s8 => DD x4 x39 | s9 => DD x4 x40 | s10 => DD x4 x41 | s11 => DD x4 x42 | s12 => DD x4 x43 | s13 => DD x4 x44 | s14 => DD x4 x45 | s15 => DD x4 x46 | s16 => DD x4 x47 | s17 => DD x4 x48 | s18 => DD x4 x49 | s19 => DD x4 x50 | s20 => DD x4 x51 | s21 => DD x4 x52 | s22 => DD x4 x53 | s23 => DD x4 x54 | s24 => DD x4 x55 | s25 => DD x4 x56 | s26 => DD x4 x57 | s27 => DD x4 x58 | s28 => DD x4 x59 | s29 => DD x4 x60 | s30 => DD x4 x61 | s31 => DD x4 x62 | s32 => DD x4 x63 | s33 => DD x5 x0 | s34 => DD x5 x1 | s35 => DD x5 x2 | s36 => DD x5 x3 | s37 => DD x5 x4 | s38 => DD x5 x5 | s39 => DD x5 x6 | s40 => DD x5 x7 | s41 => DD x5 x8 | s42 => DD x5 x9 | s43 => DD x5 x10 | s44 => DD x5 x11 | s45 => DD x5 x12 | s46 => DD x5 x13 | s47 => DD x5 x14 | s48 => DD x5 x15 | s49 => DD x5 x16 | s50 => DD x5 x17 | s51 => DD x5 x18 | s52 => DD x5 x19 | s53 => DD x5 x20 | s54 => DD x5 x21 | s55 => DD x5 x22 | s56 => DD x5 x23 | s57 => DD x5 x24 | s58 => DD x5 x25 | s59 => DD x5 x26 | s60 => DD x5 x27 | s61 => DD x5 x28 | s62 => DD x5 x29 | s63 => DD x5 x30 | s64 => DD x5 x31 | s65 => DD x5 x32 | s66 => DD x5 x33 | s67 => DD x5 x34 | s68 => DD x5 x35 | s69 => DD x5 x36 | s70 => DD x5 x37 | s71 => DD x5 x38 | s72 => DD x5 x39 | s73 => DD x5 x40 | s74 => DD x5 x41 | s75 => DD x5 x42 | s76 => DD x5 x43 | s77 => DD x5 x44 | s78 => DD x5 x45 | s79 => DD x5 x46 | s80 => DD x5 x47 | s81 => DD x5 x48 | s82 => DD x5 x49 | s83 => DD x5 x50 | s84 => DD x5 x51 | s85 => DD x5 x52 | s86 => DD x5 x53 | s87 => DD x5 x54 | s88 => DD x5 x55 | s89 => DD x5 x56 | s90 => DD x5 x57 | s91 => DD x5 x58 | s92 => DD x5 x59 | s93 => DD x5 x60 | s94 => DD x5 x61 | s95 => DD x5 x62 | s96 => DD x5 x63 | s97 => DD x6 x0 | s98 => DD x6 x1 | s99 => DD x6 x2 | s100 => DD x6 x3 | s101 => DD x6 x4 | s102 => DD x6 x5 | s103 => DD x6 x6 | s104 => DD x6 x7 | s105 => DD x6 x8 | s106 => DD x6 x9 | s107 => DD x6 x10 | s108 => DD x6 x11 | s109 => DD x6 x12 | s110 => DD x6 x13 | s111 => DD x6 x14 | s112 => DD x6 x15 | s113 => DD x6 x16 | s114 => DD x6 x17 | s115 => DD x6 x18 | s116 => DD x6 x19 | s117 => DD x6 x20 | s118 => DD x6 x21 | s119 => DD x6 x22 | s120 => DD x6 x23 | s121 => DD x6 x24 | s122 => DD x6 x25 | s123 => DD x6 x26 | s124 => DD x6 x27 | s125 => DD x6 x28 | s126 => DD x6 x29 end.
Definition m288 (c : sum2) : dd := match c with s0 => DD x4 x32 | s1 => DD x4 x33 | s2 => DD x4 x34 | s3 => DD x4 x35 | s4 => DD x4 x36 | s5 => DD x4 x37 | s6 => DD x4 x38 | s7 => DD x4 x39 | s8 => DD x4 x40 | s9 => DD x4 x41 | s10 => DD x4 x42 | s11 => DD x4 x43 | s12 => DD x4 x44 | s13 => DD x4 x45 | s14 => DD x4 x46 | s15 => DD x4 x47 | s16 => DD x4 x48 | s17 => DD x4 x49 | s18 => DD x4 x50 | s19 => DD x4 x51 | s20 => DD x4 x52 | s21 => DD x4 x53 | s22 => DD x4 x54 | s23 => DD x4 x55 | s24 => DD x4 x56 | s25 => DD x4 x57 | s26 => DD x4 x58 | s27 => DD x4 x59 | s28 => DD x4 x60 | s29 => DD x4 x61 | s30 => DD x4 x62 | s31 => DD x4 x63 | s32 => DD x5 x0 | s33 => DD x5 x1 | s34 => DD x5 x2 | s35 => DD x5 x3 | s36 => DD x5 x4 | s37 => DD x5 x5 | s38 => DD x5 x6 | s39 => DD x5 x7 | s40 => DD x5 x8 | s41 => DD x5 x9 | s42 => DD x5 x10 | s43 => DD x5 x11 | s44 => DD x5 x12 | s45 => DD x5 x13 | s46 => DD x5 x14 | s47 => DD x5 x15 | s48 => DD x5 x16 | s49 => DD x5 x17 | s50 => DD x5 x18 | s51 => DD x5 x19 | s52 => DD x5 x20 | s53 => DD x5 x21 | s54 => DD x5 x22 | s55 => DD x5 x23 | s56 => DD x5 x24 | s57 => DD x5 x25 | s58 => DD x5 x26 | s59 => DD x5 x27 | s60 => DD x5 x28 | s61 => DD x5 x29 | s62 => DD x5 x30 | s63 => DD x5 x31 | s64 => DD x5 x32 | s65 => DD x5 x33 | s66 => DD x5 x34 | s67 => DD x5 x35 | s68 => DD x5 x36 | s69 => DD x5 x37 | s70 => DD x5 x38 | s71 => DD x5 x39 | s72 => DD x5 x40 | s73 => DD x5 x41 | s74 => DD x5 x42 | s75 => DD x5 x43 | s76 => DD x5 x44 | s77 => DD x5 x45 | s78 => DD x5 x46 | s79 => DD x5 x47 | s80 => DD x5 x48 | s81 => DD x5 x49 | s82 => DD x5 x50 | s83 => DD x5 x51 | s84 => DD x5 x52 | s85 => DD x5 x53 | s86 => DD x5 x54 | s87 => DD x5 x55 | s88 => DD x5 x56 | s89 => DD x5 x57 | s90 => DD x5 x58 | s91 => DD x5 x59 | s92 => DD x5 x60 | s93 => DD x5 x61 | s94 => DD x5 x62 | s95 => DD x5 x63 | s96 => DD x6 x0 | s97 => DD x6 x1 | s98 => DD x6 x2 | s99 => DD x6 x3 | s100 => DD x6 x4 | s101 => DD x6 x5 | s102 => DD x6 x6 | s103 => DD x6 x7 | s104 => DD x6 x8 | s105 => DD x6 x9 | s106 => DD x6 x10 | s107 => DD x6 x11 | s108 => DD x6 x12 | s109 => DD x6 x13 | s110 => DD x6 x14 | s111 => DD x6 x15 | s112 => DD x6 x16 | s113 => DD x6 x17 | s114 => DD x6 x18 | s115 => DD x6 x19 | s116 => DD x6 x20 | s117 => DD x6 x21 | s118 => DD x6 x22 | s119 => DD x6 x23 | s120 => DD x6 x24 | s121 => DD x6 x25 | s122 => DD x6 x26 | s123 => DD x6 x27 | s124 => DD x6 x28 | s125 => DD x6 x29 | s126 => DD x6 x30 end.
Definition m289 (c : sum2) : dd := match c with s0 => DD x4 x33 | s1 => DD x4 x34 | s2 => DD x4 x35 | s3 => DD x4 x36 | s4 => DD x4 x37 | s5 => DD x4 x38 | s6 => DD x4 x39 | s7 => DD x4 x40 | s8 => DD x4 x41 | s9 => DD x4 x42 | s10 => DD x4 x43 | s11 => DD x4 x44 | s12 => DD x4 x45 | s13 => DD x4 x46 | s14 => DD x4 x47 | s15 => DD x4 x48 | s16 => DD x4 x49 | s17 => DD x4 x50 | s18 => DD x4 x51 | s19 => DD x4 x52 | s20 => DD x4 x53 | s21 => DD x4 x54 | s22 => DD x4 x55 | s23 => DD x4 x56 | s24 => DD x4 x57 | s25 => DD x4 x58 | s26 => DD x4 x59 | s27 => DD x4 x60 | s28 => DD x4 x61 | s29 => DD x4 x62 | s30 => DD x4 x63 | s31 => DD x5 x0 | s32 => DD x5 x1 | s33 => DD x5 x2 | s34 => DD x5 x3 | s35 => DD x5 x4 | s36 => DD x5 x5 | s37 => DD x5 x6 | s38 => DD x5 x7 | s39 => DD x5 x8 | s40 => DD x5 x9 | s41 => DD x5 x10 | s42 => DD x5 x11 | s43 => DD x5 x12 | s44 => DD x5 x13 | s45 => DD x5 x14 | s46 => DD x5 x15 | s47 => DD x5 x16 | s48 => DD x5 x17 | s49 => DD x5 x18 | s50 => DD x5 x19 | s51 => DD x5 x20 | s52 => DD x5 x21 | s53 => DD x5 x22 | s54 => DD x5 x23 | s55 => DD x5 x24 | s56 => DD x5 x25 | s57 => DD x5 x26 | s58 => DD x5 x27 | s59 => DD x5 x28 | s60 => DD x5 x29 | s61 => DD x5 x30 | s62 => DD x5 x31 | s63 => DD x5 x32 | s64 => DD x5 x33 | s65 => DD x5 x34 | s66 => DD x5 x35 | s67 => DD x5 x36 | s68 => DD x5 x37 | s69 => DD x5 x38 | s70 => DD x5 x39 | s71 => DD x5 x40 | s72 => DD x5 x41 | s73 => DD x5 x42 | s74 => DD x5 x43 | s75 => DD x5 x44 | s76 => DD x5 x45 | s77 => DD x5 x46 | s78 => DD x5 x47 | s79 => DD x5 x48 | s80 => DD x5 x49 | s81 => DD x5 x50 | s82 => DD x5 x51 | s83 => DD x5 x52 | s84 => DD x5 x53 | s85 => DD x5 x54 | s86 => DD x5 x55 | s87 => DD x5 x56 | s88 => DD x5 x57 | s89 => DD x5 x58 | s90 => DD x5 x59 | s91 => DD x5 x60 | s92 => DD x5 x61 | s93 => DD x5 x62 | s94 => DD x5 x63 | s95 => DD x6 x0 | s96 => DD x6 x1 | s97 => DD x6 x2 | s98 => DD x6 x3 | s99 => DD x6 x4 | s100 => DD x6 x5 | s101 => DD x6 x6 | s102 => DD x6 x7 | s103 => DD x6 x8 | s104 => DD x6 x9 | s105 => DD x6 x10 | s106 => DD x6 x11 | s107 => DD x6 x12 | s108 => DD x6 x13 | s109 => DD x6 x14 | s110 => DD x6 x15 | s111 => DD x6 x16 | s112 => DD x6 x17 | s113 => DD x6 x18 | s114 => DD x6 x19 | s115 => DD x6 x20 | s116 => DD x6 x21 | s117 => DD x6 x22 | s118 => DD x6 x23 | s119 => DD x6 x24 | s120 => DD x6 x25 | s121 => DD x6 x26 | s122 => DD x6 x27 | s123 => DD x6 x28 | s124 => DD x6 x29 | s125 => DD x6 x30 | s126 => DD x6 x31 end.
Definition m290 (c : sum2) : dd := match c with s0 => DD x4 x34 | s1 => DD x4 x35 | s2 => DD x4 x36 | s3 => DD x4 x37 | s4 => DD x4 x38 | s5 => DD x4 x39 | s6 => DD x4 x40 | s7 => DD x4 x41 | s8 => DD x4 x42 | s9 => DD x4 x43 | s10 => DD x4 x44 | s11 => DD x4 x45 | s12 => DD x4 x46 | s13 => DD x4 x47 | s14 => DD x4 x48 | s15 => DD x4 x49 | s16 => DD x4 x50 | s17 => DD x4 x51 | s18 => DD x4 x52 | s19 => DD x4 x53 | s20 => DD x4 x54 | s21 => DD x4 x55 | s22 => DD x4 x56 | s23 => DD x4 x57 | s24 => DD x4 x58 | s25 => DD x4 x59 | s26 => DD x4 x60 | s27 => DD x4 x61 | s28 => DD x4 x62 | s29 => DD x4 x63 | s30 => DD x5 x0 | s31 => DD x5 x1 | s32 => DD x5 x2 | s33 => DD x5 x3 | s34 => DD x5 x4 | s35 => DD x5 x5 | s36 => DD x5 x6 | s37 => DD x5 x7 | s38 => DD x5 x8 | s39 => DD x5 x9 | s40 => DD x5 x10 | s41 => DD x5 x11 | s42 => DD x5 x12 | s43 => DD x5 x13 | s44 => DD x5 x14 | s45 => DD x5 x15 | s46 => DD x5 x16 | s47 => DD x5 x17 | s48 => DD x5 x18 | s49 => DD x5 x19 | s50 => DD x5 x20 | s51 => DD x5 x21 | s52 => DD x5 x22 | s53 => DD x5 x23 | s54 => DD x5 x24 | s55 => DD x5 x25 | s56 => DD x5 x26 | s57 => DD x5 x27 | s58 => DD x5 x28 | s59 => DD x5 x29 | s60 => DD x5 x30 | s61 => DD x5 x31 | s62 => DD x5 x32 | s63 => DD x5 x33 | s64 => DD x5 x34 | s65 => DD x5 x35 | s66 => DD x5 x36 | s67 => DD x5 x37 | s68 => DD x5 x38 | s69 => DD x5 x39 | s70 => DD x5 x40 | s71 => DD x5 x41 | s72 => DD x5 x42 | s73 => DD x5 x43 | s74 => DD x5 x44 | s75 => DD x5 x45 | s76 => DD x5 x46 | s77 => DD x5 x47 | s78 => DD x5 x48 | s79 => DD x5 x49 | s80 => DD x5 x50 | s81 => DD x5 x51 | s82 => DD x5 x52 | s83 => DD x5 x53 | s84 => DD x5 x54 | s85 => DD x5 x55 | s86 => DD x5 x56 | s87 => DD x5 x57 | s88 => DD x5 x58 | s89 => DD x5 x59 | s90 => DD x5 x60 | s91 => DD x5 x61 | s92 => DD x5 x62 | s93 => DD x5 x63 | s94 => DD x6 x0 | s95 => DD x6 x1 | s96 => DD x6 x2 | s97 => DD x6 x3 | s98 => DD x6 x4 | s99 => DD x6 x5 | s100 => DD x6 x6 | s101 => DD x6 x7 | s102 => DD x6 x8 | s103 => DD x6 x9 | s104 => DD x6 x10 | s105 => DD x6 x11 | s106 => DD x6 x12 | s107 => DD x6 x13 | s108 => DD x6 x14 | s109 => DD x6 x15 | s110 => DD x6 x16 | s111 => DD x6 x17 | s112 => DD x6 x18 | s113 => DD x6 x19 | s114 => DD x6 x20 | s115 => DD x6 x21 | s116 => DD x6 x22 | s117 => DD x6 x23 | s118 => DD x6 x24 | s119 => DD x6 x25 | s120 => DD x6 x26 | s121 => DD x6 x27 | s122 => DD x6 x28 | s123 => DD x6 x29 | s124 => DD x6 x30 | s125 => DD x6 x31 | s126 => DD x6 x32 end.
Definition m294 (c : sum2) : dd := match c with s0 => DD x4 x38 | s1 => DD x4 x39 | s2 => DD x4 x40 | s3 => DD x4 x41 | s4 => DD x4 x42 | s5 => DD x4 x43 | s6 => DD x4 x44 | s7 => DD x4 x45 | s8 => DD x4 x46 | s9 => DD x4 x47 | s10 => DD x4 x48 | s11 => DD x4 x49 | s12 => DD x4 x50 | s13 => DD x4 x51 | s14 => DD x4 x52 | s15 => DD x4 x53 | s16 => DD x4 x54 | s17 => DD x4 x55 | s18 => DD x4 x56 | s19 => DD x4 x57 | s20 => DD x4 x58 | s21 => DD x4 x59 | s22 => DD x4 x60 | s23 => DD x4 x61 | s24 => DD x4 x62 | s25 => DD x4 x63 | s26 => DD x5 x0 | s27 => DD x5 x1 | s28 => DD x5 x2 | s29 => DD x5 x3 | s30 => DD x5 x4 | s31 => DD x5 x5 | s32 => DD x5 x6 | s33 => DD x5 x7 | s34 => DD x5 x8 | s35 => DD x5 x9 | s36 => DD x5 x10 | s37 => DD x5 x11 | s38 => DD x5 x12 | s39 => DD x5 x13 | s40 => DD x5 x14 | s41 => DD x5 x15 | s42 => DD x5 x16 | s43 => DD x5 x17 | s44 => DD x5 x18 | s45 => DD x5 x19 | s46 => DD x5 x20 | s47 => DD x5 x21 | s48 => DD x5 x22 | s49 => DD x5 x23 | s50 => DD x5 x24 | s51 => DD x5 x25 | s52 => DD x5 x26 | s53 => DD x5 x27 | s54 => DD x5 x28 | s55 => DD x5 x29 | s56 => DD x5 x30 | s57 => DD x5 x31 | s58 => DD x5 x32 | s59 => DD x5 x33 | s60 => DD x5 x34 | s61 => DD x5 x35 | s62 => DD x5 x36 | s63 => DD x5 x37 | s64 => DD x5 x38 | s65 => DD x5 x39 | s66 => DD x5 x40 | s67 => DD x5 x41 | s68 => DD x5 x42 | s69 => DD x5 x43 | s70 => DD x5 x44 | s71 => DD x5 x45 | s72 => DD x5 x46 | s73 => DD x5 x47 | s74 => DD x5 x48 | s75 => DD x5 x49 | s76 => DD x5 x50 | s77 => DD x5 x51 | s78 => DD x5 x52 | s79 => DD x5 x53 | s80 => DD x5 x54 | s81 => DD x5 x55 | s82 => DD x5 x56 | s83 => DD x5 x57 | s84 => DD x5 x58 | s85 => DD x5 x59 | s86 => DD x5 x60 | s87 => DD x5 x61 | s88 => DD x5 x62 | s89 => DD x5 x63 | s90 => DD x6 x0 | s91 => DD x6 x1 | s92 => DD x6 x2 | s93 => DD x6 x3 | s94 => DD x6 x4 | s95 => DD x6 x5 | s96 => DD x6 x6 | s97 => DD x6 x7 | s98 => DD x6 x8 | s99 => DD x6 x9 | s100 => DD x6 x10 | s101 => DD x6 x11 | s102 => DD x6 x12 | s103 => DD x6 x13 | s104 => DD x6 x14 | s105 => DD x6 x15 | s106 => DD x6 x16 | s107 => DD x6 x17 | s108 => DD x6 x18 | s109 => DD x6 x19 | s110 => DD x6 x20 | s111 => DD x6 x21 | s112 => DD x6 x22 | s113 => DD x6 x23 | s114 => DD x6 x24 | s115 => DD x6 x25 | s116 => DD x6 x26 | s117 => DD x6 x27 | s118 => DD x6 x28 | s119 => DD x6 x29 | s120 => DD x6 x30 | s121 => DD x6 x31 | s122 => DD x6 x32 | s123 => DD x6 x33 | s124 => DD x6 x34 | s125 => DD x6 x35 | s126 => DD x6 x36 end.
Definition m295 (c : sum2) : dd := match c with s0 => DD x4 x39 | s1 => DD x4 x40 | s2 => DD x4 x41 | s3 => DD x4 x42 | s4 => DD x4 x43 | s5 => DD x4 x44 | s6 => DD x4 x45 | s7 => DD x4 x46 | s8 => DD x4 x47 | s9 => DD x4 x48 | s10 => DD x4 x49 | s11 => DD x4 x50 | s12 => DD x4 x51 | s13 => DD x4 x52 | s14 => DD x4 x53 | s15 => DD x4 x54 | s16 => DD x4 x55 | s17 => DD x4 x56 | s18 => DD x4 x57 | s19 => DD x4 x58 | s20 => DD x4 x59 | s21 => DD x4 x60 | s22 => DD x4 x61 | s23 => DD x4 x62 | s24 => DD x4 x63 | s25 => DD x5 x0 | s26 => DD x5 x1 | s27 => DD x5 x2 | s28 => DD x5 x3 | s29 => DD x5 x4 | s30 => DD x5 x5 | s31 => DD x5 x6 | s32 => DD x5 x7 | s33 => DD x5 x8 | s34 => DD x5 x9 | s35 => DD x5 x10 | s36 => DD x5 x11 | s37 => DD x5 x12 | s38 => DD x5 x13 | s39 => DD x5 x14 | s40 => DD x5 x15 | s41 => DD x5 x16 | s42 => DD x5 x17 | s43 => DD x5 x18 | s44 => DD x5 x19 | s45 => DD x5 x20 | s46 => DD x5 x21 | s47 => DD x5 x22 | s48 => DD x5 x23 | s49 => DD x5 x24 | s50 => DD x5 x25 | s51 => DD x5 x26 | s52 => DD x5 x27 | s53 => DD x5 x28 | s54 => DD x5 x29 | s55 => DD x5 x30 | s56 => DD x5 x31 | s57 => DD x5 x32 | s58 => DD x5 x33 | s59 => DD x5 x34 | s60 => DD x5 x35 | s61 => DD x5 x36 | s62 => DD x5 x37 | s63 => DD x5 x38 | s64 => DD x5 x39 | s65 => DD x5 x40 | s66 => DD x5 x41 | s67 => DD x5 x42 | s68 => DD x5 x43 | s69 => DD x5 x44 | s70 => DD x5 x45 | s71 => DD x5 x46 | s72 => DD x5 x47 | s73 => DD x5 x48 | s74 => DD x5 x49 | s75 => DD x5 x50 | s76 => DD x5 x51 | s77 => DD x5 x52 | s78 => DD x5 x53 | s79 => DD x5 x54 | s80 => DD x5 x55 | s81 => DD x5 x56 | s82 => DD x5 x57 | s83 => DD x5 x58 | s84 => DD x5 x59 | s85 => DD x5 x60 | s86 => DD x5 x61 | s87 => DD x5 x62 | s88 => DD x5 x63 | s89 => DD x6 x0 | s90 => DD x6 x1 | s91 => DD x6 x2 | s92 => DD x6 x3 | s93 => DD x6 x4 | s94 => DD x6 x5 | s95 => DD x6 x6 | s96 => DD x6 x7 | s97 => DD x6 x8 | s98 => DD x6 x9 | s99 => DD x6 x10 | s100 => DD x6 x11 | s101 => DD x6 x12 | s102 => DD x6 x13 | s103 => DD x6 x14 | s104 => DD x6 x15 | s105 => DD x6 x16 | s106 => DD x6 x17 | s107 => DD x6 x18 | s108 => DD x6 x19 | s109 => DD x6 x20 | s110 => DD x6 x21 | s111 => DD x6 x22 | s112 => DD x6 x23 | s113 => DD x6 x24 | s114 => DD x6 x25 | s115 => DD x6 x26 | s116 => DD x6 x27 | s117 => DD x6 x28 | s118 => DD x6 x29 | s119 => DD x6 x30 | s120 => DD x6 x31 | s121 => DD x6 x32 | s122 => DD x6 x33 | s123 => DD x6 x34 | s124 => DD x6 x35 | s125 => DD x6 x36 | s126 => DD x6 x37 end.
Definition m296 (c : sum2) : dd := match c with s0 => DD x4 x40 | s1 => DD x4 x41 | s2 => DD x4 x42 | s3 => DD x4 x43 | s4 => DD x4 x44 | s5 => DD x4 x45 | s6 => DD x4 x46 | s7 => DD x4 x47 | s8 => DD x4 x48 | s9 => DD x4 x49 | s10 => DD x4 x50 | s11 => DD x4 x51 | s12 => DD x4 x52 | s13 => DD x4 x53 | s14 => DD x4 x54 | s15 => DD x4 x55 | s16 => DD x4 x56 | s17 => DD x4 x57 | s18 => DD x4 x58 | s19 => DD x4 x59 | s20 => DD x4 x60 | s21 => DD x4 x61 | s22 => DD x4 x62 | s23 => DD x4 x63 | s24 => DD x5 x0 | s25 => DD x5 x1 | s26 => DD x5 x2 | s27 => DD x5 x3 | s28 => DD x5 x4 | s29 => DD x5 x5 | s30 => DD x5 x6 | s31 => DD x5 x7 | s32 => DD x5 x8 | s33 => DD x5 x9 | s34 => DD x5 x10 | s35 => DD x5 x11 | s36 => DD x5 x12 | s37 => DD x5 x13 | s38 => DD x5 x14 | s39 => DD x5 x15 | s40 => DD x5 x16 | s41 => DD x5 x17 | s42 => DD x5 x18 | s43 => DD x5 x19 | s44 => DD x5 x20 | s45 => DD x5 x21 | s46 => DD x5 x22 | s47 => DD x5 x23 | s48 => DD x5 x24 | s49 => DD x5 x25 | s50 => DD x5 x26 | s51 => DD x5 x27 | s52 => DD x5 x28 | s53 => DD x5 x29 | s54 => DD x5 x30 | s55 => DD x5 x31 | s56 => DD x5 x32 | s57 => DD x5 x33 | s58 => DD x5 x34 | s59 => DD x5 x35 | s60 => DD x5 x36 | s61 => DD x5 x37 | s62 => DD x5 x38 | s63 => DD x5 x39 | s64 => DD x5 x40 | s65 => DD x5 x41 | s66 => DD x5 x42 | s67 => DD x5 x43 | s68 => DD x5 x44 | s69 => DD x5 x45 | s70 => DD x5 x46 | s71 => DD x5 x47 | s72 => DD x5 x48 | s73 => DD x5 x49 | s74 => DD x5 x50 | s75 => DD x5 x51 | s76 => DD x5 x52 | s77 => DD x5 x53 | s78 => DD x5 x54 | s79 => DD x5 x55 | s80 => DD x5 x56 | s81 => DD x5 x57 | s82 => DD x5 x58 | s83 => DD x5 x59 | s84 => DD x5 x60 | s85 => DD x5 x61 | s86 => DD x5 x62 | s87 => DD x5 x63 | s88 => DD x6 x0 | s89 => DD x6 x1 | s90 => DD x6 x2 | s91 => DD x6 x3 | s92 => DD x6 x4 | s93 => DD x6 x5 | s94 => DD x6 x6 | s95 => DD x6 x7 | s96 => DD x6 x8 | s97 => DD x6 x9 | s98 => DD x6 x10 | s99 => DD x6 x11 | s100 => DD x6 x12 | s101 => DD x6 x13 | s102 => DD x6 x14 | s103 => DD x6 x15 | s104 => DD x6 x16 | s105 => DD x6 x17 | s106 => DD x6 x18 | s107 => DD x6 x19 | s108 => DD x6 x20 | s109 => DD x6 x21 | s110 => DD x6 x22 | s111 => DD x6 x23 | s112 => DD x6 x24 | s113 => DD x6 x25 | s114 => DD x6 x26 | s115 => DD x6 x27 | s116 => DD x6 x28 | s117 => DD x6 x29 | s118 => DD x6 x30 | s119 => DD x6 x31 | s120 => DD x6 x32 | s121 => DD x6 x33 | s122 => DD x6 x34 | s123 => DD x6 x35 | s124 => DD x6 x36 | s125 => DD x6 x37 | s126 => DD x6 x38 end.
Definition m297 (c : sum2) : dd := match c with s0 => DD x4 x41 | s1 => DD x4 x42 | s2 => DD x4 x43 | s3 => DD x4 x44 | s4 => DD x4 x45 | s5 => DD x4 x46 | s6 => DD x4 x47 | s7 => DD x4 x48 | s8 => DD x4 x49 | s9 => DD x4 x50 | s10 => DD x4 x51 | s11 => DD x4 x52 | s12 => DD x4 x53 | s13 => DD x4 x54 | s14 => DD x4 x55 | s15 => DD x4 x56 | s16 => DD x4 x57 | s17 => DD x4 x58 | s18 => DD x4 x59 | s19 => DD x4 x60 | s20 => DD x4 x61 | s21 => DD x4 x62 | s22 => DD x4 x63 | s23 => DD x5 x0 | s24 => DD x5 x1 | s25 => DD x5 x2 | s26 => DD x5 x3 | s27 => DD x5 x4 | s28 => DD x5 x5 | s29 => DD x5 x6 | s30 => DD x5 x7 | s31 => DD x5 x8 | s32 => DD x5 x9 | s33 => DD x5 x10 | s34 => DD x5 x11 | s35 => DD x5 x12 | s36 => DD x5 x13 | s37 => DD x5 x14 | s38 => DD x5 x15 | s39 => DD x5 x16 | s40 => DD x5 x17 | s41 => DD x5 x18 | s42 => DD x5 x19 | s43 => DD x5 x20 | s44 => DD x5 x21 | s45 => DD x5 x22 | s46 => DD x5 x23 | s47 => DD x5 x24 | s48 => DD x5 x25 | s49 => DD x5 x26 | s50 => DD x5 x27 | s51 => DD x5 x28 | s52 => DD x5 x29 | s53 => DD x5 x30 | s54 => DD x5 x31 | s55 => DD x5 x32 | s56 => DD x5 x33 | s57 => DD x5 x34 | s58 => DD x5 x35 | s59 => DD x5 x36 | s60 => DD x5 x37 | s61 => DD x5 x38 | s62 => DD x5 x39 | s63 => DD x5 x40 | s64 => DD x5 x41 | s65 => DD x5 x42 | s66 => DD x5 x43 | s67 => DD x5 x44 | s68 => DD x5 x45 | s69 => DD x5 x46 | s70 => DD x5 x47 | s71 => DD x5 x48 | s72 => DD x5 x49 | s73 => DD x5 x50 | s74 => DD x5 x51 | s75 => DD x5 x52 | s76 => DD x5 x53 | s77 => DD x5 x54 | s78 => DD x5 x55 | s79 => DD x5 x56 | s80 => DD x5 x57 | s81 => DD x5 x58 | s82 => DD x5 x59 | s83 => DD x5 x60 | s84 => DD x5 x61 | s85 => DD x5 x62 | s86 => DD x5 x63 | s87 => DD x6 x0 | s88 => DD x6 x1 | s89 => DD x6 x2 | s90 => DD x6 x3 | s91 => DD x6 x4 | s92 => DD x6 x5 | s93 => DD x6 x6 | s94 => DD x6 x7 | s95 => DD x6 x8 | s96 => DD x6 x9 | s97 => DD x6 x10 | s98 => DD x6 x11 | s99 => DD x6 x12 | s100 => DD x6 x13 | s101 => DD x6 x14 | s102 => DD x6 x15 | s103 => DD x6 x16 | s104 => DD x6 x17 | s105 => DD x6 x18 | s106 => DD x6 x19 | s107 => DD x6 x20 | s108 => DD x6 x21 | s109 => DD x6 x22 | s110 => DD x6 x23 | s111 => DD x6 x24 | s112 => DD x6 x25 | s113 => DD x6 x26 | s114 => DD x6 x27 | s115 => DD x6 x28 | s116 => DD x6 x29 | s117 => DD x6 x30 | s118 => DD x6 x31 | s119 => DD x6 x32 | s120 => DD x6 x33 | s121 => DD x6 x34 | s122 => DD x6 x35 | s123 => DD x6 x36 | s124 => DD x6 x37 | s125 => DD x6 x38 | s126 => DD x6 x39 end.
Definition m299 (c : sum2) : dd := match c with s0 => DD x4 x43 | s1 => DD x4 x44 | s2 => DD x4 x45 | s3 => DD x4 x46 | s4 => DD x4 x47 | s5 => DD x4 x48 | s6 => DD x4 x49 | s7 => DD x4 x50 | s8 => DD x4 x51 | s9 => DD x4 x52 | s10 => DD x4 x53 | s11 => DD x4 x54 | s12 => DD x4 x55 | s13 => DD x4 x56 | s14 => DD x4 x57 | s15 => DD x4 x58 | s16 => DD x4 x59 | s17 => DD x4 x60 | s18 => DD x4 x61 | s19 => DD x4 x62 | s20 => DD x4 x63 | s21 => DD x5 x0 | s22 => DD x5 x1 | s23 => DD x5 x2 | s24 => DD x5 x3 | s25 => DD x5 x4 | s26 => DD x5 x5 | s27 => DD x5 x6 | s28 => DD x5 x7 | s29 => DD x5 x8 | s30 => DD x5 x9 | s31 => DD x5 x10 | s32 => DD x5 x11 | s33 => DD x5 x12 | s34 => DD x5 x13 | s35 => DD x5 x14 | s36 => DD x5 x15 | s37 => DD x5 x16 | s38 => DD x5 x17 | s39 => DD x5 x18 | s40 => DD x5 x19 | s41 => DD x5 x20 | s42 => DD x5 x21 | s43 => DD x5 x22 | s44 => DD x5 x23 | s45 => DD x5 x24 | s46 => DD x5 x25 | s47 => DD x5 x26 | s48 => DD x5 x27 | s49 => DD x5 x28 | s50 => DD x5 x29 | s51 => DD x5 x30 | s52 => DD x5 x31 | s53 => DD x5 x32 | s54 => DD x5 x33 | s55 => DD x5 x34 | s56 => DD x5 x35 | s57 => DD x5 x36 | s58 => DD x5 x37 | s59 => DD x5 x38 | s60 => DD x5 x39 | s61 => DD x5 x40 | s62 => DD x5 x41 | s63 => DD x5 x42 | s64 => DD x5 x43 | s65 => DD x5 x44 | s66 => DD x5 x45 | s67 => DD x5 x46 | s68 => DD x5 x47 | s69 => DD x5 x48 | s70 => DD x5 x49 | s71 => DD x5 x50 | s72 => DD x5 x51 | s73 => DD x5 x52 | s74 => DD x5 x53 | s75 => DD x5 x54 | s76 => DD x5 x55 | s77 => DD x5 x56 | s78 => DD x5 x57 | s79 => DD x5 x58 | s80 => DD x5 x59 | s81 => DD x5 x60 | s82 => DD x5 x61 | s83 => DD x5 x62 | s84 => DD x5 x63 | s85 => DD x6 x0 | s86 => DD x6 x1 | s87 => DD x6 x2 | s88 => DD x6 x3 | s89 => DD x6 x4 | s90 => DD x6 x5 | s91 => DD x6 x6 | s92 => DD x6 x7 | s93 => DD x6 x8 | s94 => DD x6 x9 | s95 => DD x6 x10 | s96 => DD x6 x11 | s97 => DD x6 x12 | s98 => DD x6 x13 | s99 => DD x6 x14 | s100 => DD x6 x15 | s101 => DD x6 x16 | s102 => DD x6 x17 | s103 => DD x6 x18 | s104 => DD x6 x19 | s105 => DD x6 x20 | s106 => DD x6 x21 | s107 => DD x6 x22 | s108 => DD x6 x23 | s109 => DD x6 x24 | s110 => DD x6 x25 | s111 => DD x6 x26 | s112 => DD x6 x27 | s113 => DD x6 x28 | s114 => DD x6 x29 | s115 => DD x6 x30 | s116 => DD x6 x31 | s117 => DD x6 x32 | s118 => DD x6 x33 | s119 => DD x6 x34 | s120 => DD x6 x35 | s121 => DD x6 x36 | s122 => DD x6 x37 | s123 => DD x6 x38 | s124 => DD x6 x39 | s125 => DD x6 x40 | s126 => DD x6 x41 end.
Definition m300 (c : sum2) : dd := match c with s0 => DD x4 x44 | s1 => DD x4 x45 | s2 => DD x4 x46 | s3 => DD x4 x47 | s4 => DD x4 x48 | s5 => DD x4 x49 | s6 => DD x4 x50 | s7 => DD x4 x51 | s8 => DD x4 x52 | s9 => DD x4 x53 | s10 => DD x4 x54 | s11 => DD x4 x55 | s12 => DD x4 x56 | s13 => DD x4 x57 | s14 => DD x4 x58 | s15 => DD x4 x59 | s16 => DD x4 x60 | s17 => DD x4 x61 | s18 => DD x4 x62 | s19 => DD x4 x63 | s20 => DD x5 x0 | s21 => DD x5 x1 | s22 => DD x5 x2 | s23 => DD x5 x3 | s24 => DD x5 x4 | s25 => DD x5 x5 | s26 => DD x5 x6 | s27 => DD x5 x7 | s28 => DD x5 x8 | s29 => DD x5 x9 | s30 => DD x5 x10 | s31 => DD x5 x11 | s32 => DD x5 x12 | s33 => DD x5 x13 | s34 => DD x5 x14 | s35 => DD x5 x15 | s36 => DD x5 x16 | s37 => DD x5 x17 | s38 => DD x5 x18 | s39 => DD x5 x19 | s40 => DD x5 x20 | s41 => DD x5 x21 | s42 => DD x5 x22 | s43 => DD x5 x23 | s44 => DD x5 x24 | s45 => DD x5 x25 | s46 => DD x5 x26 | s47 => DD x5 x27 | s48 => DD x5 x28 | s49 => DD x5 x29 | s50 => DD x5 x30 | s51 => DD x5 x31 | s52 => DD x5 x32 | s53 => DD x5 x33 | s54 => DD x5 x34 | s55 => DD x5 x35 | s56 => DD x5 x36 | s57 => DD x5 x37 | s58 => DD x5 x38 | s59 => DD x5 x39 | s60 => DD x5 x40 | s61 => DD x5 x41 | s62 => DD x5 x42 | s63 => DD x5 x43 | s64 => DD x5 x44 | s65 => DD x5 x45 | s66 => DD x5 x46 | s67 => DD x5 x47 | s68 => DD x5 x48 | s69 => DD x5 x49 | s70 => DD x5 x50 | s71 => DD x5 x51 | s72 => DD x5 x52 | s73 => DD x5 x53 | s74 => DD x5 x54 | s75 => DD x5 x55 | s76 => DD x5 x56 | s77 => DD x5 x57 | s78 => DD x5 x58 | s79 => DD x5 x59 | s80 => DD x5 x60 | s81 => DD x5 x61 | s82 => DD x5 x62 | s83 => DD x5 x63 | s84 => DD x6 x0 | s85 => DD x6 x1 | s86 => DD x6 x2 | s87 => DD x6 x3 | s88 => DD x6 x4 | s89 => DD x6 x5 | s90 => DD x6 x6 | s91 => DD x6 x7 | s92 => DD x6 x8 | s93 => DD x6 x9 | s94 => DD x6 x10 | s95 => DD x6 x11 | s96 => DD x6 x12 | s97 => DD x6 x13 | s98 => DD x6 x14 | s99 => DD x6 x15 | s100 => DD x6 x16 | s101 => DD x6 x17 | s102 => DD x6 x18 | s103 => DD x6 x19 | s104 => DD x6 x20 | s105 => DD x6 x21 | s106 => DD x6 x22 | s107 => DD x6 x23 | s108 => DD x6 x24 | s109 => DD x6 x25 | s110 => DD x6 x26 | s111 => DD x6 x27 | s112 => DD x6 x28 | s113 => DD x6 x29 | s114 => DD x6 x30 | s115 => DD x6 x31 | s116 => DD x6 x32 | s117 => DD x6 x33 | s118 => DD x6 x34 | s119 => DD x6 x35 | s120 => DD x6 x36 | s121 => DD x6 x37 | s122 => DD x6 x38 | s123 => DD x6 x39 | s124 => DD x6 x40 | s125 => DD x6 x41 | s126 => DD x6 x42 end.
Definition m301 (c : sum2) : dd := match c with s0 => DD x4 x45 | s1 => DD x4 x46 | s2 => DD x4 x47 | s3 => DD x4 x48 | s4 => DD x4 x49 | s5 => DD x4 x50 | s6 => DD x4 x51 | s7 => DD x4 x52 | s8 => DD x4 x53 | s9 => DD x4 x54 | s10 => DD x4 x55 | s11 => DD x4 x56 | s12 => DD x4 x57 | s13 => DD x4 x58 | s14 => DD x4 x59 | s15 => DD x4 x60 | s16 => DD x4 x61 | s17 => DD x4 x62 | s18 => DD x4 x63 | s19 => DD x5 x0 | s20 => DD x5 x1 | s21 => DD x5 x2 | s22 => DD x5 x3 | s23 => DD x5 x4 | s24 => DD x5 x5 | s25 => DD x5 x6 | s26 => DD x5 x7 | s27 => DD x5 x8 | s28 => DD x5 x9 | s29 => DD x5 x10 | s30 => DD x5 x11 | s31 => DD x5 x12 | s32 => DD x5 x13 | s33 => DD x5 x14 | s34 => DD x5 x15 | s35 => DD x5 x16 | s36 => DD x5 x17 | s37 => DD x5 x18 | s38 => DD x5 x19 | s39 => DD x5 x20 | s40 => DD x5 x21 | s41 => DD x5 x22 | s42 => DD x5 x23 | s43 => DD x5 x24 | s44 => DD x5 x25 | s45 => DD x5 x26 | s46 => DD x5 x27 | s47 => DD x5 x28 | s48 => DD x5 x29 | s49 => DD x5 x30 | s50 => DD x5 x31 | s51 => DD x5 x32 | s52 => DD x5 x33 | s53 => DD x5 x34 | s54 => DD x5 x35 | s55 => DD x5 x36 | s56 => DD x5 x37 | s57 => DD x5 x38 | s58 => DD x5 x39 | s59 => DD x5 x40 | s60 => DD x5 x41 | s61 => DD x5 x42 | s62 => DD x5 x43 | s63 => DD x5 x44 | s64 => DD x5 x45 | s65 => DD x5 x46 | s66 => DD x5 x47 | s67 => DD x5 x48 | s68 => DD x5 x49 | s69 => DD x5 x50 | s70 => DD x5 x51 | s71 => DD x5 x52 | s72 => DD x5 x53 | s73 => DD x5 x54 | s74 => DD x5 x55 | s75 => DD x5 x56 | s76 => DD x5 x57 | s77 => DD x5 x58 | s78 => DD x5 x59 | s79 => DD x5 x60 | s80 => DD x5 x61 | s81 => DD x5 x62 | s82 => DD x5 x63 | s83 => DD x6 x0 | s84 => DD x6 x1 | s85 => DD x6 x2 | s86 => DD x6 x3 | s87 => DD x6 x4 | s88 => DD x6 x5 | s89 => DD x6 x6 | s90 => DD x6 x7 | s91 => DD x6 x8 | s92 => DD x6 x9 | s93 => DD x6 x10 | s94 => DD x6 x11 | s95 => DD x6 x12 | s96 => DD x6 x13 | s97 => DD x6 x14 | s98 => DD x6 x15 | s99 => DD x6 x16 | s100 => DD x6 x17 | s101 => DD x6 x18 | s102 => DD x6 x19 | s103 => DD x6 x20 | s104 => DD x6 x21 | s105 => DD x6 x22 | s106 => DD x6 x23 | s107 => DD x6 x24 | s108 => DD x6 x25 | s109 => DD x6 x26 | s110 => DD x6 x27 | s111 => DD x6 x28 | s112 => DD x6 x29 | s113 => DD x6 x30 | s114 => DD x6 x31 | s115 => DD x6 x32 | s116 => DD x6 x33 | s117 => DD x6 x34 | s118 => DD x6 x35 | s119 => DD x6 x36 | s120 => DD x6 x37 | s121 => DD x6 x38 | s122 => DD x6 x39 | s123 => DD x6 x40 | s124 => DD x6 x41 | s125 => DD x6 x42 | s126 => DD x6 x43 end.
Definition m304 (c : sum2) : dd := match c with s0 => DD x4 x48 | s1 => DD x4 x49 | s2 => DD x4 x50 | s3 => DD x4 x51 | s4 => DD x4 x52 | s5 => DD x4 x53 | s6 => DD x4 x54 | s7 => DD x4 x55 | s8 => DD x4 x56 | s9 => DD x4 x57 | s10 => DD x4 x58 | s11 => DD x4 x59 | s12 => DD x4 x60 | s13 => DD x4 x61 | s14 => DD x4 x62 | s15 => DD x4 x63 | s16 => DD x5 x0 | s17 => DD x5 x1 | s18 => DD x5 x2 | s19 => DD x5 x3 | s20 => DD x5 x4 | s21 => DD x5 x5 | s22 => DD x5 x6 | s23 => DD x5 x7 | s24 => DD x5 x8 | s25 => DD x5 x9 | s26 => DD x5 x10 | s27 => DD x5 x11 | s28 => DD x5 x12 | s29 => DD x5 x13 | s30 => DD x5 x14 | s31 => DD x5 x15 | s32 => DD x5 x16 | s33 => DD x5 x17 | s34 => DD x5 x18 | s35 => DD x5 x19 | s36 => DD x5 x20 | s37 => DD x5 x21 | s38 => DD x5 x22 | s39 => DD x5 x23 | s40 => DD x5 x24 | s41 => DD x5 x25 | s42 => DD x5 x26 | s43 => DD x5 x27 | s44 => DD x5 x28 | s45 => DD x5 x29 | s46 => DD x5 x30 | s47 => DD x5 x31 | s48 => DD x5 x32 | s49 => DD x5 x33 | s50 => DD x5 x34 | s51 => DD x5 x35 | s52 => DD x5 x36 | s53 => DD x5 x37 | s54 => DD x5 x38 | s55 => DD x5 x39 | s56 => DD x5 x40 | s57 => DD x5 x41 | s58 => DD x5 x42 | s59 => DD x5 x43 | s60 => DD x5 x44 | s61 => DD x5 x45 | s62 => DD x5 x46 | s63 => DD x5 x47 | s64 => DD x5 x48 | s65 => DD x5 x49 | s66 => DD x5 x50 | s67 => DD x5 x51 | s68 => DD x5 x52 | s69 => DD x5 x53 | s70 => DD x5 x54 | s71 => DD x5 x55 | s72 => DD x5 x56 | s73 => DD x5 x57 | s74 => DD x5 x58 | s75 => DD x5 x59 | s76 => DD x5 x60 | s77 => DD x5 x61 | s78 => DD x5 x62 | s79 => DD x5 x63 | s80 => DD x6 x0 | s81 => DD x6 x1 | s82 => DD x6 x2 | s83 => DD x6 x3 | s84 => DD x6 x4 | s85 => DD x6 x5 | s86 => DD x6 x6 | s87 => DD x6 x7 | s88 => DD x6 x8 | s89 => DD x6 x9 | s90 => DD x6 x10 | s91 => DD x6 x11 | s92 => DD x6 x12 | s93 => DD x6 x13 | s94 => DD x6 x14 | s95 => DD x6 x15 | s96 => DD x6 x16 | s97 => DD x6 x17 | s98 => DD x6 x18 | s99 => DD x6 x19 | s100 => DD x6 x20 | s101 => DD x6 x21 | s102 => DD x6 x22 | s103 => DD x6 x23 | s104 => DD x6 x24 | s105 => DD x6 x25 | s106 => DD x6 x26 | s107 => DD x6 x27 | s108 => DD x6 x28 | s109 => DD x6 x29 | s110 => DD x6 x30 | s111 => DD x6 x31 | s112 => DD x6 x32 | s113 => DD x6 x33 | s114 => DD x6 x34 | s115 => DD x6 x35 | s116 => DD x6 x36 | s117 => DD x6 x37 | s118 => DD x6 x38 | s119 => DD x6 x39 | s120 => DD x6 x40 | s121 => DD x6 x41 | s122 => DD x6 x42 | s123 => DD x6 x43 | s124 => DD x6 x44 | s125 => DD x6 x45 | s126 => DD x6 x46 end.
Definition m305 (c : sum2) : dd := match c with s0 => DD x4 x49 | s1 => DD x4 x50 | s2 => DD x4 x51 | s3 => DD x4 x52 | s4 => DD x4 x53 | s5 => DD x4 x54 | s6 => DD x4 x55 | s7 => DD x4 x56 | s8 => DD x4 x57 | s9 => DD x4 x58 | s10 => DD x4 x59 | s11 => DD x4 x60 | s12 => DD x4 x61 | s13 => DD x4 x62 | s14 => DD x4 x63 | s15 => DD x5 x0 | s16 => DD x5 x1 | s17 => DD x5 x2 | s18 => DD x5 x3 | s19 => DD x5 x4 | s20 => DD x5 x5 | s21 => DD x5 x6 | s22 => DD x5 x7 | s23 => DD x5 x8 | s24 => DD x5 x9 | s25 => DD x5 x10 | s26 => DD x5 x11 | s27 => DD x5 x12 | s28 => DD x5 x13 | s29 => DD x5 x14 | s30 => DD x5 x15 | s31 => DD x5 x16 | s32 => DD x5 x17 | s33 => DD x5 x18 | s34 => DD x5 x19 | s35 => DD x5 x20 | s36 => DD x5 x21 | s37 => DD x5 x22 | s38 => DD x5 x23 | s39 => DD x5 x24 | s40 => DD x5 x25 | s41 => DD x5 x26 | s42 => DD x5 x27 | s43 => DD x5 x28 | s44 => DD x5 x29 | s45 => DD x5 x30 | s46 => DD x5 x31 | s47 => DD x5 x32 | s48 => DD x5 x33 | s49 => DD x5 x34 | s50 => DD x5 x35 | s51 => DD x5 x36 | s52 => DD x5 x37 | s53 => DD x5 x38 | s54 => DD x5 x39 | s55 => DD x5 x40 | s56 => DD x5 x41 | s57 => DD x5 x42 | s58 => DD x5 x43 | s59 => DD x5 x44 | s60 => DD x5 x45 | s61 => DD x5 x46 | s62 => DD x5 x47 | s63 => DD x5 x48 | s64 => DD x5 x49 | s65 => DD x5 x50 | s66 => DD x5 x51 | s67 => DD x5 x52 | s68 => DD x5 x53 | s69 => DD x5 x54 | s70 => DD x5 x55 | s71 => DD x5 x56 | s72 => DD x5 x57 | s73 => DD x5 x58 | s74 => DD x5 x59 | s75 => DD x5 x60 | s76 => DD x5 x61 | s77 => DD x5 x62 | s78 => DD x5 x63 | s79 => DD x6 x0 | s80 => DD x6 x1 | s81 => DD x6 x2 | s82 => DD x6 x3 | s83 => DD x6 x4 | s84 => DD x6 x5 | s85 => DD x6 x6 | s86 => DD x6 x7 | s87 => DD x6 x8 | s88 => DD x6 x9 | s89 => DD x6 x10 | s90 => DD x6 x11 | s91 => DD x6 x12 | s92 => DD x6 x13 | s93 => DD x6 x14 | s94 => DD x6 x15 | s95 => DD x6 x16 | s96 => DD x6 x17 | s97 => DD x6 x18 | s98 => DD x6 x19 | s99 => DD x6 x20 | s100 => DD x6 x21 | s101 => DD x6 x22 | s102 => DD x6 x23 | s103 => DD x6 x24 | s104 => DD x6 x25 | s105 => DD x6 x26 | s106 => DD x6 x27 | s107 => DD x6 x28 | s108 => DD x6 x29 | s109 => DD x6 x30 | s110 => DD x6 x31 | s111 => DD x6 x32 | s112 => DD x6 x33 | s113 => DD x6 x34 | s114 => DD x6 x35 | s115 => DD x6 x36 | s116 => DD x6 x37 | s117 => DD x6 x38 | s118 => DD x6 x39 | s119 => DD x6 x40 | s120 => DD x6 x41 | s121 => DD x6 x42 | s122 => DD x6 x43 | s123 => DD x6 x44 | s124 => DD x6 x45 | s125 => DD x6 x46 | s126 => DD x6 x47 end.
Definition m306 (c : sum2) : dd := match c with s0 => DD x4 x50 | s1 => DD x4 x51 | s2 => DD x4 x52 | s3 => DD x4 x53 | s4 => DD x4 x54 | s5 => DD x4 x55 | s6 => DD x4 x56 | s7 => DD x4 x57 | s8 => DD x4 x58 | s9 => DD x4 x59 | s10 => DD x4 x60 | s11 => DD x4 x61 | s12 => DD x4 x62 | s13 => DD x4 x63 | s14 => DD x5 x0 | s15 => DD x5 x1 | s16 => DD x5 x2 | s17 => DD x5 x3 | s18 => DD x5 x4 | s19 => DD x5 x5 | s20 => DD x5 x6 | s21 => DD x5 x7 | s22 => DD x5 x8 | s23 => DD x5 x9 | s24 => DD x5 x10 | s25 => DD x5 x11 | s26 => DD x5 x12 | s27 => DD x5 x13 | s28 => DD x5 x14 | s29 => DD x5 x15 | s30 => DD x5 x16 | s31 => DD x5 x17 | s32 => DD x5 x18 | s33 => DD x5 x19 | s34 => DD x5 x20 | s35 => DD x5 x21 | s36 => DD x5 x22 | s37 => DD x5 x23 | s38 => DD x5 x24 | s39 => DD x5 x25 | s40 => DD x5 x26 | s41 => DD x5 x27 | s42 => DD x5 x28 | s43 => DD x5 x29 | s44 => DD x5 x30 | s45 => DD x5 x31 | s46 => DD x5 x32 | s47 => DD x5 x33 | s48 => DD x5 x34 | s49 => DD x5 x35 | s50 => DD x5 x36 | s51 => DD x5 x37 | s52 => DD x5 x38 | s53 => DD x5 x39 | s54 => DD x5 x40 | s55 => DD x5 x41 | s56 => DD x5 x42 | s57 => DD x5 x43 | s58 => DD x5 x44 | s59 => DD x5 x45 | s60 => DD x5 x46 | s61 => DD x5 x47 | s62 => DD x5 x48 | s63 => DD x5 x49 | s64 => DD x5 x50 | s65 => DD x5 x51 | s66 => DD x5 x52 | s67 => DD x5 x53 | s68 => DD x5 x54 | s69 => DD x5 x55 | s70 => DD x5 x56 | s71 => DD x5 x57 | s72 => DD x5 x58 | s73 => DD x5 x59 | s74 => DD x5 x60 | s75 => DD x5 x61 | s76 => DD x5 x62 | s77 => DD x5 x63 | s78 => DD x6 x0 | s79 => DD x6 x1 | s80 => DD x6 x2 | s81 => DD x6 x3 | s82 => DD x6 x4 | s83 => DD x6 x5 | s84 => DD x6 x6 | s85 => DD x6 x7 | s86 => DD x6 x8 | s87 => DD x6 x9 | s88 => DD x6 x10 | s89 => DD x6 x11 | s90 => DD x6 x12 | s91 => DD x6 x13 | s92 => DD x6 x14 | s93 => DD x6 x15 | s94 => DD x6 x16 | s95 => DD x6 x17 | s96 => DD x6 x18 | s97 => DD x6 x19 | s98 => DD x6 x20 | s99 => DD x6 x21 | s100 => DD x6 x22 | s101 => DD x6 x23 | s102 => DD x6 x24 | s103 => DD x6 x25 | s104 => DD x6 x26 | s105 => DD x6 x27 | s106 => DD x6 x28 | s107 => DD x6 x29 | s108 => DD x6 x30 | s109 => DD x6 x31 | s110 => DD x6 x32 | s111 => DD x6 x33 | s112 => DD x6 x34 | s113 => DD x6 x35 | s114 => DD x6 x36 | s115 => DD x6 x37 | s116 => DD x6 x38 | s117 => DD x6 x39 | s118 => DD x6 x40 | s119 => DD x6 x41 | s120 => DD x6 x42 | s121 => DD x6 x43 | s122 => DD x6 x44 | s123 => DD x6 x45 | s124 => DD x6 x46 | s125 => DD x6 x47 | s126 => DD x6 x48 end.
Definition m308 (c : sum2) : dd := match c with s0 => DD x4 x52 | s1 => DD x4 x53 | s2 => DD x4 x54 | s3 => DD x4 x55 | s4 => DD x4 x56 | s5 => DD x4 x57 | s6 => DD x4 x58 | s7 => DD x4 x59 | s8 => DD x4 x60 | s9 => DD x4 x61 | s10 => DD x4 x62 | s11 => DD x4 x63 | s12 => DD x5 x0 | s13 => DD x5 x1 | s14 => DD x5 x2 | s15 => DD x5 x3 | s16 => DD x5 x4 | s17 => DD x5 x5 | s18 => DD x5 x6 | s19 => DD x5 x7 | s20 => DD x5 x8 | s21 => DD x5 x9 | s22 => DD x5 x10 | s23 => DD x5 x11 | s24 => DD x5 x12 | s25 => DD x5 x13 | s26 => DD x5 x14 | s27 => DD x5 x15 | s28 => DD x5 x16 | s29 => DD x5 x17 | s30 => DD x5 x18 | s31 => DD x5 x19 | s32 => DD x5 x20 | s33 => DD x5 x21 | s34 => DD x5 x22 | s35 => DD x5 x23 | s36 => DD x5 x24 | s37 => DD x5 x25 | s38 => DD x5 x26 | s39 => DD x5 x27 | s40 => DD x5 x28 | s41 => DD x5 x29 | s42 => DD x5 x30 | s43 => DD x5 x31 | s44 => DD x5 x32 | s45 => DD x5 x33 | s46 => DD x5 x34 | s47 => DD x5 x35 | s48 => DD x5 x36 | s49 => DD x5 x37 | s50 => DD x5 x38 | s51 => DD x5 x39 | s52 => DD x5 x40 | s53 => DD x5 x41 | s54 => DD x5 x42 | s55 => DD x5 x43 | s56 => DD x5 x44 | s57 => DD x5 x45 | s58 => DD x5 x46 | s59 => DD x5 x47 | s60 => DD x5 x48 | s61 => DD x5 x49 | s62 => DD x5 x50 | s63 => DD x5 x51 | s64 => DD x5 x52 | s65 => DD x5 x53 | s66 => DD x5 x54 | s67 => DD x5 x55 | s68 => DD x5 x56 | s69 => DD x5 x57 | s70 => DD x5 x58 | s71 => DD x5 x59 | s72 => DD x5 x60 | s73 => DD x5 x61 | s74 => DD x5 x62 | s75 => DD x5 x63 | s76 => DD x6 x0 | s77 => DD x6 x1 | s78 => DD x6 x2 | s79 => DD x6 x3 | s80 => DD x6 x4 | s81 => DD x6 x5 | s82 => DD x6 x6 | s83 => DD x6 x7 | s84 => DD x6 x8 | s85 => DD x6 x9 | s86 => DD x6 x10 | s87 => DD x6 x11 | s88 => DD x6 x12 | s89 => DD x6 x13 | s90 => DD x6 x14 | s91 => DD x6 x15 | s92 => DD x6 x16 | s93 => DD x6 x17 | s94 => DD x6 x18 | s95 => DD x6 x19 | s96 => DD x6 x20 | s97 => DD x6 x21 | s98 => DD x6 x22 | s99 => DD x6 x23 | s100 => DD x6 x24 | s101 => DD x6 x25 | s102 => DD x6 x26 | s103 => DD x6 x27 | s104 => DD x6 x28 | s105 => DD x6 x29 | s106 => DD x6 x30 | s107 => DD x6 x31 | s108 => DD x6 x32 | s109 => DD x6 x33 | s110 => DD x6 x34 | s111 => DD x6 x35 | s112 => DD x6 x36 | s113 => DD x6 x37 | s114 => DD x6 x38 | s115 => DD x6 x39 | s116 => DD x6 x40 | s117 => DD x6 x41 | s118 => DD x6 x42 | s119 => DD x6 x43 | s120 => DD x6 x44 | s121 => DD x6 x45 | s122 => DD x6 x46 | s123 => DD x6 x47 | s124 => DD x6 x48 | s125 => DD x6 x49 | s126 => DD x6 x50 end.
Definition m310 (c : sum2) : dd := match c with s0 => DD x4 x54 | s1 => DD x4 x55 | s2 => DD x4 x56 | s3 => DD x4 x57 | s4 => DD x4 x58 | s5 => DD x4 x59 | s6 => DD x4 x60 | s7 => DD x4 x61 | s8 => DD x4 x62 | s9 => DD x4 x63 | s10 => DD x5 x0 | s11 => DD x5 x1 | s12 => DD x5 x2 | s13 => DD x5 x3 | s14 => DD x5 x4 | s15 => DD x5 x5 | s16 => DD x5 x6 | s17 => DD x5 x7 | s18 => DD x5 x8 | s19 => DD x5 x9 | s20 => DD x5 x10 | s21 => DD x5 x11 | s22 => DD x5 x12 | s23 => DD x5 x13 | s24 => DD x5 x14 | s25 => DD x5 x15 | s26 => DD x5 x16 | s27 => DD x5 x17 | s28 => DD x5 x18 | s29 => DD x5 x19 | s30 => DD x5 x20 | s31 => DD x5 x21 | s32 => DD x5 x22 | s33 => DD x5 x23 | s34 => DD x5 x24 | s35 => DD x5 x25 | s36 => DD x5 x26 | s37 => DD x5 x27 | s38 => DD x5 x28 | s39 => DD x5 x29 | s40 => DD x5 x30 | s41 => DD x5 x31 | s42 => DD x5 x32 | s43 => DD x5 x33 | s44 => DD x5 x34 | s45 => DD x5 x35 | s46 => DD x5 x36 | s47 => DD x5 x37 | s48 => DD x5 x38 | s49 => DD x5 x39 | s50 => DD x5 x40 | s51 => DD x5 x41 | s52 => DD x5 x42 | s53 => DD x5 x43 | s54 => DD x5 x44 | s55 => DD x5 x45 | s56 => DD x5 x46 | s57 => DD x5 x47 | s58 => DD x5 x48 | s59 => DD x5 x49 | s60 => DD x5 x50 | s61 => DD x5 x51 | s62 => DD x5 x52 | s63 => DD x5 x53 | s64 => DD x5 x54 | s65 => DD x5 x55 | s66 => DD x5 x56 | s67 => DD x5 x57 | s68 => DD x5 x58 | s69 => DD x5 x59 | s70 => DD x5 x60 | s71 => DD x5 x61 | s72 => DD x5 x62 | s73 => DD x5 x63 | s74 => DD x6 x0 | s75 => DD x6 x1 | s76 => DD x6 x2 | s77 => DD x6 x3 | s78 => DD x6 x4 | s79 => DD x6 x5 | s80 => DD x6 x6 | s81 => DD x6 x7 | s82 => DD x6 x8 | s83 => DD x6 x9 | s84 => DD x6 x10 | s85 => DD x6 x11 | s86 => DD x6 x12 | s87 => DD x6 x13 | s88 => DD x6 x14 | s89 => DD x6 x15 | s90 => DD x6 x16 | s91 => DD x6 x17 | s92 => DD x6 x18 | s93 => DD x6 x19 | s94 => DD x6 x20 | s95 => DD x6 x21 | s96 => DD x6 x22 | s97 => DD x6 x23 | s98 => DD x6 x24 | s99 => DD x6 x25 | s100 => DD x6 x26 | s101 => DD x6 x27 | s102 => DD x6 x28 | s103 => DD x6 x29 | s104 => DD x6 x30 | s105 => DD x6 x31 | s106 => DD x6 x32 | s107 => DD x6 x33 | s108 => DD x6 x34 | s109 => DD x6 x35 | s110 => DD x6 x36 | s111 => DD x6 x37 | s112 => DD x6 x38 | s113 => DD x6 x39 | s114 => DD x6 x40 | s115 => DD x6 x41 | s116 => DD x6 x42 | s117 => DD x6 x43 | s118 => DD x6 x44 | s119 => DD x6 x45 | s120 => DD x6 x46 | s121 => DD x6 x47 | s122 => DD x6 x48 | s123 => DD x6 x49 | s124 => DD x6 x50 | s125 => DD x6 x51 | s126 => DD x6 x52 end.
Definition m312 (c : sum2) : dd := match c with s0 => DD x4 x56 | s1 => DD x4 x57 | s2 => DD x4 x58 | s3 => DD x4 x59 | s4 => DD x4 x60 | s5 => DD x4 x61 | s6 => DD x4 x62 | s7 => DD x4 x63 | s8 => DD x5 x0 | s9 => DD x5 x1 | s10 => DD x5 x2 | s11 => DD x5 x3 | s12 => DD x5 x4 | s13 => DD x5 x5 | s14 => DD x5 x6 | s15 => DD x5 x7 | s16 => DD x5 x8 | s17 => DD x5 x9 | s18 => DD x5 x10 | s19 => DD x5 x11 | s20 => DD x5 x12 | s21 => DD x5 x13 | s22 => DD x5 x14 | s23 => DD x5 x15 | s24 => DD x5 x16 | s25 => DD x5 x17 | s26 => DD x5 x18 | s27 => DD x5 x19 | s28 => DD x5 x20 | s29 => DD x5 x21 | s30 => DD x5 x22 | s31 => DD x5 x23 | s32 => DD x5 x24 | s33 => DD x5 x25 | s34 => DD x5 x26 | s35 => DD x5 x27 | s36 => DD x5 x28 | s37 => DD x5 x29 | s38 => DD x5 x30 | s39 => DD x5 x31 | s40 => DD x5 x32 | s41 => DD x5 x33 | s42 => DD x5 x34 | s43 => DD x5 x35 | s44 => DD x5 x36 | s45 => DD x5 x37 | s46 => DD x5 x38 | s47 => DD x5 x39 | s48 => DD x5 x40 | s49 => DD x5 x41 | s50 => DD x5 x42 | s51 => DD x5 x43 | s52 => DD x5 x44 | s53 => DD x5 x45 | s54 => DD x5 x46 | s55 => DD x5 x47 | s56 => DD x5 x48 | s57 => DD x5 x49 | s58 => DD x5 x50 | s59 => DD x5 x51 | s60 => DD x5 x52 | s61 => DD x5 x53 | s62 => DD x5 x54 | s63 => DD x5 x55 | s64 => DD x5 x56 | s65 => DD x5 x57 | s66 => DD x5 x58 | s67 => DD x5 x59 | s68 => DD x5 x60 | s69 => DD x5 x61 | s70 => DD x5 x62 | s71 => DD x5 x63 | s72 => DD x6 x0 | s73 => DD x6 x1 | s74 => DD x6 x2 | s75 => DD x6 x3 | s76 => DD x6 x4 | s77 => DD x6 x5 | s78 => DD x6 x6 | s79 => DD x6 x7 | s80 => DD x6 x8 | s81 => DD x6 x9 | s82 => DD x6 x10 | s83 => DD x6 x11 | s84 => DD x6 x12 | s85 => DD x6 x13 | s86 => DD x6 x14 | s87 => DD x6 x15 | s88 => DD x6 x16 | s89 => DD x6 x17 | s90 => DD x6 x18 | s91 => DD x6 x19 | s92 => DD x6 x20 | s93 => DD x6 x21 | s94 => DD x6 x22 | s95 => DD x6 x23 | s96 => DD x6 x24 | s97 => DD x6 x25 | s98 => DD x6 x26 | s99 => DD x6 x27 | s100 => DD x6 x28 | s101 => DD x6 x29 | s102 => DD x6 x30 | s103 => DD x6 x31 | s104 => DD x6 x32 | s105 => DD x6 x33 | s106 => DD x6 x34 | s107 => DD x6 x35 | s108 => DD x6 x36 | s109 => DD x6 x37 | s110 => DD x6 x38 | s111 => DD x6 x39 | s112 => DD x6 x40 | s113 => DD x6 x41 | s114 => DD x6 x42 | s115 => DD x6 x43 | s116 => DD x6 x44 | s117 => DD x6 x45 | s118 => DD x6 x46 | s119 => DD x6 x47 | s120 => DD x6 x48 | s121 => DD x6 x49 | s122 => DD x6 x50 | s123 => DD x6 x51 | s124 => DD x6 x52 | s125 => DD x6 x53 | s126 => DD x6 x54 end.
Definition m315 (c : sum2) : dd := match c with s0 => DD x4 x59 | s1 => DD x4 x60 | s2 => DD x4 x61 | s3 => DD x4 x62 | s4 => DD x4 x63 | s5 => DD x5 x0 | s6 => DD x5 x1 | s7 => DD x5 x2 | s8 => DD x5 x3 | s9 => DD x5 x4 | s10 => DD x5 x5 | s11 => DD x5 x6 | s12 => DD x5 x7 | s13 => DD x5 x8 | s14 => DD x5 x9 | s15 => DD x5 x10 | s16 => DD x5 x11 | s17 => DD x5 x12 | s18 => DD x5 x13 | s19 => DD x5 x14 | s20 => DD x5 x15 | s21 => DD x5 x16 | s22 => DD x5 x17 | s23 => DD x5 x18 | s24 => DD x5 x19 | s25 => DD x5 x20 | s26 => DD x5 x21 | s27 => DD x5 x22 | s28 => DD x5 x23 | s29 => DD x5 x24 | s30 => DD x5 x25 | s31 => DD x5 x26 | s32 => DD x5 x27 | s33 => DD x5 x28 | s34 => DD x5 x29 | s35 => DD x5 x30 | s36 => DD x5 x31 | s37 => DD x5 x32 | s38 => DD x5 x33 | s39 => DD x5 x34 | s40 => DD x5 x35 | s41 => DD x5 x36 | s42 => DD x5 x37 | s43 => DD x5 x38 | s44 => DD x5 x39 | s45 => DD x5 x40 | s46 => DD x5 x41 | s47 => DD x5 x42 | s48 => DD x5 x43 | s49 => DD x5 x44 | s50 => DD x5 x45 | s51 => DD x5 x46 | s52 => DD x5 x47 | s53 => DD x5 x48 | s54 => DD x5 x49 | s55 => DD x5 x50 | s56 => DD x5 x51 | s57 => DD x5 x52 | s58 => DD x5 x53 | s59 => DD x5 x54 | s60 => DD x5 x55 | s61 => DD x5 x56 | s62 => DD x5 x57 | s63 => DD x5 x58 | s64 => DD x5 x59 | s65 => DD x5 x60 | s66 => DD x5 x61 | s67 => DD x5 x62 | s68 => DD x5 x63 | s69 => DD x6 x0 | s70 => DD x6 x1 | s71 => DD x6 x2 | s72 => DD x6 x3 | s73 => DD x6 x4 | s74 => DD x6 x5 | s75 => DD x6 x6 | s76 => DD x6 x7 | s77 => DD x6 x8 | s78 => DD x6 x9 | s79 => DD x6 x10 | s80 => DD x6 x11 | s81 => DD x6 x12 | s82 => DD x6 x13 | s83 => DD x6 x14 | s84 => DD x6 x15 | s85 => DD x6 x16 | s86 => DD x6 x17 | s87 => DD x6 x18 | s88 => DD x6 x19 | s89 => DD x6 x20 | s90 => DD x6 x21 | s91 => DD x6 x22 | s92 => DD x6 x23 | s93 => DD x6 x24 | s94 => DD x6 x25 | s95 => DD x6 x26 | s96 => DD x6 x27 | s97 => DD x6 x28 | s98 => DD x6 x29 | s99 => DD x6 x30 | s100 => DD x6 x31 | s101 => DD x6 x32 | s102 => DD x6 x33 | s103 => DD x6 x34 | s104 => DD x6 x35 | s105 => DD x6 x36 | s106 => DD x6 x37 | s107 => DD x6 x38 | s108 => DD x6 x39 | s109 => DD x6 x40 | s110 => DD x6 x41 | s111 => DD x6 x42 | s112 => DD x6 x43 | s113 => DD x6 x44 | s114 => DD x6 x45 | s115 => DD x6 x46 | s116 => DD x6 x47 | s117 => DD x6 x48 | s118 => DD x6 x49 | s119 => DD x6 x50 | s120 => DD x6 x51 | s121 => DD x6 x52 | s122 => DD x6 x53 | s123 => DD x6 x54 | s124 => DD x6 x55 | s125 => DD x6 x56 | s126 => DD x6 x57 end.
Definition m318 (c : sum2) : dd := match c with s0 => DD x4 x62 | s1 => DD x4 x63 | s2 => DD x5 x0 | s3 => DD x5 x1 | s4 => DD x5 x2 | s5 => DD x5 x3 | s6 => DD x5 x4 | s7 => DD x5 x5 | s8 => DD x5 x6 | s9 => DD x5 x7 | s10 => DD x5 x8 | s11 => DD x5 x9 | s12 => DD x5 x10 | s13 => DD x5 x11 | s14 => DD x5 x12 | s15 => DD x5 x13 | s16 => DD x5 x14 | s17 => DD x5 x15 | s18 => DD x5 x16 | s19 => DD x5 x17 | s20 => DD x5 x18 | s21 => DD x5 x19 | s22 => DD x5 x20 | s23 => DD x5 x21 | s24 => DD x5 x22 | s25 => DD x5 x23 | s26 => DD x5 x24 | s27 => DD x5 x25 | s28 => DD x5 x26 | s29 => DD x5 x27 | s30 => DD x5 x28 | s31 => DD x5 x29 | s32 => DD x5 x30 | s33 => DD x5 x31 | s34 => DD x5 x32 | s35 => DD x5 x33 | s36 => DD x5 x34 | s37 => DD x5 x35 | s38 => DD x5 x36 | s39 => DD x5 x37 | s40 => DD x5 x38 | s41 => DD x5 x39 | s42 => DD x5 x40 | s43 => DD x5 x41 | s44 => DD x5 x42 | s45 => DD x5 x43 | s46 => DD x5 x44 | s47 => DD x5 x45 | s48 => DD x5 x46 | s49 => DD x5 x47 | s50 => DD x5 x48 | s51 => DD x5 x49 | s52 => DD x5 x50 | s53 => DD x5 x51 | s54 => DD x5 x52 | s55 => DD x5 x53 | s56 => DD x5 x54 | s57 => DD x5 x55 | s58 => DD x5 x56 | s59 => DD x5 x57 | s60 => DD x5 x58 | s61 => DD x5 x59 | s62 => DD x5 x60 | s63 => DD x5 x61 | s64 => DD x5 x62 | s65 => DD x5 x63 | s66 => DD x6 x0 | s67 => DD x6 x1 | s68 => DD x6 x2 | s69 => DD x6 x3 | s70 => DD x6 x4 | s71 => DD x6 x5 | s72 => DD x6 x6 | s73 => DD x6 x7 | s74 => DD x6 x8 | s75 => DD x6 x9 | s76 => DD x6 x10 | s77 => DD x6 x11 | s78 => DD x6 x12 | s79 => DD x6 x13 | s80 => DD x6 x14 | s81 => DD x6 x15 | s82 => DD x6 x16 | s83 => DD x6 x17 | s84 => DD x6 x18 | s85 => DD x6 x19 | s86 => DD x6 x20 | s87 => DD x6 x21 | s88 => DD x6 x22 | s89 => DD x6 x23 | s90 => DD x6 x24 | s91 => DD x6 x25 | s92 => DD x6 x26 | s93 => DD x6 x27 | s94 => DD x6 x28 | s95 => DD x6 x29 | s96 => DD x6 x30 | s97 => DD x6 x31 | s98 => DD x6 x32 | s99 => DD x6 x33 | s100 => DD x6 x34 | s101 => DD x6 x35 | s102 => DD x6 x36 | s103 => DD x6 x37 | s104 => DD x6 x38 | s105 => DD x6 x39 | s106 => DD x6 x40 | s107 => DD x6 x41 | s108 => DD x6 x42 | s109 => DD x6 x43 | s110 => DD x6 x44 | s111 => DD x6 x45 | s112 => DD x6 x46 | s113 => DD x6 x47 | s114 => DD x6 x48 | s115 => DD x6 x49 | s116 => DD x6 x50 | s117 => DD x6 x51 | s118 => DD x6 x52 | s119 => DD x6 x53 | s120 => DD x6 x54 | s121 => DD x6 x55 | s122 => DD x6 x56 | s123 => DD x6 x57 | s124 => DD x6 x58 | s125 => DD x6 x59 | s126 => DD x6 x60 end.
Definition m319 (c : sum2) : dd := match c with s0 => DD x4 x63 | s1 => DD x5 x0 | s2 => DD x5 x1 | s3 => DD x5 x2 | s4 => DD x5 x3 | s5 => DD x5 x4 | s6 => DD x5 x5 | s7 => DD x5 x6 | s8 => DD x5 x7 | s9 => DD x5 x8 | s10 => DD x5 x9 | s11 => DD x5 x10 | s12 => DD x5 x11 | s13 => DD x5 x12 | s14 => DD x5 x13 | s15 => DD x5 x14 | s16 => DD x5 x15 | s17 => DD x5 x16 | s18 => DD x5 x17 | s19 => DD x5 x18 | s20 => DD x5 x19 | s21 => DD x5 x20 | s22 => DD x5 x21 | s23 => DD x5 x22 | s24 => DD x5 x23 | s25 => DD x5 x24 | s26 => DD x5 x25 | s27 => DD x5 x26 | s28 => DD x5 x27 | s29 => DD x5 x28 | s30 => DD x5 x29 | s31 => DD x5 x30 | s32 => DD x5 x31 | s33 => DD x5 x32 | s34 => DD x5 x33 | s35 => DD x5 x34 | s36 => DD x5 x35 | s37 => DD x5 x36 | s38 => DD x5 x37 | s39 => DD x5 x38 | s40 => DD x5 x39 | s41 => DD x5 x40 | s42 => DD x5 x41 | s43 => DD x5 x42 | s44 => DD x5 x43 | s45 => DD x5 x44 | s46 => DD x5 x45 | s47 => DD x5 x46 | s48 => DD x5 x47 | s49 => DD x5 x48 | s50 => DD x5 x49 | s51 => DD x5 x50 | s52 => DD x5 x51 | s53 => DD x5 x52 | s54 => DD x5 x53 | s55 => DD x5 x54 | s56 => DD x5 x55 | s57 => DD x5 x56 | s58 => DD x5 x57 | s59 => DD x5 x58 | s60 => DD x5 x59 | s61 => DD x5 x60 | s62 => DD x5 x61 | s63 => DD x5 x62 | s64 => DD x5 x63 | s65 => DD x6 x0 | s66 => DD x6 x1 | s67 => DD x6 x2 | s68 => DD x6 x3 | s69 => DD x6 x4 | s70 => DD x6 x5 | s71 => DD x6 x6 | s72 => DD x6 x7 | s73 => DD x6 x8 | s74 => DD x6 x9 | s75 => DD x6 x10 | s76 => DD x6 x11 | s77 => DD x6 x12 | s78 => DD x6 x13 | s79 => DD x6 x14 | s80 => DD x6 x15 | s81 => DD x6 x16 | s82 => DD x6 x17 | s83 => DD x6 x18 | s84 => DD x6 x19 | s85 => DD x6 x20 | s86 => DD x6 x21 | s87 => DD x6 x22 | s88 => DD x6 x23 | s89 => DD x6 x24 | s90 => DD x6 x25 | s91 => DD x6 x26 | s92 => DD x6 x27 | s93 => DD x6 x28 | s94 => DD x6 x29 | s95 => DD x6 x30 | s96 => DD x6 x31 | s97 => DD x6 x32 | s98 => DD x6 x33 | s99 => DD x6 x34 | s100 => DD x6 x35 | s101 => DD x6 x36 | s102 => DD x6 x37 | s103 => DD x6 x38 | s104 => DD x6 x39 | s105 => DD x6 x40 | s106 => DD x6 x41 | s107 => DD x6 x42 | s108 => DD x6 x43 | s109 => DD x6 x44 | s110 => DD x6 x45 | s111 => DD x6 x46 | s112 => DD x6 x47 | s113 => DD x6 x48 | s114 => DD x6 x49 | s115 => DD x6 x50 | s116 => DD x6 x51 | s117 => DD x6 x52 | s118 => DD x6 x53 | s119 => DD x6 x54 | s120 => DD x6 x55 | s121 => DD x6 x56 | s122 => DD x6 x57 | s123 => DD x6 x58 | s124 => DD x6 x59 | s125 => DD x6 x60 | s126 => DD x6 x61 end.
Definition m320 (c : sum2) : dd := match c with s0 => DD x5 x0 | s1 => DD x5 x1 | s2 => DD x5 x2 | s3 => DD x5 x3 | s4 => DD x5 x4 | s5 => DD x5 x5 | s6 => DD x5 x6 | s7 => DD x5 x7 | s8 => DD x5 x8 | s9 => DD x5 x9 | s10 => DD x5 x10 | s11 => DD x5 x11 | s12 => DD x5 x12 | s13 => DD x5 x13 | s14 => DD x5 x14 | s15 => DD x5 x15 | s16 => DD x5 x16 | s17 => DD x5 x17 | s18 => DD x5 x18 | s19 => DD x5 x19 | s20 => DD x5 x20 | s21 => DD x5 x21 | s22 => DD x5 x22 | s23 => DD x5 x23 | s24 => DD x5 x24 | s25 => DD x5 x25 | s26 => DD x5 x26 | s27 => DD x5 x27 | s28 => DD x5 x28 | s29 => DD x5 x29 | s30 => DD x5 x30 | s31 => DD x5 x31 | s32 => DD x5 x32 | s33 => DD x5 x33 | s34 => DD x5 x34 | s35 => DD x5 x35 | s36 => DD x5 x36 | s37 => DD x5 x37 | s38 => DD x5 x38 | s39 => DD x5 x39 | s40 => DD x5 x40 | s41 => DD x5 x41 | s42 => DD x5 x42 | s43 => DD x5 x43 | s44 => DD x5 x44 | s45 => DD x5 x45 | s46 => DD x5 x46 | s47 => DD x5 x47 | s48 => DD x5 x48 | s49 => DD x5 x49 | s50 => DD x5 x50 | s51 => DD x5 x51 | s52 => DD x5 x52 | s53 => DD x5 x53 | s54 => DD x5 x54 | s55 => DD x5 x55 | s56 => DD x5 x56 | s57 => DD x5 x57 | s58 => DD x5 x58 | s59 => DD x5 x59 | s60 => DD x5 x60 | s61 => DD x5 x61 | s62 => DD x5 x62 | s63 => DD x5 x63 | s64 => DD x6 x0 | s65 => DD x6 x1 | s66 => DD x6 x2 | s67 => DD x6 x3 | s68 => DD x6 x4 | s69 => DD x6 x5 | s70 => DD x6 x6 | s71 => DD x6 x7 | s72 => DD x6 x8 | s73 => DD x6 x9 | s74 => DD x6 x10 | s75 => DD x6 x11 | s76 => DD x6 x12 | s77 => DD x6 x13 | s78 => DD x6 x14 | s79 => DD x6 x15 | s80 => DD x6 x16 | s81 => DD x6 x17 | s82 => DD x6 x18 | s83 => DD x6 x19 | s84 => DD x6 x20 | s85 => DD x6 x21 | s86 => DD x6 x22 | s87 => DD x6 x23 | s88 => DD x6 x24 | s89 => DD x6 x25 | s90 => DD x6 x26 | s91 => DD x6 x27 | s92 => DD x6 x28 | s93 => DD x6 x29 | s94 => DD x6 x30 | s95 => DD x6 x31 | s96 => DD x6 x32 | s97 => DD x6 x33 | s98 => DD x6 x34 | s99 => DD x6 x35 | s100 => DD x6 x36 | s101 => DD x6 x37 | s102 => DD x6 x38 | s103 => DD x6 x39 | s104 => DD x6 x40 | s105 => DD x6 x41 | s106 => DD x6 x42 | s107 => DD x6 x43 | s108 => DD x6 x44 | s109 => DD x6 x45 | s110 => DD x6 x46 | s111 => DD x6 x47 | s112 => DD x6 x48 | s113 => DD x6 x49 | s114 => DD x6 x50 | s115 => DD x6 x51 | s116 => DD x6 x52 | s117 => DD x6 x53 | s118 => DD x6 x54 | s119 => DD x6 x55 | s120 => DD x6 x56 | s121 => DD x6 x57 | s122 => DD x6 x58 | s123 => DD x6 x59 | s124 => DD x6 x60 | s125 => DD x6 x61 | s126 => DD x6 x62 end.
Definition m322 (c : sum2) : dd := match c with s0 => DD x5 x2 | s1 => DD x5 x3 | s2 => DD x5 x4 | s3 => DD x5 x5 | s4 => DD x5 x6 | s5 => DD x5 x7 | s6 => DD x5 x8 | s7 => DD x5 x9 | s8 => DD x5 x10 | s9 => DD x5 x11 | s10 => DD x5 x12 | s11 => DD x5 x13 | s12 => DD x5 x14 | s13 => DD x5 x15 | s14 => DD x5 x16 | s15 => DD x5 x17 | s16 => DD x5 x18 | s17 => DD x5 x19 | s18 => DD x5 x20 | s19 => DD x5 x21 | s20 => DD x5 x22 | s21 => DD x5 x23 | s22 => DD x5 x24 | s23 => DD x5 x25 | s24 => DD x5 x26 | s25 => DD x5 x27 | s26 => DD x5 x28 | s27 => DD x5 x29 | s28 => DD x5 x30 | s29 => DD x5 x31 | s30 => DD x5 x32 | s31 => DD x5 x33 | s32 => DD x5 x34 | s33 => DD x5 x35 | s34 => DD x5 x36 | s35 => DD x5 x37 | s36 => DD x5 x38 | s37 => DD x5 x39 | s38 => DD x5 x40 | s39 => DD x5 x41 | s40 => DD x5 x42 | s41 => DD x5 x43 | s42 => DD x5 x44 | s43 => DD x5 x45 | s44 => DD x5 x46 | s45 => DD x5 x47 | s46 => DD x5 x48 | s47 => DD x5 x49 | s48 => DD x5 x50 | s49 => DD x5 x51 | s50 => DD x5 x52 | s51 => DD x5 x53 | s52 => DD x5 x54 | s53 => DD x5 x55 | s54 => DD x5 x56 | s55 => DD x5 x57 | s56 => DD x5 x58 | s57 => DD x5 x59 | s58 => DD x5 x60 | s59 => DD x5 x61 | s60 => DD x5 x62 | s61 => DD x5 x63 | s62 => DD x6 x0 | s63 => DD x6 x1 | s64 => DD x6 x2 | s65 => DD x6 x3 | s66 => DD x6 x4 | s67 => DD x6 x5 | s68 => DD x6 x6 | s69 => DD x6 x7 | s70 => DD x6 x8 | s71 => DD x6 x9 | s72 => DD x6 x10 | s73 => DD x6 x11 | s74 => DD x6 x12 | s75 => DD x6 x13 | s76 => DD x6 x14 | s77 => DD x6 x15 | s78 => DD x6 x16 | s79 => DD x6 x17 | s80 => DD x6 x18 | s81 => DD x6 x19 | s82 => DD x6 x20 | s83 => DD x6 x21 | s84 => DD x6 x22 | s85 => DD x6 x23 | s86 => DD x6 x24 | s87 => DD x6 x25 | s88 => DD x6 x26 | s89 => DD x6 x27 | s90 => DD x6 x28 | s91 => DD x6 x29 | s92 => DD x6 x30 | s93 => DD x6 x31 | s94 => DD x6 x32 | s95 => DD x6 x33 | s96 => DD x6 x34 | s97 => DD x6 x35 | s98 => DD x6 x36 | s99 => DD x6 x37 | s100 => DD x6 x38 | s101 => DD x6 x39 | s102 => DD x6 x40 | s103 => DD x6 x41 | s104 => DD x6 x42 | s105 => DD x6 x43 | s106 => DD x6 x44 | s107 => DD x6 x45 | s108 => DD x6 x46 | s109 => DD x6 x47 | s110 => DD x6 x48 | s111 => DD x6 x49 | s112 => DD x6 x50 | s113 => DD x6 x51 | s114 => DD x6 x52 | s115 => DD x6 x53 | s116 => DD x6 x54 | s117 => DD x6 x55 | s118 => DD x6 x56 | s119 => DD x6 x57 | s120 => DD x6 x58 | s121 => DD x6 x59 | s122 => DD x6 x60 | s123 => DD x6 x61 | s124 => DD x6 x62 | s125 => DD x6 x63 | s126 => DD x7 x0 end.
Definition m323 (c : sum2) : dd := match c with s0 => DD x5 x3 | s1 => DD x5 x4 | s2 => DD x5 x5 | s3 => DD x5 x6 | s4 => DD x5 x7 | s5 => DD x5 x8 | s6 => DD x5 x9 | s7 => DD x5 x10 | s8 => DD x5 x11 | s9 => DD x5 x12 | s10 => DD x5 x13 | s11 => DD x5 x14 | s12 => DD x5 x15 | s13 => DD x5 x16 | s14 => DD x5 x17 | s15 => DD x5 x18 | s16 => DD x5 x19 | s17 => DD x5 x20 | s18 => DD x5 x21 | s19 => DD x5 x22 | s20 => DD x5 x23 | s21 => DD x5 x24 | s22 => DD x5 x25 | s23 => DD x5 x26 | s24 => DD x5 x27 | s25 => DD x5 x28 | s26 => DD x5 x29 | s27 => DD x5 x30 | s28 => DD x5 x31 | s29 => DD x5 x32 | s30 => DD x5 x33 | s31 => DD x5 x34 | s32 => DD x5 x35 | s33 => DD x5 x36 | s34 => DD x5 x37 | s35 => DD x5 x38 | s36 => DD x5 x39 | s37 => DD x5 x40 | s38 => DD x5 x41 | s39 => DD x5 x42 | s40 => DD x5 x43 | s41 => DD x5 x44 | s42 => DD x5 x45 | s43 => DD x5 x46 | s44 => DD x5 x47 | s45 => DD x5 x48 | s46 => DD x5 x49 | s47 => DD x5 x50 | s48 => DD x5 x51 | s49 => DD x5 x52 | s50 => DD x5 x53 | s51 => DD x5 x54 | s52 => DD x5 x55 | s53 => DD x5 x56 | s54 => DD x5 x57 | s55 => DD x5 x58 | s56 => DD x5 x59 | s57 => DD x5 x60 | s58 => DD x5 x61 | s59 => DD x5 x62 | s60 => DD x5 x63 | s61 => DD x6 x0 | s62 => DD x6 x1 | s63 => DD x6 x2 | s64 => DD x6 x3 | s65 => DD x6 x4 | s66 => DD x6 x5 | s67 => DD x6 x6 | s68 => DD x6 x7 | s69 => DD x6 x8 | s70 => DD x6 x9 | s71 => DD x6 x10 | s72 => DD x6 x11 | s73 => DD x6 x12 | s74 => DD x6 x13 | s75 => DD x6 x14 | s76 => DD x6 x15 | s77 => DD x6 x16 | s78 => DD x6 x17 | s79 => DD x6 x18 | s80 => DD x6 x19 | s81 => DD x6 x20 | s82 => DD x6 x21 | s83 => DD x6 x22 | s84 => DD x6 x23 | s85 => DD x6 x24 | s86 => DD x6 x25 | s87 => DD x6 x26 | s88 => DD x6 x27 | s89 => DD x6 x28 | s90 => DD x6 x29 | s91 => DD x6 x30 | s92 => DD x6 x31 | s93 => DD x6 x32 | s94 => DD x6 x33 | s95 => DD x6 x34 | s96 => DD x6 x35 | s97 => DD x6 x36 | s98 => DD x6 x37 | s99 => DD x6 x38 | s100 => DD x6 x39 | s101 => DD x6 x40 | s102 => DD x6 x41 | s103 => DD x6 x42 | s104 => DD x6 x43 | s105 => DD x6 x44 | s106 => DD x6 x45 | s107 => DD x6 x46 | s108 => DD x6 x47 | s109 => DD x6 x48 | s110 => DD x6 x49 | s111 => DD x6 x50 | s112 => DD x6 x51 | s113 => DD x6 x52 | s114 => DD x6 x53 | s115 => DD x6 x54 | s116 => DD x6 x55 | s117 => DD x6 x56 | s118 => DD x6 x57 | s119 => DD x6 x58 | s120 => DD x6 x59 | s121 => DD x6 x60 | s122 => DD x6 x61 | s123 => DD x6 x62 | s124 => DD x6 x63 | s125 => DD x7 x0 | s126 => DD x7 x1 end.
Definition m324 (c : sum2) : dd := match c with s0 => DD x5 x4 | s1 => DD x5 x5 | s2 => DD x5 x6 | s3 => DD x5 x7 | s4 => DD x5 x8 | s5 => DD x5 x9 | s6 => DD x5 x10 | s7 => DD x5 x11 | s8 => DD x5 x12 | s9 => DD x5 x13 | s10 => DD x5 x14 | s11 => DD x5 x15 | s12 => DD x5 x16 | s13 => DD x5 x17 | s14 => DD x5 x18 | s15 => DD x5 x19 | s16 => DD x5 x20 | s17 => DD x5 x21 | s18 => DD x5 x22 | s19 => DD x5 x23 | s20 => DD x5 x24 | s21 => DD x5 x25 | s22 => DD x5 x26 | s23 => DD x5 x27 | s24 => DD x5 x28 | s25 => DD x5 x29 | s26 => DD x5 x30 | s27 => DD x5 x31 | s28 => DD x5 x32 | s29 => DD x5 x33 | s30 => DD x5 x34 | s31 => DD x5 x35 | s32 => DD x5 x36 | s33 => DD x5 x37 | s34 => DD x5 x38 | s35 => DD x5 x39 | s36 => DD x5 x40 | s37 => DD x5 x41 | s38 => DD x5 x42 | s39 => DD x5 x43 | s40 => DD x5 x44 | s41 => DD x5 x45 | s42 => DD x5 x46 | s43 => DD x5 x47 | s44 => DD x5 x48 | s45 => DD x5 x49 | s46 => DD x5 x50 | s47 => DD x5 x51 | s48 => DD x5 x52 | s49 => DD x5 x53 | s50 => DD x5 x54 | s51 => DD x5 x55 | s52 => DD x5 x56 | s53 => DD x5 x57 | s54 => DD x5 x58 | s55 => DD x5 x59 | s56 => DD x5 x60 | s57 => DD x5 x61 | s58 => DD x5 x62 | s59 => DD x5 x63 | s60 => DD x6 x0 | s61 => DD x6 x1 | s62 => DD x6 x2 | s63 => DD x6 x3 | s64 => DD x6 x4 | s65 => DD x6 x5 | s66 => DD x6 x6 | s67 => DD x6 x7 | s68 => DD x6 x8 | s69 => DD x6 x9 | s70 => DD x6 x10 | s71 => DD x6 x11 | s72 => DD x6 x12 | s73 => DD x6 x13 | s74 => DD x6 x14 | s75 => DD x6 x15 | s76 => DD x6 x16 | s77 => DD x6 x17 | s78 => DD x6 x18 | s79 => DD x6 x19 | s80 => DD x6 x20 | s81 => DD x6 x21 | s82 => DD x6 x22 | s83 => DD x6 x23 | s84 => DD x6 x24 | s85 => DD x6 x25 | s86 => DD x6 x26 | s87 => DD x6 x27 | s88 => DD x6 x28 | s89 => DD x6 x29 | s90 => DD x6 x30 | s91 => DD x6 x31 | s92 => DD x6 x32 | s93 => DD x6 x33 | s94 => DD x6 x34 | s95 => DD x6 x35 | s96 => DD x6 x36 | s97 => DD x6 x37 | s98 => DD x6 x38 | s99 => DD x6 x39 | s100 => DD x6 x40 | s101 => DD x6 x41 | s102 => DD x6 x42 | s103 => DD x6 x43 | s104 => DD x6 x44 | s105 => DD x6 x45 | s106 => DD x6 x46 | s107 => DD x6 x47 | s108 => DD x6 x48 | s109 => DD x6 x49 | s110 => DD x6 x50 | s111 => DD x6 x51 | s112 => DD x6 x52 | s113 => DD x6 x53 | s114 => DD x6 x54 | s115 => DD x6 x55 | s116 => DD x6 x56 | s117 => DD x6 x57 | s118 => DD x6 x58 | s119 => DD x6 x59 | s120 => DD x6 x60 | s121 => DD x6 x61 | s122 => DD x6 x62 | s123 => DD x6 x63 | s124 => DD x7 x0 | s125 => DD x7 x1 | s126 => DD x7 x2 end.
Definition m325 (c : sum2) : dd := match c with s0 => DD x5 x5 | s1 => DD x5 x6 | s2 => DD x5 x7 | s3 => DD x5 x8 | s4 => DD x5 x9 | s5 => DD x5 x10 | s6 => DD x5 x11 | s7 => DD x5 x12 | s8 => DD x5 x13 | s9 => DD x5 x14 | s10 => DD x5 x15 | s11 => DD x5 x16 | s12 => DD x5 x17 | s13 => DD x5 x18 | s14 => DD x5 x19 | s15 => DD x5 x20 | s16 => DD x5 x21 | s17 => DD x5 x22 | s18 => DD x5 x23 | s19 => DD x5 x24 | s20 => DD x5 x25 | s21 => DD x5 x26 | s22 => DD x5 x27 | s23 => DD x5 x28 | s24 => DD x5 x29 | s25 => DD x5 x30 | s26 => DD x5 x31 | s27 => DD x5 x32 | s28 => DD x5 x33 | s29 => DD x5 x34 | s30 => DD x5 x35 | s31 => DD x5 x36 | s32 => DD x5 x37 | s33 => DD x5 x38 | s34 => DD x5 x39 | s35 => DD x5 x40 | s36 => DD x5 x41 | s37 => DD x5 x42 | s38 => DD x5 x43 | s39 => DD x5 x44 | s40 => DD x5 x45 | s41 => DD x5 x46 | s42 => DD x5 x47 | s43 => DD x5 x48 | s44 => DD x5 x49 | s45 => DD x5 x50 | s46 => DD x5 x51 | s47 => DD x5 x52 | s48 => DD x5 x53 | s49 => DD x5 x54 | s50 => DD x5 x55 | s51 => DD x5 x56 | s52 => DD x5 x57 | s53 => DD x5 x58 | s54 => DD x5 x59 | s55 => DD x5 x60 | s56 => DD x5 x61 | s57 => DD x5 x62 | s58 => DD x5 x63 | s59 => DD x6 x0 | s60 => DD x6 x1 | s61 => DD x6 x2 | s62 => DD x6 x3 | s63 => DD x6 x4 | s64 => DD x6 x5 | s65 => DD x6 x6 | s66 => DD x6 x7 | s67 => DD x6 x8 | s68 => DD x6 x9 | s69 => DD x6 x10 | s70 => DD x6 x11 | s71 => DD x6 x12 | s72 => DD x6 x13 | s73 => DD x6 x14 | s74 => DD x6 x15 | s75 => DD x6 x16 | s76 => DD x6 x17 | s77 => DD x6 x18 | s78 => DD x6 x19 | s79 => DD x6 x20 | s80 => DD x6 x21 | s81 => DD x6 x22 | s82 => DD x6 x23 | s83 => DD x6 x24 | s84 => DD x6 x25 | s85 => DD x6 x26 | s86 => DD x6 x27 | s87 => DD x6 x28 | s88 => DD x6 x29 | s89 => DD x6 x30 | s90 => DD x6 x31 | s91 => DD x6 x32 | s92 => DD x6 x33 | s93 => DD x6 x34 | s94 => DD x6 x35 | s95 => DD x6 x36 | s96 => DD x6 x37 | s97 => DD x6 x38 | s98 => DD x6 x39 | s99 => DD x6 x40 | s100 => DD x6 x41 | s101 => DD x6 x42 | s102 => DD x6 x43 | s103 => DD x6 x44 | s104 => DD x6 x45 | s105 => DD x6 x46 | s106 => DD x6 x47 | s107 => DD x6 x48 | s108 => DD x6 x49 | s109 => DD x6 x50 | s110 => DD x6 x51 | s111 => DD x6 x52 | s112 => DD x6 x53 | s113 => DD x6 x54 | s114 => DD x6 x55 | s115 => DD x6 x56 | s116 => DD x6 x57 | s117 => DD x6 x58 | s118 => DD x6 x59 | s119 => DD x6 x60 | s120 => DD x6 x61 | s121 => DD x6 x62 | s122 => DD x6 x63 | s123 => DD x7 x0 | s124 => DD x7 x1 | s125 => DD x7 x2 | s126 => DD x7 x3 end.
Definition m328 (c : sum2) : dd := match c with s0 => DD x5 x8 | s1 => DD x5 x9 | s2 => DD x5 x10 | s3 => DD x5 x11 | s4 => DD x5 x12 | s5 => DD x5 x13 | s6 => DD x5 x14 | s7 => DD x5 x15 | s8 => DD x5 x16 | s9 => DD x5 x17 | s10 => DD x5 x18 | s11 => DD x5 x19 | s12 => DD x5 x20 | s13 => DD x5 x21 | s14 => DD x5 x22 | s15 => DD x5 x23 | s16 => DD x5 x24 | s17 => DD x5 x25 | s18 => DD x5 x26 | s19 => DD x5 x27 | s20 => DD x5 x28 | s21 => DD x5 x29 | s22 => DD x5 x30 | s23 => DD x5 x31 | s24 => DD x5 x32 | s25 => DD x5 x33 | s26 => DD x5 x34 | s27 => DD x5 x35 | s28 => DD x5 x36 | s29 => DD x5 x37 | s30 => DD x5 x38 | s31 => DD x5 x39 | s32 => DD x5 x40 | s33 => DD x5 x41 | s34 => DD x5 x42 | s35 => DD x5 x43 | s36 => DD x5 x44 | s37 => DD x5 x45 | s38 => DD x5 x46 | s39 => DD x5 x47 | s40 => DD x5 x48 | s41 => DD x5 x49 | s42 => DD x5 x50 | s43 => DD x5 x51 | s44 => DD x5 x52 | s45 => DD x5 x53 | s46 => DD x5 x54 | s47 => DD x5 x55 | s48 => DD x5 x56 | s49 => DD x5 x57 | s50 => DD x5 x58 | s51 => DD x5 x59 | s52 => DD x5 x60 | s53 => DD x5 x61 | s54 => DD x5 x62 | s55 => DD x5 x63 | s56 => DD x6 x0 | s57 => DD x6 x1 | s58 => DD x6 x2 | s59 => DD x6 x3 | s60 => DD x6 x4 | s61 => DD x6 x5 | s62 => DD x6 x6 | s63 => DD x6 x7 | s64 => DD x6 x8 | s65 => DD x6 x9 | s66 => DD x6 x10 | s67 => DD x6 x11 | s68 => DD x6 x12 | s69 => DD x6 x13 | s70 => DD x6 x14 | s71 => DD x6 x15 | s72 => DD x6 x16 | s73 => DD x6 x17 | s74 => DD x6 x18 | s75 => DD x6 x19 | s76 => DD x6 x20 | s77 => DD x6 x21 | s78 => DD x6 x22 | s79 => DD x6 x23 | s80 => DD x6 x24 | s81 => DD x6 x25 | s82 => DD x6 x26 | s83 => DD x6 x27 | s84 => DD x6 x28 | s85 => DD x6 x29 | s86 => DD x6 x30 | s87 => DD x6 x31 | s88 => DD x6 x32 | s89 => DD x6 x33 | s90 => DD x6 x34 | s91 => DD x6 x35 | s92 => DD x6 x36 | s93 => DD x6 x37 | s94 => DD x6 x38 | s95 => DD x6 x39 | s96 => DD x6 x40 | s97 => DD x6 x41 | s98 => DD x6 x42 | s99 => DD x6 x43 | s100 => DD x6 x44 | s101 => DD x6 x45 | s102 => DD x6 x46 | s103 => DD x6 x47 | s104 => DD x6 x48 | s105 => DD x6 x49 | s106 => DD x6 x50 | s107 => DD x6 x51 | s108 => DD x6 x52 | s109 => DD x6 x53 | s110 => DD x6 x54 | s111 => DD x6 x55 | s112 => DD x6 x56 | s113 => DD x6 x57 | s114 => DD x6 x58 | s115 => DD x6 x59 | s116 => DD x6 x60 | s117 => DD x6 x61 | s118 => DD x6 x62 | s119 => DD x6 x63 | s120 => DD x7 x0 | s121 => DD x7 x1 | s122 => DD x7 x2 | s123 => DD x7 x3 | s124 => DD x7 x4 | s125 => DD x7 x5 | s126 => DD x7 x6 end.
Definition m329 (c : sum2) : dd := match c with s0 => DD x5 x9 | s1 => DD x5 x10 | s2 => DD x5 x11 | s3 => DD x5 x12 | s4 => DD x5 x13 | s5 => DD x5 x14 | s6 => DD x5 x15 | s7 => DD x5 x16 | s8 => DD x5 x17 | s9 => DD x5 x18 | s10 => DD x5 x19 | s11 => DD x5 x20 | s12 => DD x5 x21 | s13 => DD x5 x22 | s14 => DD x5 x23 | s15 => DD x5 x24 | s16 => DD x5 x25 | s17 => DD x5 x26 | s18 => DD x5 x27 | s19 => DD x5 x28 | s20 => DD x5 x29 | s21 => DD x5 x30 | s22 => DD x5 x31 | s23 => DD x5 x32 | s24 => DD x5 x33 | s25 => DD x5 x34 | s26 => DD x5 x35 | s27 => DD x5 x36 | s28 => DD x5 x37 | s29 => DD x5 x38 | s30 => DD x5 x39 | s31 => DD x5 x40 | s32 => DD x5 x41 | s33 => DD x5 x42 | s34 => DD x5 x43 | s35 => DD x5 x44 | s36 => DD x5 x45 | s37 => DD x5 x46 | s38 => DD x5 x47 | s39 => DD x5 x48 | s40 => DD x5 x49 | s41 => DD x5 x50 | s42 => DD x5 x51 | s43 => DD x5 x52 | s44 => DD x5 x53 | s45 => DD x5 x54 | s46 => DD x5 x55 | s47 => DD x5 x56 | s48 => DD x5 x57 | s49 => DD x5 x58 | s50 => DD x5 x59 | s51 => DD x5 x60 | s52 => DD x5 x61 | s53 => DD x5 x62 | s54 => DD x5 x63 | s55 => DD x6 x0 | s56 => DD x6 x1 | s57 => DD x6 x2 | s58 => DD x6 x3 | s59 => DD x6 x4 | s60 => DD x6 x5 | s61 => DD x6 x6 | s62 => DD x6 x7 | s63 => DD x6 x8 | s64 => DD x6 x9 | s65 => DD x6 x10 | s66 => DD x6 x11 | s67 => DD x6 x12 | s68 => DD x6 x13 | s69 => DD x6 x14 | s70 => DD x6 x15 | s71 => DD x6 x16 | s72 => DD x6 x17 | s73 => DD x6 x18 | s74 => DD x6 x19 | s75 => DD x6 x20 | s76 => DD x6 x21 | s77 => DD x6 x22 | s78 => DD x6 x23 | s79 => DD x6 x24 | s80 => DD x6 x25 | s81 => DD x6 x26 | s82 => DD x6 x27 | s83 => DD x6 x28 | s84 => DD x6 x29 | s85 => DD x6 x30 | s86 => DD x6 x31 | s87 => DD x6 x32 | s88 => DD x6 x33 | s89 => DD x6 x34 | s90 => DD x6 x35 | s91 => DD x6 x36 | s92 => DD x6 x37 | s93 => DD x6 x38 | s94 => DD x6 x39 | s95 => DD x6 x40 | s96 => DD x6 x41 | s97 => DD x6 x42 | s98 => DD x6 x43 | s99 => DD x6 x44 | s100 => DD x6 x45 | s101 => DD x6 x46 | s102 => DD x6 x47 | s103 => DD x6 x48 | s104 => DD x6 x49 | s105 => DD x6 x50 | s106 => DD x6 x51 | s107 => DD x6 x52 | s108 => DD x6 x53 | s109 => DD x6 x54 | s110 => DD x6 x55 | s111 => DD x6 x56 | s112 => DD x6 x57 | s113 => DD x6 x58 | s114 => DD x6 x59 | s115 => DD x6 x60 | s116 => DD x6 x61 | s117 => DD x6 x62 | s118 => DD x6 x63 | s119 => DD x7 x0 | s120 => DD x7 x1 | s121 => DD x7 x2 | s122 => DD x7 x3 | s123 => DD x7 x4 | s124 => DD x7 x5 | s125 => DD x7 x6 | s126 => DD x7 x7 end.
Definition m330 (c : sum2) : dd := match c with s0 => DD x5 x10 | s1 => DD x5 x11 | s2 => DD x5 x12 | s3 => DD x5 x13 | s4 => DD x5 x14 | s5 => DD x5 x15 | s6 => DD x5 x16 | s7 => DD x5 x17 | s8 => DD x5 x18 | s9 => DD x5 x19 | s10 => DD x5 x20 | s11 => DD x5 x21 | s12 => DD x5 x22 | s13 => DD x5 x23 | s14 => DD x5 x24 | s15 => DD x5 x25 | s16 => DD x5 x26 | s17 => DD x5 x27 | s18 => DD x5 x28 | s19 => DD x5 x29 | s20 => DD x5 x30 | s21 => DD x5 x31 | s22 => DD x5 x32 | s23 => DD x5 x33 | s24 => DD x5 x34 | s25 => DD x5 x35 | s26 => DD x5 x36 | s27 => DD x5 x37 | s28 => DD x5 x38 | s29 => DD x5 x39 | s30 => DD x5 x40 | s31 => DD x5 x41 | s32 => DD x5 x42 | s33 => DD x5 x43 | s34 => DD x5 x44 | s35 => DD x5 x45 | s36 => DD x5 x46 | s37 => DD x5 x47 | s38 => DD x5 x48 | s39 => DD x5 x49 | s40 => DD x5 x50 | s41 => DD x5 x51 | s42 => DD x5 x52 | s43 => DD x5 x53 | s44 => DD x5 x54 | s45 => DD x5 x55 | s46 => DD x5 x56 | s47 => DD x5 x57 | s48 => DD x5 x58 | s49 => DD x5 x59 | s50 => DD x5 x60 | s51 => DD x5 x61 | s52 => DD x5 x62 | s53 => DD x5 x63 | s54 => DD x6 x0 | s55 => DD x6 x1 | s56 => DD x6 x2 | s57 => DD x6 x3 | s58 => DD x6 x4 | s59 => DD x6 x5 | s60 => DD x6 x6 | s61 => DD x6 x7 | s62 => DD x6 x8 | s63 => DD x6 x9 | s64 => DD x6 x10 | s65 => DD x6 x11 | s66 => DD x6 x12 | s67 => DD x6 x13 | s68 => DD x6 x14 | s69 => DD x6 x15 | s70 => DD x6 x16 | s71 => DD x6 x17 | s72 => DD x6 x18 | s73 => DD x6 x19 | s74 => DD x6 x20 | s75 => DD x6 x21 | s76 => DD x6 x22 | s77 => DD x6 x23 | s78 => DD x6 x24 | s79 => DD x6 x25 | s80 => DD x6 x26 | s81 => DD x6 x27 | s82 => DD x6 x28 | s83 => DD x6 x29 | s84 => DD x6 x30 | s85 => DD x6 x31 | s86 => DD x6 x32 | s87 => DD x6 x33 | s88 => DD x6 x34 | s89 => DD x6 x35 | s90 => DD x6 x36 | s91 => DD x6 x37 | s92 => DD x6 x38 | s93 => DD x6 x39 | s94 => DD x6 x40 | s95 => DD x6 x41 | s96 => DD x6 x42 | s97 => DD x6 x43 | s98 => DD x6 x44 | s99 => DD x6 x45 | s100 => DD x6 x46 | s101 => DD x6 x47 | s102 => DD x6 x48 | s103 => DD x6 x49 | s104 => DD x6 x50 | s105 => DD x6 x51 | s106 => DD x6 x52 | s107 => DD x6 x53 | s108 => DD x6 x54 | s109 => DD x6 x55 | s110 => DD x6 x56 | s111 => DD x6 x57 | s112 => DD x6 x58 | s113 => DD x6 x59 | s114 => DD x6 x60 | s115 => DD x6 x61 | s116 => DD x6 x62 | s117 => DD x6 x63 | s118 => DD x7 x0 | s119 => DD x7 x1 | s120 => DD x7 x2 | s121 => DD x7 x3 | s122 => DD x7 x4 | s123 => DD x7 x5 | s124 => DD x7 x6 | s125 => DD x7 x7 | s126 => DD x7 x8 end.
Definition m333 (c : sum2) : dd := match c with s0 => DD x5 x13 | s1 => DD x5 x14 | s2 => DD x5 x15 | s3 => DD x5 x16 | s4 => DD x5 x17 | s5 => DD x5 x18 | s6 => DD x5 x19 | s7 => DD x5 x20 | s8 => DD x5 x21 | s9 => DD x5 x22 | s10 => DD x5 x23 | s11 => DD x5 x24 | s12 => DD x5 x25 | s13 => DD x5 x26 | s14 => DD x5 x27 | s15 => DD x5 x28 | s16 => DD x5 x29 | s17 => DD x5 x30 | s18 => DD x5 x31 | s19 => DD x5 x32 | s20 => DD x5 x33 | s21 => DD x5 x34 | s22 => DD x5 x35 | s23 => DD x5 x36 | s24 => DD x5 x37 | s25 => DD x5 x38 | s26 => DD x5 x39 | s27 => DD x5 x40 | s28 => DD x5 x41 | s29 => DD x5 x42 | s30 => DD x5 x43 | s31 => DD x5 x44 | s32 => DD x5 x45 | s33 => DD x5 x46 | s34 => DD x5 x47 | s35 => DD x5 x48 | s36 => DD x5 x49 | s37 => DD x5 x50 | s38 => DD x5 x51 | s39 => DD x5 x52 | s40 => DD x5 x53 | s41 => DD x5 x54 | s42 => DD x5 x55 | s43 => DD x5 x56 | s44 => DD x5 x57 | s45 => DD x5 x58 | s46 => DD x5 x59 | s47 => DD x5 x60 | s48 => DD x5 x61 | s49 => DD x5 x62 | s50 => DD x5 x63 | s51 => DD x6 x0 | s52 => DD x6 x1 | s53 => DD x6 x2 | s54 => DD x6 x3 | s55 => DD x6 x4 | s56 => DD x6 x5 | s57 => DD x6 x6 | s58 => DD x6 x7 | s59 => DD x6 x8 | s60 => DD x6 x9 | s61 => DD x6 x10 | s62 => DD x6 x11 | s63 => DD x6 x12 | s64 => DD x6 x13 | s65 => DD x6 x14 | s66 => DD x6 x15 | s67 => DD x6 x16 | s68 => DD x6 x17 | s69 => DD x6 x18 | s70 => DD x6 x19 | s71 => DD x6 x20 | s72 => DD x6 x21 | s73 => DD x6 x22 | s74 => DD x6 x23 | s75 => DD x6 x24 | s76 => DD x6 x25 | s77 => DD x6 x26 | s78 => DD x6 x27 | s79 => DD x6 x28 | s80 => DD x6 x29 | s81 => DD x6 x30 | s82 => DD x6 x31 | s83 => DD x6 x32 | s84 => DD x6 x33 | s85 => DD x6 x34 | s86 => DD x6 x35 | s87 => DD x6 x36 | s88 => DD x6 x37 | s89 => DD x6 x38 | s90 => DD x6 x39 | s91 => DD x6 x40 | s92 => DD x6 x41 | s93 => DD x6 x42 | s94 => DD x6 x43 | s95 => DD x6 x44 | s96 => DD x6 x45 | s97 => DD x6 x46 | s98 => DD x6 x47 | s99 => DD x6 x48 | s100 => DD x6 x49 | s101 => DD x6 x50 | s102 => DD x6 x51 | s103 => DD x6 x52 | s104 => DD x6 x53 | s105 => DD x6 x54 | s106 => DD x6 x55 | s107 => DD x6 x56 | s108 => DD x6 x57 | s109 => DD x6 x58 | s110 => DD x6 x59 | s111 => DD x6 x60 | s112 => DD x6 x61 | s113 => DD x6 x62 | s114 => DD x6 x63 | s115 => DD x7 x0 | s116 => DD x7 x1 | s117 => DD x7 x2 | s118 => DD x7 x3 | s119 => DD x7 x4 | s120 => DD x7 x5 | s121 => DD x7 x6 | s122 => DD x7 x7 | s123 => DD x7 x8 | s124 => DD x7 x9 | s125 => DD x7 x10 | s126 => DD x7 x11 end.
Definition m336 (c : sum2) : dd := match c with s0 => DD x5 x16 | s1 => DD x5 x17 | s2 => DD x5 x18 | s3 => DD x5 x19 | s4 => DD x5 x20 | s5 => DD x5 x21 | s6 => DD x5 x22 | s7 => DD x5 x23 | s8 => DD x5 x24 | s9 => DD x5 x25 | s10 => DD x5 x26 | s11 => DD x5 x27 | s12 => DD x5 x28 | s13 => DD x5 x29 | s14 => DD x5 x30 | s15 => DD x5 x31 | s16 => DD x5 x32 | s17 => DD x5 x33 | s18 => DD x5 x34 | s19 => DD x5 x35 | s20 => DD x5 x36 | s21 => DD x5 x37 | s22 => DD x5 x38 | s23 => DD x5 x39 | s24 => DD x5 x40 | s25 => DD x5 x41 | s26 => DD x5 x42 | s27 => DD x5 x43 | s28 => DD x5 x44 | s29 => DD x5 x45 | s30 => DD x5 x46 | s31 => DD x5 x47 | s32 => DD x5 x48 | s33 => DD x5 x49 | s34 => DD x5 x50 | s35 => DD x5 x51 | s36 => DD x5 x52 | s37 => DD x5 x53 | s38 => DD x5 x54 | s39 => DD x5 x55 | s40 => DD x5 x56 | s41 => DD x5 x57 | s42 => DD x5 x58 | s43 => DD x5 x59 | s44 => DD x5 x60 | s45 => DD x5 x61 | s46 => DD x5 x62 | s47 => DD x5 x63 | s48 => DD x6 x0 | s49 => DD x6 x1 | s50 => DD x6 x2 | s51 => DD x6 x3 | s52 => DD x6 x4 | s53 => DD x6 x5 | s54 => DD x6 x6 | s55 => DD x6 x7 | s56 => DD x6 x8 | s57 => DD x6 x9 | s58 => DD x6 x10 | s59 => DD x6 x11 | s60 => DD x6 x12 | s61 => DD x6 x13 | s62 => DD x6 x14 | s63 => DD x6 x15 | s64 => DD x6 x16 | s65 => DD x6 x17 | s66 => DD x6 x18 | s67 => DD x6 x19 | s68 => DD x6 x20 | s69 => DD x6 x21 | s70 => DD x6 x22 | s71 => DD x6 x23 | s72 => DD x6 x24 | s73 => DD x6 x25 | s74 => DD x6 x26 | s75 => DD x6 x27 | s76 => DD x6 x28 | s77 => DD x6 x29 | s78 => DD x6 x30 | s79 => DD x6 x31 | s80 => DD x6 x32 | s81 => DD x6 x33 | s82 => DD x6 x34 | s83 => DD x6 x35 | s84 => DD x6 x36 | s85 => DD x6 x37 | s86 => DD x6 x38 | s87 => DD x6 x39 | s88 => DD x6 x40 | s89 => DD x6 x41 | s90 => DD x6 x42 | s91 => DD x6 x43 | s92 => DD x6 x44 | s93 => DD x6 x45 | s94 => DD x6 x46 | s95 => DD x6 x47 | s96 => DD x6 x48 | s97 => DD x6 x49 | s98 => DD x6 x50 | s99 => DD x6 x51 | s100 => DD x6 x52 | s101 => DD x6 x53 | s102 => DD x6 x54 | s103 => DD x6 x55 | s104 => DD x6 x56 | s105 => DD x6 x57 | s106 => DD x6 x58 | s107 => DD x6 x59 | s108 => DD x6 x60 | s109 => DD x6 x61 | s110 => DD x6 x62 | s111 => DD x6 x63 | s112 => DD x7 x0 | s113 => DD x7 x1 | s114 => DD x7 x2 | s115 => DD x7 x3 | s116 => DD x7 x4 | s117 => DD x7 x5 | s118 => DD x7 x6 | s119 => DD x7 x7 | s120 => DD x7 x8 | s121 => DD x7 x9 | s122 => DD x7 x10 | s123 => DD x7 x11 | s124 => DD x7 x12 | s125 => DD x7 x13 | s126 => DD x7 x14 end.
Definition m338 (c : sum2) : dd := match c with s0 => DD x5 x18 | s1 => DD x5 x19 | s2 => DD x5 x20 | s3 => DD x5 x21 | s4 => DD x5 x22 | s5 => DD x5 x23 | s6 => DD x5 x24 | s7 => DD x5 x25 | s8 => DD x5 x26 | s9 => DD x5 x27 | s10 => DD x5 x28 | s11 => DD x5 x29 | s12 => DD x5 x30 | s13 => DD x5 x31 | s14 => DD x5 x32 | s15 => DD x5 x33 | s16 => DD x5 x34 | s17 => DD x5 x35 | s18 => DD x5 x36 | s19 => DD x5 x37 | s20 => DD x5 x38 | s21 => DD x5 x39 | s22 => DD x5 x40 | s23 => DD x5 x41 | s24 => DD x5 x42 | s25 => DD x5 x43 | s26 => DD x5 x44 | s27 => DD x5 x45 | s28 => DD x5 x46 | s29 => DD x5 x47 | s30 => DD x5 x48 | s31 => DD x5 x49 | s32 => DD x5 x50 | s33 => DD x5 x51 | s34 => DD x5 x52 | s35 => DD x5 x53 | s36 => DD x5 x54 | s37 => DD x5 x55 | s38 => DD x5 x56 | s39 => DD x5 x57 | s40 => DD x5 x58 | s41 => DD x5 x59 | s42 => DD x5 x60 | s43 => DD x5 x61 | s44 => DD x5 x62 | s45 => DD x5 x63 | s46 => DD x6 x0 | s47 => DD x6 x1 | s48 => DD x6 x2 | s49 => DD x6 x3 | s50 => DD x6 x4 | s51 => DD x6 x5 | s52 => DD x6 x6 | s53 => DD x6 x7 | s54 => DD x6 x8 | s55 => DD x6 x9 | s56 => DD x6 x10 | s57 => DD x6 x11 | s58 => DD x6 x12 | s59 => DD x6 x13 | s60 => DD x6 x14 | s61 => DD x6 x15 | s62 => DD x6 x16 | s63 => DD x6 x17 | s64 => DD x6 x18 | s65 => DD x6 x19 | s66 => DD x6 x20 | s67 => DD x6 x21 | s68 => DD x6 x22 | s69 => DD x6 x23 | s70 => DD x6 x24 | s71 => DD x6 x25 | s72 => DD x6 x26 | s73 => DD x6 x27 | s74 => DD x6 x28 | s75 => DD x6 x29 | s76 => DD x6 x30 | s77 => DD x6 x31 | s78 => DD x6 x32 | s79 => DD x6 x33 | s80 => DD x6 x34 | s81 => DD x6 x35 | s82 => DD x6 x36 | s83 => DD x6 x37 | s84 => DD x6 x38 | s85 => DD x6 x39 | s86 => DD x6 x40 | s87 => DD x6 x41 | s88 => DD x6 x42 | s89 => DD x6 x43 | s90 => DD x6 x44 | s91 => DD x6 x45 | s92 => DD x6 x46 | s93 => DD x6 x47 | s94 => DD x6 x48 | s95 => DD x6 x49 | s96 => DD x6 x50 | s97 => DD x6 x51 | s98 => DD x6 x52 | s99 => DD x6 x53 | s100 => DD x6 x54 | s101 => DD x6 x55 | s102 => DD x6 x56 | s103 => DD x6 x57 | s104 => DD x6 x58 | s105 => DD x6 x59 | s106 => DD x6 x60 | s107 => DD x6 x61 | s108 => DD x6 x62 | s109 => DD x6 x63 | s110 => DD x7 x0 | s111 => DD x7 x1 | s112 => DD x7 x2 | s113 => DD x7 x3 | s114 => DD x7 x4 | s115 => DD x7 x5 | s116 => DD x7 x6 | s117 => DD x7 x7 | s118 => DD x7 x8 | s119 => DD x7 x9 | s120 => DD x7 x10 | s121 => DD x7 x11 | s122 => DD x7 x12 | s123 => DD x7 x13 | s124 => DD x7 x14 | s125 => DD x7 x15 | s126 => DD x7 x16 end.
Definition m340 (c : sum2) : dd := match c with s0 => DD x5 x20 | s1 => DD x5 x21 | s2 => DD x5 x22 | s3 => DD x5 x23 | s4 => DD x5 x24 | s5 => DD x5 x25 | s6 => DD x5 x26 | s7 => DD x5 x27 | s8 => DD x5 x28 | s9 => DD x5 x29 | s10 => DD x5 x30 | s11 => DD x5 x31 | s12 => DD x5 x32 | s13 => DD x5 x33 | s14 => DD x5 x34 | s15 => DD x5 x35 | s16 => DD x5 x36 | s17 => DD x5 x37 | s18 => DD x5 x38 | s19 => DD x5 x39 | s20 => DD x5 x40 | s21 => DD x5 x41 | s22 => DD x5 x42 | s23 => DD x5 x43 | s24 => DD x5 x44 | s25 => DD x5 x45 | s26 => DD x5 x46 | s27 => DD x5 x47 | s28 => DD x5 x48 | s29 => DD x5 x49 | s30 => DD x5 x50 | s31 => DD x5 x51 | s32 => DD x5 x52 | s33 => DD x5 x53 | s34 => DD x5 x54 | s35 => DD x5 x55 | s36 => DD x5 x56 | s37 => DD x5 x57 | s38 => DD x5 x58 | s39 => DD x5 x59 | s40 => DD x5 x60 | s41 => DD x5 x61 | s42 => DD x5 x62 | s43 => DD x5 x63 | s44 => DD x6 x0 | s45 => DD x6 x1 | s46 => DD x6 x2 | s47 => DD x6 x3 | s48 => DD x6 x4 | s49 => DD x6 x5 | s50 => DD x6 x6 | s51 => DD x6 x7 | s52 => DD x6 x8 | s53 => DD x6 x9 | s54 => DD x6 x10 | s55 => DD x6 x11 | s56 => DD x6 x12 | s57 => DD x6 x13 | s58 => DD x6 x14 | s59 => DD x6 x15 | s60 => DD x6 x16 | s61 => DD x6 x17 | s62 => DD x6 x18 | s63 => DD x6 x19 | s64 => DD x6 x20 | s65 => DD x6 x21 | s66 => DD x6 x22 | s67 => DD x6 x23 | s68 => DD x6 x24 | s69 => DD x6 x25 | s70 => DD x6 x26 | s71 => DD x6 x27 | s72 => DD x6 x28 | s73 => DD x6 x29 | s74 => DD x6 x30 | s75 => DD x6 x31 | s76 => DD x6 x32 | s77 => DD x6 x33 | s78 => DD x6 x34 | s79 => DD x6 x35 | s80 => DD x6 x36 | s81 => DD x6 x37 | s82 => DD x6 x38 | s83 => DD x6 x39 | s84 => DD x6 x40 | s85 => DD x6 x41 | s86 => DD x6 x42 | s87 => DD x6 x43 | s88 => DD x6 x44 | s89 => DD x6 x45 | s90 => DD x6 x46 | s91 => DD x6 x47 | s92 => DD x6 x48 | s93 => DD x6 x49 | s94 => DD x6 x50 | s95 => DD x6 x51 | s96 => DD x6 x52 | s97 => DD x6 x53 | s98 => DD x6 x54 | s99 => DD x6 x55 | s100 => DD x6 x56 | s101 => DD x6 x57 | s102 => DD x6 x58 | s103 => DD x6 x59 | s104 => DD x6 x60 | s105 => DD x6 x61 | s106 => DD x6 x62 | s107 => DD x6 x63 | s108 => DD x7 x0 | s109 => DD x7 x1 | s110 => DD x7 x2 | s111 => DD x7 x3 | s112 => DD x7 x4 | s113 => DD x7 x5 | s114 => DD x7 x6 | s115 => DD x7 x7 | s116 => DD x7 x8 | s117 => DD x7 x9 | s118 => DD x7 x10 | s119 => DD x7 x11 | s120 => DD x7 x12 | s121 => DD x7 x13 | s122 => DD x7 x14 | s123 => DD x7 x15 | s124 => DD x7 x16 | s125 => DD x7 x17 | s126 => DD x7 x18 end.
Definition m341 (c : sum2) : dd := match c with s0 => DD x5 x21 | s1 => DD x5 x22 | s2 => DD x5 x23 | s3 => DD x5 x24 | s4 => DD x5 x25 | s5 => DD x5 x26 | s6 => DD x5 x27 | s7 => DD x5 x28 | s8 => DD x5 x29 | s9 => DD x5 x30 | s10 => DD x5 x31 | s11 => DD x5 x32 | s12 => DD x5 x33 | s13 => DD x5 x34 | s14 => DD x5 x35 | s15 => DD x5 x36 | s16 => DD x5 x37 | s17 => DD x5 x38 | s18 => DD x5 x39 | s19 => DD x5 x40 | s20 => DD x5 x41 | s21 => DD x5 x42 | s22 => DD x5 x43 | s23 => DD x5 x44 | s24 => DD x5 x45 | s25 => DD x5 x46 | s26 => DD x5 x47 | s27 => DD x5 x48 | s28 => DD x5 x49 | s29 => DD x5 x50 | s30 => DD x5 x51 | s31 => DD x5 x52 | s32 => DD x5 x53 | s33 => DD x5 x54 | s34 => DD x5 x55 | s35 => DD x5 x56 | s36 => DD x5 x57 | s37 => DD x5 x58 | s38 => DD x5 x59 | s39 => DD x5 x60 | s40 => DD x5 x61 | s41 => DD x5 x62 | s42 => DD x5 x63 | s43 => DD x6 x0 | s44 => DD x6 x1 | s45 => DD x6 x2 | s46 => DD x6 x3 | s47 => DD x6 x4 | s48 => DD x6 x5 | s49 => DD x6 x6 | s50 => DD x6 x7 | s51 => DD x6 x8 | s52 => DD x6 x9 | s53 => DD x6 x10 | s54 => DD x6 x11 | s55 => DD x6 x12 | s56 => DD x6 x13 | s57 => DD x6 x14 | s58 => DD x6 x15 | s59 => DD x6 x16 | s60 => DD x6 x17 | s61 => DD x6 x18 | s62 => DD x6 x19 | s63 => DD x6 x20 | s64 => DD x6 x21 | s65 => DD x6 x22 | s66 => DD x6 x23 | s67 => DD x6 x24 | s68 => DD x6 x25 | s69 => DD x6 x26 | s70 => DD x6 x27 | s71 => DD x6 x28 | s72 => DD x6 x29 | s73 => DD x6 x30 | s74 => DD x6 x31 | s75 => DD x6 x32 | s76 => DD x6 x33 | s77 => DD x6 x34 | s78 => DD x6 x35 | s79 => DD x6 x36 | s80 => DD x6 x37 | s81 => DD x6 x38 | s82 => DD x6 x39 | s83 => DD x6 x40 | s84 => DD x6 x41 | s85 => DD x6 x42 | s86 => DD x6 x43 | s87 => DD x6 x44 | s88 => DD x6 x45 | s89 => DD x6 x46 | s90 => DD x6 x47 | s91 => DD x6 x48 | s92 => DD x6 x49 | s93 => DD x6 x50 | s94 => DD x6 x51 | s95 => DD x6 x52 | s96 => DD x6 x53 | s97 => DD x6 x54 | s98 => DD x6 x55 | s99 => DD x6 x56 | s100 => DD x6 x57 | s101 => DD x6 x58 | s102 => DD x6 x59 | s103 => DD x6 x60 | s104 => DD x6 x61 | s105 => DD x6 x62 | s106 => DD x6 x63 | s107 => DD x7 x0 | s108 => DD x7 x1 | s109 => DD x7 x2 | s110 => DD x7 x3 | s111 => DD x7 x4 | s112 => DD x7 x5 | s113 => DD x7 x6 | s114 => DD x7 x7 | s115 => DD x7 x8 | s116 => DD x7 x9 | s117 => DD x7 x10 | s118 => DD x7 x11 | s119 => DD x7 x12 | s120 => DD x7 x13 | s121 => DD x7 x14 | s122 => DD x7 x15 | s123 => DD x7 x16 | s124 => DD x7 x17 | s125 => DD x7 x18 | s126 => DD x7 x19 end.
Definition m342 (c : sum2) : dd := match c with s0 => DD x5 x22 | s1 => DD x5 x23 | s2 => DD x5 x24 | s3 => DD x5 x25 | s4 => DD x5 x26 | s5 => DD x5 x27 | s6 => DD x5 x28 | s7 => DD x5 x29 | s8 => DD x5 x30 | s9 => DD x5 x31 | s10 => DD x5 x32 | s11 => DD x5 x33 | s12 => DD x5 x34 | s13 => DD x5 x35 | s14 => DD x5 x36 | s15 => DD x5 x37 | s16 => DD x5 x38 | s17 => DD x5 x39 | s18 => DD x5 x40 | s19 => DD x5 x41 | s20 => DD x5 x42 | s21 => DD x5 x43 | s22 => DD x5 x44 | s23 => DD x5 x45 | s24 => DD x5 x46 | s25 => DD x5 x47 | s26 => DD x5 x48 | s27 => DD x5 x49 | s28 => DD x5 x50 | s29 => DD x5 x51 | s30 => DD x5 x52 | s31 => DD x5 x53 | s32 => DD x5 x54 | s33 => DD x5 x55 | s34 => DD x5 x56 | s35 => DD x5 x57 | s36 => DD x5 x58 | s37 => DD x5 x59 | s38 => DD x5 x60 | s39 => DD x5 x61 | s40 => DD x5 x62 | s41 => DD x5 x63 | s42 => DD x6 x0 | s43 => DD x6 x1 | s44 => DD x6 x2 | s45 => DD x6 x3 | s46 => DD x6 x4 | s47 => DD x6 x5 | s48 => DD x6 x6 | s49 => DD x6 x7 | s50 => DD x6 x8 | s51 => DD x6 x9 | s52 => DD x6 x10 | s53 => DD x6 x11 | s54 => DD x6 x12 | s55 => DD x6 x13 | s56 => DD x6 x14 | s57 => DD x6 x15 | s58 => DD x6 x16 | s59 => DD x6 x17 | s60 => DD x6 x18 | s61 => DD x6 x19 | s62 => DD x6 x20 | s63 => DD x6 x21 | s64 => DD x6 x22 | s65 => DD x6 x23 | s66 => DD x6 x24 | s67 => DD x6 x25 | s68 => DD x6 x26 | s69 => DD x6 x27 | s70 => DD x6 x28 | s71 => DD x6 x29 | s72 => DD x6 x30 | s73 => DD x6 x31 | s74 => DD x6 x32 | s75 => DD x6 x33 | s76 => DD x6 x34 | s77 => DD x6 x35 | s78 => DD x6 x36 | s79 => DD x6 x37 | s80 => DD x6 x38 | s81 => DD x6 x39 | s82 => DD x6 x40 | s83 => DD x6 x41 | s84 => DD x6 x42 | s85 => DD x6 x43 | s86 => DD x6 x44 | s87 => DD x6 x45 | s88 => DD x6 x46 | s89 => DD x6 x47 | s90 => DD x6 x48 | s91 => DD x6 x49 | s92 => DD x6 x50 | s93 => DD x6 x51 | s94 => DD x6 x52 | s95 => DD x6 x53 | s96 => DD x6 x54 | s97 => DD x6 x55 | s98 => DD x6 x56 | s99 => DD x6 x57 | s100 => DD x6 x58 | s101 => DD x6 x59 | s102 => DD x6 x60 | s103 => DD x6 x61 | s104 => DD x6 x62 | s105 => DD x6 x63 | s106 => DD x7 x0 | s107 => DD x7 x1 | s108 => DD x7 x2 | s109 => DD x7 x3 | s110 => DD x7 x4 | s111 => DD x7 x5 | s112 => DD x7 x6 | s113 => DD x7 x7 | s114 => DD x7 x8 | s115 => DD x7 x9 | s116 => DD x7 x10 | s117 => DD x7 x11 | s118 => DD x7 x12 | s119 => DD x7 x13 | s120 => DD x7 x14 | s121 => DD x7 x15 | s122 => DD x7 x16 | s123 => DD x7 x17 | s124 => DD x7 x18 | s125 => DD x7 x19 | s126 => DD x7 x20 end.
Definition m343 (c : sum2) : dd := match c with s0 => DD x5 x23 | s1 => DD x5 x24 | s2 => DD x5 x25 | s3 => DD x5 x26 | s4 => DD x5 x27 | s5 => DD x5 x28 | s6 => DD x5 x29 | s7 => DD x5 x30 | s8 => DD x5 x31 | s9 => DD x5 x32 | s10 => DD x5 x33 | s11 => DD x5 x34 | s12 => DD x5 x35 | s13 => DD x5 x36 | s14 => DD x5 x37 | s15 => DD x5 x38 | s16 => DD x5 x39 | s17 => DD x5 x40 | s18 => DD x5 x41 | s19 => DD x5 x42 | s20 => DD x5 x43 | s21 => DD x5 x44 | s22 => DD x5 x45 | s23 => DD x5 x46 | s24 => DD x5 x47 | s25 => DD x5 x48 | s26 => DD x5 x49 | s27 => DD x5 x50 | s28 => DD x5 x51 | s29 => DD x5 x52 | s30 => DD x5 x53 | s31 => DD x5 x54 | s32 => DD x5 x55 | s33 => DD x5 x56 | s34 => DD x5 x57 | s35 => DD x5 x58 | s36 => DD x5 x59 | s37 => DD x5 x60 | s38 => DD x5 x61 | s39 => DD x5 x62 | s40 => DD x5 x63 | s41 => DD x6 x0 | s42 => DD x6 x1 | s43 => DD x6 x2 | s44 => DD x6 x3 | s45 => DD x6 x4 | s46 => DD x6 x5 | s47 => DD x6 x6 | s48 => DD x6 x7 | s49 => DD x6 x8 | s50 => DD x6 x9 | s51 => DD x6 x10 | s52 => DD x6 x11 | s53 => DD x6 x12 | s54 => DD x6 x13 | s55 => DD x6 x14 | s56 => DD x6 x15 | s57 => DD x6 x16 | s58 => DD x6 x17 | s59 => DD x6 x18 | s60 => DD x6 x19 | s61 => DD x6 x20 | s62 => DD x6 x21 | s63 => DD x6 x22 | s64 => DD x6 x23 | s65 => DD x6 x24 | s66 => DD x6 x25 | s67 => DD x6 x26 | s68 => DD x6 x27 | s69 => DD x6 x28 | s70 => DD x6 x29 | s71 => DD x6 x30 | s72 => DD x6 x31 | s73 => DD x6 x32 | s74 => DD x6 x33 | s75 => DD x6 x34 | s76 => DD x6 x35 | s77 => DD x6 x36 | s78 => DD x6 x37 | s79 => DD x6 x38 | s80 => DD x6 x39 | s81 => DD x6 x40 | s82 => DD x6 x41 | s83 => DD x6 x42 | s84 => DD x6 x43 | s85 => DD x6 x44 | s86 => DD x6 x45 | s87 => DD x6 x46 | s88 => DD x6 x47 | s89 => DD x6 x48 | s90 => DD x6 x49 | s91 => DD x6 x50 | s92 => DD x6 x51 | s93 => DD x6 x52 | s94 => DD x6 x53 | s95 => DD x6 x54 | s96 => DD x6 x55 | s97 => DD x6 x56 | s98 => DD x6 x57 | s99 => DD x6 x58 | s100 => DD x6 x59 | s101 => DD x6 x60 | s102 => DD x6 x61 | s103 => DD x6 x62 | s104 => DD x6 x63 | s105 => DD x7 x0 | s106 => DD x7 x1 | s107 => DD x7 x2 | s108 => DD x7 x3 | s109 => DD x7 x4 | s110 => DD x7 x5 | s111 => DD x7 x6 | s112 => DD x7 x7 | s113 => DD x7 x8 | s114 => DD x7 x9 | s115 => DD x7 x10 | s116 => DD x7 x11 | s117 => DD x7 x12 | s118 => DD x7 x13 | s119 => DD x7 x14 | s120 => DD x7 x15 | s121 => DD x7 x16 | s122 => DD x7 x17 | s123 => DD x7 x18 | s124 => DD x7 x19 | s125 => DD x7 x20 | s126 => DD x7 x21 end.
Definition m344 (c : sum2) : dd := match c with s0 => DD x5 x24 | s1 => DD x5 x25 | s2 => DD x5 x26 | s3 => DD x5 x27 | s4 => DD x5 x28 | s5 => DD x5 x29 | s6 => DD x5 x30 | s7 => DD x5 x31 | s8 => DD x5 x32 | s9 => DD x5 x33 | s10 => DD x5 x34 | s11 => DD x5 x35 | s12 => DD x5 x36 | s13 => DD x5 x37 | s14 => DD x5 x38 | s15 => DD x5 x39 | s16 => DD x5 x40 | s17 => DD x5 x41 | s18 => DD x5 x42 | s19 => DD x5 x43 | s20 => DD x5 x44 | s21 => DD x5 x45 | s22 => DD x5 x46 | s23 => DD x5 x47 | s24 => DD x5 x48 | s25 => DD x5 x49 | s26 => DD x5 x50 | s27 => DD x5 x51 | s28 => DD x5 x52 | s29 => DD x5 x53 | s30 => DD x5 x54 | s31 => DD x5 x55 | s32 => DD x5 x56 | s33 => DD x5 x57 | s34 => DD x5 x58 | s35 => DD x5 x59 | s36 => DD x5 x60 | s37 => DD x5 x61 | s38 => DD x5 x62 | s39 => DD x5 x63 | s40 => DD x6 x0 | s41 => DD x6 x1 | s42 => DD x6 x2 | s43 => DD x6 x3 | s44 => DD x6 x4 | s45 => DD x6 x5 | s46 => DD x6 x6 | s47 => DD x6 x7 | s48 => DD x6 x8 | s49 => DD x6 x9 | s50 => DD x6 x10 | s51 => DD x6 x11 | s52 => DD x6 x12 | s53 => DD x6 x13 | s54 => DD x6 x14 | s55 => DD x6 x15 | s56 => DD x6 x16 | s57 => DD x6 x17 | s58 => DD x6 x18 | s59 => DD x6 x19 | s60 => DD x6 x20 | s61 => DD x6 x21 | s62 => DD x6 x22 | s63 => DD x6 x23 | s64 => DD x6 x24 | s65 => DD x6 x25 | s66 => DD x6 x26 | s67 => DD x6 x27 | s68 => DD x6 x28 | s69 => DD x6 x29 | s70 => DD x6 x30 | s71 => DD x6 x31 | s72 => DD x6 x32 | s73 => DD x6 x33 | s74 => DD x6 x34 | s75 => DD x6 x35 | s76 => DD x6 x36 | s77 => DD x6 x37 | s78 => DD x6 x38 | s79 => DD x6 x39 | s80 => DD x6 x40 | s81 => DD x6 x41 | s82 => DD x6 x42 | s83 => DD x6 x43 | s84 => DD x6 x44 | s85 => DD x6 x45 | s86 => DD x6 x46 | s87 => DD x6 x47 | s88 => DD x6 x48 | s89 => DD x6 x49 | s90 => DD x6 x50 | s91 => DD x6 x51 | s92 => DD x6 x52 | s93 => DD x6 x53 | s94 => DD x6 x54 | s95 => DD x6 x55 | s96 => DD x6 x56 | s97 => DD x6 x57 | s98 => DD x6 x58 | s99 => DD x6 x59 | s100 => DD x6 x60 | s101 => DD x6 x61 | s102 => DD x6 x62 | s103 => DD x6 x63 | s104 => DD x7 x0 | s105 => DD x7 x1 | s106 => DD x7 x2 | s107 => DD x7 x3 | s108 => DD x7 x4 | s109 => DD x7 x5 | s110 => DD x7 x6 | s111 => DD x7 x7 | s112 => DD x7 x8 | s113 => DD x7 x9 | s114 => DD x7 x10 | s115 => DD x7 x11 | s116 => DD x7 x12 | s117 => DD x7 x13 | s118 => DD x7 x14 | s119 => DD x7 x15 | s120 => DD x7 x16 | s121 => DD x7 x17 | s122 => DD x7 x18 | s123 => DD x7 x19 | s124 => DD x7 x20 | s125 => DD x7 x21 | s126 => DD x7 x22 end.
Definition m345 (c : sum2) : dd := match c with s0 => DD x5 x25 | s1 => DD x5 x26 | s2 => DD x5 x27 | s3 => DD x5 x28 | s4 => DD x5 x29 | s5 => DD x5 x30 | s6 => DD x5 x31 | s7 => DD x5 x32 | s8 => DD x5 x33 | s9 => DD x5 x34 | s10 => DD x5 x35 | s11 => DD x5 x36 | s12 => DD x5 x37 | s13 => DD x5 x38 | s14 => DD x5 x39 | s15 => DD x5 x40 | s16 => DD x5 x41 | s17 => DD x5 x42 | s18 => DD x5 x43 | s19 => DD x5 x44 | s20 => DD x5 x45 | s21 => DD x5 x46 | s22 => DD x5 x47 | s23 => DD x5 x48 | s24 => DD x5 x49 | s25 => DD x5 x50 | s26 => DD x5 x51 | s27 => DD x5 x52 | s28 => DD x5 x53 | s29 => DD x5 x54 | s30 => DD x5 x55 | s31 => DD x5 x56 | s32 => DD x5 x57 | s33 => DD x5 x58 | s34 => DD x5 x59 | s35 => DD x5 x60 | s36 => DD x5 x61 | s37 => DD x5 x62 | s38 => DD x5 x63 | s39 => DD x6 x0 | s40 => DD x6 x1 | s41 => DD x6 x2 | s42 => DD x6 x3 | s43 => DD x6 x4 | s44 => DD x6 x5 | s45 => DD x6 x6 | s46 => DD x6 x7 | s47 => DD x6 x8 | s48 => DD x6 x9 | s49 => DD x6 x10 | s50 => DD x6 x11 | s51 => DD x6 x12 | s52 => DD x6 x13 | s53 => DD x6 x14 | s54 => DD x6 x15 | s55 => DD x6 x16 | s56 => DD x6 x17 | s57 => DD x6 x18 | s58 => DD x6 x19 | s59 => DD x6 x20 | s60 => DD x6 x21 | s61 => DD x6 x22 | s62 => DD x6 x23 | s63 => DD x6 x24 | s64 => DD x6 x25 | s65 => DD x6 x26 | s66 => DD x6 x27 | s67 => DD x6 x28 | s68 => DD x6 x29 | s69 => DD x6 x30 | s70 => DD x6 x31 | s71 => DD x6 x32 | s72 => DD x6 x33 | s73 => DD x6 x34 | s74 => DD x6 x35 | s75 => DD x6 x36 | s76 => DD x6 x37 | s77 => DD x6 x38 | s78 => DD x6 x39 | s79 => DD x6 x40 | s80 => DD x6 x41 | s81 => DD x6 x42 | s82 => DD x6 x43 | s83 => DD x6 x44 | s84 => DD x6 x45 | s85 => DD x6 x46 | s86 => DD x6 x47 | s87 => DD x6 x48 | s88 => DD x6 x49 | s89 => DD x6 x50 | s90 => DD x6 x51 | s91 => DD x6 x52 | s92 => DD x6 x53 | s93 => DD x6 x54 | s94 => DD x6 x55 | s95 => DD x6 x56 | s96 => DD x6 x57 | s97 => DD x6 x58 | s98 => DD x6 x59 | s99 => DD x6 x60 | s100 => DD x6 x61 | s101 => DD x6 x62 | s102 => DD x6 x63 | s103 => DD x7 x0 | s104 => DD x7 x1 | s105 => DD x7 x2 | s106 => DD x7 x3 | s107 => DD x7 x4 | s108 => DD x7 x5 | s109 => DD x7 x6 | s110 => DD x7 x7 | s111 => DD x7 x8 | s112 => DD x7 x9 | s113 => DD x7 x10 | s114 => DD x7 x11 | s115 => DD x7 x12 | s116 => DD x7 x13 | s117 => DD x7 x14 | s118 => DD x7 x15 | s119 => DD x7 x16 | s120 => DD x7 x17 | s121 => DD x7 x18 | s122 => DD x7 x19 | s123 => DD x7 x20 | s124 => DD x7 x21 | s125 => DD x7 x22 | s126 => DD x7 x23 end.
Definition m348 (c : sum2) : dd := match c with s0 => DD x5 x28 | s1 => DD x5 x29 | s2 => DD x5 x30 | s3 => DD x5 x31 | s4 => DD x5 x32 | s5 => DD x5 x33 | s6 => DD x5 x34 | s7 => DD x5 x35 | s8 => DD x5 x36 | s9 => DD x5 x37 | s10 => DD x5 x38 | s11 => DD x5 x39 | s12 => DD x5 x40 | s13 => DD x5 x41 | s14 => DD x5 x42 | s15 => DD x5 x43 | s16 => DD x5 x44 | s17 => DD x5 x45 | s18 => DD x5 x46 | s19 => DD x5 x47 | s20 => DD x5 x48 | s21 => DD x5 x49 | s22 => DD x5 x50 | s23 => DD x5 x51 | s24 => DD x5 x52 | s25 => DD x5 x53 | s26 => DD x5 x54 | s27 => DD x5 x55 | s28 => DD x5 x56 | s29 => DD x5 x57 | s30 => DD x5 x58 | s31 => DD x5 x59 | s32 => DD x5 x60 | s33 => DD x5 x61 | s34 => DD x5 x62 | s35 => DD x5 x63 | s36 => DD x6 x0 | s37 => DD x6 x1 | s38 => DD x6 x2 | s39 => DD x6 x3 | s40 => DD x6 x4 | s41 => DD x6 x5 | s42 => DD x6 x6 | s43 => DD x6 x7 | s44 => DD x6 x8 | s45 => DD x6 x9 | s46 => DD x6 x10 | s47 => DD x6 x11 | s48 => DD x6 x12 | s49 => DD x6 x13 | s50 => DD x6 x14 | s51 => DD x6 x15 | s52 => DD x6 x16 | s53 => DD x6 x17 | s54 => DD x6 x18 | s55 => DD x6 x19 | s56 => DD x6 x20 | s57 => DD x6 x21 | s58 => DD x6 x22 | s59 => DD x6 x23 | s60 => DD x6 x24 | s61 => DD x6 x25 | s62 => DD x6 x26 | s63 => DD x6 x27 | s64 => DD x6 x28 | s65 => DD x6 x29 | s66 => DD x6 x30 | s67 => DD x6 x31 | s68 => DD x6 x32 | s69 => DD x6 x33 | s70 => DD x6 x34 | s71 => DD x6 x35 | s72 => DD x6 x36 | s73 => DD x6 x37 | s74 => DD x6 x38 | s75 => DD x6 x39 | s76 => DD x6 x40 | s77 => DD x6 x41 | s78 => DD x6 x42 | s79 => DD x6 x43 | s80 => DD x6 x44 | s81 => DD x6 x45 | s82 => DD x6 x46 | s83 => DD x6 x47 | s84 => DD x6 x48 | s85 => DD x6 x49 | s86 => DD x6 x50 | s87 => DD x6 x51 | s88 => DD x6 x52 | s89 => DD x6 x53 | s90 => DD x6 x54 | s91 => DD x6 x55 | s92 => DD x6 x56 | s93 => DD x6 x57 | s94 => DD x6 x58 | s95 => DD x6 x59 | s96 => DD x6 x60 | s97 => DD x6 x61 | s98 => DD x6 x62 | s99 => DD x6 x63 | s100 => DD x7 x0 | s101 => DD x7 x1 | s102 => DD x7 x2 | s103 => DD x7 x3 | s104 => DD x7 x4 | s105 => DD x7 x5 | s106 => DD x7 x6 | s107 => DD x7 x7 | s108 => DD x7 x8 | s109 => DD x7 x9 | s110 => DD x7 x10 | s111 => DD x7 x11 | s112 => DD x7 x12 | s113 => DD x7 x13 | s114 => DD x7 x14 | s115 => DD x7 x15 | s116 => DD x7 x16 | s117 => DD x7 x17 | s118 => DD x7 x18 | s119 => DD x7 x19 | s120 => DD x7 x20 | s121 => DD x7 x21 | s122 => DD x7 x22 | s123 => DD x7 x23 | s124 => DD x7 x24 | s125 => DD x7 x25 | s126 => DD x7 x26 end.
Definition m350 (c : sum2) : dd := match c with s0 => DD x5 x30 | s1 => DD x5 x31 | s2 => DD x5 x32 | s3 => DD x5 x33 | s4 => DD x5 x34 | s5 => DD x5 x35 | s6 => DD x5 x36 | s7 => DD x5 x37 | s8 => DD x5 x38 | s9 => DD x5 x39 | s10 => DD x5 x40 | s11 => DD x5 x41 | s12 => DD x5 x42 | s13 => DD x5 x43 | s14 => DD x5 x44 | s15 => DD x5 x45 | s16 => DD x5 x46 | s17 => DD x5 x47 | s18 => DD x5 x48 | s19 => DD x5 x49 | s20 => DD x5 x50 | s21 => DD x5 x51 | s22 => DD x5 x52 | s23 => DD x5 x53 | s24 => DD x5 x54 | s25 => DD x5 x55 | s26 => DD x5 x56 | s27 => DD x5 x57 | s28 => DD x5 x58 | s29 => DD x5 x59 | s30 => DD x5 x60 | s31 => DD x5 x61 | s32 => DD x5 x62 | s33 => DD x5 x63 | s34 => DD x6 x0 | s35 => DD x6 x1 | s36 => DD x6 x2 | s37 => DD x6 x3 | s38 => DD x6 x4 | s39 => DD x6 x5 | s40 => DD x6 x6 | s41 => DD x6 x7 | s42 => DD x6 x8 | s43 => DD x6 x9 | s44 => DD x6 x10 | s45 => DD x6 x11 | s46 => DD x6 x12 | s47 => DD x6 x13 | s48 => DD x6 x14 | s49 => DD x6 x15 | s50 => DD x6 x16 | s51 => DD x6 x17 | s52 => DD x6 x18 | s53 => DD x6 x19 | s54 => DD x6 x20 | s55 => DD x6 x21 | s56 => DD x6 x22 | s57 => DD x6 x23 | s58 => DD x6 x24 | s59 => DD x6 x25 | s60 => DD x6 x26 | s61 => DD x6 x27 | s62 => DD x6 x28 | s63 => DD x6 x29 | s64 => DD x6 x30 | s65 => DD x6 x31 | s66 => DD x6 x32 | s67 => DD x6 x33 | s68 => DD x6 x34 | s69 => DD x6 x35 | s70 => DD x6 x36 | s71 => DD x6 x37 | s72 => DD x6 x38 | s73 => DD x6 x39 | s74 => DD x6 x40 | s75 => DD x6 x41 | s76 => DD x6 x42 | s77 => DD x6 x43 | s78 => DD x6 x44 | s79 => DD x6 x45 | s80 => DD x6 x46 | s81 => DD x6 x47 | s82 => DD x6 x48 | s83 => DD x6 x49 | s84 => DD x6 x50 | s85 => DD x6 x51 | s86 => DD x6 x52 | s87 => DD x6 x53 | s88 => DD x6 x54 | s89 => DD x6 x55 | s90 => DD x6 x56 | s91 => DD x6 x57 | s92 => DD x6 x58 | s93 => DD x6 x59 | s94 => DD x6 x60 | s95 => DD x6 x61 | s96 => DD x6 x62 | s97 => DD x6 x63 | s98 => DD x7 x0 | s99 => DD x7 x1 | s100 => DD x7 x2 | s101 => DD x7 x3 | s102 => DD x7 x4 | s103 => DD x7 x5 | s104 => DD x7 x6 | s105 => DD x7 x7 | s106 => DD x7 x8 | s107 => DD x7 x9 | s108 => DD x7 x10 | s109 => DD x7 x11 | s110 => DD x7 x12 | s111 => DD x7 x13 | s112 => DD x7 x14 | s113 => DD x7 x15 | s114 => DD x7 x16 | s115 => DD x7 x17 | s116 => DD x7 x18 | s117 => DD x7 x19 | s118 => DD x7 x20 | s119 => DD x7 x21 | s120 => DD x7 x22 | s121 => DD x7 x23 | s122 => DD x7 x24 | s123 => DD x7 x25 | s124 => DD x7 x26 | s125 => DD x7 x27 | s126 => DD x7 x28 end.
Definition m351 (c : sum2) : dd := match c with s0 => DD x5 x31 | s1 => DD x5 x32 | s2 => DD x5 x33 | s3 => DD x5 x34 | s4 => DD x5 x35 | s5 => DD x5 x36 | s6 => DD x5 x37 | s7 => DD x5 x38 | s8 => DD x5 x39 | s9 => DD x5 x40 | s10 => DD x5 x41 | s11 => DD x5 x42 | s12 => DD x5 x43 | s13 => DD x5 x44 | s14 => DD x5 x45 | s15 => DD x5 x46 | s16 => DD x5 x47 | s17 => DD x5 x48 | s18 => DD x5 x49 | s19 => DD x5 x50 | s20 => DD x5 x51 | s21 => DD x5 x52 | s22 => DD x5 x53 | s23 => DD x5 x54 | s24 => DD x5 x55 | s25 => DD x5 x56 | s26 => DD x5 x57 | s27 => DD x5 x58 | s28 => DD x5 x59 | s29 => DD x5 x60 | s30 => DD x5 x61 | s31 => DD x5 x62 | s32 => DD x5 x63 | s33 => DD x6 x0 | s34 => DD x6 x1 | s35 => DD x6 x2 | s36 => DD x6 x3 | s37 => DD x6 x4 | s38 => DD x6 x5 | s39 => DD x6 x6 | s40 => DD x6 x7 | s41 => DD x6 x8 | s42 => DD x6 x9 | s43 => DD x6 x10 | s44 => DD x6 x11 | s45 => DD x6 x12 | s46 => DD x6 x13 | s47 => DD x6 x14 | s48 => DD x6 x15 | s49 => DD x6 x16 | s50 => DD x6 x17 | s51 => DD x6 x18 | s52 => DD x6 x19 | s53 => DD x6 x20 | s54 => DD x6 x21 | s55 => DD x6 x22 | s56 => DD x6 x23 | s57 => DD x6 x24 | s58 => DD x6 x25 | s59 => DD x6 x26 | s60 => DD x6 x27 | s61 => DD x6 x28 | s62 => DD x6 x29 | s63 => DD x6 x30 | s64 => DD x6 x31 | s65 => DD x6 x32 | s66 => DD x6 x33 | s67 => DD x6 x34 | s68 => DD x6 x35 | s69 => DD x6 x36 | s70 => DD x6 x37 | s71 => DD x6 x38 | s72 => DD x6 x39 | s73 => DD x6 x40 | s74 => DD x6 x41 | s75 => DD x6 x42 | s76 => DD x6 x43 | s77 => DD x6 x44 | s78 => DD x6 x45 | s79 => DD x6 x46 | s80 => DD x6 x47 | s81 => DD x6 x48 | s82 => DD x6 x49 | s83 => DD x6 x50 | s84 => DD x6 x51 | s85 => DD x6 x52 | s86 => DD x6 x53 | s87 => DD x6 x54 | s88 => DD x6 x55 | s89 => DD x6 x56 | s90 => DD x6 x57 | s91 => DD x6 x58 | s92 => DD x6 x59 | s93 => DD x6 x60 | s94 => DD x6 x61 | s95 => DD x6 x62 | s96 => DD x6 x63 | s97 => DD x7 x0 | s98 => DD x7 x1 | s99 => DD x7 x2 | s100 => DD x7 x3 | s101 => DD x7 x4 | s102 => DD x7 x5 | s103 => DD x7 x6 | s104 => DD x7 x7 | s105 => DD x7 x8 | s106 => DD x7 x9 | s107 => DD x7 x10 | s108 => DD x7 x11 | s109 => DD x7 x12 | s110 => DD x7 x13 | s111 => DD x7 x14 | s112 => DD x7 x15 | s113 => DD x7 x16 | s114 => DD x7 x17 | s115 => DD x7 x18 | s116 => DD x7 x19 | s117 => DD x7 x20 | s118 => DD x7 x21 | s119 => DD x7 x22 | s120 => DD x7 x23 | s121 => DD x7 x24 | s122 => DD x7 x25 | s123 => DD x7 x26 | s124 => DD x7 x27 | s125 => DD x7 x28 | s126 => DD x7 x29 end.
Definition m352 (c : sum2) : dd := match c with s0 => DD x5 x32 | s1 => DD x5 x33 | s2 => DD x5 x34 | s3 => DD x5 x35 | s4 => DD x5 x36 | s5 => DD x5 x37 | s6 => DD x5 x38 | s7 => DD x5 x39 | s8 => DD x5 x40 | s9 => DD x5 x41 | s10 => DD x5 x42 | s11 => DD x5 x43 | s12 => DD x5 x44 | s13 => DD x5 x45 | s14 => DD x5 x46 | s15 => DD x5 x47 | s16 => DD x5 x48 | s17 => DD x5 x49 | s18 => DD x5 x50 | s19 => DD x5 x51 | s20 => DD x5 x52 | s21 => DD x5 x53 | s22 => DD x5 x54 | s23 => DD x5 x55 | s24 => DD x5 x56 | s25 => DD x5 x57 | s26 => DD x5 x58 | s27 => DD x5 x59 | s28 => DD x5 x60 | s29 => DD x5 x61 | s30 => DD x5 x62 | s31 => DD x5 x63 | s32 => DD x6 x0 | s33 => DD x6 x1 | s34 => DD x6 x2 | s35 => DD x6 x3 | s36 => DD x6 x4 | s37 => DD x6 x5 | s38 => DD x6 x6 | s39 => DD x6 x7 | s40 => DD x6 x8 | s41 => DD x6 x9 | s42 => DD x6 x10 | s43 => DD x6 x11 | s44 => DD x6 x12 | s45 => DD x6 x13 | s46 => DD x6 x14 | s47 => DD x6 x15 | s48 => DD x6 x16 | s49 => DD x6 x17 | s50 => DD x6 x18 | s51 => DD x6 x19 | s52 => DD x6 x20 | s53 => DD x6 x21 | s54 => DD x6 x22 | s55 => DD x6 x23 | s56 => DD x6 x24 | s57 => DD x6 x25 | s58 => DD x6 x26 | s59 => DD x6 x27 | s60 => DD x6 x28 | s61 => DD x6 x29 | s62 => DD x6 x30 | s63 => DD x6 x31 | s64 => DD x6 x32 | s65 => DD x6 x33 | s66 => DD x6 x34 | s67 => DD x6 x35 | s68 => DD x6 x36 | s69 => DD x6 x37 | s70 => DD x6 x38 | s71 => DD x6 x39 | s72 => DD x6 x40 | s73 => DD x6 x41 | s74 => DD x6 x42 | s75 => DD x6 x43 | s76 => DD x6 x44 | s77 => DD x6 x45 | s78 => DD x6 x46 | s79 => DD x6 x47 | s80 => DD x6 x48 | s81 => DD x6 x49 | s82 => DD x6 x50 | s83 => DD x6 x51 | s84 => DD x6 x52 | s85 => DD x6 x53 | s86 => DD x6 x54 | s87 => DD x6 x55 | s88 => DD x6 x56 | s89 => DD x6 x57 | s90 => DD x6 x58 | s91 => DD x6 x59 | s92 => DD x6 x60 | s93 => DD x6 x61 | s94 => DD x6 x62 | s95 => DD x6 x63 | s96 => DD x7 x0 | s97 => DD x7 x1 | s98 => DD x7 x2 | s99 => DD x7 x3 | s100 => DD x7 x4 | s101 => DD x7 x5 | s102 => DD x7 x6 | s103 => DD x7 x7 | s104 => DD x7 x8 | s105 => DD x7 x9 | s106 => DD x7 x10 | s107 => DD x7 x11 | s108 => DD x7 x12 | s109 => DD x7 x13 | s110 => DD x7 x14 | s111 => DD x7 x15 | s112 => DD x7 x16 | s113 => DD x7 x17 | s114 => DD x7 x18 | s115 => DD x7 x19 | s116 => DD x7 x20 | s117 => DD x7 x21 | s118 => DD x7 x22 | s119 => DD x7 x23 | s120 => DD x7 x24 | s121 => DD x7 x25 | s122 => DD x7 x26 | s123 => DD x7 x27 | s124 => DD x7 x28 | s125 => DD x7 x29 | s126 => DD x7 x30 end.
Definition m354 (c : sum2) : dd := match c with s0 => DD x5 x34 | s1 => DD x5 x35 | s2 => DD x5 x36 | s3 => DD x5 x37 | s4 => DD x5 x38 | s5 => DD x5 x39 | s6 => DD x5 x40 | s7 => DD x5 x41 | s8 => DD x5 x42 | s9 => DD x5 x43 | s10 => DD x5 x44 | s11 => DD x5 x45 | s12 => DD x5 x46 | s13 => DD x5 x47 | s14 => DD x5 x48 | s15 => DD x5 x49 | s16 => DD x5 x50 | s17 => DD x5 x51 | s18 => DD x5 x52 | s19 => DD x5 x53 | s20 => DD x5 x54 | s21 => DD x5 x55 | s22 => DD x5 x56 | s23 => DD x5 x57 | s24 => DD x5 x58 | s25 => DD x5 x59 | s26 => DD x5 x60 | s27 => DD x5 x61 | s28 => DD x5 x62 | s29 => DD x5 x63 | s30 => DD x6 x0 | s31 => DD x6 x1 | s32 => DD x6 x2 | s33 => DD x6 x3 | s34 => DD x6 x4 | s35 => DD x6 x5 | s36 => DD x6 x6 | s37 => DD x6 x7 | s38 => DD x6 x8 | s39 => DD x6 x9 | s40 => DD x6 x10 | s41 => DD x6 x11 | s42 => DD x6 x12 | s43 => DD x6 x13 | s44 => DD x6 x14 | s45 => DD x6 x15 | s46 => DD x6 x16 | s47 => DD x6 x17 | s48 => DD x6 x18 | s49 => DD x6 x19 | s50 => DD x6 x20 | s51 => DD x6 x21 | s52 => DD x6 x22 | s53 => DD x6 x23 | s54 => DD x6 x24 | s55 => DD x6 x25 | s56 => DD x6 x26 | s57 => DD x6 x27 | s58 => DD x6 x28 | s59 => DD x6 x29 | s60 => DD x6 x30 | s61 => DD x6 x31 | s62 => DD x6 x32 | s63 => DD x6 x33 | s64 => DD x6 x34 | s65 => DD x6 x35 | s66 => DD x6 x36 | s67 => DD x6 x37 | s68 => DD x6 x38 | s69 => DD x6 x39 | s70 => DD x6 x40 | s71 => DD x6 x41 | s72 => DD x6 x42 | s73 => DD x6 x43 | s74 => DD x6 x44 | s75 => DD x6 x45 | s76 => DD x6 x46 | s77 => DD x6 x47 | s78 => DD x6 x48 | s79 => DD x6 x49 | s80 => DD x6 x50 | s81 => DD x6 x51 | s82 => DD x6 x52 | s83 => DD x6 x53 | s84 => DD x6 x54 | s85 => DD x6 x55 | s86 => DD x6 x56 | s87 => DD x6 x57 | s88 => DD x6 x58 | s89 => DD x6 x59 | s90 => DD x6 x60 | s91 => DD x6 x61 | s92 => DD x6 x62 | s93 => DD x6 x63 | s94 => DD x7 x0 | s95 => DD x7 x1 | s96 => DD x7 x2 | s97 => DD x7 x3 | s98 => DD x7 x4 | s99 => DD x7 x5 | s100 => DD x7 x6 | s101 => DD x7 x7 | s102 => DD x7 x8 | s103 => DD x7 x9 | s104 => DD x7 x10 | s105 => DD x7 x11 | s106 => DD x7 x12 | s107 => DD x7 x13 | s108 => DD x7 x14 | s109 => DD x7 x15 | s110 => DD x7 x16 | s111 => DD x7 x17 | s112 => DD x7 x18 | s113 => DD x7 x19 | s114 => DD x7 x20 | s115 => DD x7 x21 | s116 => DD x7 x22 | s117 => DD x7 x23 | s118 => DD x7 x24 | s119 => DD x7 x25 | s120 => DD x7 x26 | s121 => DD x7 x27 | s122 => DD x7 x28 | s123 => DD x7 x29 | s124 => DD x7 x30 | s125 => DD x7 x31 | s126 => DD x7 x32 end.
Definition m357 (c : sum2) : dd := match c with s0 => DD x5 x37 | s1 => DD x5 x38 | s2 => DD x5 x39 | s3 => DD x5 x40 | s4 => DD x5 x41 | s5 => DD x5 x42 | s6 => DD x5 x43 | s7 => DD x5 x44 | s8 => DD x5 x45 | s9 => DD x5 x46 | s10 => DD x5 x47 | s11 => DD x5 x48 | s12 => DD x5 x49 | s13 => DD x5 x50 | s14 => DD x5 x51 | s15 => DD x5 x52 | s16 => DD x5 x53 | s17 => DD x5 x54 | s18 => DD x5 x55 | s19 => DD x5 x56 | s20 => DD x5 x57 | s21 => DD x5 x58 | s22 => DD x5 x59 | s23 => DD x5 x60 | s24 => DD x5 x61 | s25 => DD x5 x62 | s26 => DD x5 x63 | s27 => DD x6 x0 | s28 => DD x6 x1 | s29 => DD x6 x2 | s30 => DD x6 x3 | s31 => DD x6 x4 | s32 => DD x6 x5 | s33 => DD x6 x6 | s34 => DD x6 x7 | s35 => DD x6 x8 | s36 => DD x6 x9 | s37 => DD x6 x10 | s38 => DD x6 x11 | s39 => DD x6 x12 | s40 => DD x6 x13 | s41 => DD x6 x14 | s42 => DD x6 x15 | s43 => DD x6 x16 | s44 => DD x6 x17 | s45 => DD x6 x18 | s46 => DD x6 x19 | s47 => DD x6 x20 | s48 => DD x6 x21 | s49 => DD x6 x22 | s50 => DD x6 x23 | s51 => DD x6 x24 | s52 => DD x6 x25 | s53 => DD x6 x26 | s54 => DD x6 x27 | s55 => DD x6 x28 | s56 => DD x6 x29 | s57 => DD x6 x30 | s58 => DD x6 x31 | s59 => DD x6 x32 | s60 => DD x6 x33 | s61 => DD x6 x34 | s62 => DD x6 x35 | s63 => DD x6 x36 | s64 => DD x6 x37 | s65 => DD x6 x38 | s66 => DD x6 x39 | s67 => DD x6 x40 | s68 => DD x6 x41 | s69 => DD x6 x42 | s70 => DD x6 x43 | s71 => DD x6 x44 | s72 => DD x6 x45 | s73 => DD x6 x46 | s74 => DD x6 x47 | s75 => DD x6 x48 | s76 => DD x6 x49 | s77 => DD x6 x50 | s78 => DD x6 x51 | s79 => DD x6 x52 | s80 => DD x6 x53 | s81 => DD x6 x54 | s82 => DD x6 x55 | s83 => DD x6 x56 | s84 => DD x6 x57 | s85 => DD x6 x58 | s86 => DD x6 x59 | s87 => DD x6 x60 | s88 => DD x6 x61 | s89 => DD x6 x62 | s90 => DD x6 x63 | s91 => DD x7 x0 | s92 => DD x7 x1 | s93 => DD x7 x2 | s94 => DD x7 x3 | s95 => DD x7 x4 | s96 => DD x7 x5 | s97 => DD x7 x6 | s98 => DD x7 x7 | s99 => DD x7 x8 | s100 => DD x7 x9 | s101 => DD x7 x10 | s102 => DD x7 x11 | s103 => DD x7 x12 | s104 => DD x7 x13 | s105 => DD x7 x14 | s106 => DD x7 x15 | s107 => DD x7 x16 | s108 => DD x7 x17 | s109 => DD x7 x18 | s110 => DD x7 x19 | s111 => DD x7 x20 | s112 => DD x7 x21 | s113 => DD x7 x22 | s114 => DD x7 x23 | s115 => DD x7 x24 | s116 => DD x7 x25 | s117 => DD x7 x26 | s118 => DD x7 x27 | s119 => DD x7 x28 | s120 => DD x7 x29 | s121 => DD x7 x30 | s122 => DD x7 x31 | s123 => DD x7 x32 | s124 => DD x7 x33 | s125 => DD x7 x34 | s126 => DD x7 x35 end.
Definition m360 (c : sum2) : dd := match c with s0 => DD x5 x40 | s1 => DD x5 x41 | s2 => DD x5 x42 | s3 => DD x5 x43 | s4 => DD x5 x44 | s5 => DD x5 x45 | s6 => DD x5 x46 | s7 => DD x5 x47 | s8 => DD x5 x48 | s9 => DD x5 x49 | s10 => DD x5 x50 | s11 => DD x5 x51 | s12 => DD x5 x52 | s13 => DD x5 x53 | s14 => DD x5 x54 | s15 => DD x5 x55 | s16 => DD x5 x56 | s17 => DD x5 x57 | s18 => DD x5 x58 | s19 => DD x5 x59 | s20 => DD x5 x60 | s21 => DD x5 x61 | s22 => DD x5 x62 | s23 => DD x5 x63 | s24 => DD x6 x0 | s25 => DD x6 x1 | s26 => DD x6 x2 | s27 => DD x6 x3 | s28 => DD x6 x4 | s29 => DD x6 x5 | s30 => DD x6 x6 | s31 => DD x6 x7 | s32 => DD x6 x8 | s33 => DD x6 x9 | s34 => DD x6 x10 | s35 => DD x6 x11 | s36 => DD x6 x12 | s37 => DD x6 x13 | s38 => DD x6 x14 | s39 => DD x6 x15 | s40 => DD x6 x16 | s41 => DD x6 x17 | s42 => DD x6 x18 | s43 => DD x6 x19 | s44 => DD x6 x20 | s45 => DD x6 x21 | s46 => DD x6 x22 | s47 => DD x6 x23 | s48 => DD x6 x24 | s49 => DD x6 x25 | s50 => DD x6 x26 | s51 => DD x6 x27 | s52 => DD x6 x28 | s53 => DD x6 x29 | s54 => DD x6 x30 | s55 => DD x6 x31 | s56 => DD x6 x32 | s57 => DD x6 x33 | s58 => DD x6 x34 | s59 => DD x6 x35 | s60 => DD x6 x36 | s61 => DD x6 x37 | s62 => DD x6 x38 | s63 => DD x6 x39 | s64 => DD x6 x40 | s65 => DD x6 x41 | s66 => DD x6 x42 | s67 => DD x6 x43 | s68 => DD x6 x44 | s69 => DD x6 x45 | s70 => DD x6 x46 | s71 => DD x6 x47 | s72 => DD x6 x48 | s73 => DD x6 x49 | s74 => DD x6 x50 | s75 => DD x6 x51 | s76 => DD x6 x52 | s77 => DD x6 x53 | s78 => DD x6 x54 | s79 => DD x6 x55 | s80 => DD x6 x56 | s81 => DD x6 x57 | s82 => DD x6 x58 | s83 => DD x6 x59 | s84 => DD x6 x60 | s85 => DD x6 x61 | s86 => DD x6 x62 | s87 => DD x6 x63 | s88 => DD x7 x0 | s89 => DD x7 x1 | s90 => DD x7 x2 | s91 => DD x7 x3 | s92 => DD x7 x4 | s93 => DD x7 x5 | s94 => DD x7 x6 | s95 => DD x7 x7 | s96 => DD x7 x8 | s97 => DD x7 x9 | s98 => DD x7 x10 | s99 => DD x7 x11 | s100 => DD x7 x12 | s101 => DD x7 x13 | s102 => DD x7 x14 | s103 => DD x7 x15 | s104 => DD x7 x16 | s105 => DD x7 x17 | s106 => DD x7 x18 | s107 => DD x7 x19 | s108 => DD x7 x20 | s109 => DD x7 x21 | s110 => DD x7 x22 | s111 => DD x7 x23 | s112 => DD x7 x24 | s113 => DD x7 x25 | s114 => DD x7 x26 | s115 => DD x7 x27 | s116 => DD x7 x28 | s117 => DD x7 x29 | s118 => DD x7 x30 | s119 => DD x7 x31 | s120 => DD x7 x32 | s121 => DD x7 x33 | s122 => DD x7 x34 | s123 => DD x7 x35 | s124 => DD x7 x36 | s125 => DD x7 x37 | s126 => DD x7 x38 end.
Definition m361 (c : sum2) : dd := match c with s0 => DD x5 x41 | s1 => DD x5 x42 | s2 => DD x5 x43 | s3 => DD x5 x44 | s4 => DD x5 x45 | s5 => DD x5 x46 | s6 => DD x5 x47 | s7 => DD x5 x48 | s8 => DD x5 x49 | s9 => DD x5 x50 | s10 => DD x5 x51 | s11 => DD x5 x52 | s12 => DD x5 x53 | s13 => DD x5 x54 | s14 => DD x5 x55 | s15 => DD x5 x56 | s16 => DD x5 x57 | s17 => DD x5 x58 | s18 => DD x5 x59 | s19 => DD x5 x60 | s20 => DD x5 x61 | s21 => DD x5 x62 | s22 => DD x5 x63 | s23 => DD x6 x0 | s24 => DD x6 x1 | s25 => DD x6 x2 | s26 => DD x6 x3 | s27 => DD x6 x4 | s28 => DD x6 x5 | s29 => DD x6 x6 | s30 => DD x6 x7 | s31 => DD x6 x8 | s32 => DD x6 x9 | s33 => DD x6 x10 | s34 => DD x6 x11 | s35 => DD x6 x12 | s36 => DD x6 x13 | s37 => DD x6 x14 | s38 => DD x6 x15 | s39 => DD x6 x16 | s40 => DD x6 x17 | s41 => DD x6 x18 | s42 => DD x6 x19 | s43 => DD x6 x20 | s44 => DD x6 x21 | s45 => DD x6 x22 | s46 => DD x6 x23 | s47 => DD x6 x24 | s48 => DD x6 x25 | s49 => DD x6 x26 | s50 => DD x6 x27 | s51 => DD x6 x28 | s52 => DD x6 x29 | s53 => DD x6 x30 | s54 => DD x6 x31 | s55 => DD x6 x32 | s56 => DD x6 x33 | s57 => DD x6 x34 | s58 => DD x6 x35 | s59 => DD x6 x36 | s60 => DD x6 x37 | s61 => DD x6 x38 | s62 => DD x6 x39 | s63 => DD x6 x40 | s64 => DD x6 x41 | s65 => DD x6 x42 | s66 => DD x6 x43 | s67 => DD x6 x44 | s68 => DD x6 x45 | s69 => DD x6 x46 | s70 => DD x6 x47 | s71 => DD x6 x48 | s72 => DD x6 x49 | s73 => DD x6 x50 | s74 => DD x6 x51 | s75 => DD x6 x52 | s76 => DD x6 x53 | s77 => DD x6 x54 | s78 => DD x6 x55 | s79 => DD x6 x56 | s80 => DD x6 x57 | s81 => DD x6 x58 | s82 => DD x6 x59 | s83 => DD x6 x60 | s84 => DD x6 x61 | s85 => DD x6 x62 | s86 => DD x6 x63 | s87 => DD x7 x0 | s88 => DD x7 x1 | s89 => DD x7 x2 | s90 => DD x7 x3 | s91 => DD x7 x4 | s92 => DD x7 x5 | s93 => DD x7 x6 | s94 => DD x7 x7 | s95 => DD x7 x8 | s96 => DD x7 x9 | s97 => DD x7 x10 | s98 => DD x7 x11 | s99 => DD x7 x12 | s100 => DD x7 x13 | s101 => DD x7 x14 | s102 => DD x7 x15 | s103 => DD x7 x16 | s104 => DD x7 x17 | s105 => DD x7 x18 | s106 => DD x7 x19 | s107 => DD x7 x20 | s108 => DD x7 x21 | s109 => DD x7 x22 | s110 => DD x7 x23 | s111 => DD x7 x24 | s112 => DD x7 x25 | s113 => DD x7 x26 | s114 => DD x7 x27 | s115 => DD x7 x28 | s116 => DD x7 x29 | s117 => DD x7 x30 | s118 => DD x7 x31 | s119 => DD x7 x32 | s120 => DD x7 x33 | s121 => DD x7 x34 | s122 => DD x7 x35 | s123 => DD x7 x36 | s124 => DD x7 x37 | s125 => DD x7 x38 | s126 => DD x7 x39 end.
Definition m363 (c : sum2) : dd := match c with s0 => DD x5 x43 | s1 => DD x5 x44 | s2 => DD x5 x45 | s3 => DD x5 x46 | s4 => DD x5 x47 | s5 => DD x5 x48 | s6 => DD x5 x49 | s7 => DD x5 x50 | s8 => DD x5 x51 | s9 => DD x5 x52 | s10 => DD x5 x53 | s11 => DD x5 x54 | s12 => DD x5 x55 | s13 => DD x5 x56 | s14 => DD x5 x57 | s15 => DD x5 x58 | s16 => DD x5 x59 | s17 => DD x5 x60 | s18 => DD x5 x61 | s19 => DD x5 x62 | s20 => DD x5 x63 | s21 => DD x6 x0 | s22 => DD x6 x1 | s23 => DD x6 x2 | s24 => DD x6 x3 | s25 => DD x6 x4 | s26 => DD x6 x5 | s27 => DD x6 x6 | s28 => DD x6 x7 | s29 => DD x6 x8 | s30 => DD x6 x9 | s31 => DD x6 x10 | s32 => DD x6 x11 | s33 => DD x6 x12 | s34 => DD x6 x13 | s35 => DD x6 x14 | s36 => DD x6 x15 | s37 => DD x6 x16 | s38 => DD x6 x17 | s39 => DD x6 x18 | s40 => DD x6 x19 | s41 => DD x6 x20 | s42 => DD x6 x21 | s43 => DD x6 x22 | s44 => DD x6 x23 | s45 => DD x6 x24 | s46 => DD x6 x25 | s47 => DD x6 x26 | s48 => DD x6 x27 | s49 => DD x6 x28 | s50 => DD x6 x29 | s51 => DD x6 x30 | s52 => DD x6 x31 | s53 => DD x6 x32 | s54 => DD x6 x33 | s55 => DD x6 x34 | s56 => DD x6 x35 | s57 => DD x6 x36 | s58 => DD x6 x37 | s59 => DD x6 x38 | s60 => DD x6 x39 | s61 => DD x6 x40 | s62 => DD x6 x41 | s63 => DD x6 x42 | s64 => DD x6 x43 | s65 => DD x6 x44 | s66 => DD x6 x45 | s67 => DD x6 x46 | s68 => DD x6 x47 | s69 => DD x6 x48 | s70 => DD x6 x49 | s71 => DD x6 x50 | s72 => DD x6 x51 | s73 => DD x6 x52 | s74 => DD x6 x53 | s75 => DD x6 x54 | s76 => DD x6 x55 | s77 => DD x6 x56 | s78 => DD x6 x57 | s79 => DD x6 x58 | s80 => DD x6 x59 | s81 => DD x6 x60 | s82 => DD x6 x61 | s83 => DD x6 x62 | s84 => DD x6 x63 | s85 => DD x7 x0 | s86 => DD x7 x1 | s87 => DD x7 x2 | s88 => DD x7 x3 | s89 => DD x7 x4 | s90 => DD x7 x5 | s91 => DD x7 x6 | s92 => DD x7 x7 | s93 => DD x7 x8 | s94 => DD x7 x9 | s95 => DD x7 x10 | s96 => DD x7 x11 | s97 => DD x7 x12 | s98 => DD x7 x13 | s99 => DD x7 x14 | s100 => DD x7 x15 | s101 => DD x7 x16 | s102 => DD x7 x17 | s103 => DD x7 x18 | s104 => DD x7 x19 | s105 => DD x7 x20 | s106 => DD x7 x21 | s107 => DD x7 x22 | s108 => DD x7 x23 | s109 => DD x7 x24 | s110 => DD x7 x25 | s111 => DD x7 x26 | s112 => DD x7 x27 | s113 => DD x7 x28 | s114 => DD x7 x29 | s115 => DD x7 x30 | s116 => DD x7 x31 | s117 => DD x7 x32 | s118 => DD x7 x33 | s119 => DD x7 x34 | s120 => DD x7 x35 | s121 => DD x7 x36 | s122 => DD x7 x37 | s123 => DD x7 x38 | s124 => DD x7 x39 | s125 => DD x7 x40 | s126 => DD x7 x41 end.
Definition m364 (c : sum2) : dd := match c with s0 => DD x5 x44 | s1 => DD x5 x45 | s2 => DD x5 x46 | s3 => DD x5 x47 | s4 => DD x5 x48 | s5 => DD x5 x49 | s6 => DD x5 x50 | s7 => DD x5 x51 | s8 => DD x5 x52 | s9 => DD x5 x53 | s10 => DD x5 x54 | s11 => DD x5 x55 | s12 => DD x5 x56 | s13 => DD x5 x57 | s14 => DD x5 x58 | s15 => DD x5 x59 | s16 => DD x5 x60 | s17 => DD x5 x61 | s18 => DD x5 x62 | s19 => DD x5 x63 | s20 => DD x6 x0 | s21 => DD x6 x1 | s22 => DD x6 x2 | s23 => DD x6 x3 | s24 => DD x6 x4 | s25 => DD x6 x5 | s26 => DD x6 x6 | s27 => DD x6 x7 | s28 => DD x6 x8 | s29 => DD x6 x9 | s30 => DD x6 x10 | s31 => DD x6 x11 | s32 => DD x6 x12 | s33 => DD x6 x13 | s34 => DD x6 x14 | s35 => DD x6 x15 | s36 => DD x6 x16 | s37 => DD x6 x17 | s38 => DD x6 x18 | s39 => DD x6 x19 | s40 => DD x6 x20 | s41 => DD x6 x21 | s42 => DD x6 x22 | s43 => DD x6 x23 | s44 => DD x6 x24 | s45 => DD x6 x25 | s46 => DD x6 x26 | s47 => DD x6 x27 | s48 => DD x6 x28 | s49 => DD x6 x29 | s50 => DD x6 x30 | s51 => DD x6 x31 | s52 => DD x6 x32 | s53 => DD x6 x33 | s54 => DD x6 x34 | s55 => DD x6 x35 | s56 => DD x6 x36 | s57 => DD x6 x37 | s58 => DD x6 x38 | s59 => DD x6 x39 | s60 => DD x6 x40 | s61 => DD x6 x41 | s62 => DD x6 x42 | s63 => DD x6 x43 | s64 => DD x6 x44 | s65 => DD x6 x45 | s66 => DD x6 x46 | s67 => DD x6 x47 | s68 => DD x6 x48 | s69 => DD x6 x49 | s70 => DD x6 x50 | s71 => DD x6 x51 | s72 => DD x6 x52 | s73 => DD x6 x53 | s74 => DD x6 x54 | s75 => DD x6 x55 | s76 => DD x6 x56 | s77 => DD x6 x57 | s78 => DD x6 x58 | s79 => DD x6 x59 | s80 => DD x6 x60 | s81 => DD x6 x61 | s82 => DD x6 x62 | s83 => DD x6 x63 | s84 => DD x7 x0 | s85 => DD x7 x1 | s86 => DD x7 x2 | s87 => DD x7 x3 | s88 => DD x7 x4 | s89 => DD x7 x5 | s90 => DD x7 x6 | s91 => DD x7 x7 | s92 => DD x7 x8 | s93 => DD x7 x9 | s94 => DD x7 x10 | s95 => DD x7 x11 | s96 => DD x7 x12 | s97 => DD x7 x13 | s98 => DD x7 x14 | s99 => DD x7 x15 | s100 => DD x7 x16 | s101 => DD x7 x17 | s102 => DD x7 x18 | s103 => DD x7 x19 | s104 => DD x7 x20 | s105 => DD x7 x21 | s106 => DD x7 x22 | s107 => DD x7 x23 | s108 => DD x7 x24 | s109 => DD x7 x25 | s110 => DD x7 x26 | s111 => DD x7 x27 | s112 => DD x7 x28 | s113 => DD x7 x29 | s114 => DD x7 x30 | s115 => DD x7 x31 | s116 => DD x7 x32 | s117 => DD x7 x33 | s118 => DD x7 x34 | s119 => DD x7 x35 | s120 => DD x7 x36 | s121 => DD x7 x37 | s122 => DD x7 x38 | s123 => DD x7 x39 | s124 => DD x7 x40 | s125 => DD x7 x41 | s126 => DD x7 x42 end.
Definition m366 (c : sum2) : dd := match c with s0 => DD x5 x46 | s1 => DD x5 x47 | s2 => DD x5 x48 | s3 => DD x5 x49 | s4 => DD x5 x50 | s5 => DD x5 x51 | s6 => DD x5 x52 | s7 => DD x5 x53 | s8 => DD x5 x54 | s9 => DD x5 x55 | s10 => DD x5 x56 | s11 => DD x5 x57 | s12 => DD x5 x58 | s13 => DD x5 x59 | s14 => DD x5 x60 | s15 => DD x5 x61 | s16 => DD x5 x62 | s17 => DD x5 x63 | s18 => DD x6 x0 | s19 => DD x6 x1 | s20 => DD x6 x2 | s21 => DD x6 x3 | s22 => DD x6 x4 | s23 => DD x6 x5 | s24 => DD x6 x6 | s25 => DD x6 x7 | s26 => DD x6 x8 | s27 => DD x6 x9 | s28 => DD x6 x10 | s29 => DD x6 x11 | s30 => DD x6 x12 | s31 => DD x6 x13 | s32 => DD x6 x14 | s33 => DD x6 x15 | s34 => DD x6 x16 | s35 => DD x6 x17 | s36 => DD x6 x18 | s37 => DD x6 x19 | s38 => DD x6 x20 | s39 => DD x6 x21 | s40 => DD x6 x22 | s41 => DD x6 x23 | s42 => DD x6 x24 | s43 => DD x6 x25 | s44 => DD x6 x26 | s45 => DD x6 x27 | s46 => DD x6 x28 | s47 => DD x6 x29 | s48 => DD x6 x30 | s49 => DD x6 x31 | s50 => DD x6 x32 | s51 => DD x6 x33 | s52 => DD x6 x34 | s53 => DD x6 x35 | s54 => DD x6 x36 | s55 => DD x6 x37 | s56 => DD x6 x38 | s57 => DD x6 x39 | s58 => DD x6 x40 | s59 => DD x6 x41 | s60 => DD x6 x42 | s61 => DD x6 x43 | s62 => DD x6 x44 | s63 => DD x6 x45 | s64 => DD x6 x46 | s65 => DD x6 x47 | s66 => DD x6 x48 | s67 => DD x6 x49 | s68 => DD x6 x50 | s69 => DD x6 x51 | s70 => DD x6 x52 | s71 => DD x6 x53 | s72 => DD x6 x54 | s73 => DD x6 x55 | s74 => DD x6 x56 | s75 => DD x6 x57 | s76 => DD x6 x58 | s77 => DD x6 x59 | s78 => DD x6 x60 | s79 => DD x6 x61 | s80 => DD x6 x62 | s81 => DD x6 x63 | s82 => DD x7 x0 | s83 => DD x7 x1 | s84 => DD x7 x2 | s85 => DD x7 x3 | s86 => DD x7 x4 | s87 => DD x7 x5 | s88 => DD x7 x6 | s89 => DD x7 x7 | s90 => DD x7 x8 | s91 => DD x7 x9 | s92 => DD x7 x10 | s93 => DD x7 x11 | s94 => DD x7 x12 | s95 => DD x7 x13 | s96 => DD x7 x14 | s97 => DD x7 x15 | s98 => DD x7 x16 | s99 => DD x7 x17 | s100 => DD x7 x18 | s101 => DD x7 x19 | s102 => DD x7 x20 | s103 => DD x7 x21 | s104 => DD x7 x22 | s105 => DD x7 x23 | s106 => DD x7 x24 | s107 => DD x7 x25 | s108 => DD x7 x26 | s109 => DD x7 x27 | s110 => DD x7 x28 | s111 => DD x7 x29 | s112 => DD x7 x30 | s113 => DD x7 x31 | s114 => DD x7 x32 | s115 => DD x7 x33 | s116 => DD x7 x34 | s117 => DD x7 x35 | s118 => DD x7 x36 | s119 => DD x7 x37 | s120 => DD x7 x38 | s121 => DD x7 x39 | s122 => DD x7 x40 | s123 => DD x7 x41 | s124 => DD x7 x42 | s125 => DD x7 x43 | s126 => DD x7 x44 end.
Definition m368 (c : sum2) : dd := match c with s0 => DD x5 x48 | s1 => DD x5 x49 | s2 => DD x5 x50 | s3 => DD x5 x51 | s4 => DD x5 x52 | s5 => DD x5 x53 | s6 => DD x5 x54 | s7 => DD x5 x55 | s8 => DD x5 x56 | s9 => DD x5 x57 | s10 => DD x5 x58 | s11 => DD x5 x59 | s12 => DD x5 x60 | s13 => DD x5 x61 | s14 => DD x5 x62 | s15 => DD x5 x63 | s16 => DD x6 x0 | s17 => DD x6 x1 | s18 => DD x6 x2 | s19 => DD x6 x3 | s20 => DD x6 x4 | s21 => DD x6 x5 | s22 => DD x6 x6 | s23 => DD x6 x7 | s24 => DD x6 x8 | s25 => DD x6 x9 | s26 => DD x6 x10 | s27 => DD x6 x11 | s28 => DD x6 x12 | s29 => DD x6 x13 | s30 => DD x6 x14 | s31 => DD x6 x15 | s32 => DD x6 x16 | s33 => DD x6 x17 | s34 => DD x6 x18 | s35 => DD x6 x19 | s36 => DD x6 x20 | s37 => DD x6 x21 | s38 => DD x6 x22 | s39 => DD x6 x23 | s40 => DD x6 x24 | s41 => DD x6 x25 | s42 => DD x6 x26 | s43 => DD x6 x27 | s44 => DD x6 x28 | s45 => DD x6 x29 | s46 => DD x6 x30 | s47 => DD x6 x31 | s48 => DD x6 x32 | s49 => DD x6 x33 | s50 => DD x6 x34 | s51 => DD x6 x35 | s52 => DD x6 x36 | s53 => DD x6 x37 | s54 => DD x6 x38 | s55 => DD x6 x39 | s56 => DD x6 x40 | s57 => DD x6 x41 | s58 => DD x6 x42 | s59 => DD x6 x43 | s60 => DD x6 x44 | s61 => DD x6 x45 | s62 => DD x6 x46 | s63 => DD x6 x47 | s64 => DD x6 x48 | s65 => DD x6 x49 | s66 => DD x6 x50 | s67 => DD x6 x51 | s68 => DD x6 x52 | s69 => DD x6 x53 | s70 => DD x6 x54 | s71 => DD x6 x55 | s72 => DD x6 x56 | s73 => DD x6 x57 | s74 => DD x6 x58 | s75 => DD x6 x59 | s76 => DD x6 x60 | s77 => DD x6 x61 | s78 => DD x6 x62 | s79 => DD x6 x63 | s80 => DD x7 x0 | s81 => DD x7 x1 | s82 => DD x7 x2 | s83 => DD x7 x3 | s84 => DD x7 x4 | s85 => DD x7 x5 | s86 => DD x7 x6 | s87 => DD x7 x7 | s88 => DD x7 x8 | s89 => DD x7 x9 | s90 => DD x7 x10 | s91 => DD x7 x11 | s92 => DD x7 x12 | s93 => DD x7 x13 | s94 => DD x7 x14 | s95 => DD x7 x15 | s96 => DD x7 x16 | s97 => DD x7 x17 | s98 => DD x7 x18 | s99 => DD x7 x19 | s100 => DD x7 x20 | s101 => DD x7 x21 | s102 => DD x7 x22 | s103 => DD x7 x23 | s104 => DD x7 x24 | s105 => DD x7 x25 | s106 => DD x7 x26 | s107 => DD x7 x27 | s108 => DD x7 x28 | s109 => DD x7 x29 | s110 => DD x7 x30 | s111 => DD x7 x31 | s112 => DD x7 x32 | s113 => DD x7 x33 | s114 => DD x7 x34 | s115 => DD x7 x35 | s116 => DD x7 x36 | s117 => DD x7 x37 | s118 => DD x7 x38 | s119 => DD x7 x39 | s120 => DD x7 x40 | s121 => DD x7 x41 | s122 => DD x7 x42 | s123 => DD x7 x43 | s124 => DD x7 x44 | s125 => DD x7 x45 | s126 => DD x7 x46 end.
Definition m369 (c : sum2) : dd := match c with s0 => DD x5 x49 | s1 => DD x5 x50 | s2 => DD x5 x51 | s3 => DD x5 x52 | s4 => DD x5 x53 | s5 => DD x5 x54 | s6 => DD x5 x55 | s7 => DD x5 x56 | s8 => DD x5 x57 | s9 => DD x5 x58 | s10 => DD x5 x59 | s11 => DD x5 x60 | s12 => DD x5 x61 | s13 => DD x5 x62 | s14 => DD x5 x63 | s15 => DD x6 x0 | s16 => DD x6 x1 | s17 => DD x6 x2 | s18 => DD x6 x3 | s19 => DD x6 x4 | s20 => DD x6 x5 | s21 => DD x6 x6 | s22 => DD x6 x7 | s23 => DD x6 x8 | s24 => DD x6 x9 | s25 => DD x6 x10 | s26 => DD x6 x11 | s27 => DD x6 x12 | s28 => DD x6 x13 | s29 => DD x6 x14 | s30 => DD x6 x15 | s31 => DD x6 x16 | s32 => DD x6 x17 | s33 => DD x6 x18 | s34 => DD x6 x19 | s35 => DD x6 x20 | s36 => DD x6 x21 | s37 => DD x6 x22 | s38 => DD x6 x23 | s39 => DD x6 x24 | s40 => DD x6 x25 | s41 => DD x6 x26 | s42 => DD x6 x27 | s43 => DD x6 x28 | s44 => DD x6 x29 | s45 => DD x6 x30 | s46 => DD x6 x31 | s47 => DD x6 x32 | s48 => DD x6 x33 | s49 => DD x6 x34 | s50 => DD x6 x35 | s51 => DD x6 x36 | s52 => DD x6 x37 | s53 => DD x6 x38 | s54 => DD x6 x39 | s55 => DD x6 x40 | s56 => DD x6 x41 | s57 => DD x6 x42 | s58 => DD x6 x43 | s59 => DD x6 x44 | s60 => DD x6 x45 | s61 => DD x6 x46 | s62 => DD x6 x47 | s63 => DD x6 x48 | s64 => DD x6 x49 | s65 => DD x6 x50 | s66 => DD x6 x51 | s67 => DD x6 x52 | s68 => DD x6 x53 | s69 => DD x6 x54 | s70 => DD x6 x55 | s71 => DD x6 x56 | s72 => DD x6 x57 | s73 => DD x6 x58 | s74 => DD x6 x59 | s75 => DD x6 x60 | s76 => DD x6 x61 | s77 => DD x6 x62 | s78 => DD x6 x63 | s79 => DD x7 x0 | s80 => DD x7 x1 | s81 => DD x7 x2 | s82 => DD x7 x3 | s83 => DD x7 x4 | s84 => DD x7 x5 | s85 => DD x7 x6 | s86 => DD x7 x7 | s87 => DD x7 x8 | s88 => DD x7 x9 | s89 => DD x7 x10 | s90 => DD x7 x11 | s91 => DD x7 x12 | s92 => DD x7 x13 | s93 => DD x7 x14 | s94 => DD x7 x15 | s95 => DD x7 x16 | s96 => DD x7 x17 | s97 => DD x7 x18 | s98 => DD x7 x19 | s99 => DD x7 x20 | s100 => DD x7 x21 | s101 => DD x7 x22 | s102 => DD x7 x23 | s103 => DD x7 x24 | s104 => DD x7 x25 | s105 => DD x7 x26 | s106 => DD x7 x27 | s107 => DD x7 x28 | s108 => DD x7 x29 | s109 => DD x7 x30 | s110 => DD x7 x31 | s111 => DD x7 x32 | s112 => DD x7 x33 | s113 => DD x7 x34 | s114 => DD x7 x35 | s115 => DD x7 x36 | s116 => DD x7 x37 | s117 => DD x7 x38 | s118 => DD x7 x39 | s119 => DD x7 x40 | s120 => DD x7 x41 | s121 => DD x7 x42 | s122 => DD x7 x43 | s123 => DD x7 x44 | s124 => DD x7 x45 | s125 => DD x7 x46 | s126 => DD x7 x47 end.
Definition m370 (c : sum2) : dd := match c with s0 => DD x5 x50 | s1 => DD x5 x51 | s2 => DD x5 x52 | s3 => DD x5 x53 | s4 => DD x5 x54 | s5 => DD x5 x55 | s6 => DD x5 x56 | s7 => DD x5 x57 | s8 => DD x5 x58 | s9 => DD x5 x59 | s10 => DD x5 x60 | s11 => DD x5 x61 | s12 => DD x5 x62 | s13 => DD x5 x63 | s14 => DD x6 x0 | s15 => DD x6 x1 | s16 => DD x6 x2 | s17 => DD x6 x3 | s18 => DD x6 x4 | s19 => DD x6 x5 | s20 => DD x6 x6 | s21 => DD x6 x7 | s22 => DD x6 x8 | s23 => DD x6 x9 | s24 => DD x6 x10 | s25 => DD x6 x11 | s26 => DD x6 x12 | s27 => DD x6 x13 | s28 => DD x6 x14 | s29 => DD x6 x15 | s30 => DD x6 x16 | s31 => DD x6 x17 | s32 => DD x6 x18 | s33 => DD x6 x19 | s34 => DD x6 x20 | s35 => DD x6 x21 | s36 => DD x6 x22 | s37 => DD x6 x23 | s38 => DD x6 x24 | s39 => DD x6 x25 | s40 => DD x6 x26 | s41 => DD x6 x27 | s42 => DD x6 x28 | s43 => DD x6 x29 | s44 => DD x6 x30 | s45 => DD x6 x31 | s46 => DD x6 x32 | s47 => DD x6 x33 | s48 => DD x6 x34 | s49 => DD x6 x35 | s50 => DD x6 x36 | s51 => DD x6 x37 | s52 => DD x6 x38 | s53 => DD x6 x39 | s54 => DD x6 x40 | s55 => DD x6 x41 | s56 => DD x6 x42 | s57 => DD x6 x43 | s58 => DD x6 x44 | s59 => DD x6 x45 | s60 => DD x6 x46 | s61 => DD x6 x47 | s62 => DD x6 x48 | s63 => DD x6 x49 | s64 => DD x6 x50 | s65 => DD x6 x51 | s66 => DD x6 x52 | s67 => DD x6 x53 | s68 => DD x6 x54 | s69 => DD x6 x55 | s70 => DD x6 x56 | s71 => DD x6 x57 | s72 => DD x6 x58 | s73 => DD x6 x59 | s74 => DD x6 x60 | s75 => DD x6 x61 | s76 => DD x6 x62 | s77 => DD x6 x63 | s78 => DD x7 x0 | s79 => DD x7 x1 | s80 => DD x7 x2 | s81 => DD x7 x3 | s82 => DD x7 x4 | s83 => DD x7 x5 | s84 => DD x7 x6 | s85 => DD x7 x7 | s86 => DD x7 x8 | s87 => DD x7 x9 | s88 => DD x7 x10 | s89 => DD x7 x11 | s90 => DD x7 x12 | s91 => DD x7 x13 | s92 => DD x7 x14 | s93 => DD x7 x15 | s94 => DD x7 x16 | s95 => DD x7 x17 | s96 => DD x7 x18 | s97 => DD x7 x19 | s98 => DD x7 x20 | s99 => DD x7 x21 | s100 => DD x7 x22 | s101 => DD x7 x23 | s102 => DD x7 x24 | s103 => DD x7 x25 | s104 => DD x7 x26 | s105 => DD x7 x27 | s106 => DD x7 x28 | s107 => DD x7 x29 | s108 => DD x7 x30 | s109 => DD x7 x31 | s110 => DD x7 x32 | s111 => DD x7 x33 | s112 => DD x7 x34 | s113 => DD x7 x35 | s114 => DD x7 x36 | s115 => DD x7 x37 | s116 => DD x7 x38 | s117 => DD x7 x39 | s118 => DD x7 x40 | s119 => DD x7 x41 | s120 => DD x7 x42 | s121 => DD x7 x43 | s122 => DD x7 x44 | s123 => DD x7 x45 | s124 => DD x7 x46 | s125 => DD x7 x47 | s126 => DD x7 x48 end.
Definition m371 (c : sum2) : dd := match c with s0 => DD x5 x51 | s1 => DD x5 x52 | s2 => DD x5 x53 | s3 => DD x5 x54 | s4 => DD x5 x55 | s5 => DD x5 x56 | s6 => DD x5 x57 | s7 => DD x5 x58 | s8 => DD x5 x59 | s9 => DD x5 x60 | s10 => DD x5 x61 | s11 => DD x5 x62 | s12 => DD x5 x63 | s13 => DD x6 x0 | s14 => DD x6 x1 | s15 => DD x6 x2 | s16 => DD x6 x3 | s17 => DD x6 x4 | s18 => DD x6 x5 | s19 => DD x6 x6 | s20 => DD x6 x7 | s21 => DD x6 x8 | s22 => DD x6 x9 | s23 => DD x6 x10 | s24 => DD x6 x11 | s25 => DD x6 x12 | s26 => DD x6 x13 | s27 => DD x6 x14 | s28 => DD x6 x15 | s29 => DD x6 x16 | s30 => DD x6 x17 | s31 => DD x6 x18 | s32 => DD x6 x19 | s33 => DD x6 x20 | s34 => DD x6 x21 | s35 => DD x6 x22 | s36 => DD x6 x23 | s37 => DD x6 x24 | s38 => DD x6 x25 | s39 => DD x6 x26 | s40 => DD x6 x27 | s41 => DD x6 x28 | s42 => DD x6 x29 | s43 => DD x6 x30 | s44 => DD x6 x31 | s45 => DD x6 x32 | s46 => DD x6 x33 | s47 => DD x6 x34 | s48 => DD x6 x35 | s49 => DD x6 x36 | s50 => DD x6 x37 | s51 => DD x6 x38 | s52 => DD x6 x39 | s53 => DD x6 x40 | s54 => DD x6 x41 | s55 => DD x6 x42 | s56 => DD x6 x43 | s57 => DD x6 x44 | s58 => DD x6 x45 | s59 => DD x6 x46 | s60 => DD x6 x47 | s61 => DD x6 x48 | s62 => DD x6 x49 | s63 => DD x6 x50 | s64 => DD x6 x51 | s65 => DD x6 x52 | s66 => DD x6 x53 | s67 => DD x6 x54 | s68 => DD x6 x55 | s69 => DD x6 x56 | s70 => DD x6 x57 | s71 => DD x6 x58 | s72 => DD x6 x59 | s73 => DD x6 x60 | s74 => DD x6 x61 | s75 => DD x6 x62 | s76 => DD x6 x63 | s77 => DD x7 x0 | s78 => DD x7 x1 | s79 => DD x7 x2 | s80 => DD x7 x3 | s81 => DD x7 x4 | s82 => DD x7 x5 | s83 => DD x7 x6 | s84 => DD x7 x7 | s85 => DD x7 x8 | s86 => DD x7 x9 | s87 => DD x7 x10 | s88 => DD x7 x11 | s89 => DD x7 x12 | s90 => DD x7 x13 | s91 => DD x7 x14 | s92 => DD x7 x15 | s93 => DD x7 x16 | s94 => DD x7 x17 | s95 => DD x7 x18 | s96 => DD x7 x19 | s97 => DD x7 x20 | s98 => DD x7 x21 | s99 => DD x7 x22 | s100 => DD x7 x23 | s101 => DD x7 x24 | s102 => DD x7 x25 | s103 => DD x7 x26 | s104 => DD x7 x27 | s105 => DD x7 x28 | s106 => DD x7 x29 | s107 => DD x7 x30 | s108 => DD x7 x31 | s109 => DD x7 x32 | s110 => DD x7 x33 | s111 => DD x7 x34 | s112 => DD x7 x35 | s113 => DD x7 x36 | s114 => DD x7 x37 | s115 => DD x7 x38 | s116 => DD x7 x39 | s117 => DD x7 x40 | s118 => DD x7 x41 | s119 => DD x7 x42 | s120 => DD x7 x43 | s121 => DD x7 x44 | s122 => DD x7 x45 | s123 => DD x7 x46 | s124 => DD x7 x47 | s125 => DD x7 x48 | s126 => DD x7 x49 end.
Definition m372 (c : sum2) : dd := match c with s0 => DD x5 x52 | s1 => DD x5 x53 | s2 => DD x5 x54 | s3 => DD x5 x55 | s4 => DD x5 x56 | s5 => DD x5 x57 | s6 => DD x5 x58 | s7 => DD x5 x59 | s8 => DD x5 x60 | s9 => DD x5 x61 | s10 => DD x5 x62 | s11 => DD x5 x63 | s12 => DD x6 x0 | s13 => DD x6 x1 | s14 => DD x6 x2 | s15 => DD x6 x3 | s16 => DD x6 x4 | s17 => DD x6 x5 | s18 => DD x6 x6 | s19 => DD x6 x7 | s20 => DD x6 x8 | s21 => DD x6 x9 | s22 => DD x6 x10 | s23 => DD x6 x11 | s24 => DD x6 x12 | s25 => DD x6 x13 | s26 => DD x6 x14 | s27 => DD x6 x15 | s28 => DD x6 x16 | s29 => DD x6 x17 | s30 => DD x6 x18 | s31 => DD x6 x19 | s32 => DD x6 x20 | s33 => DD x6 x21 | s34 => DD x6 x22 | s35 => DD x6 x23 | s36 => DD x6 x24 | s37 => DD x6 x25 | s38 => DD x6 x26 | s39 => DD x6 x27 | s40 => DD x6 x28 | s41 => DD x6 x29 | s42 => DD x6 x30 | s43 => DD x6 x31 | s44 => DD x6 x32 | s45 => DD x6 x33 | s46 => DD x6 x34 | s47 => DD x6 x35 | s48 => DD x6 x36 | s49 => DD x6 x37 | s50 => DD x6 x38 | s51 => DD x6 x39 | s52 => DD x6 x40 | s53 => DD x6 x41 | s54 => DD x6 x42 | s55 => DD x6 x43 | s56 => DD x6 x44 | s57 => DD x6 x45 | s58 => DD x6 x46 | s59 => DD x6 x47 | s60 => DD x6 x48 | s61 => DD x6 x49 | s62 => DD x6 x50 | s63 => DD x6 x51 | s64 => DD x6 x52 | s65 => DD x6 x53 | s66 => DD x6 x54 | s67 => DD x6 x55 | s68 => DD x6 x56 | s69 => DD x6 x57 | s70 => DD x6 x58 | s71 => DD x6 x59 | s72 => DD x6 x60 | s73 => DD x6 x61 | s74 => DD x6 x62 | s75 => DD x6 x63 | s76 => DD x7 x0 | s77 => DD x7 x1 | s78 => DD x7 x2 | s79 => DD x7 x3 | s80 => DD x7 x4 | s81 => DD x7 x5 | s82 => DD x7 x6 | s83 => DD x7 x7 | s84 => DD x7 x8 | s85 => DD x7 x9 | s86 => DD x7 x10 | s87 => DD x7 x11 | s88 => DD x7 x12 | s89 => DD x7 x13 | s90 => DD x7 x14 | s91 => DD x7 x15 | s92 => DD x7 x16 | s93 => DD x7 x17 | s94 => DD x7 x18 | s95 => DD x7 x19 | s96 => DD x7 x20 | s97 => DD x7 x21 | s98 => DD x7 x22 | s99 => DD x7 x23 | s100 => DD x7 x24 | s101 => DD x7 x25 | s102 => DD x7 x26 | s103 => DD x7 x27 | s104 => DD x7 x28 | s105 => DD x7 x29 | s106 => DD x7 x30 | s107 => DD x7 x31 | s108 => DD x7 x32 | s109 => DD x7 x33 | s110 => DD x7 x34 | s111 => DD x7 x35 | s112 => DD x7 x36 | s113 => DD x7 x37 | s114 => DD x7 x38 | s115 => DD x7 x39 | s116 => DD x7 x40 | s117 => DD x7 x41 | s118 => DD x7 x42 | s119 => DD x7 x43 | s120 => DD x7 x44 | s121 => DD x7 x45 | s122 => DD x7 x46 | s123 => DD x7 x47 | s124 => DD x7 x48 | s125 => DD x7 x49 | s126 => DD x7 x50 end.
Definition m374 (c : sum2) : dd := match c with s0 => DD x5 x54 | s1 => DD x5 x55 | s2 => DD x5 x56 | s3 => DD x5 x57 | s4 => DD x5 x58 | s5 => DD x5 x59 | s6 => DD x5 x60 | s7 => DD x5 x61 | s8 => DD x5 x62 | s9 => DD x5 x63 | s10 => DD x6 x0 | s11 => DD x6 x1 | s12 => DD x6 x2 | s13 => DD x6 x3 | s14 => DD x6 x4 | s15 => DD x6 x5 | s16 => DD x6 x6 | s17 => DD x6 x7 | s18 => DD x6 x8 | s19 => DD x6 x9 | s20 => DD x6 x10 | s21 => DD x6 x11 | s22 => DD x6 x12 | s23 => DD x6 x13 | s24 => DD x6 x14 | s25 => DD x6 x15 | s26 => DD x6 x16 | s27 => DD x6 x17 | s28 => DD x6 x18 | s29 => DD x6 x19 | s30 => DD x6 x20 | s31 => DD x6 x21 | s32 => DD x6 x22 | s33 => DD x6 x23 | s34 => DD x6 x24 | s35 => DD x6 x25 | s36 => DD x6 x26 | s37 => DD x6 x27 | s38 => DD x6 x28 | s39 => DD x6 x29 | s40 => DD x6 x30 | s41 => DD x6 x31 | s42 => DD x6 x32 | s43 => DD x6 x33 | s44 => DD x6 x34 | s45 => DD x6 x35 | s46 => DD x6 x36 | s47 => DD x6 x37 | s48 => DD x6 x38 | s49 => DD x6 x39 | s50 => DD x6 x40 | s51 => DD x6 x41 | s52 => DD x6 x42 | s53 => DD x6 x43 | s54 => DD x6 x44 | s55 => DD x6 x45 | s56 => DD x6 x46 | s57 => DD x6 x47 | s58 => DD x6 x48 | s59 => DD x6 x49 | s60 => DD x6 x50 | s61 => DD x6 x51 | s62 => DD x6 x52 | s63 => DD x6 x53 | s64 => DD x6 x54 | s65 => DD x6 x55 | s66 => DD x6 x56 | s67 => DD x6 x57 | s68 => DD x6 x58 | s69 => DD x6 x59 | s70 => DD x6 x60 | s71 => DD x6 x61 | s72 => DD x6 x62 | s73 => DD x6 x63 | s74 => DD x7 x0 | s75 => DD x7 x1 | s76 => DD x7 x2 | s77 => DD x7 x3 | s78 => DD x7 x4 | s79 => DD x7 x5 | s80 => DD x7 x6 | s81 => DD x7 x7 | s82 => DD x7 x8 | s83 => DD x7 x9 | s84 => DD x7 x10 | s85 => DD x7 x11 | s86 => DD x7 x12 | s87 => DD x7 x13 | s88 => DD x7 x14 | s89 => DD x7 x15 | s90 => DD x7 x16 | s91 => DD x7 x17 | s92 => DD x7 x18 | s93 => DD x7 x19 | s94 => DD x7 x20 | s95 => DD x7 x21 | s96 => DD x7 x22 | s97 => DD x7 x23 | s98 => DD x7 x24 | s99 => DD x7 x25 | s100 => DD x7 x26 | s101 => DD x7 x27 | s102 => DD x7 x28 | s103 => DD x7 x29 | s104 => DD x7 x30 | s105 => DD x7 x31 | s106 => DD x7 x32 | s107 => DD x7 x33 | s108 => DD x7 x34 | s109 => DD x7 x35 | s110 => DD x7 x36 | s111 => DD x7 x37 | s112 => DD x7 x38 | s113 => DD x7 x39 | s114 => DD x7 x40 | s115 => DD x7 x41 | s116 => DD x7 x42 | s117 => DD x7 x43 | s118 => DD x7 x44 | s119 => DD x7 x45 | s120 => DD x7 x46 | s121 => DD x7 x47 | s122 => DD x7 x48 | s123 => DD x7 x49 | s124 => DD x7 x50 | s125 => DD x7 x51 | s126 => DD x7 x52 end.
Definition m375 (c : sum2) : dd := match c with s0 => DD x5 x55 | s1 => DD x5 x56 | s2 => DD x5 x57 | s3 => DD x5 x58 | s4 => DD x5 x59 | s5 => DD x5 x60 | s6 => DD x5 x61 | s7 => DD x5 x62 | s8 => DD x5 x63 | s9 => DD x6 x0 | s10 => DD x6 x1 | s11 => DD x6 x2 | s12 => DD x6 x3 | s13 => DD x6 x4 | s14 => DD x6 x5 | s15 => DD x6 x6 | s16 => DD x6 x7 | s17 => DD x6 x8 | s18 => DD x6 x9 | s19 => DD x6 x10 | s20 => DD x6 x11 | s21 => DD x6 x12 | s22 => DD x6 x13 | s23 => DD x6 x14 | s24 => DD x6 x15 | s25 => DD x6 x16 | s26 => DD x6 x17 | s27 => DD x6 x18 | s28 => DD x6 x19 | s29 => DD x6 x20 | s30 => DD x6 x21 | s31 => DD x6 x22 | s32 => DD x6 x23 | s33 => DD x6 x24 | s34 => DD x6 x25 | s35 => DD x6 x26 | s36 => DD x6 x27 | s37 => DD x6 x28 | s38 => DD x6 x29 | s39 => DD x6 x30 | s40 => DD x6 x31 | s41 => DD x6 x32 | s42 => DD x6 x33 | s43 => DD x6 x34 | s44 => DD x6 x35 | s45 => DD x6 x36 | s46 => DD x6 x37 | s47 => DD x6 x38 | s48 => DD x6 x39 | s49 => DD x6 x40 | s50 => DD x6 x41 | s51 => DD x6 x42 | s52 => DD x6 x43 | s53 => DD x6 x44 | s54 => DD x6 x45 | s55 => DD x6 x46 | s56 => DD x6 x47 | s57 => DD x6 x48 | s58 => DD x6 x49 | s59 => DD x6 x50 | s60 => DD x6 x51 | s61 => DD x6 x52 | s62 => DD x6 x53 | s63 => DD x6 x54 | s64 => DD x6 x55 | s65 => DD x6 x56 | s66 => DD x6 x57 | s67 => DD x6 x58 | s68 => DD x6 x59 | s69 => DD x6 x60 | s70 => DD x6 x61 | s71 => DD x6 x62 | s72 => DD x6 x63 | s73 => DD x7 x0 | s74 => DD x7 x1 | s75 => DD x7 x2 | s76 => DD x7 x3 | s77 => DD x7 x4 | s78 => DD x7 x5 | s79 => DD x7 x6 | s80 => DD x7 x7 | s81 => DD x7 x8 | s82 => DD x7 x9 | s83 => DD x7 x10 | s84 => DD x7 x11 | s85 => DD x7 x12 | s86 => DD x7 x13 | s87 => DD x7 x14 | s88 => DD x7 x15 | s89 => DD x7 x16 | s90 => DD x7 x17 | s91 => DD x7 x18 | s92 => DD x7 x19 | s93 => DD x7 x20 | s94 => DD x7 x21 | s95 => DD x7 x22 | s96 => DD x7 x23 | s97 => DD x7 x24 | s98 => DD x7 x25 | s99 => DD x7 x26 | s100 => DD x7 x27 | s101 => DD x7 x28 | s102 => DD x7 x29 | s103 => DD x7 x30 | s104 => DD x7 x31 | s105 => DD x7 x32 | s106 => DD x7 x33 | s107 => DD x7 x34 | s108 => DD x7 x35 | s109 => DD x7 x36 | s110 => DD x7 x37 | s111 => DD x7 x38 | s112 => DD x7 x39 | s113 => DD x7 x40 | s114 => DD x7 x41 | s115 => DD x7 x42 | s116 => DD x7 x43 | s117 => DD x7 x44 | s118 => DD x7 x45 | s119 => DD x7 x46 | s120 => DD x7 x47 | s121 => DD x7 x48 | s122 => DD x7 x49 | s123 => DD x7 x50 | s124 => DD x7 x51 | s125 => DD x7 x52 | s126 => DD x7 x53 end.
Definition m376 (c : sum2) : dd := match c with s0 => DD x5 x56 | s1 => DD x5 x57 | s2 => DD x5 x58 | s3 => DD x5 x59 | s4 => DD x5 x60 | s5 => DD x5 x61 | s6 => DD x5 x62 | s7 => DD x5 x63 | s8 => DD x6 x0 | s9 => DD x6 x1 | s10 => DD x6 x2 | s11 => DD x6 x3 | s12 => DD x6 x4 | s13 => DD x6 x5 | s14 => DD x6 x6 | s15 => DD x6 x7 | s16 => DD x6 x8 | s17 => DD x6 x9 | s18 => DD x6 x10 | s19 => DD x6 x11 | s20 => DD x6 x12 | s21 => DD x6 x13 | s22 => DD x6 x14 | s23 => DD x6 x15 | s24 => DD x6 x16 | s25 => DD x6 x17 | s26 => DD x6 x18 | s27 => DD x6 x19 | s28 => DD x6 x20 | s29 => DD x6 x21 | s30 => DD x6 x22 | s31 => DD x6 x23 | s32 => DD x6 x24 | s33 => DD x6 x25 | s34 => DD x6 x26 | s35 => DD x6 x27 | s36 => DD x6 x28 | s37 => DD x6 x29 | s38 => DD x6 x30 | s39 => DD x6 x31 | s40 => DD x6 x32 | s41 => DD x6 x33 | s42 => DD x6 x34 | s43 => DD x6 x35 | s44 => DD x6 x36 | s45 => DD x6 x37 | s46 => DD x6 x38 | s47 => DD x6 x39 | s48 => DD x6 x40 | s49 => DD x6 x41 | s50 => DD x6 x42 | s51 => DD x6 x43 | s52 => DD x6 x44 | s53 => DD x6 x45 | s54 => DD x6 x46 | s55 => DD x6 x47 | s56 => DD x6 x48 | s57 => DD x6 x49 | s58 => DD x6 x50 | s59 => DD x6 x51 | s60 => DD x6 x52 | s61 => DD x6 x53 | s62 => DD x6 x54 | s63 => DD x6 x55 | s64 => DD x6 x56 | s65 => DD x6 x57 | s66 => DD x6 x58 | s67 => DD x6 x59 | s68 => DD x6 x60 | s69 => DD x6 x61 | s70 => DD x6 x62 | s71 => DD x6 x63 | s72 => DD x7 x0 | s73 => DD x7 x1 | s74 => DD x7 x2 | s75 => DD x7 x3 | s76 => DD x7 x4 | s77 => DD x7 x5 | s78 => DD x7 x6 | s79 => DD x7 x7 | s80 => DD x7 x8 | s81 => DD x7 x9 | s82 => DD x7 x10 | s83 => DD x7 x11 | s84 => DD x7 x12 | s85 => DD x7 x13 | s86 => DD x7 x14 | s87 => DD x7 x15 | s88 => DD x7 x16 | s89 => DD x7 x17 | s90 => DD x7 x18 | s91 => DD x7 x19 | s92 => DD x7 x20 | s93 => DD x7 x21 | s94 => DD x7 x22 | s95 => DD x7 x23 | s96 => DD x7 x24 | s97 => DD x7 x25 | s98 => DD x7 x26 | s99 => DD x7 x27 | s100 => DD x7 x28 | s101 => DD x7 x29 | s102 => DD x7 x30 | s103 => DD x7 x31 | s104 => DD x7 x32 | s105 => DD x7 x33 | s106 => DD x7 x34 | s107 => DD x7 x35 | s108 => DD x7 x36 | s109 => DD x7 x37 | s110 => DD x7 x38 | s111 => DD x7 x39 | s112 => DD x7 x40 | s113 => DD x7 x41 | s114 => DD x7 x42 | s115 => DD x7 x43 | s116 => DD x7 x44 | s117 => DD x7 x45 | s118 => DD x7 x46 | s119 => DD x7 x47 | s120 => DD x7 x48 | s121 => DD x7 x49 | s122 => DD x7 x50 | s123 => DD x7 x51 | s124 => DD x7 x52 | s125 => DD x7 x53 | s126 => DD x7 x54 end.
Definition m377 (c : sum2) : dd := match c with s0 => DD x5 x57 | s1 => DD x5 x58 | s2 => DD x5 x59 | s3 => DD x5 x60 | s4 => DD x5 x61 | s5 => DD x5 x62 | s6 => DD x5 x63 | s7 => DD x6 x0 | s8 => DD x6 x1 | s9 => DD x6 x2 | s10 => DD x6 x3 | s11 => DD x6 x4 | s12 => DD x6 x5 | s13 => DD x6 x6 | s14 => DD x6 x7 | s15 => DD x6 x8 | s16 => DD x6 x9 | s17 => DD x6 x10 | s18 => DD x6 x11 | s19 => DD x6 x12 | s20 => DD x6 x13 | s21 => DD x6 x14 | s22 => DD x6 x15 | s23 => DD x6 x16 | s24 => DD x6 x17 | s25 => DD x6 x18 | s26 => DD x6 x19 | s27 => DD x6 x20 | s28 => DD x6 x21 | s29 => DD x6 x22 | s30 => DD x6 x23 | s31 => DD x6 x24 | s32 => DD x6 x25 | s33 => DD x6 x26 | s34 => DD x6 x27 | s35 => DD x6 x28 | s36 => DD x6 x29 | s37 => DD x6 x30 | s38 => DD x6 x31 | s39 => DD x6 x32 | s40 => DD x6 x33 | s41 => DD x6 x34 | s42 => DD x6 x35 | s43 => DD x6 x36 | s44 => DD x6 x37 | s45 => DD x6 x38 | s46 => DD x6 x39 | s47 => DD x6 x40 | s48 => DD x6 x41 | s49 => DD x6 x42 | s50 => DD x6 x43 | s51 => DD x6 x44 | s52 => DD x6 x45 | s53 => DD x6 x46 | s54 => DD x6 x47 | s55 => DD x6 x48 | s56 => DD x6 x49 | s57 => DD x6 x50 | s58 => DD x6 x51 | s59 => DD x6 x52 | s60 => DD x6 x53 | s61 => DD x6 x54 | s62 => DD x6 x55 | s63 => DD x6 x56 | s64 => DD x6 x57 | s65 => DD x6 x58 | s66 => DD x6 x59 | s67 => DD x6 x60 | s68 => DD x6 x61 | s69 => DD x6 x62 | s70 => DD x6 x63 | s71 => DD x7 x0 | s72 => DD x7 x1 | s73 => DD x7 x2 | s74 => DD x7 x3 | s75 => DD x7 x4 | s76 => DD x7 x5 | s77 => DD x7 x6 | s78 => DD x7 x7 | s79 => DD x7 x8 | s80 => DD x7 x9 | s81 => DD x7 x10 | s82 => DD x7 x11 | s83 => DD x7 x12 | s84 => DD x7 x13 | s85 => DD x7 x14 | s86 => DD x7 x15 | s87 => DD x7 x16 | s88 => DD x7 x17 | s89 => DD x7 x18 | s90 => DD x7 x19 | s91 => DD x7 x20 | s92 => DD x7 x21 | s93 => DD x7 x22 | s94 => DD x7 x23 | s95 => DD x7 x24 | s96 => DD x7 x25 | s97 => DD x7 x26 | s98 => DD x7 x27 | s99 => DD x7 x28 | s100 => DD x7 x29 | s101 => DD x7 x30 | s102 => DD x7 x31 | s103 => DD x7 x32 | s104 => DD x7 x33 | s105 => DD x7 x34 | s106 => DD x7 x35 | s107 => DD x7 x36 | s108 => DD x7 x37 | s109 => DD x7 x38 | s110 => DD x7 x39 | s111 => DD x7 x40 | s112 => DD x7 x41 | s113 => DD x7 x42 | s114 => DD x7 x43 | s115 => DD x7 x44 | s116 => DD x7 x45 | s117 => DD x7 x46 | s118 => DD x7 x47 | s119 => DD x7 x48 | s120 => DD x7 x49 | s121 => DD x7 x50 | s122 => DD x7 x51 | s123 => DD x7 x52 | s124 => DD x7 x53 | s125 => DD x7 x54 | s126 => DD x7 x55 end.
Definition m378 (c : sum2) : dd := match c with s0 => DD x5 x58 | s1 => DD x5 x59 | s2 => DD x5 x60 | s3 => DD x5 x61 | s4 => DD x5 x62 | s5 => DD x5 x63 | s6 => DD x6 x0 | s7 => DD x6 x1 | s8 => DD x6 x2 | s9 => DD x6 x3 | s10 => DD x6 x4 | s11 => DD x6 x5 | s12 => DD x6 x6 | s13 => DD x6 x7 | s14 => DD x6 x8 | s15 => DD x6 x9 | s16 => DD x6 x10 | s17 => DD x6 x11 | s18 => DD x6 x12 | s19 => DD x6 x13 | s20 => DD x6 x14 | s21 => DD x6 x15 | s22 => DD x6 x16 | s23 => DD x6 x17 | s24 => DD x6 x18 | s25 => DD x6 x19 | s26 => DD x6 x20 | s27 => DD x6 x21 | s28 => DD x6 x22 | s29 => DD x6 x23 | s30 => DD x6 x24 | s31 => DD x6 x25 | s32 => DD x6 x26 | s33 => DD x6 x27 | s34 => DD x6 x28 | s35 => DD x6 x29 | s36 => DD x6 x30 | s37 => DD x6 x31 | s38 => DD x6 x32 | s39 => DD x6 x33 | s40 => DD x6 x34 | s41 => DD x6 x35 | s42 => DD x6 x36 | s43 => DD x6 x37 | s44 => DD x6 x38 | s45 => DD x6 x39 | s46 => DD x6 x40 | s47 => DD x6 x41 | s48 => DD x6 x42 | s49 => DD x6 x43 | s50 => DD x6 x44 | s51 => DD x6 x45 | s52 => DD x6 x46 | s53 => DD x6 x47 | s54 => DD x6 x48 | s55 => DD x6 x49 | s56 => DD x6 x50 | s57 => DD x6 x51 | s58 => DD x6 x52 | s59 => DD x6 x53 | s60 => DD x6 x54 | s61 => DD x6 x55 | s62 => DD x6 x56 | s63 => DD x6 x57 | s64 => DD x6 x58 | s65 => DD x6 x59 | s66 => DD x6 x60 | s67 => DD x6 x61 | s68 => DD x6 x62 | s69 => DD x6 x63 | s70 => DD x7 x0 | s71 => DD x7 x1 | s72 => DD x7 x2 | s73 => DD x7 x3 | s74 => DD x7 x4 | s75 => DD x7 x5 | s76 => DD x7 x6 | s77 => DD x7 x7 | s78 => DD x7 x8 | s79 => DD x7 x9 | s80 => DD x7 x10 | s81 => DD x7 x11 | s82 => DD x7 x12 | s83 => DD x7 x13 | s84 => DD x7 x14 | s85 => DD x7 x15 | s86 => DD x7 x16 | s87 => DD x7 x17 | s88 => DD x7 x18 | s89 => DD x7 x19 | s90 => DD x7 x20 | s91 => DD x7 x21 | s92 => DD x7 x22 | s93 => DD x7 x23 | s94 => DD x7 x24 | s95 => DD x7 x25 | s96 => DD x7 x26 | s97 => DD x7 x27 | s98 => DD x7 x28 | s99 => DD x7 x29 | s100 => DD x7 x30 | s101 => DD x7 x31 | s102 => DD x7 x32 | s103 => DD x7 x33 | s104 => DD x7 x34 | s105 => DD x7 x35 | s106 => DD x7 x36 | s107 => DD x7 x37 | s108 => DD x7 x38 | s109 => DD x7 x39 | s110 => DD x7 x40 | s111 => DD x7 x41 | s112 => DD x7 x42 | s113 => DD x7 x43 | s114 => DD x7 x44 | s115 => DD x7 x45 | s116 => DD x7 x46 | s117 => DD x7 x47 | s118 => DD x7 x48 | s119 => DD x7 x49 | s120 => DD x7 x50 | s121 => DD x7 x51 | s122 => DD x7 x52 | s123 => DD x7 x53 | s124 => DD x7 x54 | s125 => DD x7 x55 | s126 => DD x7 x56 end.
Definition m380 (c : sum2) : dd := match c with s0 => DD x5 x60 | s1 => DD x5 x61 | s2 => DD x5 x62 | s3 => DD x5 x63 | s4 => DD x6 x0 | s5 => DD x6 x1 | s6 => DD x6 x2 | s7 => DD x6 x3 | s8 => DD x6 x4 | s9 => DD x6 x5 | s10 => DD x6 x6 | s11 => DD x6 x7 | s12 => DD x6 x8 | s13 => DD x6 x9 | s14 => DD x6 x10 | s15 => DD x6 x11 | s16 => DD x6 x12 | s17 => DD x6 x13 | s18 => DD x6 x14 | s19 => DD x6 x15 | s20 => DD x6 x16 | s21 => DD x6 x17 | s22 => DD x6 x18 | s23 => DD x6 x19 | s24 => DD x6 x20 | s25 => DD x6 x21 | s26 => DD x6 x22 | s27 => DD x6 x23 | s28 => DD x6 x24 | s29 => DD x6 x25 | s30 => DD x6 x26 | s31 => DD x6 x27 | s32 => DD x6 x28 | s33 => DD x6 x29 | s34 => DD x6 x30 | s35 => DD x6 x31 | s36 => DD x6 x32 | s37 => DD x6 x33 | s38 => DD x6 x34 | s39 => DD x6 x35 | s40 => DD x6 x36 | s41 => DD x6 x37 | s42 => DD x6 x38 | s43 => DD x6 x39 | s44 => DD x6 x40 | s45 => DD x6 x41 | s46 => DD x6 x42 | s47 => DD x6 x43 | s48 => DD x6 x44 | s49 => DD x6 x45 | s50 => DD x6 x46 | s51 => DD x6 x47 | s52 => DD x6 x48 | s53 => DD x6 x49 | s54 => DD x6 x50 | s55 => DD x6 x51 | s56 => DD x6 x52 | s57 => DD x6 x53 | s58 => DD x6 x54 | s59 => DD x6 x55 | s60 => DD x6 x56 | s61 => DD x6 x57 | s62 => DD x6 x58 | s63 => DD x6 x59 | s64 => DD x6 x60 | s65 => DD x6 x61 | s66 => DD x6 x62 | s67 => DD x6 x63 | s68 => DD x7 x0 | s69 => DD x7 x1 | s70 => DD x7 x2 | s71 => DD x7 x3 | s72 => DD x7 x4 | s73 => DD x7 x5 | s74 => DD x7 x6 | s75 => DD x7 x7 | s76 => DD x7 x8 | s77 => DD x7 x9 | s78 => DD x7 x10 | s79 => DD x7 x11 | s80 => DD x7 x12 | s81 => DD x7 x13 | s82 => DD x7 x14 | s83 => DD x7 x15 | s84 => DD x7 x16 | s85 => DD x7 x17 | s86 => DD x7 x18 | s87 => DD x7 x19 | s88 => DD x7 x20 | s89 => DD x7 x21 | s90 => DD x7 x22 | s91 => DD x7 x23 | s92 => DD x7 x24 | s93 => DD x7 x25 | s94 => DD x7 x26 | s95 => DD x7 x27 | s96 => DD x7 x28 | s97 => DD x7 x29 | s98 => DD x7 x30 | s99 => DD x7 x31 | s100 => DD x7 x32 | s101 => DD x7 x33 | s102 => DD x7 x34 | s103 => DD x7 x35 | s104 => DD x7 x36 | s105 => DD x7 x37 | s106 => DD x7 x38 | s107 => DD x7 x39 | s108 => DD x7 x40 | s109 => DD x7 x41 | s110 => DD x7 x42 | s111 => DD x7 x43 | s112 => DD x7 x44 | s113 => DD x7 x45 | s114 => DD x7 x46 | s115 => DD x7 x47 | s116 => DD x7 x48 | s117 => DD x7 x49 | s118 => DD x7 x50 | s119 => DD x7 x51 | s120 => DD x7 x52 | s121 => DD x7 x53 | s122 => DD x7 x54 | s123 => DD x7 x55 | s124 => DD x7 x56 | s125 => DD x7 x57 | s126 => DD x7 x58 end.
Definition m384 (c : sum2) : dd := match c with s0 => DD x6 x0 | s1 => DD x6 x1 | s2 => DD x6 x2 | s3 => DD x6 x3 | s4 => DD x6 x4 | s5 => DD x6 x5 | s6 => DD x6 x6 | s7 => DD x6 x7 | s8 => DD x6 x8 | s9 => DD x6 x9 | s10 => DD x6 x10 | s11 => DD x6 x11 | s12 => DD x6 x12 | s13 => DD x6 x13 | s14 => DD x6 x14 | s15 => DD x6 x15 | s16 => DD x6 x16 | s17 => DD x6 x17 | s18 => DD x6 x18 | s19 => DD x6 x19 | s20 => DD x6 x20 | s21 => DD x6 x21 | s22 => DD x6 x22 | s23 => DD x6 x23 | s24 => DD x6 x24 | s25 => DD x6 x25 | s26 => DD x6 x26 | s27 => DD x6 x27 | s28 => DD x6 x28 | s29 => DD x6 x29 | s30 => DD x6 x30 | s31 => DD x6 x31 | s32 => DD x6 x32 | s33 => DD x6 x33 | s34 => DD x6 x34 | s35 => DD x6 x35 | s36 => DD x6 x36 | s37 => DD x6 x37 | s38 => DD x6 x38 | s39 => DD x6 x39 | s40 => DD x6 x40 | s41 => DD x6 x41 | s42 => DD x6 x42 | s43 => DD x6 x43 | s44 => DD x6 x44 | s45 => DD x6 x45 | s46 => DD x6 x46 | s47 => DD x6 x47 | s48 => DD x6 x48 | s49 => DD x6 x49 | s50 => DD x6 x50 | s51 => DD x6 x51 | s52 => DD x6 x52 | s53 => DD x6 x53 | s54 => DD x6 x54 | s55 => DD x6 x55 | s56 => DD x6 x56 | s57 => DD x6 x57 | s58 => DD x6 x58 | s59 => DD x6 x59 | s60 => DD x6 x60 | s61 => DD x6 x61 | s62 => DD x6 x62 | s63 => DD x6 x63 | s64 => DD x7 x0 | s65 => DD x7 x1 | s66 => DD x7 x2 | s67 => DD x7 x3 | s68 => DD x7 x4 | s69 => DD x7 x5 | s70 => DD x7 x6 | s71 => DD x7 x7 | s72 => DD x7 x8 | s73 => DD x7 x9 | s74 => DD x7 x10 | s75 => DD x7 x11 | s76 => DD x7 x12 | s77 => DD x7 x13 | s78 => DD x7 x14 | s79 => DD x7 x15 | s80 => DD x7 x16 | s81 => DD x7 x17 | s82 => DD x7 x18 | s83 => DD x7 x19 | s84 => DD x7 x20 | s85 => DD x7 x21 | s86 => DD x7 x22 | s87 => DD x7 x23 | s88 => DD x7 x24 | s89 => DD x7 x25 | s90 => DD x7 x26 | s91 => DD x7 x27 | s92 => DD x7 x28 | s93 => DD x7 x29 | s94 => DD x7 x30 | s95 => DD x7 x31 | s96 => DD x7 x32 | s97 => DD x7 x33 | s98 => DD x7 x34 | s99 => DD x7 x35 | s100 => DD x7 x36 | s101 => DD x7 x37 | s102 => DD x7 x38 | s103 => DD x7 x39 | s104 => DD x7 x40 | s105 => DD x7 x41 | s106 => DD x7 x42 | s107 => DD x7 x43 | s108 => DD x7 x44 | s109 => DD x7 x45 | s110 => DD x7 x46 | s111 => DD x7 x47 | s112 => DD x7 x48 | s113 => DD x7 x49 | s114 => DD x7 x50 | s115 => DD x7 x51 | s116 => DD x7 x52 | s117 => DD x7 x53 | s118 => DD x7 x54 | s119 => DD x7 x55 | s120 => DD x7 x56 | s121 => DD x7 x57 | s122 => DD x7 x58 | s123 => DD x7 x59 | s124 => DD x7 x60 | s125 => DD x7 x61 | s126 => DD x7 x62 end.
Definition m385 (c : sum2) : dd := match c with s0 => DD x6 x1 | s1 => DD x6 x2 | s2 => DD x6 x3 | s3 => DD x6 x4 | s4 => DD x6 x5 | s5 => DD x6 x6 | s6 => DD x6 x7 | s7 => DD x6 x8 | s8 => DD x6 x9 | s9 => DD x6 x10 | s10 => DD x6 x11 | s11 => DD x6 x12 | s12 => DD x6 x13 | s13 => DD x6 x14 | s14 => DD x6 x15 | s15 => DD x6 x16 | s16 => DD x6 x17 | s17 => DD x6 x18 | s18 => DD x6 x19 | s19 => DD x6 x20 | s20 => DD x6 x21 | s21 => DD x6 x22 | s22 => DD x6 x23 | s23 => DD x6 x24 | s24 => DD x6 x25 | s25 => DD x6 x26 | s26 => DD x6 x27 | s27 => DD x6 x28 | s28 => DD x6 x29 | s29 => DD x6 x30 | s30 => DD x6 x31 | s31 => DD x6 x32 | s32 => DD x6 x33 | s33 => DD x6 x34 | s34 => DD x6 x35 | s35 => DD x6 x36 | s36 => DD x6 x37 | s37 => DD x6 x38 | s38 => DD x6 x39 | s39 => DD x6 x40 | s40 => DD x6 x41 | s41 => DD x6 x42 | s42 => DD x6 x43 | s43 => DD x6 x44 | s44 => DD x6 x45 | s45 => DD x6 x46 | s46 => DD x6 x47 | s47 => DD x6 x48 | s48 => DD x6 x49 | s49 => DD x6 x50 | s50 => DD x6 x51 | s51 => DD x6 x52 | s52 => DD x6 x53 | s53 => DD x6 x54 | s54 => DD x6 x55 | s55 => DD x6 x56 | s56 => DD x6 x57 | s57 => DD x6 x58 | s58 => DD x6 x59 | s59 => DD x6 x60 | s60 => DD x6 x61 | s61 => DD x6 x62 | s62 => DD x6 x63 | s63 => DD x7 x0 | s64 => DD x7 x1 | s65 => DD x7 x2 | s66 => DD x7 x3 | s67 => DD x7 x4 | s68 => DD x7 x5 | s69 => DD x7 x6 | s70 => DD x7 x7 | s71 => DD x7 x8 | s72 => DD x7 x9 | s73 => DD x7 x10 | s74 => DD x7 x11 | s75 => DD x7 x12 | s76 => DD x7 x13 | s77 => DD x7 x14 | s78 => DD x7 x15 | s79 => DD x7 x16 | s80 => DD x7 x17 | s81 => DD x7 x18 | s82 => DD x7 x19 | s83 => DD x7 x20 | s84 => DD x7 x21 | s85 => DD x7 x22 | s86 => DD x7 x23 | s87 => DD x7 x24 | s88 => DD x7 x25 | s89 => DD x7 x26 | s90 => DD x7 x27 | s91 => DD x7 x28 | s92 => DD x7 x29 | s93 => DD x7 x30 | s94 => DD x7 x31 | s95 => DD x7 x32 | s96 => DD x7 x33 | s97 => DD x7 x34 | s98 => DD x7 x35 | s99 => DD x7 x36 | s100 => DD x7 x37 | s101 => DD x7 x38 | s102 => DD x7 x39 | s103 => DD x7 x40 | s104 => DD x7 x41 | s105 => DD x7 x42 | s106 => DD x7 x43 | s107 => DD x7 x44 | s108 => DD x7 x45 | s109 => DD x7 x46 | s110 => DD x7 x47 | s111 => DD x7 x48 | s112 => DD x7 x49 | s113 => DD x7 x50 | s114 => DD x7 x51 | s115 => DD x7 x52 | s116 => DD x7 x53 | s117 => DD x7 x54 | s118 => DD x7 x55 | s119 => DD x7 x56 | s120 => DD x7 x57 | s121 => DD x7 x58 | s122 => DD x7 x59 | s123 => DD x7 x60 | s124 => DD x7 x61 | s125 => DD x7 x62 | s126 => DD x7 x63 end.
Definition m387 (c : sum2) : dd := match c with s0 => DD x6 x3 | s1 => DD x6 x4 | s2 => DD x6 x5 | s3 => DD x6 x6 | s4 => DD x6 x7 | s5 => DD x6 x8 | s6 => DD x6 x9 | s7 => DD x6 x10 | s8 => DD x6 x11 | s9 => DD x6 x12 | s10 => DD x6 x13 | s11 => DD x6 x14 | s12 => DD x6 x15 | s13 => DD x6 x16 | s14 => DD x6 x17 | s15 => DD x6 x18 | s16 => DD x6 x19 | s17 => DD x6 x20 | s18 => DD x6 x21 | s19 => DD x6 x22 | s20 => DD x6 x23 | s21 => DD x6 x24 | s22 => DD x6 x25 | s23 => DD x6 x26 | s24 => DD x6 x27 | s25 => DD x6 x28 | s26 => DD x6 x29 | s27 => DD x6 x30 | s28 => DD x6 x31 | s29 => DD x6 x32 | s30 => DD x6 x33 | s31 => DD x6 x34 | s32 => DD x6 x35 | s33 => DD x6 x36 | s34 => DD x6 x37 | s35 => DD x6 x38 | s36 => DD x6 x39 | s37 => DD x6 x40 | s38 => DD x6 x41 | s39 => DD x6 x42 | s40 => DD x6 x43 | s41 => DD x6 x44 | s42 => DD x6 x45 | s43 => DD x6 x46 | s44 => DD x6 x47 | s45 => DD x6 x48 | s46 => DD x6 x49 | s47 => DD x6 x50 | s48 => DD x6 x51 | s49 => DD x6 x52 | s50 => DD x6 x53 | s51 => DD x6 x54 | s52 => DD x6 x55 | s53 => DD x6 x56 | s54 => DD x6 x57 | s55 => DD x6 x58 | s56 => DD x6 x59 | s57 => DD x6 x60 | s58 => DD x6 x61 | s59 => DD x6 x62 | s60 => DD x6 x63 | s61 => DD x7 x0 | s62 => DD x7 x1 | s63 => DD x7 x2 | s64 => DD x7 x3 | s65 => DD x7 x4 | s66 => DD x7 x5 | s67 => DD x7 x6 | s68 => DD x7 x7 | s69 => DD x7 x8 | s70 => DD x7 x9 | s71 => DD x7 x10 | s72 => DD x7 x11 | s73 => DD x7 x12 | s74 => DD x7 x13 | s75 => DD x7 x14 | s76 => DD x7 x15 | s77 => DD x7 x16 | s78 => DD x7 x17 | s79 => DD x7 x18 | s80 => DD x7 x19 | s81 => DD x7 x20 | s82 => DD x7 x21 | s83 => DD x7 x22 | s84 => DD x7 x23 | s85 => DD x7 x24 | s86 => DD x7 x25 | s87 => DD x7 x26 | s88 => DD x7 x27 | s89 => DD x7 x28 | s90 => DD x7 x29 | s91 => DD x7 x30 | s92 => DD x7 x31 | s93 => DD x7 x32 | s94 => DD x7 x33 | s95 => DD x7 x34 | s96 => DD x7 x35 | s97 => DD x7 x36 | s98 => DD x7 x37 | s99 => DD x7 x38 | s100 => DD x7 x39 | s101 => DD x7 x40 | s102 => DD x7 x41 | s103 => DD x7 x42 | s104 => DD x7 x43 | s105 => DD x7 x44 | s106 => DD x7 x45 | s107 => DD x7 x46 | s108 => DD x7 x47 | s109 => DD x7 x48 | s110 => DD x7 x49 | s111 => DD x7 x50 | s112 => DD x7 x51 | s113 => DD x7 x52 | s114 => DD x7 x53 | s115 => DD x7 x54 | s116 => DD x7 x55 | s117 => DD x7 x56 | s118 => DD x7 x57 | s119 => DD x7 x58 | s120 => DD x7 x59 | s121 => DD x7 x60 | s122 => DD x7 x61 | s123 => DD x7 x62 | s124 => DD x7 x63 | s125 => DD x8 x0 | s126 => DD x8 x1 end.
Definition m390 (c : sum2) : dd := match c with s0 => DD x6 x6 | s1 => DD x6 x7 | s2 => DD x6 x8 | s3 => DD x6 x9 | s4 => DD x6 x10 | s5 => DD x6 x11 | s6 => DD x6 x12 | s7 => DD x6 x13 | s8 => DD x6 x14 | s9 => DD x6 x15 | s10 => DD x6 x16 | s11 => DD x6 x17 | s12 => DD x6 x18 | s13 => DD x6 x19 | s14 => DD x6 x20 | s15 => DD x6 x21 | s16 => DD x6 x22 | s17 => DD x6 x23 | s18 => DD x6 x24 | s19 => DD x6 x25 | s20 => DD x6 x26 | s21 => DD x6 x27 | s22 => DD x6 x28 | s23 => DD x6 x29 | s24 => DD x6 x30 | s25 => DD x6 x31 | s26 => DD x6 x32 | s27 => DD x6 x33 | s28 => DD x6 x34 | s29 => DD x6 x35 | s30 => DD x6 x36 | s31 => DD x6 x37 | s32 => DD x6 x38 | s33 => DD x6 x39 | s34 => DD x6 x40 | s35 => DD x6 x41 | s36 => DD x6 x42 | s37 => DD x6 x43 | s38 => DD x6 x44 | s39 => DD x6 x45 | s40 => DD x6 x46 | s41 => DD x6 x47 | s42 => DD x6 x48 | s43 => DD x6 x49 | s44 => DD x6 x50 | s45 => DD x6 x51 | s46 => DD x6 x52 | s47 => DD x6 x53 | s48 => DD x6 x54 | s49 => DD x6 x55 | s50 => DD x6 x56 | s51 => DD x6 x57 | s52 => DD x6 x58 | s53 => DD x6 x59 | s54 => DD x6 x60 | s55 => DD x6 x61 | s56 => DD x6 x62 | s57 => DD x6 x63 | s58 => DD x7 x0 | s59 => DD x7 x1 | s60 => DD x7 x2 | s61 => DD x7 x3 | s62 => DD x7 x4 | s63 => DD x7 x5 | s64 => DD x7 x6 | s65 => DD x7 x7 | s66 => DD x7 x8 | s67 => DD x7 x9 | s68 => DD x7 x10 | s69 => DD x7 x11 | s70 => DD x7 x12 | s71 => DD x7 x13 | s72 => DD x7 x14 | s73 => DD x7 x15 | s74 => DD x7 x16 | s75 => DD x7 x17 | s76 => DD x7 x18 | s77 => DD x7 x19 | s78 => DD x7 x20 | s79 => DD x7 x21 | s80 => DD x7 x22 | s81 => DD x7 x23 | s82 => DD x7 x24 | s83 => DD x7 x25 | s84 => DD x7 x26 | s85 => DD x7 x27 | s86 => DD x7 x28 | s87 => DD x7 x29 | s88 => DD x7 x30 | s89 => DD x7 x31 | s90 => DD x7 x32 | s91 => DD x7 x33 | s92 => DD x7 x34 | s93 => DD x7 x35 | s94 => DD x7 x36 | s95 => DD x7 x37 | s96 => DD x7 x38 | s97 => DD x7 x39 | s98 => DD x7 x40 | s99 => DD x7 x41 | s100 => DD x7 x42 | s101 => DD x7 x43 | s102 => DD x7 x44 | s103 => DD x7 x45 | s104 => DD x7 x46 | s105 => DD x7 x47 | s106 => DD x7 x48 | s107 => DD x7 x49 | s108 => DD x7 x50 | s109 => DD x7 x51 | s110 => DD x7 x52 | s111 => DD x7 x53 | s112 => DD x7 x54 | s113 => DD x7 x55 | s114 => DD x7 x56 | s115 => DD x7 x57 | s116 => DD x7 x58 | s117 => DD x7 x59 | s118 => DD x7 x60 | s119 => DD x7 x61 | s120 => DD x7 x62 | s121 => DD x7 x63 | s122 => DD x8 x0 | s123 => DD x8 x1 | s124 => DD x8 x2 | s125 => DD x8 x3 | s126 => DD x8 x4 end.
Definition m391 (c : sum2) : dd := match c with s0 => DD x6 x7 | s1 => DD x6 x8 | s2 => DD x6 x9 | s3 => DD x6 x10 | s4 => DD x6 x11 | s5 => DD x6 x12 | s6 => DD x6 x13 | s7 => DD x6 x14 | s8 => DD x6 x15 | s9 => DD x6 x16 | s10 => DD x6 x17 | s11 => DD x6 x18 | s12 => DD x6 x19 | s13 => DD x6 x20 | s14 => DD x6 x21 | s15 => DD x6 x22 | s16 => DD x6 x23 | s17 => DD x6 x24 | s18 => DD x6 x25 | s19 => DD x6 x26 | s20 => DD x6 x27 | s21 => DD x6 x28 | s22 => DD x6 x29 | s23 => DD x6 x30 | s24 => DD x6 x31 | s25 => DD x6 x32 | s26 => DD x6 x33 | s27 => DD x6 x34 | s28 => DD x6 x35 | s29 => DD x6 x36 | s30 => DD x6 x37 | s31 => DD x6 x38 | s32 => DD x6 x39 | s33 => DD x6 x40 | s34 => DD x6 x41 | s35 => DD x6 x42 | s36 => DD x6 x43 | s37 => DD x6 x44 | s38 => DD x6 x45 | s39 => DD x6 x46 | s40 => DD x6 x47 | s41 => DD x6 x48 | s42 => DD x6 x49 | s43 => DD x6 x50 | s44 => DD x6 x51 | s45 => DD x6 x52 | s46 => DD x6 x53 | s47 => DD x6 x54 | s48 => DD x6 x55 | s49 => DD x6 x56 | s50 => DD x6 x57 | s51 => DD x6 x58 | s52 => DD x6 x59 | s53 => DD x6 x60 | s54 => DD x6 x61 | s55 => DD x6 x62 | s56 => DD x6 x63 | s57 => DD x7 x0 | s58 => DD x7 x1 | s59 => DD x7 x2 | s60 => DD x7 x3 | s61 => DD x7 x4 | s62 => DD x7 x5 | s63 => DD x7 x6 | s64 => DD x7 x7 | s65 => DD x7 x8 | s66 => DD x7 x9 | s67 => DD x7 x10 | s68 => DD x7 x11 | s69 => DD x7 x12 | s70 => DD x7 x13 | s71 => DD x7 x14 | s72 => DD x7 x15 | s73 => DD x7 x16 | s74 => DD x7 x17 | s75 => DD x7 x18 | s76 => DD x7 x19 | s77 => DD x7 x20 | s78 => DD x7 x21 | s79 => DD x7 x22 | s80 => DD x7 x23 | s81 => DD x7 x24 | s82 => DD x7 x25 | s83 => DD x7 x26 | s84 => DD x7 x27 | s85 => DD x7 x28 | s86 => DD x7 x29 | s87 => DD x7 x30 | s88 => DD x7 x31 | s89 => DD x7 x32 | s90 => DD x7 x33 | s91 => DD x7 x34 | s92 => DD x7 x35 | s93 => DD x7 x36 | s94 => DD x7 x37 | s95 => DD x7 x38 | s96 => DD x7 x39 | s97 => DD x7 x40 | s98 => DD x7 x41 | s99 => DD x7 x42 | s100 => DD x7 x43 | s101 => DD x7 x44 | s102 => DD x7 x45 | s103 => DD x7 x46 | s104 => DD x7 x47 | s105 => DD x7 x48 | s106 => DD x7 x49 | s107 => DD x7 x50 | s108 => DD x7 x51 | s109 => DD x7 x52 | s110 => DD x7 x53 | s111 => DD x7 x54 | s112 => DD x7 x55 | s113 => DD x7 x56 | s114 => DD x7 x57 | s115 => DD x7 x58 | s116 => DD x7 x59 | s117 => DD x7 x60 | s118 => DD x7 x61 | s119 => DD x7 x62 | s120 => DD x7 x63 | s121 => DD x8 x0 | s122 => DD x8 x1 | s123 => DD x8 x2 | s124 => DD x8 x3 | s125 => DD x8 x4 | s126 => DD x8 x5 end.
Definition m392 (c : sum2) : dd := match c with s0 => DD x6 x8 | s1 => DD x6 x9 | s2 => DD x6 x10 | s3 => DD x6 x11 | s4 => DD x6 x12 | s5 => DD x6 x13 | s6 => DD x6 x14 | s7 => DD x6 x15 | s8 => DD x6 x16 | s9 => DD x6 x17 | s10 => DD x6 x18 | s11 => DD x6 x19 | s12 => DD x6 x20 | s13 => DD x6 x21 | s14 => DD x6 x22 | s15 => DD x6 x23 | s16 => DD x6 x24 | s17 => DD x6 x25 | s18 => DD x6 x26 | s19 => DD x6 x27 | s20 => DD x6 x28 | s21 => DD x6 x29 | s22 => DD x6 x30 | s23 => DD x6 x31 | s24 => DD x6 x32 | s25 => DD x6 x33 | s26 => DD x6 x34 | s27 => DD x6 x35 | s28 => DD x6 x36 | s29 => DD x6 x37 | s30 => DD x6 x38 | s31 => DD x6 x39 | s32 => DD x6 x40 | s33 => DD x6 x41 | s34 => DD x6 x42 | s35 => DD x6 x43 | s36 => DD x6 x44 | s37 => DD x6 x45 | s38 => DD x6 x46 | s39 => DD x6 x47 | s40 => DD x6 x48 | s41 => DD x6 x49 | s42 => DD x6 x50 | s43 => DD x6 x51 | s44 => DD x6 x52 | s45 => DD x6 x53 | s46 => DD x6 x54 | s47 => DD x6 x55 | s48 => DD x6 x56 | s49 => DD x6 x57 | s50 => DD x6 x58 | s51 => DD x6 x59 | s52 => DD x6 x60 | s53 => DD x6 x61 | s54 => DD x6 x62 | s55 => DD x6 x63 | s56 => DD x7 x0 | s57 => DD x7 x1 | s58 => DD x7 x2 | s59 => DD x7 x3 | s60 => DD x7 x4 | s61 => DD x7 x5 | s62 => DD x7 x6 | s63 => DD x7 x7 | s64 => DD x7 x8 | s65 => DD x7 x9 | s66 => DD x7 x10 | s67 => DD x7 x11 | s68 => DD x7 x12 | s69 => DD x7 x13 | s70 => DD x7 x14 | s71 => DD x7 x15 | s72 => DD x7 x16 | s73 => DD x7 x17 | s74 => DD x7 x18 | s75 => DD x7 x19 | s76 => DD x7 x20 | s77 => DD x7 x21 | s78 => DD x7 x22 | s79 => DD x7 x23 | s80 => DD x7 x24 | s81 => DD x7 x25 | s82 => DD x7 x26 | s83 => DD x7 x27 | s84 => DD x7 x28 | s85 => DD x7 x29 | s86 => DD x7 x30 | s87 => DD x7 x31 | s88 => DD x7 x32 | s89 => DD x7 x33 | s90 => DD x7 x34 | s91 => DD x7 x35 | s92 => DD x7 x36 | s93 => DD x7 x37 | s94 => DD x7 x38 | s95 => DD x7 x39 | s96 => DD x7 x40 | s97 => DD x7 x41 | s98 => DD x7 x42 | s99 => DD x7 x43 | s100 => DD x7 x44 | s101 => DD x7 x45 | s102 => DD x7 x46 | s103 => DD x7 x47 | s104 => DD x7 x48 | s105 => DD x7 x49 | s106 => DD x7 x50 | s107 => DD x7 x51 | s108 => DD x7 x52 | s109 => DD x7 x53 | s110 => DD x7 x54 | s111 => DD x7 x55 | s112 => DD x7 x56 | s113 => DD x7 x57 | s114 => DD x7 x58 | s115 => DD x7 x59 | s116 => DD x7 x60 | s117 => DD x7 x61 | s118 => DD x7 x62 | s119 => DD x7 x63 | s120 => DD x8 x0 | s121 => DD x8 x1 | s122 => DD x8 x2 | s123 => DD x8 x3 | s124 => DD x8 x4 | s125 => DD x8 x5 | s126 => DD x8 x6 end.
Definition m396 (c : sum2) : dd := match c with s0 => DD x6 x12 | s1 => DD x6 x13 | s2 => DD x6 x14 | s3 => DD x6 x15 | s4 => DD x6 x16 | s5 => DD x6 x17 | s6 => DD x6 x18 | s7 => DD x6 x19 | s8 => DD x6 x20 | s9 => DD x6 x21 | s10 => DD x6 x22 | s11 => DD x6 x23 | s12 => DD x6 x24 | s13 => DD x6 x25 | s14 => DD x6 x26 | s15 => DD x6 x27 | s16 => DD x6 x28 | s17 => DD x6 x29 | s18 => DD x6 x30 | s19 => DD x6 x31 | s20 => DD x6 x32 | s21 => DD x6 x33 | s22 => DD x6 x34 | s23 => DD x6 x35 | s24 => DD x6 x36 | s25 => DD x6 x37 | s26 => DD x6 x38 | s27 => DD x6 x39 | s28 => DD x6 x40 | s29 => DD x6 x41 | s30 => DD x6 x42 | s31 => DD x6 x43 | s32 => DD x6 x44 | s33 => DD x6 x45 | s34 => DD x6 x46 | s35 => DD x6 x47 | s36 => DD x6 x48 | s37 => DD x6 x49 | s38 => DD x6 x50 | s39 => DD x6 x51 | s40 => DD x6 x52 | s41 => DD x6 x53 | s42 => DD x6 x54 | s43 => DD x6 x55 | s44 => DD x6 x56 | s45 => DD x6 x57 | s46 => DD x6 x58 | s47 => DD x6 x59 | s48 => DD x6 x60 | s49 => DD x6 x61 | s50 => DD x6 x62 | s51 => DD x6 x63 | s52 => DD x7 x0 | s53 => DD x7 x1 | s54 => DD x7 x2 | s55 => DD x7 x3 | s56 => DD x7 x4 | s57 => DD x7 x5 | s58 => DD x7 x6 | s59 => DD x7 x7 | s60 => DD x7 x8 | s61 => DD x7 x9 | s62 => DD x7 x10 | s63 => DD x7 x11 | s64 => DD x7 x12 | s65 => DD x7 x13 | s66 => DD x7 x14 | s67 => DD x7 x15 | s68 => DD x7 x16 | s69 => DD x7 x17 | s70 => DD x7 x18 | s71 => DD x7 x19 | s72 => DD x7 x20 | s73 => DD x7 x21 | s74 => DD x7 x22 | s75 => DD x7 x23 | s76 => DD x7 x24 | s77 => DD x7 x25 | s78 => DD x7 x26 | s79 => DD x7 x27 | s80 => DD x7 x28 | s81 => DD x7 x29 | s82 => DD x7 x30 | s83 => DD x7 x31 | s84 => DD x7 x32 | s85 => DD x7 x33 | s86 => DD x7 x34 | s87 => DD x7 x35 | s88 => DD x7 x36 | s89 => DD x7 x37 | s90 => DD x7 x38 | s91 => DD x7 x39 | s92 => DD x7 x40 | s93 => DD x7 x41 | s94 => DD x7 x42 | s95 => DD x7 x43 | s96 => DD x7 x44 | s97 => DD x7 x45 | s98 => DD x7 x46 | s99 => DD x7 x47 | s100 => DD x7 x48 | s101 => DD x7 x49 | s102 => DD x7 x50 | s103 => DD x7 x51 | s104 => DD x7 x52 | s105 => DD x7 x53 | s106 => DD x7 x54 | s107 => DD x7 x55 | s108 => DD x7 x56 | s109 => DD x7 x57 | s110 => DD x7 x58 | s111 => DD x7 x59 | s112 => DD x7 x60 | s113 => DD x7 x61 | s114 => DD x7 x62 | s115 => DD x7 x63 | s116 => DD x8 x0 | s117 => DD x8 x1 | s118 => DD x8 x2 | s119 => DD x8 x3 | s120 => DD x8 x4 | s121 => DD x8 x5 | s122 => DD x8 x6 | s123 => DD x8 x7 | s124 => DD x8 x8 | s125 => DD x8 x9 | s126 => DD x8 x10 end.
Definition m399 (c : sum2) : dd := match c with s0 => DD x6 x15 | s1 => DD x6 x16 | s2 => DD x6 x17 | s3 => DD x6 x18 | s4 => DD x6 x19 | s5 => DD x6 x20 | s6 => DD x6 x21 | s7 => DD x6 x22 | s8 => DD x6 x23 | s9 => DD x6 x24 | s10 => DD x6 x25 | s11 => DD x6 x26 | s12 => DD x6 x27 | s13 => DD x6 x28 | s14 => DD x6 x29 | s15 => DD x6 x30 | s16 => DD x6 x31 | s17 => DD x6 x32 | s18 => DD x6 x33 | s19 => DD x6 x34 | s20 => DD x6 x35 | s21 => DD x6 x36 | s22 => DD x6 x37 | s23 => DD x6 x38 | s24 => DD x6 x39 | s25 => DD x6 x40 | s26 => DD x6 x41 | s27 => DD x6 x42 | s28 => DD x6 x43 | s29 => DD x6 x44 | s30 => DD x6 x45 | s31 => DD x6 x46 | s32 => DD x6 x47 | s33 => DD x6 x48 | s34 => DD x6 x49 | s35 => DD x6 x50 | s36 => DD x6 x51 | s37 => DD x6 x52 | s38 => DD x6 x53 | s39 => DD x6 x54 | s40 => DD x6 x55 | s41 => DD x6 x56 | s42 => DD x6 x57 | s43 => DD x6 x58 | s44 => DD x6 x59 | s45 => DD x6 x60 | s46 => DD x6 x61 | s47 => DD x6 x62 | s48 => DD x6 x63 | s49 => DD x7 x0 | s50 => DD x7 x1 | s51 => DD x7 x2 | s52 => DD x7 x3 | s53 => DD x7 x4 | s54 => DD x7 x5 | s55 => DD x7 x6 | s56 => DD x7 x7 | s57 => DD x7 x8 | s58 => DD x7 x9 | s59 => DD x7 x10 | s60 => DD x7 x11 | s61 => DD x7 x12 | s62 => DD x7 x13 | s63 => DD x7 x14 | s64 => DD x7 x15 | s65 => DD x7 x16 | s66 => DD x7 x17 | s67 => DD x7 x18 | s68 => DD x7 x19 | s69 => DD x7 x20 | s70 => DD x7 x21 | s71 => DD x7 x22 | s72 => DD x7 x23 | s73 => DD x7 x24 | s74 => DD x7 x25 | s75 => DD x7 x26 | s76 => DD x7 x27 | s77 => DD x7 x28 | s78 => DD x7 x29 | s79 => DD x7 x30 | s80 => DD x7 x31 | s81 => DD x7 x32 | s82 => DD x7 x33 | s83 => DD x7 x34 | s84 => DD x7 x35 | s85 => DD x7 x36 | s86 => DD x7 x37 | s87 => DD x7 x38 | s88 => DD x7 x39 | s89 => DD x7 x40 | s90 => DD x7 x41 | s91 => DD x7 x42 | s92 => DD x7 x43 | s93 => DD x7 x44 | s94 => DD x7 x45 | s95 => DD x7 x46 | s96 => DD x7 x47 | s97 => DD x7 x48 | s98 => DD x7 x49 | s99 => DD x7 x50 | s100 => DD x7 x51 | s101 => DD x7 x52 | s102 => DD x7 x53 | s103 => DD x7 x54 | s104 => DD x7 x55 | s105 => DD x7 x56 | s106 => DD x7 x57 | s107 => DD x7 x58 | s108 => DD x7 x59 | s109 => DD x7 x60 | s110 => DD x7 x61 | s111 => DD x7 x62 | s112 => DD x7 x63 | s113 => DD x8 x0 | s114 => DD x8 x1 | s115 => DD x8 x2 | s116 => DD x8 x3 | s117 => DD x8 x4 | s118 => DD x8 x5 | s119 => DD x8 x6 | s120 => DD x8 x7 | s121 => DD x8 x8 | s122 => DD x8 x9 | s123 => DD x8 x10 | s124 => DD x8 x11 | s125 => DD x8 x12 | s126 => DD x8 x13 end.
Definition m400 (c : sum2) : dd := match c with s0 => DD x6 x16 | s1 => DD x6 x17 | s2 => DD x6 x18 | s3 => DD x6 x19 | s4 => DD x6 x20 | s5 => DD x6 x21 | s6 => DD x6 x22 | s7 => DD x6 x23 | s8 => DD x6 x24 | s9 => DD x6 x25 | s10 => DD x6 x26 | s11 => DD x6 x27 | s12 => DD x6 x28 | s13 => DD x6 x29 | s14 => DD x6 x30 | s15 => DD x6 x31 | s16 => DD x6 x32 | s17 => DD x6 x33 | s18 => DD x6 x34 | s19 => DD x6 x35 | s20 => DD x6 x36 | s21 => DD x6 x37 | s22 => DD x6 x38 | s23 => DD x6 x39 | s24 => DD x6 x40 | s25 => DD x6 x41 | s26 => DD x6 x42 | s27 => DD x6 x43 | s28 => DD x6 x44 | s29 => DD x6 x45 | s30 => DD x6 x46 | s31 => DD x6 x47 | s32 => DD x6 x48 | s33 => DD x6 x49 | s34 => DD x6 x50 | s35 => DD x6 x51 | s36 => DD x6 x52 | s37 => DD x6 x53 | s38 => DD x6 x54 | s39 => DD x6 x55 | s40 => DD x6 x56 | s41 => DD x6 x57 | s42 => DD x6 x58 | s43 => DD x6 x59 | s44 => DD x6 x60 | s45 => DD x6 x61 | s46 => DD x6 x62 | s47 => DD x6 x63 | s48 => DD x7 x0 | s49 => DD x7 x1 | s50 => DD x7 x2 | s51 => DD x7 x3 | s52 => DD x7 x4 | s53 => DD x7 x5 | s54 => DD x7 x6 | s55 => DD x7 x7 | s56 => DD x7 x8 | s57 => DD x7 x9 | s58 => DD x7 x10 | s59 => DD x7 x11 | s60 => DD x7 x12 | s61 => DD x7 x13 | s62 => DD x7 x14 | s63 => DD x7 x15 | s64 => DD x7 x16 | s65 => DD x7 x17 | s66 => DD x7 x18 | s67 => DD x7 x19 | s68 => DD x7 x20 | s69 => DD x7 x21 | s70 => DD x7 x22 | s71 => DD x7 x23 | s72 => DD x7 x24 | s73 => DD x7 x25 | s74 => DD x7 x26 | s75 => DD x7 x27 | s76 => DD x7 x28 | s77 => DD x7 x29 | s78 => DD x7 x30 | s79 => DD x7 x31 | s80 => DD x7 x32 | s81 => DD x7 x33 | s82 => DD x7 x34 | s83 => DD x7 x35 | s84 => DD x7 x36 | s85 => DD x7 x37 | s86 => DD x7 x38 | s87 => DD x7 x39 | s88 => DD x7 x40 | s89 => DD x7 x41 | s90 => DD x7 x42 | s91 => DD x7 x43 | s92 => DD x7 x44 | s93 => DD x7 x45 | s94 => DD x7 x46 | s95 => DD x7 x47 | s96 => DD x7 x48 | s97 => DD x7 x49 | s98 => DD x7 x50 | s99 => DD x7 x51 | s100 => DD x7 x52 | s101 => DD x7 x53 | s102 => DD x7 x54 | s103 => DD x7 x55 | s104 => DD x7 x56 | s105 => DD x7 x57 | s106 => DD x7 x58 | s107 => DD x7 x59 | s108 => DD x7 x60 | s109 => DD x7 x61 | s110 => DD x7 x62 | s111 => DD x7 x63 | s112 => DD x8 x0 | s113 => DD x8 x1 | s114 => DD x8 x2 | s115 => DD x8 x3 | s116 => DD x8 x4 | s117 => DD x8 x5 | s118 => DD x8 x6 | s119 => DD x8 x7 | s120 => DD x8 x8 | s121 => DD x8 x9 | s122 => DD x8 x10 | s123 => DD x8 x11 | s124 => DD x8 x12 | s125 => DD x8 x13 | s126 => DD x8 x14 end.
Definition m403 (c : sum2) : dd := match c with s0 => DD x6 x19 | s1 => DD x6 x20 | s2 => DD x6 x21 | s3 => DD x6 x22 | s4 => DD x6 x23 | s5 => DD x6 x24 | s6 => DD x6 x25 | s7 => DD x6 x26 | s8 => DD x6 x27 | s9 => DD x6 x28 | s10 => DD x6 x29 | s11 => DD x6 x30 | s12 => DD x6 x31 | s13 => DD x6 x32 | s14 => DD x6 x33 | s15 => DD x6 x34 | s16 => DD x6 x35 | s17 => DD x6 x36 | s18 => DD x6 x37 | s19 => DD x6 x38 | s20 => DD x6 x39 | s21 => DD x6 x40 | s22 => DD x6 x41 | s23 => DD x6 x42 | s24 => DD x6 x43 | s25 => DD x6 x44 | s26 => DD x6 x45 | s27 => DD x6 x46 | s28 => DD x6 x47 | s29 => DD x6 x48 | s30 => DD x6 x49 | s31 => DD x6 x50 | s32 => DD x6 x51 | s33 => DD x6 x52 | s34 => DD x6 x53 | s35 => DD x6 x54 | s36 => DD x6 x55 | s37 => DD x6 x56 | s38 => DD x6 x57 | s39 => DD x6 x58 | s40 => DD x6 x59 | s41 => DD x6 x60 | s42 => DD x6 x61 | s43 => DD x6 x62 | s44 => DD x6 x63 | s45 => DD x7 x0 | s46 => DD x7 x1 | s47 => DD x7 x2 | s48 => DD x7 x3 | s49 => DD x7 x4 | s50 => DD x7 x5 | s51 => DD x7 x6 | s52 => DD x7 x7 | s53 => DD x7 x8 | s54 => DD x7 x9 | s55 => DD x7 x10 | s56 => DD x7 x11 | s57 => DD x7 x12 | s58 => DD x7 x13 | s59 => DD x7 x14 | s60 => DD x7 x15 | s61 => DD x7 x16 | s62 => DD x7 x17 | s63 => DD x7 x18 | s64 => DD x7 x19 | s65 => DD x7 x20 | s66 => DD x7 x21 | s67 => DD x7 x22 | s68 => DD x7 x23 | s69 => DD x7 x24 | s70 => DD x7 x25 | s71 => DD x7 x26 | s72 => DD x7 x27 | s73 => DD x7 x28 | s74 => DD x7 x29 | s75 => DD x7 x30 | s76 => DD x7 x31 | s77 => DD x7 x32 | s78 => DD x7 x33 | s79 => DD x7 x34 | s80 => DD x7 x35 | s81 => DD x7 x36 | s82 => DD x7 x37 | s83 => DD x7 x38 | s84 => DD x7 x39 | s85 => DD x7 x40 | s86 => DD x7 x41 | s87 => DD x7 x42 | s88 => DD x7 x43 | s89 => DD x7 x44 | s90 => DD x7 x45 | s91 => DD x7 x46 | s92 => DD x7 x47 | s93 => DD x7 x48 | s94 => DD x7 x49 | s95 => DD x7 x50 | s96 => DD x7 x51 | s97 => DD x7 x52 | s98 => DD x7 x53 | s99 => DD x7 x54 | s100 => DD x7 x55 | s101 => DD x7 x56 | s102 => DD x7 x57 | s103 => DD x7 x58 | s104 => DD x7 x59 | s105 => DD x7 x60 | s106 => DD x7 x61 | s107 => DD x7 x62 | s108 => DD x7 x63 | s109 => DD x8 x0 | s110 => DD x8 x1 | s111 => DD x8 x2 | s112 => DD x8 x3 | s113 => DD x8 x4 | s114 => DD x8 x5 | s115 => DD x8 x6 | s116 => DD x8 x7 | s117 => DD x8 x8 | s118 => DD x8 x9 | s119 => DD x8 x10 | s120 => DD x8 x11 | s121 => DD x8 x12 | s122 => DD x8 x13 | s123 => DD x8 x14 | s124 => DD x8 x15 | s125 => DD x8 x16 | s126 => DD x8 x17 end.
Definition m405 (c : sum2) : dd := match c with s0 => DD x6 x21 | s1 => DD x6 x22 | s2 => DD x6 x23 | s3 => DD x6 x24 | s4 => DD x6 x25 | s5 => DD x6 x26 | s6 => DD x6 x27 | s7 => DD x6 x28 | s8 => DD x6 x29 | s9 => DD x6 x30 | s10 => DD x6 x31 | s11 => DD x6 x32 | s12 => DD x6 x33 | s13 => DD x6 x34 | s14 => DD x6 x35 | s15 => DD x6 x36 | s16 => DD x6 x37 | s17 => DD x6 x38 | s18 => DD x6 x39 | s19 => DD x6 x40 | s20 => DD x6 x41 | s21 => DD x6 x42 | s22 => DD x6 x43 | s23 => DD x6 x44 | s24 => DD x6 x45 | s25 => DD x6 x46 | s26 => DD x6 x47 | s27 => DD x6 x48 | s28 => DD x6 x49 | s29 => DD x6 x50 | s30 => DD x6 x51 | s31 => DD x6 x52 | s32 => DD x6 x53 | s33 => DD x6 x54 | s34 => DD x6 x55 | s35 => DD x6 x56 | s36 => DD x6 x57 | s37 => DD x6 x58 | s38 => DD x6 x59 | s39 => DD x6 x60 | s40 => DD x6 x61 | s41 => DD x6 x62 | s42 => DD x6 x63 | s43 => DD x7 x0 | s44 => DD x7 x1 | s45 => DD x7 x2 | s46 => DD x7 x3 | s47 => DD x7 x4 | s48 => DD x7 x5 | s49 => DD x7 x6 | s50 => DD x7 x7 | s51 => DD x7 x8 | s52 => DD x7 x9 | s53 => DD x7 x10 | s54 => DD x7 x11 | s55 => DD x7 x12 | s56 => DD x7 x13 | s57 => DD x7 x14 | s58 => DD x7 x15 | s59 => DD x7 x16 | s60 => DD x7 x17 | s61 => DD x7 x18 | s62 => DD x7 x19 | s63 => DD x7 x20 | s64 => DD x7 x21 | s65 => DD x7 x22 | s66 => DD x7 x23 | s67 => DD x7 x24 | s68 => DD x7 x25 | s69 => DD x7 x26 | s70 => DD x7 x27 | s71 => DD x7 x28 | s72 => DD x7 x29 | s73 => DD x7 x30 | s74 => DD x7 x31 | s75 => DD x7 x32 | s76 => DD x7 x33 | s77 => DD x7 x34 | s78 => DD x7 x35 | s79 => DD x7 x36 | s80 => DD x7 x37 | s81 => DD x7 x38 | s82 => DD x7 x39 | s83 => DD x7 x40 | s84 => DD x7 x41 | s85 => DD x7 x42 | s86 => DD x7 x43 | s87 => DD x7 x44 | s88 => DD x7 x45 | s89 => DD x7 x46 | s90 => DD x7 x47 | s91 => DD x7 x48 | s92 => DD x7 x49 | s93 => DD x7 x50 | s94 => DD x7 x51 | s95 => DD x7 x52 | s96 => DD x7 x53 | s97 => DD x7 x54 | s98 => DD x7 x55 | s99 => DD x7 x56 | s100 => DD x7 x57 | s101 => DD x7 x58 | s102 => DD x7 x59 | s103 => DD x7 x60 | s104 => DD x7 x61 | s105 => DD x7 x62 | s106 => DD x7 x63 | s107 => DD x8 x0 | s108 => DD x8 x1 | s109 => DD x8 x2 | s110 => DD x8 x3 | s111 => DD x8 x4 | s112 => DD x8 x5 | s113 => DD x8 x6 | s114 => DD x8 x7 | s115 => DD x8 x8 | s116 => DD x8 x9 | s117 => DD x8 x10 | s118 => DD x8 x11 | s119 => DD x8 x12 | s120 => DD x8 x13 | s121 => DD x8 x14 | s122 => DD x8 x15 | s123 => DD x8 x16 | s124 => DD x8 x17 | s125 => DD x8 x18 | s126 => DD x8 x19 end.
Definition m406 (c : sum2) : dd := match c with s0 => DD x6 x22 | s1 => DD x6 x23 | s2 => DD x6 x24 | s3 => DD x6 x25 | s4 => DD x6 x26 | s5 => DD x6 x27 | s6 => DD x6 x28 | s7 => DD x6 x29 | s8 => DD x6 x30 | s9 => DD x6 x31 | s10 => DD x6 x32 | s11 => DD x6 x33 | s12 => DD x6 x34 | s13 => DD x6 x35 | s14 => DD x6 x36 | s15 => DD x6 x37 | s16 => DD x6 x38 | s17 => DD x6 x39 | s18 => DD x6 x40 | s19 => DD x6 x41 | s20 => DD x6 x42 | s21 => DD x6 x43 | s22 => DD x6 x44 | s23 => DD x6 x45 | s24 => DD x6 x46 | s25 => DD x6 x47 | s26 => DD x6 x48 | s27 => DD x6 x49 | s28 => DD x6 x50 | s29 => DD x6 x51 | s30 => DD x6 x52 | s31 => DD x6 x53 | s32 => DD x6 x54 | s33 => DD x6 x55 | s34 => DD x6 x56 | s35 => DD x6 x57 | s36 => DD x6 x58 | s37 => DD x6 x59 | s38 => DD x6 x60 | s39 => DD x6 x61 | s40 => DD x6 x62 | s41 => DD x6 x63 | s42 => DD x7 x0 | s43 => DD x7 x1 | s44 => DD x7 x2 | s45 => DD x7 x3 | s46 => DD x7 x4 | s47 => DD x7 x5 | s48 => DD x7 x6 | s49 => DD x7 x7 | s50 => DD x7 x8 | s51 => DD x7 x9 | s52 => DD x7 x10 | s53 => DD x7 x11 | s54 => DD x7 x12 | s55 => DD x7 x13 | s56 => DD x7 x14 | s57 => DD x7 x15 | s58 => DD x7 x16 | s59 => DD x7 x17 | s60 => DD x7 x18 | s61 => DD x7 x19 | s62 => DD x7 x20 | s63 => DD x7 x21 | s64 => DD x7 x22 | s65 => DD x7 x23 | s66 => DD x7 x24 | s67 => DD x7 x25 | s68 => DD x7 x26 | s69 => DD x7 x27 | s70 => DD x7 x28 | s71 => DD x7 x29 | s72 => DD x7 x30 | s73 => DD x7 x31 | s74 => DD x7 x32 | s75 => DD x7 x33 | s76 => DD x7 x34 | s77 => DD x7 x35 | s78 => DD x7 x36 | s79 => DD x7 x37 | s80 => DD x7 x38 | s81 => DD x7 x39 | s82 => DD x7 x40 | s83 => DD x7 x41 | s84 => DD x7 x42 | s85 => DD x7 x43 | s86 => DD x7 x44 | s87 => DD x7 x45 | s88 => DD x7 x46 | s89 => DD x7 x47 | s90 => DD x7 x48 | s91 => DD x7 x49 | s92 => DD x7 x50 | s93 => DD x7 x51 | s94 => DD x7 x52 | s95 => DD x7 x53 | s96 => DD x7 x54 | s97 => DD x7 x55 | s98 => DD x7 x56 | s99 => DD x7 x57 | s100 => DD x7 x58 | s101 => DD x7 x59 | s102 => DD x7 x60 | s103 => DD x7 x61 | s104 => DD x7 x62 | s105 => DD x7 x63 | s106 => DD x8 x0 | s107 => DD x8 x1 | s108 => DD x8 x2 | s109 => DD x8 x3 | s110 => DD x8 x4 | s111 => DD x8 x5 | s112 => DD x8 x6 | s113 => DD x8 x7 | s114 => DD x8 x8 | s115 => DD x8 x9 | s116 => DD x8 x10 | s117 => DD x8 x11 | s118 => DD x8 x12 | s119 => DD x8 x13 | s120 => DD x8 x14 | s121 => DD x8 x15 | s122 => DD x8 x16 | s123 => DD x8 x17 | s124 => DD x8 x18 | s125 => DD x8 x19 | s126 => DD x8 x20 end.
Definition m407 (c : sum2) : dd := match c with s0 => DD x6 x23 | s1 => DD x6 x24 | s2 => DD x6 x25 | s3 => DD x6 x26 | s4 => DD x6 x27 | s5 => DD x6 x28 | s6 => DD x6 x29 | s7 => DD x6 x30 | s8 => DD x6 x31 | s9 => DD x6 x32 | s10 => DD x6 x33 | s11 => DD x6 x34 | s12 => DD x6 x35 | s13 => DD x6 x36 | s14 => DD x6 x37 | s15 => DD x6 x38 | s16 => DD x6 x39 | s17 => DD x6 x40 | s18 => DD x6 x41 | s19 => DD x6 x42 | s20 => DD x6 x43 | s21 => DD x6 x44 | s22 => DD x6 x45 | s23 => DD x6 x46 | s24 => DD x6 x47 | s25 => DD x6 x48 | s26 => DD x6 x49 | s27 => DD x6 x50 | s28 => DD x6 x51 | s29 => DD x6 x52 | s30 => DD x6 x53 | s31 => DD x6 x54 | s32 => DD x6 x55 | s33 => DD x6 x56 | s34 => DD x6 x57 | s35 => DD x6 x58 | s36 => DD x6 x59 | s37 => DD x6 x60 | s38 => DD x6 x61 | s39 => DD x6 x62 | s40 => DD x6 x63 | s41 => DD x7 x0 | s42 => DD x7 x1 | s43 => DD x7 x2 | s44 => DD x7 x3 | s45 => DD x7 x4 | s46 => DD x7 x5 | s47 => DD x7 x6 | s48 => DD x7 x7 | s49 => DD x7 x8 | s50 => DD x7 x9 | s51 => DD x7 x10 | s52 => DD x7 x11 | s53 => DD x7 x12 | s54 => DD x7 x13 | s55 => DD x7 x14 | s56 => DD x7 x15 | s57 => DD x7 x16 | s58 => DD x7 x17 | s59 => DD x7 x18 | s60 => DD x7 x19 | s61 => DD x7 x20 | s62 => DD x7 x21 | s63 => DD x7 x22 | s64 => DD x7 x23 | s65 => DD x7 x24 | s66 => DD x7 x25 | s67 => DD x7 x26 | s68 => DD x7 x27 | s69 => DD x7 x28 | s70 => DD x7 x29 | s71 => DD x7 x30 | s72 => DD x7 x31 | s73 => DD x7 x32 | s74 => DD x7 x33 | s75 => DD x7 x34 | s76 => DD x7 x35 | s77 => DD x7 x36 | s78 => DD x7 x37 | s79 => DD x7 x38 | s80 => DD x7 x39 | s81 => DD x7 x40 | s82 => DD x7 x41 | s83 => DD x7 x42 | s84 => DD x7 x43 | s85 => DD x7 x44 | s86 => DD x7 x45 | s87 => DD x7 x46 | s88 => DD x7 x47 | s89 => DD x7 x48 | s90 => DD x7 x49 | s91 => DD x7 x50 | s92 => DD x7 x51 | s93 => DD x7 x52 | s94 => DD x7 x53 | s95 => DD x7 x54 | s96 => DD x7 x55 | s97 => DD x7 x56 | s98 => DD x7 x57 | s99 => DD x7 x58 | s100 => DD x7 x59 | s101 => DD x7 x60 | s102 => DD x7 x61 | s103 => DD x7 x62 | s104 => DD x7 x63 | s105 => DD x8 x0 | s106 => DD x8 x1 | s107 => DD x8 x2 | s108 => DD x8 x3 | s109 => DD x8 x4 | s110 => DD x8 x5 | s111 => DD x8 x6 | s112 => DD x8 x7 | s113 => DD x8 x8 | s114 => DD x8 x9 | s115 => DD x8 x10 | s116 => DD x8 x11 | s117 => DD x8 x12 | s118 => DD x8 x13 | s119 => DD x8 x14 | s120 => DD x8 x15 | s121 => DD x8 x16 | s122 => DD x8 x17 | s123 => DD x8 x18 | s124 => DD x8 x19 | s125 => DD x8 x20 | s126 => DD x8 x21 end.
Definition m408 (c : sum2) : dd := match c with s0 => DD x6 x24 | s1 => DD x6 x25 | s2 => DD x6 x26 | s3 => DD x6 x27 | s4 => DD x6 x28 | s5 => DD x6 x29 | s6 => DD x6 x30 | s7 => DD x6 x31 | s8 => DD x6 x32 | s9 => DD x6 x33 | s10 => DD x6 x34 | s11 => DD x6 x35 | s12 => DD x6 x36 | s13 => DD x6 x37 | s14 => DD x6 x38 | s15 => DD x6 x39 | s16 => DD x6 x40 | s17 => DD x6 x41 | s18 => DD x6 x42 | s19 => DD x6 x43 | s20 => DD x6 x44 | s21 => DD x6 x45 | s22 => DD x6 x46 | s23 => DD x6 x47 | s24 => DD x6 x48 | s25 => DD x6 x49 | s26 => DD x6 x50 | s27 => DD x6 x51 | s28 => DD x6 x52 | s29 => DD x6 x53 | s30 => DD x6 x54 | s31 => DD x6 x55 | s32 => DD x6 x56 | s33 => DD x6 x57 | s34 => DD x6 x58 | s35 => DD x6 x59 | s36 => DD x6 x60 | s37 => DD x6 x61 | s38 => DD x6 x62 | s39 => DD x6 x63 | s40 => DD x7 x0 | s41 => DD x7 x1 | s42 => DD x7 x2 | s43 => DD x7 x3 | s44 => DD x7 x4 | s45 => DD x7 x5 | s46 => DD x7 x6 | s47 => DD x7 x7 | s48 => DD x7 x8 | s49 => DD x7 x9 | s50 => DD x7 x10 | s51 => DD x7 x11 | s52 => DD x7 x12 | s53 => DD x7 x13 | s54 => DD x7 x14 | s55 => DD x7 x15 | s56 => DD x7 x16 | s57 => DD x7 x17 | s58 => DD x7 x18 | s59 => DD x7 x19 | s60 => DD x7 x20 | s61 => DD x7 x21 | s62 => DD x7 x22 | s63 => DD x7 x23 | s64 => DD x7 x24 | s65 => DD x7 x25 | s66 => DD x7 x26 | s67 => DD x7 x27 | s68 => DD x7 x28 | s69 => DD x7 x29 | s70 => DD x7 x30 | s71 => DD x7 x31 | s72 => DD x7 x32 | s73 => DD x7 x33 | s74 => DD x7 x34 | s75 => DD x7 x35 | s76 => DD x7 x36 | s77 => DD x7 x37 | s78 => DD x7 x38 | s79 => DD x7 x39 | s80 => DD x7 x40 | s81 => DD x7 x41 | s82 => DD x7 x42 | s83 => DD x7 x43 | s84 => DD x7 x44 | s85 => DD x7 x45 | s86 => DD x7 x46 | s87 => DD x7 x47 | s88 => DD x7 x48 | s89 => DD x7 x49 | s90 => DD x7 x50 | s91 => DD x7 x51 | s92 => DD x7 x52 | s93 => DD x7 x53 | s94 => DD x7 x54 | s95 => DD x7 x55 | s96 => DD x7 x56 | s97 => DD x7 x57 | s98 => DD x7 x58 | s99 => DD x7 x59 | s100 => DD x7 x60 | s101 => DD x7 x61 | s102 => DD x7 x62 | s103 => DD x7 x63 | s104 => DD x8 x0 | s105 => DD x8 x1 | s106 => DD x8 x2 | s107 => DD x8 x3 | s108 => DD x8 x4 | s109 => DD x8 x5 | s110 => DD x8 x6 | s111 => DD x8 x7 | s112 => DD x8 x8 | s113 => DD x8 x9 | s114 => DD x8 x10 | s115 => DD x8 x11 | s116 => DD x8 x12 | s117 => DD x8 x13 | s118 => DD x8 x14 | s119 => DD x8 x15 | s120 => DD x8 x16 | s121 => DD x8 x17 | s122 => DD x8 x18 | s123 => DD x8 x19 | s124 => DD x8 x20 | s125 => DD x8 x21 | s126 => DD x8 x22 end.
Definition m410 (c : sum2) : dd := match c with s0 => DD x6 x26 | s1 => DD x6 x27 | s2 => DD x6 x28 | s3 => DD x6 x29 | s4 => DD x6 x30 | s5 => DD x6 x31 | s6 => DD x6 x32 | s7 => DD x6 x33 | s8 => DD x6 x34 | s9 => DD x6 x35 | s10 => DD x6 x36 | s11 => DD x6 x37 | s12 => DD x6 x38 | s13 => DD x6 x39 | s14 => DD x6 x40 | s15 => DD x6 x41 | s16 => DD x6 x42 | s17 => DD x6 x43 | s18 => DD x6 x44 | s19 => DD x6 x45 | s20 => DD x6 x46 | s21 => DD x6 x47 | s22 => DD x6 x48 | s23 => DD x6 x49 | s24 => DD x6 x50 | s25 => DD x6 x51 | s26 => DD x6 x52 | s27 => DD x6 x53 | s28 => DD x6 x54 | s29 => DD x6 x55 | s30 => DD x6 x56 | s31 => DD x6 x57 | s32 => DD x6 x58 | s33 => DD x6 x59 | s34 => DD x6 x60 | s35 => DD x6 x61 | s36 => DD x6 x62 | s37 => DD x6 x63 | s38 => DD x7 x0 | s39 => DD x7 x1 | s40 => DD x7 x2 | s41 => DD x7 x3 | s42 => DD x7 x4 | s43 => DD x7 x5 | s44 => DD x7 x6 | s45 => DD x7 x7 | s46 => DD x7 x8 | s47 => DD x7 x9 | s48 => DD x7 x10 | s49 => DD x7 x11 | s50 => DD x7 x12 | s51 => DD x7 x13 | s52 => DD x7 x14 | s53 => DD x7 x15 | s54 => DD x7 x16 | s55 => DD x7 x17 | s56 => DD x7 x18 | s57 => DD x7 x19 | s58 => DD x7 x20 | s59 => DD x7 x21 | s60 => DD x7 x22 | s61 => DD x7 x23 | s62 => DD x7 x24 | s63 => DD x7 x25 | s64 => DD x7 x26 | s65 => DD x7 x27 | s66 => DD x7 x28 | s67 => DD x7 x29 | s68 => DD x7 x30 | s69 => DD x7 x31 | s70 => DD x7 x32 | s71 => DD x7 x33 | s72 => DD x7 x34 | s73 => DD x7 x35 | s74 => DD x7 x36 | s75 => DD x7 x37 | s76 => DD x7 x38 | s77 => DD x7 x39 | s78 => DD x7 x40 | s79 => DD x7 x41 | s80 => DD x7 x42 | s81 => DD x7 x43 | s82 => DD x7 x44 | s83 => DD x7 x45 | s84 => DD x7 x46 | s85 => DD x7 x47 | s86 => DD x7 x48 | s87 => DD x7 x49 | s88 => DD x7 x50 | s89 => DD x7 x51 | s90 => DD x7 x52 | s91 => DD x7 x53 | s92 => DD x7 x54 | s93 => DD x7 x55 | s94 => DD x7 x56 | s95 => DD x7 x57 | s96 => DD x7 x58 | s97 => DD x7 x59 | s98 => DD x7 x60 | s99 => DD x7 x61 | s100 => DD x7 x62 | s101 => DD x7 x63 | s102 => DD x8 x0 | s103 => DD x8 x1 | s104 => DD x8 x2 | s105 => DD x8 x3 | s106 => DD x8 x4 | s107 => DD x8 x5 | s108 => DD x8 x6 | s109 => DD x8 x7 | s110 => DD x8 x8 | s111 => DD x8 x9 | s112 => DD x8 x10 | s113 => DD x8 x11 | s114 => DD x8 x12 | s115 => DD x8 x13 | s116 => DD x8 x14 | s117 => DD x8 x15 | s118 => DD x8 x16 | s119 => DD x8 x17 | s120 => DD x8 x18 | s121 => DD x8 x19 | s122 => DD x8 x20 | s123 => DD x8 x21 | s124 => DD x8 x22 | s125 => DD x8 x23 | s126 => DD x8 x24 end.
Definition m413 (c : sum2) : dd := match c with s0 => DD x6 x29 | s1 => DD x6 x30 | s2 => DD x6 x31 | s3 => DD x6 x32 | s4 => DD x6 x33 | s5 => DD x6 x34 | s6 => DD x6 x35 | s7 => DD x6 x36 | s8 => DD x6 x37 | s9 => DD x6 x38 | s10 => DD x6 x39 | s11 => DD x6 x40 | s12 => DD x6 x41 | s13 => DD x6 x42 | s14 => DD x6 x43 | s15 => DD x6 x44 | s16 => DD x6 x45 | s17 => DD x6 x46 | s18 => DD x6 x47 | s19 => DD x6 x48 | s20 => DD x6 x49 | s21 => DD x6 x50 | s22 => DD x6 x51 | s23 => DD x6 x52 | s24 => DD x6 x53 | s25 => DD x6 x54 | s26 => DD x6 x55 | s27 => DD x6 x56 | s28 => DD x6 x57 | s29 => DD x6 x58 | s30 => DD x6 x59 | s31 => DD x6 x60 | s32 => DD x6 x61 | s33 => DD x6 x62 | s34 => DD x6 x63 | s35 => DD x7 x0 | s36 => DD x7 x1 | s37 => DD x7 x2 | s38 => DD x7 x3 | s39 => DD x7 x4 | s40 => DD x7 x5 | s41 => DD x7 x6 | s42 => DD x7 x7 | s43 => DD x7 x8 | s44 => DD x7 x9 | s45 => DD x7 x10 | s46 => DD x7 x11 | s47 => DD x7 x12 | s48 => DD x7 x13 | s49 => DD x7 x14 | s50 => DD x7 x15 | s51 => DD x7 x16 | s52 => DD x7 x17 | s53 => DD x7 x18 | s54 => DD x7 x19 | s55 => DD x7 x20 | s56 => DD x7 x21 | s57 => DD x7 x22 | s58 => DD x7 x23 | s59 => DD x7 x24 | s60 => DD x7 x25 | s61 => DD x7 x26 | s62 => DD x7 x27 | s63 => DD x7 x28 | s64 => DD x7 x29 | s65 => DD x7 x30 | s66 => DD x7 x31 | s67 => DD x7 x32 | s68 => DD x7 x33 | s69 => DD x7 x34 | s70 => DD x7 x35 | s71 => DD x7 x36 | s72 => DD x7 x37 | s73 => DD x7 x38 | s74 => DD x7 x39 | s75 => DD x7 x40 | s76 => DD x7 x41 | s77 => DD x7 x42 | s78 => DD x7 x43 | s79 => DD x7 x44 | s80 => DD x7 x45 | s81 => DD x7 x46 | s82 => DD x7 x47 | s83 => DD x7 x48 | s84 => DD x7 x49 | s85 => DD x7 x50 | s86 => DD x7 x51 | s87 => DD x7 x52 | s88 => DD x7 x53 | s89 => DD x7 x54 | s90 => DD x7 x55 | s91 => DD x7 x56 | s92 => DD x7 x57 | s93 => DD x7 x58 | s94 => DD x7 x59 | s95 => DD x7 x60 | s96 => DD x7 x61 | s97 => DD x7 x62 | s98 => DD x7 x63 | s99 => DD x8 x0 | s100 => DD x8 x1 | s101 => DD x8 x2 | s102 => DD x8 x3 | s103 => DD x8 x4 | s104 => DD x8 x5 | s105 => DD x8 x6 | s106 => DD x8 x7 | s107 => DD x8 x8 | s108 => DD x8 x9 | s109 => DD x8 x10 | s110 => DD x8 x11 | s111 => DD x8 x12 | s112 => DD x8 x13 | s113 => DD x8 x14 | s114 => DD x8 x15 | s115 => DD x8 x16 | s116 => DD x8 x17 | s117 => DD x8 x18 | s118 => DD x8 x19 | s119 => DD x8 x20 | s120 => DD x8 x21 | s121 => DD x8 x22 | s122 => DD x8 x23 | s123 => DD x8 x24 | s124 => DD x8 x25 | s125 => DD x8 x26 | s126 => DD x8 x27 end.
Definition m414 (c : sum2) : dd := match c with s0 => DD x6 x30 | s1 => DD x6 x31 | s2 => DD x6 x32 | s3 => DD x6 x33 | s4 => DD x6 x34 | s5 => DD x6 x35 | s6 => DD x6 x36 | s7 => DD x6 x37 | s8 => DD x6 x38 | s9 => DD x6 x39 | s10 => DD x6 x40 | s11 => DD x6 x41 | s12 => DD x6 x42 | s13 => DD x6 x43 | s14 => DD x6 x44 | s15 => DD x6 x45 | s16 => DD x6 x46 | s17 => DD x6 x47 | s18 => DD x6 x48 | s19 => DD x6 x49 | s20 => DD x6 x50 | s21 => DD x6 x51 | s22 => DD x6 x52 | s23 => DD x6 x53 | s24 => DD x6 x54 | s25 => DD x6 x55 | s26 => DD x6 x56 | s27 => DD x6 x57 | s28 => DD x6 x58 | s29 => DD x6 x59 | s30 => DD x6 x60 | s31 => DD x6 x61 | s32 => DD x6 x62 | s33 => DD x6 x63 | s34 => DD x7 x0 | s35 => DD x7 x1 | s36 => DD x7 x2 | s37 => DD x7 x3 | s38 => DD x7 x4 | s39 => DD x7 x5 | s40 => DD x7 x6 | s41 => DD x7 x7 | s42 => DD x7 x8 | s43 => DD x7 x9 | s44 => DD x7 x10 | s45 => DD x7 x11 | s46 => DD x7 x12 | s47 => DD x7 x13 | s48 => DD x7 x14 | s49 => DD x7 x15 | s50 => DD x7 x16 | s51 => DD x7 x17 | s52 => DD x7 x18 | s53 => DD x7 x19 | s54 => DD x7 x20 | s55 => DD x7 x21 | s56 => DD x7 x22 | s57 => DD x7 x23 | s58 => DD x7 x24 | s59 => DD x7 x25 | s60 => DD x7 x26 | s61 => DD x7 x27 | s62 => DD x7 x28 | s63 => DD x7 x29 | s64 => DD x7 x30 | s65 => DD x7 x31 | s66 => DD x7 x32 | s67 => DD x7 x33 | s68 => DD x7 x34 | s69 => DD x7 x35 | s70 => DD x7 x36 | s71 => DD x7 x37 | s72 => DD x7 x38 | s73 => DD x7 x39 | s74 => DD x7 x40 | s75 => DD x7 x41 | s76 => DD x7 x42 | s77 => DD x7 x43 | s78 => DD x7 x44 | s79 => DD x7 x45 | s80 => DD x7 x46 | s81 => DD x7 x47 | s82 => DD x7 x48 | s83 => DD x7 x49 | s84 => DD x7 x50 | s85 => DD x7 x51 | s86 => DD x7 x52 | s87 => DD x7 x53 | s88 => DD x7 x54 | s89 => DD x7 x55 | s90 => DD x7 x56 | s91 => DD x7 x57 | s92 => DD x7 x58 | s93 => DD x7 x59 | s94 => DD x7 x60 | s95 => DD x7 x61 | s96 => DD x7 x62 | s97 => DD x7 x63 | s98 => DD x8 x0 | s99 => DD x8 x1 | s100 => DD x8 x2 | s101 => DD x8 x3 | s102 => DD x8 x4 | s103 => DD x8 x5 | s104 => DD x8 x6 | s105 => DD x8 x7 | s106 => DD x8 x8 | s107 => DD x8 x9 | s108 => DD x8 x10 | s109 => DD x8 x11 | s110 => DD x8 x12 | s111 => DD x8 x13 | s112 => DD x8 x14 | s113 => DD x8 x15 | s114 => DD x8 x16 | s115 => DD x8 x17 | s116 => DD x8 x18 | s117 => DD x8 x19 | s118 => DD x8 x20 | s119 => DD x8 x21 | s120 => DD x8 x22 | s121 => DD x8 x23 | s122 => DD x8 x24 | s123 => DD x8 x25 | s124 => DD x8 x26 | s125 => DD x8 x27 | s126 => DD x8 x28 end.
Definition m416 (c : sum2) : dd := match c with s0 => DD x6 x32 | s1 => DD x6 x33 | s2 => DD x6 x34 | s3 => DD x6 x35 | s4 => DD x6 x36 | s5 => DD x6 x37 | s6 => DD x6 x38 | s7 => DD x6 x39 | s8 => DD x6 x40 | s9 => DD x6 x41 | s10 => DD x6 x42 | s11 => DD x6 x43 | s12 => DD x6 x44 | s13 => DD x6 x45 | s14 => DD x6 x46 | s15 => DD x6 x47 | s16 => DD x6 x48 | s17 => DD x6 x49 | s18 => DD x6 x50 | s19 => DD x6 x51 | s20 => DD x6 x52 | s21 => DD x6 x53 | s22 => DD x6 x54 | s23 => DD x6 x55 | s24 => DD x6 x56 | s25 => DD x6 x57 | s26 => DD x6 x58 | s27 => DD x6 x59 | s28 => DD x6 x60 | s29 => DD x6 x61 | s30 => DD x6 x62 | s31 => DD x6 x63 | s32 => DD x7 x0 | s33 => DD x7 x1 | s34 => DD x7 x2 | s35 => DD x7 x3 | s36 => DD x7 x4 | s37 => DD x7 x5 | s38 => DD x7 x6 | s39 => DD x7 x7 | s40 => DD x7 x8 | s41 => DD x7 x9 | s42 => DD x7 x10 | s43 => DD x7 x11 | s44 => DD x7 x12 | s45 => DD x7 x13 | s46 => DD x7 x14 | s47 => DD x7 x15 | s48 => DD x7 x16 | s49 => DD x7 x17 | s50 => DD x7 x18 | s51 => DD x7 x19 | s52 => DD x7 x20 | s53 => DD x7 x21 | s54 => DD x7 x22 | s55 => DD x7 x23 | s56 => DD x7 x24 | s57 => DD x7 x25 | s58 => DD x7 x26 | s59 => DD x7 x27 | s60 => DD x7 x28 | s61 => DD x7 x29 | s62 => DD x7 x30 | s63 => DD x7 x31 | s64 => DD x7 x32 | s65 => DD x7 x33 | s66 => DD x7 x34 | s67 => DD x7 x35 | s68 => DD x7 x36 | s69 => DD x7 x37 | s70 => DD x7 x38 | s71 => DD x7 x39 | s72 => DD x7 x40 | s73 => DD x7 x41 | s74 => DD x7 x42 | s75 => DD x7 x43 | s76 => DD x7 x44 | s77 => DD x7 x45 | s78 => DD x7 x46 | s79 => DD x7 x47 | s80 => DD x7 x48 | s81 => DD x7 x49 | s82 => DD x7 x50 | s83 => DD x7 x51 | s84 => DD x7 x52 | s85 => DD x7 x53 | s86 => DD x7 x54 | s87 => DD x7 x55 | s88 => DD x7 x56 | s89 => DD x7 x57 | s90 => DD x7 x58 | s91 => DD x7 x59 | s92 => DD x7 x60 | s93 => DD x7 x61 | s94 => DD x7 x62 | s95 => DD x7 x63 | s96 => DD x8 x0 | s97 => DD x8 x1 | s98 => DD x8 x2 | s99 => DD x8 x3 | s100 => DD x8 x4 | s101 => DD x8 x5 | s102 => DD x8 x6 | s103 => DD x8 x7 | s104 => DD x8 x8 | s105 => DD x8 x9 | s106 => DD x8 x10 | s107 => DD x8 x11 | s108 => DD x8 x12 | s109 => DD x8 x13 | s110 => DD x8 x14 | s111 => DD x8 x15 | s112 => DD x8 x16 | s113 => DD x8 x17 | s114 => DD x8 x18 | s115 => DD x8 x19 | s116 => DD x8 x20 | s117 => DD x8 x21 | s118 => DD x8 x22 | s119 => DD x8 x23 | s120 => DD x8 x24 | s121 => DD x8 x25 | s122 => DD x8 x26 | s123 => DD x8 x27 | s124 => DD x8 x28 | s125 => DD x8 x29 | s126 => DD x8 x30 end.
Definition m418 (c : sum2) : dd := match c with s0 => DD x6 x34 | s1 => DD x6 x35 | s2 => DD x6 x36 | s3 => DD x6 x37 | s4 => DD x6 x38 | s5 => DD x6 x39 | s6 => DD x6 x40 | s7 => DD x6 x41 | s8 => DD x6 x42 | s9 => DD x6 x43 | s10 => DD x6 x44 | s11 => DD x6 x45 | s12 => DD x6 x46 | s13 => DD x6 x47 | s14 => DD x6 x48 | s15 => DD x6 x49 | s16 => DD x6 x50 | s17 => DD x6 x51 | s18 => DD x6 x52 | s19 => DD x6 x53 | s20 => DD x6 x54 | s21 => DD x6 x55 | s22 => DD x6 x56 | s23 => DD x6 x57 | s24 => DD x6 x58 | s25 => DD x6 x59 | s26 => DD x6 x60 | s27 => DD x6 x61 | s28 => DD x6 x62 | s29 => DD x6 x63 | s30 => DD x7 x0 | s31 => DD x7 x1 | s32 => DD x7 x2 | s33 => DD x7 x3 | s34 => DD x7 x4 | s35 => DD x7 x5 | s36 => DD x7 x6 | s37 => DD x7 x7 | s38 => DD x7 x8 | s39 => DD x7 x9 | s40 => DD x7 x10 | s41 => DD x7 x11 | s42 => DD x7 x12 | s43 => DD x7 x13 | s44 => DD x7 x14 | s45 => DD x7 x15 | s46 => DD x7 x16 | s47 => DD x7 x17 | s48 => DD x7 x18 | s49 => DD x7 x19 | s50 => DD x7 x20 | s51 => DD x7 x21 | s52 => DD x7 x22 | s53 => DD x7 x23 | s54 => DD x7 x24 | s55 => DD x7 x25 | s56 => DD x7 x26 | s57 => DD x7 x27 | s58 => DD x7 x28 | s59 => DD x7 x29 | s60 => DD x7 x30 | s61 => DD x7 x31 | s62 => DD x7 x32 | s63 => DD x7 x33 | s64 => DD x7 x34 | s65 => DD x7 x35 | s66 => DD x7 x36 | s67 => DD x7 x37 | s68 => DD x7 x38 | s69 => DD x7 x39 | s70 => DD x7 x40 | s71 => DD x7 x41 | s72 => DD x7 x42 | s73 => DD x7 x43 | s74 => DD x7 x44 | s75 => DD x7 x45 | s76 => DD x7 x46 | s77 => DD x7 x47 | s78 => DD x7 x48 | s79 => DD x7 x49 | s80 => DD x7 x50 | s81 => DD x7 x51 | s82 => DD x7 x52 | s83 => DD x7 x53 | s84 => DD x7 x54 | s85 => DD x7 x55 | s86 => DD x7 x56 | s87 => DD x7 x57 | s88 => DD x7 x58 | s89 => DD x7 x59 | s90 => DD x7 x60 | s91 => DD x7 x61 | s92 => DD x7 x62 | s93 => DD x7 x63 | s94 => DD x8 x0 | s95 => DD x8 x1 | s96 => DD x8 x2 | s97 => DD x8 x3 | s98 => DD x8 x4 | s99 => DD x8 x5 | s100 => DD x8 x6 | s101 => DD x8 x7 | s102 => DD x8 x8 | s103 => DD x8 x9 | s104 => DD x8 x10 | s105 => DD x8 x11 | s106 => DD x8 x12 | s107 => DD x8 x13 | s108 => DD x8 x14 | s109 => DD x8 x15 | s110 => DD x8 x16 | s111 => DD x8 x17 | s112 => DD x8 x18 | s113 => DD x8 x19 | s114 => DD x8 x20 | s115 => DD x8 x21 | s116 => DD x8 x22 | s117 => DD x8 x23 | s118 => DD x8 x24 | s119 => DD x8 x25 | s120 => DD x8 x26 | s121 => DD x8 x27 | s122 => DD x8 x28 | s123 => DD x8 x29 | s124 => DD x8 x30 | s125 => DD x8 x31 | s126 => DD x8 x32 end.
Definition m420 (c : sum2) : dd := match c with s0 => DD x6 x36 | s1 => DD x6 x37 | s2 => DD x6 x38 | s3 => DD x6 x39 | s4 => DD x6 x40 | s5 => DD x6 x41 | s6 => DD x6 x42 | s7 => DD x6 x43 | s8 => DD x6 x44 | s9 => DD x6 x45 | s10 => DD x6 x46 | s11 => DD x6 x47 | s12 => DD x6 x48 | s13 => DD x6 x49 | s14 => DD x6 x50 | s15 => DD x6 x51 | s16 => DD x6 x52 | s17 => DD x6 x53 | s18 => DD x6 x54 | s19 => DD x6 x55 | s20 => DD x6 x56 | s21 => DD x6 x57 | s22 => DD x6 x58 | s23 => DD x6 x59 | s24 => DD x6 x60 | s25 => DD x6 x61 | s26 => DD x6 x62 | s27 => DD x6 x63 | s28 => DD x7 x0 | s29 => DD x7 x1 | s30 => DD x7 x2 | s31 => DD x7 x3 | s32 => DD x7 x4 | s33 => DD x7 x5 | s34 => DD x7 x6 | s35 => DD x7 x7 | s36 => DD x7 x8 | s37 => DD x7 x9 | s38 => DD x7 x10 | s39 => DD x7 x11 | s40 => DD x7 x12 | s41 => DD x7 x13 | s42 => DD x7 x14 | s43 => DD x7 x15 | s44 => DD x7 x16 | s45 => DD x7 x17 | s46 => DD x7 x18 | s47 => DD x7 x19 | s48 => DD x7 x20 | s49 => DD x7 x21 | s50 => DD x7 x22 | s51 => DD x7 x23 | s52 => DD x7 x24 | s53 => DD x7 x25 | s54 => DD x7 x26 | s55 => DD x7 x27 | s56 => DD x7 x28 | s57 => DD x7 x29 | s58 => DD x7 x30 | s59 => DD x7 x31 | s60 => DD x7 x32 | s61 => DD x7 x33 | s62 => DD x7 x34 | s63 => DD x7 x35 | s64 => DD x7 x36 | s65 => DD x7 x37 | s66 => DD x7 x38 | s67 => DD x7 x39 | s68 => DD x7 x40 | s69 => DD x7 x41 | s70 => DD x7 x42 | s71 => DD x7 x43 | s72 => DD x7 x44 | s73 => DD x7 x45 | s74 => DD x7 x46 | s75 => DD x7 x47 | s76 => DD x7 x48 | s77 => DD x7 x49 | s78 => DD x7 x50 | s79 => DD x7 x51 | s80 => DD x7 x52 | s81 => DD x7 x53 | s82 => DD x7 x54 | s83 => DD x7 x55 | s84 => DD x7 x56 | s85 => DD x7 x57 | s86 => DD x7 x58 | s87 => DD x7 x59 | s88 => DD x7 x60 | s89 => DD x7 x61 | s90 => DD x7 x62 | s91 => DD x7 x63 | s92 => DD x8 x0 | s93 => DD x8 x1 | s94 => DD x8 x2 | s95 => DD x8 x3 | s96 => DD x8 x4 | s97 => DD x8 x5 | s98 => DD x8 x6 | s99 => DD x8 x7 | s100 => DD x8 x8 | s101 => DD x8 x9 | s102 => DD x8 x10 | s103 => DD x8 x11 | s104 => DD x8 x12 | s105 => DD x8 x13 | s106 => DD x8 x14 | s107 => DD x8 x15 | s108 => DD x8 x16 | s109 => DD x8 x17 | s110 => DD x8 x18 | s111 => DD x8 x19 | s112 => DD x8 x20 | s113 => DD x8 x21 | s114 => DD x8 x22 | s115 => DD x8 x23 | s116 => DD x8 x24 | s117 => DD x8 x25 | s118 => DD x8 x26 | s119 => DD x8 x27 | s120 => DD x8 x28 | s121 => DD x8 x29 | s122 => DD x8 x30 | s123 => DD x8 x31 | s124 => DD x8 x32 | s125 => DD x8 x33 | s126 => DD x8 x34 end.
Definition m423 (c : sum2) : dd := match c with s0 => DD x6 x39 | s1 => DD x6 x40 | s2 => DD x6 x41 | s3 => DD x6 x42 | s4 => DD x6 x43 | s5 => DD x6 x44 | s6 => DD x6 x45 | s7 => DD x6 x46 | s8 => DD x6 x47 | s9 => DD x6 x48 | s10 => DD x6 x49 | s11 => DD x6 x50 | s12 => DD x6 x51 | s13 => DD x6 x52 | s14 => DD x6 x53 | s15 => DD x6 x54 | s16 => DD x6 x55 | s17 => DD x6 x56 | s18 => DD x6 x57 | s19 => DD x6 x58 | s20 => DD x6 x59 | s21 => DD x6 x60 | s22 => DD x6 x61 | s23 => DD x6 x62 | s24 => DD x6 x63 | s25 => DD x7 x0 | s26 => DD x7 x1 | s27 => DD x7 x2 | s28 => DD x7 x3 | s29 => DD x7 x4 | s30 => DD x7 x5 | s31 => DD x7 x6 | s32 => DD x7 x7 | s33 => DD x7 x8 | s34 => DD x7 x9 | s35 => DD x7 x10 | s36 => DD x7 x11 | s37 => DD x7 x12 | s38 => DD x7 x13 | s39 => DD x7 x14 | s40 => DD x7 x15 | s41 => DD x7 x16 | s42 => DD x7 x17 | s43 => DD x7 x18 | s44 => DD x7 x19 | s45 => DD x7 x20 | s46 => DD x7 x21 | s47 => DD x7 x22 | s48 => DD x7 x23 | s49 => DD x7 x24 | s50 => DD x7 x25 | s51 => DD x7 x26 | s52 => DD x7 x27 | s53 => DD x7 x28 | s54 => DD x7 x29 | s55 => DD x7 x30 | s56 => DD x7 x31 | s57 => DD x7 x32 | s58 => DD x7 x33 | s59 => DD x7 x34 | s60 => DD x7 x35 | s61 => DD x7 x36 | s62 => DD x7 x37 | s63 => DD x7 x38 | s64 => DD x7 x39 | s65 => DD x7 x40 | s66 => DD x7 x41 | s67 => DD x7 x42 | s68 => DD x7 x43 | s69 => DD x7 x44 | s70 => DD x7 x45 | s71 => DD x7 x46 | s72 => DD x7 x47 | s73 => DD x7 x48 | s74 => DD x7 x49 | s75 => DD x7 x50 | s76 => DD x7 x51 | s77 => DD x7 x52 | s78 => DD x7 x53 | s79 => DD x7 x54 | s80 => DD x7 x55 | s81 => DD x7 x56 | s82 => DD x7 x57 | s83 => DD x7 x58 | s84 => DD x7 x59 | s85 => DD x7 x60 | s86 => DD x7 x61 | s87 => DD x7 x62 | s88 => DD x7 x63 | s89 => DD x8 x0 | s90 => DD x8 x1 | s91 => DD x8 x2 | s92 => DD x8 x3 | s93 => DD x8 x4 | s94 => DD x8 x5 | s95 => DD x8 x6 | s96 => DD x8 x7 | s97 => DD x8 x8 | s98 => DD x8 x9 | s99 => DD x8 x10 | s100 => DD x8 x11 | s101 => DD x8 x12 | s102 => DD x8 x13 | s103 => DD x8 x14 | s104 => DD x8 x15 | s105 => DD x8 x16 | s106 => DD x8 x17 | s107 => DD x8 x18 | s108 => DD x8 x19 | s109 => DD x8 x20 | s110 => DD x8 x21 | s111 => DD x8 x22 | s112 => DD x8 x23 | s113 => DD x8 x24 | s114 => DD x8 x25 | s115 => DD x8 x26 | s116 => DD x8 x27 | s117 => DD x8 x28 | s118 => DD x8 x29 | s119 => DD x8 x30 | s120 => DD x8 x31 | s121 => DD x8 x32 | s122 => DD x8 x33 | s123 => DD x8 x34 | s124 => DD x8 x35 | s125 => DD x8 x36 | s126 => DD x8 x37 end.
Definition m424 (c : sum2) : dd := match c with s0 => DD x6 x40 | s1 => DD x6 x41 | s2 => DD x6 x42 | s3 => DD x6 x43 | s4 => DD x6 x44 | s5 => DD x6 x45 | s6 => DD x6 x46 | s7 => DD x6 x47 | s8 => DD x6 x48 | s9 => DD x6 x49 | s10 => DD x6 x50 | s11 => DD x6 x51 | s12 => DD x6 x52 | s13 => DD x6 x53 | s14 => DD x6 x54 | s15 => DD x6 x55 | s16 => DD x6 x56 | s17 => DD x6 x57 | s18 => DD x6 x58 | s19 => DD x6 x59 | s20 => DD x6 x60 | s21 => DD x6 x61 | s22 => DD x6 x62 | s23 => DD x6 x63 | s24 => DD x7 x0 | s25 => DD x7 x1 | s26 => DD x7 x2 | s27 => DD x7 x3 | s28 => DD x7 x4 | s29 => DD x7 x5 | s30 => DD x7 x6 | s31 => DD x7 x7 | s32 => DD x7 x8 | s33 => DD x7 x9 | s34 => DD x7 x10 | s35 => DD x7 x11 | s36 => DD x7 x12 | s37 => DD x7 x13 | s38 => DD x7 x14 | s39 => DD x7 x15 | s40 => DD x7 x16 | s41 => DD x7 x17 | s42 => DD x7 x18 | s43 => DD x7 x19 | s44 => DD x7 x20 | s45 => DD x7 x21 | s46 => DD x7 x22 | s47 => DD x7 x23 | s48 => DD x7 x24 | s49 => DD x7 x25 | s50 => DD x7 x26 | s51 => DD x7 x27 | s52 => DD x7 x28 | s53 => DD x7 x29 | s54 => DD x7 x30 | s55 => DD x7 x31 | s56 => DD x7 x32 | s57 => DD x7 x33 | s58 => DD x7 x34 | s59 => DD x7 x35 | s60 => DD x7 x36 | s61 => DD x7 x37 | s62 => DD x7 x38 | s63 => DD x7 x39 | s64 => DD x7 x40 | s65 => DD x7 x41 | s66 => DD x7 x42 | s67 => DD x7 x43 | s68 => DD x7 x44 | s69 => DD x7 x45 | s70 => DD x7 x46 | s71 => DD x7 x47 | s72 => DD x7 x48 | s73 => DD x7 x49 | s74 => DD x7 x50 | s75 => DD x7 x51 | s76 => DD x7 x52 | s77 => DD x7 x53 | s78 => DD x7 x54 | s79 => DD x7 x55 | s80 => DD x7 x56 | s81 => DD x7 x57 | s82 => DD x7 x58 | s83 => DD x7 x59 | s84 => DD x7 x60 | s85 => DD x7 x61 | s86 => DD x7 x62 | s87 => DD x7 x63 | s88 => DD x8 x0 | s89 => DD x8 x1 | s90 => DD x8 x2 | s91 => DD x8 x3 | s92 => DD x8 x4 | s93 => DD x8 x5 | s94 => DD x8 x6 | s95 => DD x8 x7 | s96 => DD x8 x8 | s97 => DD x8 x9 | s98 => DD x8 x10 | s99 => DD x8 x11 | s100 => DD x8 x12 | s101 => DD x8 x13 | s102 => DD x8 x14 | s103 => DD x8 x15 | s104 => DD x8 x16 | s105 => DD x8 x17 | s106 => DD x8 x18 | s107 => DD x8 x19 | s108 => DD x8 x20 | s109 => DD x8 x21 | s110 => DD x8 x22 | s111 => DD x8 x23 | s112 => DD x8 x24 | s113 => DD x8 x25 | s114 => DD x8 x26 | s115 => DD x8 x27 | s116 => DD x8 x28 | s117 => DD x8 x29 | s118 => DD x8 x30 | s119 => DD x8 x31 | s120 => DD x8 x32 | s121 => DD x8 x33 | s122 => DD x8 x34 | s123 => DD x8 x35 | s124 => DD x8 x36 | s125 => DD x8 x37 | s126 => DD x8 x38 end.
Definition m425 (c : sum2) : dd := match c with s0 => DD x6 x41 | s1 => DD x6 x42 | s2 => DD x6 x43 | s3 => DD x6 x44 | s4 => DD x6 x45 | s5 => DD x6 x46 | s6 => DD x6 x47 | s7 => DD x6 x48 | s8 => DD x6 x49 | s9 => DD x6 x50 | s10 => DD x6 x51 | s11 => DD x6 x52 | s12 => DD x6 x53 | s13 => DD x6 x54 | s14 => DD x6 x55 | s15 => DD x6 x56 | s16 => DD x6 x57 | s17 => DD x6 x58 | s18 => DD x6 x59 | s19 => DD x6 x60 | s20 => DD x6 x61 | s21 => DD x6 x62 | s22 => DD x6 x63 | s23 => DD x7 x0 | s24 => DD x7 x1 | s25 => DD x7 x2 | s26 => DD x7 x3 | s27 => DD x7 x4 | s28 => DD x7 x5 | s29 => DD x7 x6 | s30 => DD x7 x7 | s31 => DD x7 x8 | s32 => DD x7 x9 | s33 => DD x7 x10 | s34 => DD x7 x11 | s35 => DD x7 x12 | s36 => DD x7 x13 | s37 => DD x7 x14 | s38 => DD x7 x15 | s39 => DD x7 x16 | s40 => DD x7 x17 | s41 => DD x7 x18 | s42 => DD x7 x19 | s43 => DD x7 x20 | s44 => DD x7 x21 | s45 => DD x7 x22 | s46 => DD x7 x23 | s47 => DD x7 x24 | s48 => DD x7 x25 | s49 => DD x7 x26 | s50 => DD x7 x27 | s51 => DD x7 x28 | s52 => DD x7 x29 | s53 => DD x7 x30 | s54 => DD x7 x31 | s55 => DD x7 x32 | s56 => DD x7 x33 | s57 => DD x7 x34 | s58 => DD x7 x35 | s59 => DD x7 x36 | s60 => DD x7 x37 | s61 => DD x7 x38 | s62 => DD x7 x39 | s63 => DD x7 x40 | s64 => DD x7 x41 | s65 => DD x7 x42 | s66 => DD x7 x43 | s67 => DD x7 x44 | s68 => DD x7 x45 | s69 => DD x7 x46 | s70 => DD x7 x47 | s71 => DD x7 x48 | s72 => DD x7 x49 | s73 => DD x7 x50 | s74 => DD x7 x51 | s75 => DD x7 x52 | s76 => DD x7 x53 | s77 => DD x7 x54 | s78 => DD x7 x55 | s79 => DD x7 x56 | s80 => DD x7 x57 | s81 => DD x7 x58 | s82 => DD x7 x59 | s83 => DD x7 x60 | s84 => DD x7 x61 | s85 => DD x7 x62 | s86 => DD x7 x63 | s87 => DD x8 x0 | s88 => DD x8 x1 | s89 => DD x8 x2 | s90 => DD x8 x3 | s91 => DD x8 x4 | s92 => DD x8 x5 | s93 => DD x8 x6 | s94 => DD x8 x7 | s95 => DD x8 x8 | s96 => DD x8 x9 | s97 => DD x8 x10 | s98 => DD x8 x11 | s99 => DD x8 x12 | s100 => DD x8 x13 | s101 => DD x8 x14 | s102 => DD x8 x15 | s103 => DD x8 x16 | s104 => DD x8 x17 | s105 => DD x8 x18 | s106 => DD x8 x19 | s107 => DD x8 x20 | s108 => DD x8 x21 | s109 => DD x8 x22 | s110 => DD x8 x23 | s111 => DD x8 x24 | s112 => DD x8 x25 | s113 => DD x8 x26 | s114 => DD x8 x27 | s115 => DD x8 x28 | s116 => DD x8 x29 | s117 => DD x8 x30 | s118 => DD x8 x31 | s119 => DD x8 x32 | s120 => DD x8 x33 | s121 => DD x8 x34 | s122 => DD x8 x35 | s123 => DD x8 x36 | s124 => DD x8 x37 | s125 => DD x8 x38 | s126 => DD x8 x39 end.
Definition m427 (c : sum2) : dd := match c with s0 => DD x6 x43 | s1 => DD x6 x44 | s2 => DD x6 x45 | s3 => DD x6 x46 | s4 => DD x6 x47 | s5 => DD x6 x48 | s6 => DD x6 x49 | s7 => DD x6 x50 | s8 => DD x6 x51 | s9 => DD x6 x52 | s10 => DD x6 x53 | s11 => DD x6 x54 | s12 => DD x6 x55 | s13 => DD x6 x56 | s14 => DD x6 x57 | s15 => DD x6 x58 | s16 => DD x6 x59 | s17 => DD x6 x60 | s18 => DD x6 x61 | s19 => DD x6 x62 | s20 => DD x6 x63 | s21 => DD x7 x0 | s22 => DD x7 x1 | s23 => DD x7 x2 | s24 => DD x7 x3 | s25 => DD x7 x4 | s26 => DD x7 x5 | s27 => DD x7 x6 | s28 => DD x7 x7 | s29 => DD x7 x8 | s30 => DD x7 x9 | s31 => DD x7 x10 | s32 => DD x7 x11 | s33 => DD x7 x12 | s34 => DD x7 x13 | s35 => DD x7 x14 | s36 => DD x7 x15 | s37 => DD x7 x16 | s38 => DD x7 x17 | s39 => DD x7 x18 | s40 => DD x7 x19 | s41 => DD x7 x20 | s42 => DD x7 x21 | s43 => DD x7 x22 | s44 => DD x7 x23 | s45 => DD x7 x24 | s46 => DD x7 x25 | s47 => DD x7 x26 | s48 => DD x7 x27 | s49 => DD x7 x28 | s50 => DD x7 x29 | s51 => DD x7 x30 | s52 => DD x7 x31 | s53 => DD x7 x32 | s54 => DD x7 x33 | s55 => DD x7 x34 | s56 => DD x7 x35 | s57 => DD x7 x36 | s58 => DD x7 x37 | s59 => DD x7 x38 | s60 => DD x7 x39 | s61 => DD x7 x40 | s62 => DD x7 x41 | s63 => DD x7 x42 | s64 => DD x7 x43 | s65 => DD x7 x44 | s66 => DD x7 x45 | s67 => DD x7 x46 | s68 => DD x7 x47 | s69 => DD x7 x48 | s70 => DD x7 x49 | s71 => DD x7 x50 | s72 => DD x7 x51 | s73 => DD x7 x52 | s74 => DD x7 x53 | s75 => DD x7 x54 | s76 => DD x7 x55 | s77 => DD x7 x56 | s78 => DD x7 x57 | s79 => DD x7 x58 | s80 => DD x7 x59 | s81 => DD x7 x60 | s82 => DD x7 x61 | s83 => DD x7 x62 | s84 => DD x7 x63 | s85 => DD x8 x0 | s86 => DD x8 x1 | s87 => DD x8 x2 | s88 => DD x8 x3 | s89 => DD x8 x4 | s90 => DD x8 x5 | s91 => DD x8 x6 | s92 => DD x8 x7 | s93 => DD x8 x8 | s94 => DD x8 x9 | s95 => DD x8 x10 | s96 => DD x8 x11 | s97 => DD x8 x12 | s98 => DD x8 x13 | s99 => DD x8 x14 | s100 => DD x8 x15 | s101 => DD x8 x16 | s102 => DD x8 x17 | s103 => DD x8 x18 | s104 => DD x8 x19 | s105 => DD x8 x20 | s106 => DD x8 x21 | s107 => DD x8 x22 | s108 => DD x8 x23 | s109 => DD x8 x24 | s110 => DD x8 x25 | s111 => DD x8 x26 | s112 => DD x8 x27 | s113 => DD x8 x28 | s114 => DD x8 x29 | s115 => DD x8 x30 | s116 => DD x8 x31 | s117 => DD x8 x32 | s118 => DD x8 x33 | s119 => DD x8 x34 | s120 => DD x8 x35 | s121 => DD x8 x36 | s122 => DD x8 x37 | s123 => DD x8 x38 | s124 => DD x8 x39 | s125 => DD x8 x40 | s126 => DD x8 x41 end.
Definition m429 (c : sum2) : dd := match c with s0 => DD x6 x45 | s1 => DD x6 x46 | s2 => DD x6 x47 | s3 => DD x6 x48 | s4 => DD x6 x49 | s5 => DD x6 x50 | s6 => DD x6 x51 | s7 => DD x6 x52 | s8 => DD x6 x53 | s9 => DD x6 x54 | s10 => DD x6 x55 | s11 => DD x6 x56 | s12 => DD x6 x57 | s13 => DD x6 x58 | s14 => DD x6 x59 | s15 => DD x6 x60 | s16 => DD x6 x61 | s17 => DD x6 x62 | s18 => DD x6 x63 | s19 => DD x7 x0 | s20 => DD x7 x1 | s21 => DD x7 x2 | s22 => DD x7 x3 | s23 => DD x7 x4 | s24 => DD x7 x5 | s25 => DD x7 x6 | s26 => DD x7 x7 | s27 => DD x7 x8 | s28 => DD x7 x9 | s29 => DD x7 x10 | s30 => DD x7 x11 | s31 => DD x7 x12 | s32 => DD x7 x13 | s33 => DD x7 x14 | s34 => DD x7 x15 | s35 => DD x7 x16 | s36 => DD x7 x17 | s37 => DD x7 x18 | s38 => DD x7 x19 | s39 => DD x7 x20 | s40 => DD x7 x21 | s41 => DD x7 x22 | s42 => DD x7 x23 | s43 => DD x7 x24 | s44 => DD x7 x25 | s45 => DD x7 x26 | s46 => DD x7 x27 | s47 => DD x7 x28 | s48 => DD x7 x29 | s49 => DD x7 x30 | s50 => DD x7 x31 | s51 => DD x7 x32 | s52 => DD x7 x33 | s53 => DD x7 x34 | s54 => DD x7 x35 | s55 => DD x7 x36 | s56 => DD x7 x37 | s57 => DD x7 x38 | s58 => DD x7 x39 | s59 => DD x7 x40 | s60 => DD x7 x41 | s61 => DD x7 x42 | s62 => DD x7 x43 | s63 => DD x7 x44 | s64 => DD x7 x45 | s65 => DD x7 x46 | s66 => DD x7 x47 | s67 => DD x7 x48 | s68 => DD x7 x49 | s69 => DD x7 x50 | s70 => DD x7 x51 | s71 => DD x7 x52 | s72 => DD x7 x53 | s73 => DD x7 x54 | s74 => DD x7 x55 | s75 => DD x7 x56 | s76 => DD x7 x57 | s77 => DD x7 x58 | s78 => DD x7 x59 | s79 => DD x7 x60 | s80 => DD x7 x61 | s81 => DD x7 x62 | s82 => DD x7 x63 | s83 => DD x8 x0 | s84 => DD x8 x1 | s85 => DD x8 x2 | s86 => DD x8 x3 | s87 => DD x8 x4 | s88 => DD x8 x5 | s89 => DD x8 x6 | s90 => DD x8 x7 | s91 => DD x8 x8 | s92 => DD x8 x9 | s93 => DD x8 x10 | s94 => DD x8 x11 | s95 => DD x8 x12 | s96 => DD x8 x13 | s97 => DD x8 x14 | s98 => DD x8 x15 | s99 => DD x8 x16 | s100 => DD x8 x17 | s101 => DD x8 x18 | s102 => DD x8 x19 | s103 => DD x8 x20 | s104 => DD x8 x21 | s105 => DD x8 x22 | s106 => DD x8 x23 | s107 => DD x8 x24 | s108 => DD x8 x25 | s109 => DD x8 x26 | s110 => DD x8 x27 | s111 => DD x8 x28 | s112 => DD x8 x29 | s113 => DD x8 x30 | s114 => DD x8 x31 | s115 => DD x8 x32 | s116 => DD x8 x33 | s117 => DD x8 x34 | s118 => DD x8 x35 | s119 => DD x8 x36 | s120 => DD x8 x37 | s121 => DD x8 x38 | s122 => DD x8 x39 | s123 => DD x8 x40 | s124 => DD x8 x41 | s125 => DD x8 x42 | s126 => DD x8 x43 end.
Definition m430 (c : sum2) : dd := match c with s0 => DD x6 x46 | s1 => DD x6 x47 | s2 => DD x6 x48 | s3 => DD x6 x49 | s4 => DD x6 x50 | s5 => DD x6 x51 | s6 => DD x6 x52 | s7 => DD x6 x53 | s8 => DD x6 x54 | s9 => DD x6 x55 | s10 => DD x6 x56 | s11 => DD x6 x57 | s12 => DD x6 x58 | s13 => DD x6 x59 | s14 => DD x6 x60 | s15 => DD x6 x61 | s16 => DD x6 x62 | s17 => DD x6 x63 | s18 => DD x7 x0 | s19 => DD x7 x1 | s20 => DD x7 x2 | s21 => DD x7 x3 | s22 => DD x7 x4 | s23 => DD x7 x5 | s24 => DD x7 x6 | s25 => DD x7 x7 | s26 => DD x7 x8 | s27 => DD x7 x9 | s28 => DD x7 x10 | s29 => DD x7 x11 | s30 => DD x7 x12 | s31 => DD x7 x13 | s32 => DD x7 x14 | s33 => DD x7 x15 | s34 => DD x7 x16 | s35 => DD x7 x17 | s36 => DD x7 x18 | s37 => DD x7 x19 | s38 => DD x7 x20 | s39 => DD x7 x21 | s40 => DD x7 x22 | s41 => DD x7 x23 | s42 => DD x7 x24 | s43 => DD x7 x25 | s44 => DD x7 x26 | s45 => DD x7 x27 | s46 => DD x7 x28 | s47 => DD x7 x29 | s48 => DD x7 x30 | s49 => DD x7 x31 | s50 => DD x7 x32 | s51 => DD x7 x33 | s52 => DD x7 x34 | s53 => DD x7 x35 | s54 => DD x7 x36 | s55 => DD x7 x37 | s56 => DD x7 x38 | s57 => DD x7 x39 | s58 => DD x7 x40 | s59 => DD x7 x41 | s60 => DD x7 x42 | s61 => DD x7 x43 | s62 => DD x7 x44 | s63 => DD x7 x45 | s64 => DD x7 x46 | s65 => DD x7 x47 | s66 => DD x7 x48 | s67 => DD x7 x49 | s68 => DD x7 x50 | s69 => DD x7 x51 | s70 => DD x7 x52 | s71 => DD x7 x53 | s72 => DD x7 x54 | s73 => DD x7 x55 | s74 => DD x7 x56 | s75 => DD x7 x57 | s76 => DD x7 x58 | s77 => DD x7 x59 | s78 => DD x7 x60 | s79 => DD x7 x61 | s80 => DD x7 x62 | s81 => DD x7 x63 | s82 => DD x8 x0 | s83 => DD x8 x1 | s84 => DD x8 x2 | s85 => DD x8 x3 | s86 => DD x8 x4 | s87 => DD x8 x5 | s88 => DD x8 x6 | s89 => DD x8 x7 | s90 => DD x8 x8 | s91 => DD x8 x9 | s92 => DD x8 x10 | s93 => DD x8 x11 | s94 => DD x8 x12 | s95 => DD x8 x13 | s96 => DD x8 x14 | s97 => DD x8 x15 | s98 => DD x8 x16 | s99 => DD x8 x17 | s100 => DD x8 x18 | s101 => DD x8 x19 | s102 => DD x8 x20 | s103 => DD x8 x21 | s104 => DD x8 x22 | s105 => DD x8 x23 | s106 => DD x8 x24 | s107 => DD x8 x25 | s108 => DD x8 x26 | s109 => DD x8 x27 | s110 => DD x8 x28 | s111 => DD x8 x29 | s112 => DD x8 x30 | s113 => DD x8 x31 | s114 => DD x8 x32 | s115 => DD x8 x33 | s116 => DD x8 x34 | s117 => DD x8 x35 | s118 => DD x8 x36 | s119 => DD x8 x37 | s120 => DD x8 x38 | s121 => DD x8 x39 | s122 => DD x8 x40 | s123 => DD x8 x41 | s124 => DD x8 x42 | s125 => DD x8 x43 | s126 => DD x8 x44 end.
Definition m432 (c : sum2) : dd := match c with s0 => DD x6 x48 | s1 => DD x6 x49 | s2 => DD x6 x50 | s3 => DD x6 x51 | s4 => DD x6 x52 | s5 => DD x6 x53 | s6 => DD x6 x54 | s7 => DD x6 x55 | s8 => DD x6 x56 | s9 => DD x6 x57 | s10 => DD x6 x58 | s11 => DD x6 x59 | s12 => DD x6 x60 | s13 => DD x6 x61 | s14 => DD x6 x62 | s15 => DD x6 x63 | s16 => DD x7 x0 | s17 => DD x7 x1 | s18 => DD x7 x2 | s19 => DD x7 x3 | s20 => DD x7 x4 | s21 => DD x7 x5 | s22 => DD x7 x6 | s23 => DD x7 x7 | s24 => DD x7 x8 | s25 => DD x7 x9 | s26 => DD x7 x10 | s27 => DD x7 x11 | s28 => DD x7 x12 | s29 => DD x7 x13 | s30 => DD x7 x14 | s31 => DD x7 x15 | s32 => DD x7 x16 | s33 => DD x7 x17 | s34 => DD x7 x18 | s35 => DD x7 x19 | s36 => DD x7 x20 | s37 => DD x7 x21 | s38 => DD x7 x22 | s39 => DD x7 x23 | s40 => DD x7 x24 | s41 => DD x7 x25 | s42 => DD x7 x26 | s43 => DD x7 x27 | s44 => DD x7 x28 | s45 => DD x7 x29 | s46 => DD x7 x30 | s47 => DD x7 x31 | s48 => DD x7 x32 | s49 => DD x7 x33 | s50 => DD x7 x34 | s51 => DD x7 x35 | s52 => DD x7 x36 | s53 => DD x7 x37 | s54 => DD x7 x38 | s55 => DD x7 x39 | s56 => DD x7 x40 | s57 => DD x7 x41 | s58 => DD x7 x42 | s59 => DD x7 x43 | s60 => DD x7 x44 | s61 => DD x7 x45 | s62 => DD x7 x46 | s63 => DD x7 x47 | s64 => DD x7 x48 | s65 => DD x7 x49 | s66 => DD x7 x50 | s67 => DD x7 x51 | s68 => DD x7 x52 | s69 => DD x7 x53 | s70 => DD x7 x54 | s71 => DD x7 x55 | s72 => DD x7 x56 | s73 => DD x7 x57 | s74 => DD x7 x58 | s75 => DD x7 x59 | s76 => DD x7 x60 | s77 => DD x7 x61 | s78 => DD x7 x62 | s79 => DD x7 x63 | s80 => DD x8 x0 | s81 => DD x8 x1 | s82 => DD x8 x2 | s83 => DD x8 x3 | s84 => DD x8 x4 | s85 => DD x8 x5 | s86 => DD x8 x6 | s87 => DD x8 x7 | s88 => DD x8 x8 | s89 => DD x8 x9 | s90 => DD x8 x10 | s91 => DD x8 x11 | s92 => DD x8 x12 | s93 => DD x8 x13 | s94 => DD x8 x14 | s95 => DD x8 x15 | s96 => DD x8 x16 | s97 => DD x8 x17 | s98 => DD x8 x18 | s99 => DD x8 x19 | s100 => DD x8 x20 | s101 => DD x8 x21 | s102 => DD x8 x22 | s103 => DD x8 x23 | s104 => DD x8 x24 | s105 => DD x8 x25 | s106 => DD x8 x26 | s107 => DD x8 x27 | s108 => DD x8 x28 | s109 => DD x8 x29 | s110 => DD x8 x30 | s111 => DD x8 x31 | s112 => DD x8 x32 | s113 => DD x8 x33 | s114 => DD x8 x34 | s115 => DD x8 x35 | s116 => DD x8 x36 | s117 => DD x8 x37 | s118 => DD x8 x38 | s119 => DD x8 x39 | s120 => DD x8 x40 | s121 => DD x8 x41 | s122 => DD x8 x42 | s123 => DD x8 x43 | s124 => DD x8 x44 | s125 => DD x8 x45 | s126 => DD x8 x46 end.
Definition m434 (c : sum2) : dd := match c with s0 => DD x6 x50 | s1 => DD x6 x51 | s2 => DD x6 x52 | s3 => DD x6 x53 | s4 => DD x6 x54 | s5 => DD x6 x55 | s6 => DD x6 x56 | s7 => DD x6 x57 | s8 => DD x6 x58 | s9 => DD x6 x59 | s10 => DD x6 x60 | s11 => DD x6 x61 | s12 => DD x6 x62 | s13 => DD x6 x63 | s14 => DD x7 x0 | s15 => DD x7 x1 | s16 => DD x7 x2 | s17 => DD x7 x3 | s18 => DD x7 x4 | s19 => DD x7 x5 | s20 => DD x7 x6 | s21 => DD x7 x7 | s22 => DD x7 x8 | s23 => DD x7 x9 | s24 => DD x7 x10 | s25 => DD x7 x11 | s26 => DD x7 x12 | s27 => DD x7 x13 | s28 => DD x7 x14 | s29 => DD x7 x15 | s30 => DD x7 x16 | s31 => DD x7 x17 | s32 => DD x7 x18 | s33 => DD x7 x19 | s34 => DD x7 x20 | s35 => DD x7 x21 | s36 => DD x7 x22 | s37 => DD x7 x23 | s38 => DD x7 x24 | s39 => DD x7 x25 | s40 => DD x7 x26 | s41 => DD x7 x27 | s42 => DD x7 x28 | s43 => DD x7 x29 | s44 => DD x7 x30 | s45 => DD x7 x31 | s46 => DD x7 x32 | s47 => DD x7 x33 | s48 => DD x7 x34 | s49 => DD x7 x35 | s50 => DD x7 x36 | s51 => DD x7 x37 | s52 => DD x7 x38 | s53 => DD x7 x39 | s54 => DD x7 x40 | s55 => DD x7 x41 | s56 => DD x7 x42 | s57 => DD x7 x43 | s58 => DD x7 x44 | s59 => DD x7 x45 | s60 => DD x7 x46 | s61 => DD x7 x47 | s62 => DD x7 x48 | s63 => DD x7 x49 | s64 => DD x7 x50 | s65 => DD x7 x51 | s66 => DD x7 x52 | s67 => DD x7 x53 | s68 => DD x7 x54 | s69 => DD x7 x55 | s70 => DD x7 x56 | s71 => DD x7 x57 | s72 => DD x7 x58 | s73 => DD x7 x59 | s74 => DD x7 x60 | s75 => DD x7 x61 | s76 => DD x7 x62 | s77 => DD x7 x63 | s78 => DD x8 x0 | s79 => DD x8 x1 | s80 => DD x8 x2 | s81 => DD x8 x3 | s82 => DD x8 x4 | s83 => DD x8 x5 | s84 => DD x8 x6 | s85 => DD x8 x7 | s86 => DD x8 x8 | s87 => DD x8 x9 | s88 => DD x8 x10 | s89 => DD x8 x11 | s90 => DD x8 x12 | s91 => DD x8 x13 | s92 => DD x8 x14 | s93 => DD x8 x15 | s94 => DD x8 x16 | s95 => DD x8 x17 | s96 => DD x8 x18 | s97 => DD x8 x19 | s98 => DD x8 x20 | s99 => DD x8 x21 | s100 => DD x8 x22 | s101 => DD x8 x23 | s102 => DD x8 x24 | s103 => DD x8 x25 | s104 => DD x8 x26 | s105 => DD x8 x27 | s106 => DD x8 x28 | s107 => DD x8 x29 | s108 => DD x8 x30 | s109 => DD x8 x31 | s110 => DD x8 x32 | s111 => DD x8 x33 | s112 => DD x8 x34 | s113 => DD x8 x35 | s114 => DD x8 x36 | s115 => DD x8 x37 | s116 => DD x8 x38 | s117 => DD x8 x39 | s118 => DD x8 x40 | s119 => DD x8 x41 | s120 => DD x8 x42 | s121 => DD x8 x43 | s122 => DD x8 x44 | s123 => DD x8 x45 | s124 => DD x8 x46 | s125 => DD x8 x47 | s126 => DD x8 x48 end.
Definition m435 (c : sum2) : dd := match c with s0 => DD x6 x51 | s1 => DD x6 x52 | s2 => DD x6 x53 | s3 => DD x6 x54 | s4 => DD x6 x55 | s5 => DD x6 x56 | s6 => DD x6 x57 | s7 => DD x6 x58 | s8 => DD x6 x59 | s9 => DD x6 x60 | s10 => DD x6 x61 | s11 => DD x6 x62 | s12 => DD x6 x63 | s13 => DD x7 x0 | s14 => DD x7 x1 | s15 => DD x7 x2 | s16 => DD x7 x3 | s17 => DD x7 x4 | s18 => DD x7 x5 | s19 => DD x7 x6 | s20 => DD x7 x7 | s21 => DD x7 x8 | s22 => DD x7 x9 | s23 => DD x7 x10 | s24 => DD x7 x11 | s25 => DD x7 x12 | s26 => DD x7 x13 | s27 => DD x7 x14 | s28 => DD x7 x15 | s29 => DD x7 x16 | s30 => DD x7 x17 | s31 => DD x7 x18 | s32 => DD x7 x19 | s33 => DD x7 x20 | s34 => DD x7 x21 | s35 => DD x7 x22 | s36 => DD x7 x23 | s37 => DD x7 x24 | s38 => DD x7 x25 | s39 => DD x7 x26 | s40 => DD x7 x27 | s41 => DD x7 x28 | s42 => DD x7 x29 | s43 => DD x7 x30 | s44 => DD x7 x31 | s45 => DD x7 x32 | s46 => DD x7 x33 | s47 => DD x7 x34 | s48 => DD x7 x35 | s49 => DD x7 x36 | s50 => DD x7 x37 | s51 => DD x7 x38 | s52 => DD x7 x39 | s53 => DD x7 x40 | s54 => DD x7 x41 | s55 => DD x7 x42 | s56 => DD x7 x43 | s57 => DD x7 x44 | s58 => DD x7 x45 | s59 => DD x7 x46 | s60 => DD x7 x47 | s61 => DD x7 x48 | s62 => DD x7 x49 | s63 => DD x7 x50 | s64 => DD x7 x51 | s65 => DD x7 x52 | s66 => DD x7 x53 | s67 => DD x7 x54 | s68 => DD x7 x55 | s69 => DD x7 x56 | s70 => DD x7 x57 | s71 => DD x7 x58 | s72 => DD x7 x59 | s73 => DD x7 x60 | s74 => DD x7 x61 | s75 => DD x7 x62 | s76 => DD x7 x63 | s77 => DD x8 x0 | s78 => DD x8 x1 | s79 => DD x8 x2 | s80 => DD x8 x3 | s81 => DD x8 x4 | s82 => DD x8 x5 | s83 => DD x8 x6 | s84 => DD x8 x7 | s85 => DD x8 x8 | s86 => DD x8 x9 | s87 => DD x8 x10 | s88 => DD x8 x11 | s89 => DD x8 x12 | s90 => DD x8 x13 | s91 => DD x8 x14 | s92 => DD x8 x15 | s93 => DD x8 x16 | s94 => DD x8 x17 | s95 => DD x8 x18 | s96 => DD x8 x19 | s97 => DD x8 x20 | s98 => DD x8 x21 | s99 => DD x8 x22 | s100 => DD x8 x23 | s101 => DD x8 x24 | s102 => DD x8 x25 | s103 => DD x8 x26 | s104 => DD x8 x27 | s105 => DD x8 x28 | s106 => DD x8 x29 | s107 => DD x8 x30 | s108 => DD x8 x31 | s109 => DD x8 x32 | s110 => DD x8 x33 | s111 => DD x8 x34 | s112 => DD x8 x35 | s113 => DD x8 x36 | s114 => DD x8 x37 | s115 => DD x8 x38 | s116 => DD x8 x39 | s117 => DD x8 x40 | s118 => DD x8 x41 | s119 => DD x8 x42 | s120 => DD x8 x43 | s121 => DD x8 x44 | s122 => DD x8 x45 | s123 => DD x8 x46 | s124 => DD x8 x47 | s125 => DD x8 x48 | s126 => DD x8 x49 end.
Definition m437 (c : sum2) : dd := match c with s0 => DD x6 x53 | s1 => DD x6 x54 | s2 => DD x6 x55 | s3 => DD x6 x56 | s4 => DD x6 x57 | s5 => DD x6 x58 | s6 => DD x6 x59 | s7 => DD x6 x60 | s8 => DD x6 x61 | s9 => DD x6 x62 | s10 => DD x6 x63 | s11 => DD x7 x0 | s12 => DD x7 x1 | s13 => DD x7 x2 | s14 => DD x7 x3 | s15 => DD x7 x4 | s16 => DD x7 x5 | s17 => DD x7 x6 | s18 => DD x7 x7 | s19 => DD x7 x8 | s20 => DD x7 x9 | s21 => DD x7 x10 | s22 => DD x7 x11 | s23 => DD x7 x12 | s24 => DD x7 x13 | s25 => DD x7 x14 | s26 => DD x7 x15 | s27 => DD x7 x16 | s28 => DD x7 x17 | s29 => DD x7 x18 | s30 => DD x7 x19 | s31 => DD x7 x20 | s32 => DD x7 x21 | s33 => DD x7 x22 | s34 => DD x7 x23 | s35 => DD x7 x24 | s36 => DD x7 x25 | s37 => DD x7 x26 | s38 => DD x7 x27 | s39 => DD x7 x28 | s40 => DD x7 x29 | s41 => DD x7 x30 | s42 => DD x7 x31 | s43 => DD x7 x32 | s44 => DD x7 x33 | s45 => DD x7 x34 | s46 => DD x7 x35 | s47 => DD x7 x36 | s48 => DD x7 x37 | s49 => DD x7 x38 | s50 => DD x7 x39 | s51 => DD x7 x40 | s52 => DD x7 x41 | s53 => DD x7 x42 | s54 => DD x7 x43 | s55 => DD x7 x44 | s56 => DD x7 x45 | s57 => DD x7 x46 | s58 => DD x7 x47 | s59 => DD x7 x48 | s60 => DD x7 x49 | s61 => DD x7 x50 | s62 => DD x7 x51 | s63 => DD x7 x52 | s64 => DD x7 x53 | s65 => DD x7 x54 | s66 => DD x7 x55 | s67 => DD x7 x56 | s68 => DD x7 x57 | s69 => DD x7 x58 | s70 => DD x7 x59 | s71 => DD x7 x60 | s72 => DD x7 x61 | s73 => DD x7 x62 | s74 => DD x7 x63 | s75 => DD x8 x0 | s76 => DD x8 x1 | s77 => DD x8 x2 | s78 => DD x8 x3 | s79 => DD x8 x4 | s80 => DD x8 x5 | s81 => DD x8 x6 | s82 => DD x8 x7 | s83 => DD x8 x8 | s84 => DD x8 x9 | s85 => DD x8 x10 | s86 => DD x8 x11 | s87 => DD x8 x12 | s88 => DD x8 x13 | s89 => DD x8 x14 | s90 => DD x8 x15 | s91 => DD x8 x16 | s92 => DD x8 x17 | s93 => DD x8 x18 | s94 => DD x8 x19 | s95 => DD x8 x20 | s96 => DD x8 x21 | s97 => DD x8 x22 | s98 => DD x8 x23 | s99 => DD x8 x24 | s100 => DD x8 x25 | s101 => DD x8 x26 | s102 => DD x8 x27 | s103 => DD x8 x28 | s104 => DD x8 x29 | s105 => DD x8 x30 | s106 => DD x8 x31 | s107 => DD x8 x32 | s108 => DD x8 x33 | s109 => DD x8 x34 | s110 => DD x8 x35 | s111 => DD x8 x36 | s112 => DD x8 x37 | s113 => DD x8 x38 | s114 => DD x8 x39 | s115 => DD x8 x40 | s116 => DD x8 x41 | s117 => DD x8 x42 | s118 => DD x8 x43 | s119 => DD x8 x44 | s120 => DD x8 x45 | s121 => DD x8 x46 | s122 => DD x8 x47 | s123 => DD x8 x48 | s124 => DD x8 x49 | s125 => DD x8 x50 | s126 => DD x8 x51 end.
Definition m440 (c : sum2) : dd := match c with s0 => DD x6 x56 | s1 => DD x6 x57 | s2 => DD x6 x58 | s3 => DD x6 x59 | s4 => DD x6 x60 | s5 => DD x6 x61 | s6 => DD x6 x62 | s7 => DD x6 x63 | s8 => DD x7 x0 | s9 => DD x7 x1 | s10 => DD x7 x2 | s11 => DD x7 x3 | s12 => DD x7 x4 | s13 => DD x7 x5 | s14 => DD x7 x6 | s15 => DD x7 x7 | s16 => DD x7 x8 | s17 => DD x7 x9 | s18 => DD x7 x10 | s19 => DD x7 x11 | s20 => DD x7 x12 | s21 => DD x7 x13 | s22 => DD x7 x14 | s23 => DD x7 x15 | s24 => DD x7 x16 | s25 => DD x7 x17 | s26 => DD x7 x18 | s27 => DD x7 x19 | s28 => DD x7 x20 | s29 => DD x7 x21 | s30 => DD x7 x22 | s31 => DD x7 x23 | s32 => DD x7 x24 | s33 => DD x7 x25 | s34 => DD x7 x26 | s35 => DD x7 x27 | s36 => DD x7 x28 | s37 => DD x7 x29 | s38 => DD x7 x30 | s39 => DD x7 x31 | s40 => DD x7 x32 | s41 => DD x7 x33 | s42 => DD x7 x34 | s43 => DD x7 x35 | s44 => DD x7 x36 | s45 => DD x7 x37 | s46 => DD x7 x38 | s47 => DD x7 x39 | s48 => DD x7 x40 | s49 => DD x7 x41 | s50 => DD x7 x42 | s51 => DD x7 x43 | s52 => DD x7 x44 | s53 => DD x7 x45 | s54 => DD x7 x46 | s55 => DD x7 x47 | s56 => DD x7 x48 | s57 => DD x7 x49 | s58 => DD x7 x50 | s59 => DD x7 x51 | s60 => DD x7 x52 | s61 => DD x7 x53 | s62 => DD x7 x54 | s63 => DD x7 x55 | s64 => DD x7 x56 | s65 => DD x7 x57 | s66 => DD x7 x58 | s67 => DD x7 x59 | s68 => DD x7 x60 | s69 => DD x7 x61 | s70 => DD x7 x62 | s71 => DD x7 x63 | s72 => DD x8 x0 | s73 => DD x8 x1 | s74 => DD x8 x2 | s75 => DD x8 x3 | s76 => DD x8 x4 | s77 => DD x8 x5 | s78 => DD x8 x6 | s79 => DD x8 x7 | s80 => DD x8 x8 | s81 => DD x8 x9 | s82 => DD x8 x10 | s83 => DD x8 x11 | s84 => DD x8 x12 | s85 => DD x8 x13 | s86 => DD x8 x14 | s87 => DD x8 x15 | s88 => DD x8 x16 | s89 => DD x8 x17 | s90 => DD x8 x18 | s91 => DD x8 x19 | s92 => DD x8 x20 | s93 => DD x8 x21 | s94 => DD x8 x22 | s95 => DD x8 x23 | s96 => DD x8 x24 | s97 => DD x8 x25 | s98 => DD x8 x26 | s99 => DD x8 x27 | s100 => DD x8 x28 | s101 => DD x8 x29 | s102 => DD x8 x30 | s103 => DD x8 x31 | s104 => DD x8 x32 | s105 => DD x8 x33 | s106 => DD x8 x34 | s107 => DD x8 x35 | s108 => DD x8 x36 | s109 => DD x8 x37 | s110 => DD x8 x38 | s111 => DD x8 x39 | s112 => DD x8 x40 | s113 => DD x8 x41 | s114 => DD x8 x42 | s115 => DD x8 x43 | s116 => DD x8 x44 | s117 => DD x8 x45 | s118 => DD x8 x46 | s119 => DD x8 x47 | s120 => DD x8 x48 | s121 => DD x8 x49 | s122 => DD x8 x50 | s123 => DD x8 x51 | s124 => DD x8 x52 | s125 => DD x8 x53 | s126 => DD x8 x54 end.
Definition m441 (c : sum2) : dd := match c with s0 => DD x6 x57 | s1 => DD x6 x58 | s2 => DD x6 x59 | s3 => DD x6 x60 | s4 => DD x6 x61 | s5 => DD x6 x62 | s6 => DD x6 x63 | s7 => DD x7 x0 | s8 => DD x7 x1 | s9 => DD x7 x2 | s10 => DD x7 x3 | s11 => DD x7 x4 | s12 => DD x7 x5 | s13 => DD x7 x6 | s14 => DD x7 x7 | s15 => DD x7 x8 | s16 => DD x7 x9 | s17 => DD x7 x10 | s18 => DD x7 x11 | s19 => DD x7 x12 | s20 => DD x7 x13 | s21 => DD x7 x14 | s22 => DD x7 x15 | s23 => DD x7 x16 | s24 => DD x7 x17 | s25 => DD x7 x18 | s26 => DD x7 x19 | s27 => DD x7 x20 | s28 => DD x7 x21 | s29 => DD x7 x22 | s30 => DD x7 x23 | s31 => DD x7 x24 | s32 => DD x7 x25 | s33 => DD x7 x26 | s34 => DD x7 x27 | s35 => DD x7 x28 | s36 => DD x7 x29 | s37 => DD x7 x30 | s38 => DD x7 x31 | s39 => DD x7 x32 | s40 => DD x7 x33 | s41 => DD x7 x34 | s42 => DD x7 x35 | s43 => DD x7 x36 | s44 => DD x7 x37 | s45 => DD x7 x38 | s46 => DD x7 x39 | s47 => DD x7 x40 | s48 => DD x7 x41 | s49 => DD x7 x42 | s50 => DD x7 x43 | s51 => DD x7 x44 | s52 => DD x7 x45 | s53 => DD x7 x46 | s54 => DD x7 x47 | s55 => DD x7 x48 | s56 => DD x7 x49 | s57 => DD x7 x50 | s58 => DD x7 x51 | s59 => DD x7 x52 | s60 => DD x7 x53 | s61 => DD x7 x54 | s62 => DD x7 x55 | s63 => DD x7 x56 | s64 => DD x7 x57 | s65 => DD x7 x58 | s66 => DD x7 x59 | s67 => DD x7 x60 | s68 => DD x7 x61 | s69 => DD x7 x62 | s70 => DD x7 x63 | s71 => DD x8 x0 | s72 => DD x8 x1 | s73 => DD x8 x2 | s74 => DD x8 x3 | s75 => DD x8 x4 | s76 => DD x8 x5 | s77 => DD x8 x6 | s78 => DD x8 x7 | s79 => DD x8 x8 | s80 => DD x8 x9 | s81 => DD x8 x10 | s82 => DD x8 x11 | s83 => DD x8 x12 | s84 => DD x8 x13 | s85 => DD x8 x14 | s86 => DD x8 x15 | s87 => DD x8 x16 | s88 => DD x8 x17 | s89 => DD x8 x18 | s90 => DD x8 x19 | s91 => DD x8 x20 | s92 => DD x8 x21 | s93 => DD x8 x22 | s94 => DD x8 x23 | s95 => DD x8 x24 | s96 => DD x8 x25 | s97 => DD x8 x26 | s98 => DD x8 x27 | s99 => DD x8 x28 | s100 => DD x8 x29 | s101 => DD x8 x30 | s102 => DD x8 x31 | s103 => DD x8 x32 | s104 => DD x8 x33 | s105 => DD x8 x34 | s106 => DD x8 x35 | s107 => DD x8 x36 | s108 => DD x8 x37 | s109 => DD x8 x38 | s110 => DD x8 x39 | s111 => DD x8 x40 | s112 => DD x8 x41 | s113 => DD x8 x42 | s114 => DD x8 x43 | s115 => DD x8 x44 | s116 => DD x8 x45 | s117 => DD x8 x46 | s118 => DD x8 x47 | s119 => DD x8 x48 | s120 => DD x8 x49 | s121 => DD x8 x50 | s122 => DD x8 x51 | s123 => DD x8 x52 | s124 => DD x8 x53 | s125 => DD x8 x54 | s126 => DD x8 x55 end.
Definition m442 (c : sum2) : dd := match c with s0 => DD x6 x58 | s1 => DD x6 x59 | s2 => DD x6 x60 | s3 => DD x6 x61 | s4 => DD x6 x62 | s5 => DD x6 x63 | s6 => DD x7 x0 | s7 => DD x7 x1 | s8 => DD x7 x2 | s9 => DD x7 x3 | s10 => DD x7 x4 | s11 => DD x7 x5 | s12 => DD x7 x6 | s13 => DD x7 x7 | s14 => DD x7 x8 | s15 => DD x7 x9 | s16 => DD x7 x10 | s17 => DD x7 x11 | s18 => DD x7 x12 | s19 => DD x7 x13 | s20 => DD x7 x14 | s21 => DD x7 x15 | s22 => DD x7 x16 | s23 => DD x7 x17 | s24 => DD x7 x18 | s25 => DD x7 x19 | s26 => DD x7 x20 | s27 => DD x7 x21 | s28 => DD x7 x22 | s29 => DD x7 x23 | s30 => DD x7 x24 | s31 => DD x7 x25 | s32 => DD x7 x26 | s33 => DD x7 x27 | s34 => DD x7 x28 | s35 => DD x7 x29 | s36 => DD x7 x30 | s37 => DD x7 x31 | s38 => DD x7 x32 | s39 => DD x7 x33 | s40 => DD x7 x34 | s41 => DD x7 x35 | s42 => DD x7 x36 | s43 => DD x7 x37 | s44 => DD x7 x38 | s45 => DD x7 x39 | s46 => DD x7 x40 | s47 => DD x7 x41 | s48 => DD x7 x42 | s49 => DD x7 x43 | s50 => DD x7 x44 | s51 => DD x7 x45 | s52 => DD x7 x46 | s53 => DD x7 x47 | s54 => DD x7 x48 | s55 => DD x7 x49 | s56 => DD x7 x50 | s57 => DD x7 x51 | s58 => DD x7 x52 | s59 => DD x7 x53 | s60 => DD x7 x54 | s61 => DD x7 x55 | s62 => DD x7 x56 | s63 => DD x7 x57 | s64 => DD x7 x58 | s65 => DD x7 x59 | s66 => DD x7 x60 | s67 => DD x7 x61 | s68 => DD x7 x62 | s69 => DD x7 x63 | s70 => DD x8 x0 | s71 => DD x8 x1 | s72 => DD x8 x2 | s73 => DD x8 x3 | s74 => DD x8 x4 | s75 => DD x8 x5 | s76 => DD x8 x6 | s77 => DD x8 x7 | s78 => DD x8 x8 | s79 => DD x8 x9 | s80 => DD x8 x10 | s81 => DD x8 x11 | s82 => DD x8 x12 | s83 => DD x8 x13 | s84 => DD x8 x14 | s85 => DD x8 x15 | s86 => DD x8 x16 | s87 => DD x8 x17 | s88 => DD x8 x18 | s89 => DD x8 x19 | s90 => DD x8 x20 | s91 => DD x8 x21 | s92 => DD x8 x22 | s93 => DD x8 x23 | s94 => DD x8 x24 | s95 => DD x8 x25 | s96 => DD x8 x26 | s97 => DD x8 x27 | s98 => DD x8 x28 | s99 => DD x8 x29 | s100 => DD x8 x30 | s101 => DD x8 x31 | s102 => DD x8 x32 | s103 => DD x8 x33 | s104 => DD x8 x34 | s105 => DD x8 x35 | s106 => DD x8 x36 | s107 => DD x8 x37 | s108 => DD x8 x38 | s109 => DD x8 x39 | s110 => DD x8 x40 | s111 => DD x8 x41 | s112 => DD x8 x42 | s113 => DD x8 x43 | s114 => DD x8 x44 | s115 => DD x8 x45 | s116 => DD x8 x46 | s117 => DD x8 x47 | s118 => DD x8 x48 | s119 => DD x8 x49 | s120 => DD x8 x50 | s121 => DD x8 x51 | s122 => DD x8 x52 | s123 => DD x8 x53 | s124 => DD x8 x54 | s125 => DD x8 x55 | s126 => DD x8 x56 end.
Definition m444 (c : sum2) : dd := match c with s0 => DD x6 x60 | s1 => DD x6 x61 | s2 => DD x6 x62 | s3 => DD x6 x63 | s4 => DD x7 x0 | s5 => DD x7 x1 | s6 => DD x7 x2 | s7 => DD x7 x3 | s8 => DD x7 x4 | s9 => DD x7 x5 | s10 => DD x7 x6 | s11 => DD x7 x7 | s12 => DD x7 x8 | s13 => DD x7 x9 | s14 => DD x7 x10 | s15 => DD x7 x11 | s16 => DD x7 x12 | s17 => DD x7 x13 | s18 => DD x7 x14 | s19 => DD x7 x15 | s20 => DD x7 x16 | s21 => DD x7 x17 | s22 => DD x7 x18 | s23 => DD x7 x19 | s24 => DD x7 x20 | s25 => DD x7 x21 | s26 => DD x7 x22 | s27 => DD x7 x23 | s28 => DD x7 x24 | s29 => DD x7 x25 | s30 => DD x7 x26 | s31 => DD x7 x27 | s32 => DD x7 x28 | s33 => DD x7 x29 | s34 => DD x7 x30 | s35 => DD x7 x31 | s36 => DD x7 x32 | s37 => DD x7 x33 | s38 => DD x7 x34 | s39 => DD x7 x35 | s40 => DD x7 x36 | s41 => DD x7 x37 | s42 => DD x7 x38 | s43 => DD x7 x39 | s44 => DD x7 x40 | s45 => DD x7 x41 | s46 => DD x7 x42 | s47 => DD x7 x43 | s48 => DD x7 x44 | s49 => DD x7 x45 | s50 => DD x7 x46 | s51 => DD x7 x47 | s52 => DD x7 x48 | s53 => DD x7 x49 | s54 => DD x7 x50 | s55 => DD x7 x51 | s56 => DD x7 x52 | s57 => DD x7 x53 | s58 => DD x7 x54 | s59 => DD x7 x55 | s60 => DD x7 x56 | s61 => DD x7 x57 | s62 => DD x7 x58 | s63 => DD x7 x59 | s64 => DD x7 x60 | s65 => DD x7 x61 | s66 => DD x7 x62 | s67 => DD x7 x63 | s68 => DD x8 x0 | s69 => DD x8 x1 | s70 => DD x8 x2 | s71 => DD x8 x3 | s72 => DD x8 x4 | s73 => DD x8 x5 | s74 => DD x8 x6 | s75 => DD x8 x7 | s76 => DD x8 x8 | s77 => DD x8 x9 | s78 => DD x8 x10 | s79 => DD x8 x11 | s80 => DD x8 x12 | s81 => DD x8 x13 | s82 => DD x8 x14 | s83 => DD x8 x15 | s84 => DD x8 x16 | s85 => DD x8 x17 | s86 => DD x8 x18 | s87 => DD x8 x19 | s88 => DD x8 x20 | s89 => DD x8 x21 | s90 => DD x8 x22 | s91 => DD x8 x23 | s92 => DD x8 x24 | s93 => DD x8 x25 | s94 => DD x8 x26 | s95 => DD x8 x27 | s96 => DD x8 x28 | s97 => DD x8 x29 | s98 => DD x8 x30 | s99 => DD x8 x31 | s100 => DD x8 x32 | s101 => DD x8 x33 | s102 => DD x8 x34 | s103 => DD x8 x35 | s104 => DD x8 x36 | s105 => DD x8 x37 | s106 => DD x8 x38 | s107 => DD x8 x39 | s108 => DD x8 x40 | s109 => DD x8 x41 | s110 => DD x8 x42 | s111 => DD x8 x43 | s112 => DD x8 x44 | s113 => DD x8 x45 | s114 => DD x8 x46 | s115 => DD x8 x47 | s116 => DD x8 x48 | s117 => DD x8 x49 | s118 => DD x8 x50 | s119 => DD x8 x51 | s120 => DD x8 x52 | s121 => DD x8 x53 | s122 => DD x8 x54 | s123 => DD x8 x55 | s124 => DD x8 x56 | s125 => DD x8 x57 | s126 => DD x8 x58 end.
Definition m448 (c : sum2) : dd := match c with s0 => DD x7 x0 | s1 => DD x7 x1 | s2 => DD x7 x2 | s3 => DD x7 x3 | s4 => DD x7 x4 | s5 => DD x7 x5 | s6 => DD x7 x6 | s7 => DD x7 x7 | s8 => DD x7 x8 | s9 => DD x7 x9 | s10 => DD x7 x10 | s11 => DD x7 x11 | s12 => DD x7 x12 | s13 => DD x7 x13 | s14 => DD x7 x14 | s15 => DD x7 x15 | s16 => DD x7 x16 | s17 => DD x7 x17 | s18 => DD x7 x18 | s19 => DD x7 x19 | s20 => DD x7 x20 | s21 => DD x7 x21 | s22 => DD x7 x22 | s23 => DD x7 x23 | s24 => DD x7 x24 | s25 => DD x7 x25 | s26 => DD x7 x26 | s27 => DD x7 x27 | s28 => DD x7 x28 | s29 => DD x7 x29 | s30 => DD x7 x30 | s31 => DD x7 x31 | s32 => DD x7 x32 | s33 => DD x7 x33 | s34 => DD x7 x34 | s35 => DD x7 x35 | s36 => DD x7 x36 | s37 => DD x7 x37 | s38 => DD x7 x38 | s39 => DD x7 x39 | s40 => DD x7 x40 | s41 => DD x7 x41 | s42 => DD x7 x42 | s43 => DD x7 x43 | s44 => DD x7 x44 | s45 => DD x7 x45 | s46 => DD x7 x46 | s47 => DD x7 x47 | s48 => DD x7 x48 | s49 => DD x7 x49 | s50 => DD x7 x50 | s51 => DD x7 x51 | s52 => DD x7 x52 | s53 => DD x7 x53 | s54 => DD x7 x54 | s55 => DD x7 x55 | s56 => DD x7 x56 | s57 => DD x7 x57 | s58 => DD x7 x58 | s59 => DD x7 x59 | s60 => DD x7 x60 | s61 => DD x7 x61 | s62 => DD x7 x62 | s63 => DD x7 x63 | s64 => DD x8 x0 | s65 => DD x8 x1 | s66 => DD x8 x2 | s67 => DD x8 x3 | s68 => DD x8 x4 | s69 => DD x8 x5 | s70 => DD x8 x6 | s71 => DD x8 x7 | s72 => DD x8 x8 | s73 => DD x8 x9 | s74 => DD x8 x10 | s75 => DD x8 x11 | s76 => DD x8 x12 | s77 => DD x8 x13 | s78 => DD x8 x14 | s79 => DD x8 x15 | s80 => DD x8 x16 | s81 => DD x8 x17 | s82 => DD x8 x18 | s83 => DD x8 x19 | s84 => DD x8 x20 | s85 => DD x8 x21 | s86 => DD x8 x22 | s87 => DD x8 x23 | s88 => DD x8 x24 | s89 => DD x8 x25 | s90 => DD x8 x26 | s91 => DD x8 x27 | s92 => DD x8 x28 | s93 => DD x8 x29 | s94 => DD x8 x30 | s95 => DD x8 x31 | s96 => DD x8 x32 | s97 => DD x8 x33 | s98 => DD x8 x34 | s99 => DD x8 x35 | s100 => DD x8 x36 | s101 => DD x8 x37 | s102 => DD x8 x38 | s103 => DD x8 x39 | s104 => DD x8 x40 | s105 => DD x8 x41 | s106 => DD x8 x42 | s107 => DD x8 x43 | s108 => DD x8 x44 | s109 => DD x8 x45 | s110 => DD x8 x46 | s111 => DD x8 x47 | s112 => DD x8 x48 | s113 => DD x8 x49 | s114 => DD x8 x50 | s115 => DD x8 x51 | s116 => DD x8 x52 | s117 => DD x8 x53 | s118 => DD x8 x54 | s119 => DD x8 x55 | s120 => DD x8 x56 | s121 => DD x8 x57 | s122 => DD x8 x58 | s123 => DD x8 x59 | s124 => DD x8 x60 | s125 => DD x8 x61 | s126 => DD x8 x62 end.
Definition m450 (c : sum2) : dd := match c with s0 => DD x7 x2 | s1 => DD x7 x3 | s2 => DD x7 x4 | s3 => DD x7 x5 | s4 => DD x7 x6 | s5 => DD x7 x7 | s6 => DD x7 x8 | s7 => DD x7 x9 | s8 => DD x7 x10 | s9 => DD x7 x11 | s10 => DD x7 x12 | s11 => DD x7 x13 | s12 => DD x7 x14 | s13 => DD x7 x15 | s14 => DD x7 x16 | s15 => DD x7 x17 | s16 => DD x7 x18 | s17 => DD x7 x19 | s18 => DD x7 x20 | s19 => DD x7 x21 | s20 => DD x7 x22 | s21 => DD x7 x23 | s22 => DD x7 x24 | s23 => DD x7 x25 | s24 => DD x7 x26 | s25 => DD x7 x27 | s26 => DD x7 x28 | s27 => DD x7 x29 | s28 => DD x7 x30 | s29 => DD x7 x31 | s30 => DD x7 x32 | s31 => DD x7 x33 | s32 => DD x7 x34 | s33 => DD x7 x35 | s34 => DD x7 x36 | s35 => DD x7 x37 | s36 => DD x7 x38 | s37 => DD x7 x39 | s38 => DD x7 x40 | s39 => DD x7 x41 | s40 => DD x7 x42 | s41 => DD x7 x43 | s42 => DD x7 x44 | s43 => DD x7 x45 | s44 => DD x7 x46 | s45 => DD x7 x47 | s46 => DD x7 x48 | s47 => DD x7 x49 | s48 => DD x7 x50 | s49 => DD x7 x51 | s50 => DD x7 x52 | s51 => DD x7 x53 | s52 => DD x7 x54 | s53 => DD x7 x55 | s54 => DD x7 x56 | s55 => DD x7 x57 | s56 => DD x7 x58 | s57 => DD x7 x59 | s58 => DD x7 x60 | s59 => DD x7 x61 | s60 => DD x7 x62 | s61 => DD x7 x63 | s62 => DD x8 x0 | s63 => DD x8 x1 | s64 => DD x8 x2 | s65 => DD x8 x3 | s66 => DD x8 x4 | s67 => DD x8 x5 | s68 => DD x8 x6 | s69 => DD x8 x7 | s70 => DD x8 x8 | s71 => DD x8 x9 | s72 => DD x8 x10 | s73 => DD x8 x11 | s74 => DD x8 x12 | s75 => DD x8 x13 | s76 => DD x8 x14 | s77 => DD x8 x15 | s78 => DD x8 x16 | s79 => DD x8 x17 | s80 => DD x8 x18 | s81 => DD x8 x19 | s82 => DD x8 x20 | s83 => DD x8 x21 | s84 => DD x8 x22 | s85 => DD x8 x23 | s86 => DD x8 x24 | s87 => DD x8 x25 | s88 => DD x8 x26 | s89 => DD x8 x27 | s90 => DD x8 x28 | s91 => DD x8 x29 | s92 => DD x8 x30 | s93 => DD x8 x31 | s94 => DD x8 x32 | s95 => DD x8 x33 | s96 => DD x8 x34 | s97 => DD x8 x35 | s98 => DD x8 x36 | s99 => DD x8 x37 | s100 => DD x8 x38 | s101 => DD x8 x39 | s102 => DD x8 x40 | s103 => DD x8 x41 | s104 => DD x8 x42 | s105 => DD x8 x43 | s106 => DD x8 x44 | s107 => DD x8 x45 | s108 => DD x8 x46 | s109 => DD x8 x47 | s110 => DD x8 x48 | s111 => DD x8 x49 | s112 => DD x8 x50 | s113 => DD x8 x51 | s114 => DD x8 x52 | s115 => DD x8 x53 | s116 => DD x8 x54 | s117 => DD x8 x55 | s118 => DD x8 x56 | s119 => DD x8 x57 | s120 => DD x8 x58 | s121 => DD x8 x59 | s122 => DD x8 x60 | s123 => DD x8 x61 | s124 => DD x8 x62 | s125 => DD x8 x63 | s126 => DD x9 x0 end.
Definition m451 (c : sum2) : dd := match c with s0 => DD x7 x3 | s1 => DD x7 x4 | s2 => DD x7 x5 | s3 => DD x7 x6 | s4 => DD x7 x7 | s5 => DD x7 x8 | s6 => DD x7 x9 | s7 => DD x7 x10 | s8 => DD x7 x11 | s9 => DD x7 x12 | s10 => DD x7 x13 | s11 => DD x7 x14 | s12 => DD x7 x15 | s13 => DD x7 x16 | s14 => DD x7 x17 | s15 => DD x7 x18 | s16 => DD x7 x19 | s17 => DD x7 x20 | s18 => DD x7 x21 | s19 => DD x7 x22 | s20 => DD x7 x23 | s21 => DD x7 x24 | s22 => DD x7 x25 | s23 => DD x7 x26 | s24 => DD x7 x27 | s25 => DD x7 x28 | s26 => DD x7 x29 | s27 => DD x7 x30 | s28 => DD x7 x31 | s29 => DD x7 x32 | s30 => DD x7 x33 | s31 => DD x7 x34 | s32 => DD x7 x35 | s33 => DD x7 x36 | s34 => DD x7 x37 | s35 => DD x7 x38 | s36 => DD x7 x39 | s37 => DD x7 x40 | s38 => DD x7 x41 | s39 => DD x7 x42 | s40 => DD x7 x43 | s41 => DD x7 x44 | s42 => DD x7 x45 | s43 => DD x7 x46 | s44 => DD x7 x47 | s45 => DD x7 x48 | s46 => DD x7 x49 | s47 => DD x7 x50 | s48 => DD x7 x51 | s49 => DD x7 x52 | s50 => DD x7 x53 | s51 => DD x7 x54 | s52 => DD x7 x55 | s53 => DD x7 x56 | s54 => DD x7 x57 | s55 => DD x7 x58 | s56 => DD x7 x59 | s57 => DD x7 x60 | s58 => DD x7 x61 | s59 => DD x7 x62 | s60 => DD x7 x63 | s61 => DD x8 x0 | s62 => DD x8 x1 | s63 => DD x8 x2 | s64 => DD x8 x3 | s65 => DD x8 x4 | s66 => DD x8 x5 | s67 => DD x8 x6 | s68 => DD x8 x7 | s69 => DD x8 x8 | s70 => DD x8 x9 | s71 => DD x8 x10 | s72 => DD x8 x11 | s73 => DD x8 x12 | s74 => DD x8 x13 | s75 => DD x8 x14 | s76 => DD x8 x15 | s77 => DD x8 x16 | s78 => DD x8 x17 | s79 => DD x8 x18 | s80 => DD x8 x19 | s81 => DD x8 x20 | s82 => DD x8 x21 | s83 => DD x8 x22 | s84 => DD x8 x23 | s85 => DD x8 x24 | s86 => DD x8 x25 | s87 => DD x8 x26 | s88 => DD x8 x27 | s89 => DD x8 x28 | s90 => DD x8 x29 | s91 => DD x8 x30 | s92 => DD x8 x31 | s93 => DD x8 x32 | s94 => DD x8 x33 | s95 => DD x8 x34 | s96 => DD x8 x35 | s97 => DD x8 x36 | s98 => DD x8 x37 | s99 => DD x8 x38 | s100 => DD x8 x39 | s101 => DD x8 x40 | s102 => DD x8 x41 | s103 => DD x8 x42 | s104 => DD x8 x43 | s105 => DD x8 x44 | s106 => DD x8 x45 | s107 => DD x8 x46 | s108 => DD x8 x47 | s109 => DD x8 x48 | s110 => DD x8 x49 | s111 => DD x8 x50 | s112 => DD x8 x51 | s113 => DD x8 x52 | s114 => DD x8 x53 | s115 => DD x8 x54 | s116 => DD x8 x55 | s117 => DD x8 x56 | s118 => DD x8 x57 | s119 => DD x8 x58 | s120 => DD x8 x59 | s121 => DD x8 x60 | s122 => DD x8 x61 | s123 => DD x8 x62 | s124 => DD x8 x63 | s125 => DD x9 x0 | s126 => DD x9 x1 end.
Definition m455 (c : sum2) : dd := match c with s0 => DD x7 x7 | s1 => DD x7 x8 | s2 => DD x7 x9 | s3 => DD x7 x10 | s4 => DD x7 x11 | s5 => DD x7 x12 | s6 => DD x7 x13 | s7 => DD x7 x14 | s8 => DD x7 x15 | s9 => DD x7 x16 | s10 => DD x7 x17 | s11 => DD x7 x18 | s12 => DD x7 x19 | s13 => DD x7 x20 | s14 => DD x7 x21 | s15 => DD x7 x22 | s16 => DD x7 x23 | s17 => DD x7 x24 | s18 => DD x7 x25 | s19 => DD x7 x26 | s20 => DD x7 x27 | s21 => DD x7 x28 | s22 => DD x7 x29 | s23 => DD x7 x30 | s24 => DD x7 x31 | s25 => DD x7 x32 | s26 => DD x7 x33 | s27 => DD x7 x34 | s28 => DD x7 x35 | s29 => DD x7 x36 | s30 => DD x7 x37 | s31 => DD x7 x38 | s32 => DD x7 x39 | s33 => DD x7 x40 | s34 => DD x7 x41 | s35 => DD x7 x42 | s36 => DD x7 x43 | s37 => DD x7 x44 | s38 => DD x7 x45 | s39 => DD x7 x46 | s40 => DD x7 x47 | s41 => DD x7 x48 | s42 => DD x7 x49 | s43 => DD x7 x50 | s44 => DD x7 x51 | s45 => DD x7 x52 | s46 => DD x7 x53 | s47 => DD x7 x54 | s48 => DD x7 x55 | s49 => DD x7 x56 | s50 => DD x7 x57 | s51 => DD x7 x58 | s52 => DD x7 x59 | s53 => DD x7 x60 | s54 => DD x7 x61 | s55 => DD x7 x62 | s56 => DD x7 x63 | s57 => DD x8 x0 | s58 => DD x8 x1 | s59 => DD x8 x2 | s60 => DD x8 x3 | s61 => DD x8 x4 | s62 => DD x8 x5 | s63 => DD x8 x6 | s64 => DD x8 x7 | s65 => DD x8 x8 | s66 => DD x8 x9 | s67 => DD x8 x10 | s68 => DD x8 x11 | s69 => DD x8 x12 | s70 => DD x8 x13 | s71 => DD x8 x14 | s72 => DD x8 x15 | s73 => DD x8 x16 | s74 => DD x8 x17 | s75 => DD x8 x18 | s76 => DD x8 x19 | s77 => DD x8 x20 | s78 => DD x8 x21 | s79 => DD x8 x22 | s80 => DD x8 x23 | s81 => DD x8 x24 | s82 => DD x8 x25 | s83 => DD x8 x26 | s84 => DD x8 x27 | s85 => DD x8 x28 | s86 => DD x8 x29 | s87 => DD x8 x30 | s88 => DD x8 x31 | s89 => DD x8 x32 | s90 => DD x8 x33 | s91 => DD x8 x34 | s92 => DD x8 x35 | s93 => DD x8 x36 | s94 => DD x8 x37 | s95 => DD x8 x38 | s96 => DD x8 x39 | s97 => DD x8 x40 | s98 => DD x8 x41 | s99 => DD x8 x42 | s100 => DD x8 x43 | s101 => DD x8 x44 | s102 => DD x8 x45 | s103 => DD x8 x46 | s104 => DD x8 x47 | s105 => DD x8 x48 | s106 => DD x8 x49 | s107 => DD x8 x50 | s108 => DD x8 x51 | s109 => DD x8 x52 | s110 => DD x8 x53 | s111 => DD x8 x54 | s112 => DD x8 x55 | s113 => DD x8 x56 | s114 => DD x8 x57 | s115 => DD x8 x58 | s116 => DD x8 x59 | s117 => DD x8 x60 | s118 => DD x8 x61 | s119 => DD x8 x62 | s120 => DD x8 x63 | s121 => DD x9 x0 | s122 => DD x9 x1 | s123 => DD x9 x2 | s124 => DD x9 x3 | s125 => DD x9 x4 | s126 => DD x9 x5 end.
Definition m456 (c : sum2) : dd := match c with s0 => DD x7 x8 | s1 => DD x7 x9 | s2 => DD x7 x10 | s3 => DD x7 x11 | s4 => DD x7 x12 | s5 => DD x7 x13 | s6 => DD x7 x14 | s7 => DD x7 x15 | s8 => DD x7 x16 | s9 => DD x7 x17 | s10 => DD x7 x18 | s11 => DD x7 x19 | s12 => DD x7 x20 | s13 => DD x7 x21 | s14 => DD x7 x22 | s15 => DD x7 x23 | s16 => DD x7 x24 | s17 => DD x7 x25 | s18 => DD x7 x26 | s19 => DD x7 x27 | s20 => DD x7 x28 | s21 => DD x7 x29 | s22 => DD x7 x30 | s23 => DD x7 x31 | s24 => DD x7 x32 | s25 => DD x7 x33 | s26 => DD x7 x34 | s27 => DD x7 x35 | s28 => DD x7 x36 | s29 => DD x7 x37 | s30 => DD x7 x38 | s31 => DD x7 x39 | s32 => DD x7 x40 | s33 => DD x7 x41 | s34 => DD x7 x42 | s35 => DD x7 x43 | s36 => DD x7 x44 | s37 => DD x7 x45 | s38 => DD x7 x46 | s39 => DD x7 x47 | s40 => DD x7 x48 | s41 => DD x7 x49 | s42 => DD x7 x50 | s43 => DD x7 x51 | s44 => DD x7 x52 | s45 => DD x7 x53 | s46 => DD x7 x54 | s47 => DD x7 x55 | s48 => DD x7 x56 | s49 => DD x7 x57 | s50 => DD x7 x58 | s51 => DD x7 x59 | s52 => DD x7 x60 | s53 => DD x7 x61 | s54 => DD x7 x62 | s55 => DD x7 x63 | s56 => DD x8 x0 | s57 => DD x8 x1 | s58 => DD x8 x2 | s59 => DD x8 x3 | s60 => DD x8 x4 | s61 => DD x8 x5 | s62 => DD x8 x6 | s63 => DD x8 x7 | s64 => DD x8 x8 | s65 => DD x8 x9 | s66 => DD x8 x10 | s67 => DD x8 x11 | s68 => DD x8 x12 | s69 => DD x8 x13 | s70 => DD x8 x14 | s71 => DD x8 x15 | s72 => DD x8 x16 | s73 => DD x8 x17 | s74 => DD x8 x18 | s75 => DD x8 x19 | s76 => DD x8 x20 | s77 => DD x8 x21 | s78 => DD x8 x22 | s79 => DD x8 x23 | s80 => DD x8 x24 | s81 => DD x8 x25 | s82 => DD x8 x26 | s83 => DD x8 x27 | s84 => DD x8 x28 | s85 => DD x8 x29 | s86 => DD x8 x30 | s87 => DD x8 x31 | s88 => DD x8 x32 | s89 => DD x8 x33 | s90 => DD x8 x34 | s91 => DD x8 x35 | s92 => DD x8 x36 | s93 => DD x8 x37 | s94 => DD x8 x38 | s95 => DD x8 x39 | s96 => DD x8 x40 | s97 => DD x8 x41 | s98 => DD x8 x42 | s99 => DD x8 x43 | s100 => DD x8 x44 | s101 => DD x8 x45 | s102 => DD x8 x46 | s103 => DD x8 x47 | s104 => DD x8 x48 | s105 => DD x8 x49 | s106 => DD x8 x50 | s107 => DD x8 x51 | s108 => DD x8 x52 | s109 => DD x8 x53 | s110 => DD x8 x54 | s111 => DD x8 x55 | s112 => DD x8 x56 | s113 => DD x8 x57 | s114 => DD x8 x58 | s115 => DD x8 x59 | s116 => DD x8 x60 | s117 => DD x8 x61 | s118 => DD x8 x62 | s119 => DD x8 x63 | s120 => DD x9 x0 | s121 => DD x9 x1 | s122 => DD x9 x2 | s123 => DD x9 x3 | s124 => DD x9 x4 | s125 => DD x9 x5 | s126 => DD x9 x6 end.
Definition m459 (c : sum2) : dd := match c with s0 => DD x7 x11 | s1 => DD x7 x12 | s2 => DD x7 x13 | s3 => DD x7 x14 | s4 => DD x7 x15 | s5 => DD x7 x16 | s6 => DD x7 x17 | s7 => DD x7 x18 | s8 => DD x7 x19 | s9 => DD x7 x20 | s10 => DD x7 x21 | s11 => DD x7 x22 | s12 => DD x7 x23 | s13 => DD x7 x24 | s14 => DD x7 x25 | s15 => DD x7 x26 | s16 => DD x7 x27 | s17 => DD x7 x28 | s18 => DD x7 x29 | s19 => DD x7 x30 | s20 => DD x7 x31 | s21 => DD x7 x32 | s22 => DD x7 x33 | s23 => DD x7 x34 | s24 => DD x7 x35 | s25 => DD x7 x36 | s26 => DD x7 x37 | s27 => DD x7 x38 | s28 => DD x7 x39 | s29 => DD x7 x40 | s30 => DD x7 x41 | s31 => DD x7 x42 | s32 => DD x7 x43 | s33 => DD x7 x44 | s34 => DD x7 x45 | s35 => DD x7 x46 | s36 => DD x7 x47 | s37 => DD x7 x48 | s38 => DD x7 x49 | s39 => DD x7 x50 | s40 => DD x7 x51 | s41 => DD x7 x52 | s42 => DD x7 x53 | s43 => DD x7 x54 | s44 => DD x7 x55 | s45 => DD x7 x56 | s46 => DD x7 x57 | s47 => DD x7 x58 | s48 => DD x7 x59 | s49 => DD x7 x60 | s50 => DD x7 x61 | s51 => DD x7 x62 | s52 => DD x7 x63 | s53 => DD x8 x0 | s54 => DD x8 x1 | s55 => DD x8 x2 | s56 => DD x8 x3 | s57 => DD x8 x4 | s58 => DD x8 x5 | s59 => DD x8 x6 | s60 => DD x8 x7 | s61 => DD x8 x8 | s62 => DD x8 x9 | s63 => DD x8 x10 | s64 => DD x8 x11 | s65 => DD x8 x12 | s66 => DD x8 x13 | s67 => DD x8 x14 | s68 => DD x8 x15 | s69 => DD x8 x16 | s70 => DD x8 x17 | s71 => DD x8 x18 | s72 => DD x8 x19 | s73 => DD x8 x20 | s74 => DD x8 x21 | s75 => DD x8 x22 | s76 => DD x8 x23 | s77 => DD x8 x24 | s78 => DD x8 x25 | s79 => DD x8 x26 | s80 => DD x8 x27 | s81 => DD x8 x28 | s82 => DD x8 x29 | s83 => DD x8 x30 | s84 => DD x8 x31 | s85 => DD x8 x32 | s86 => DD x8 x33 | s87 => DD x8 x34 | s88 => DD x8 x35 | s89 => DD x8 x36 | s90 => DD x8 x37 | s91 => DD x8 x38 | s92 => DD x8 x39 | s93 => DD x8 x40 | s94 => DD x8 x41 | s95 => DD x8 x42 | s96 => DD x8 x43 | s97 => DD x8 x44 | s98 => DD x8 x45 | s99 => DD x8 x46 | s100 => DD x8 x47 | s101 => DD x8 x48 | s102 => DD x8 x49 | s103 => DD x8 x50 | s104 => DD x8 x51 | s105 => DD x8 x52 | s106 => DD x8 x53 | s107 => DD x8 x54 | s108 => DD x8 x55 | s109 => DD x8 x56 | s110 => DD x8 x57 | s111 => DD x8 x58 | s112 => DD x8 x59 | s113 => DD x8 x60 | s114 => DD x8 x61 | s115 => DD x8 x62 | s116 => DD x8 x63 | s117 => DD x9 x0 | s118 => DD x9 x1 | s119 => DD x9 x2 | s120 => DD x9 x3 | s121 => DD x9 x4 | s122 => DD x9 x5 | s123 => DD x9 x6 | s124 => DD x9 x7 | s125 => DD x9 x8 | s126 => DD x9 x9 end.
Definition m460 (c : sum2) : dd := match c with s0 => DD x7 x12 | s1 => DD x7 x13 | s2 => DD x7 x14 | s3 => DD x7 x15 | s4 => DD x7 x16 | s5 => DD x7 x17 | s6 => DD x7 x18 | s7 => DD x7 x19 | s8 => DD x7 x20 | s9 => DD x7 x21 | s10 => DD x7 x22 | s11 => DD x7 x23 | s12 => DD x7 x24 | s13 => DD x7 x25 | s14 => DD x7 x26 | s15 => DD x7 x27 | s16 => DD x7 x28 | s17 => DD x7 x29 | s18 => DD x7 x30 | s19 => DD x7 x31 | s20 => DD x7 x32 | s21 => DD x7 x33 | s22 => DD x7 x34 | s23 => DD x7 x35 | s24 => DD x7 x36 | s25 => DD x7 x37 | s26 => DD x7 x38 | s27 => DD x7 x39 | s28 => DD x7 x40 | s29 => DD x7 x41 | s30 => DD x7 x42 | s31 => DD x7 x43 | s32 => DD x7 x44 | s33 => DD x7 x45 | s34 => DD x7 x46 | s35 => DD x7 x47 | s36 => DD x7 x48 | s37 => DD x7 x49 | s38 => DD x7 x50 | s39 => DD x7 x51 | s40 => DD x7 x52 | s41 => DD x7 x53 | s42 => DD x7 x54 | s43 => DD x7 x55 | s44 => DD x7 x56 | s45 => DD x7 x57 | s46 => DD x7 x58 | s47 => DD x7 x59 | s48 => DD x7 x60 | s49 => DD x7 x61 | s50 => DD x7 x62 | s51 => DD x7 x63 | s52 => DD x8 x0 | s53 => DD x8 x1 | s54 => DD x8 x2 | s55 => DD x8 x3 | s56 => DD x8 x4 | s57 => DD x8 x5 | s58 => DD x8 x6 | s59 => DD x8 x7 | s60 => DD x8 x8 | s61 => DD x8 x9 | s62 => DD x8 x10 | s63 => DD x8 x11 | s64 => DD x8 x12 | s65 => DD x8 x13 | s66 => DD x8 x14 | s67 => DD x8 x15 | s68 => DD x8 x16 | s69 => DD x8 x17 | s70 => DD x8 x18 | s71 => DD x8 x19 | s72 => DD x8 x20 | s73 => DD x8 x21 | s74 => DD x8 x22 | s75 => DD x8 x23 | s76 => DD x8 x24 | s77 => DD x8 x25 | s78 => DD x8 x26 | s79 => DD x8 x27 | s80 => DD x8 x28 | s81 => DD x8 x29 | s82 => DD x8 x30 | s83 => DD x8 x31 | s84 => DD x8 x32 | s85 => DD x8 x33 | s86 => DD x8 x34 | s87 => DD x8 x35 | s88 => DD x8 x36 | s89 => DD x8 x37 | s90 => DD x8 x38 | s91 => DD x8 x39 | s92 => DD x8 x40 | s93 => DD x8 x41 | s94 => DD x8 x42 | s95 => DD x8 x43 | s96 => DD x8 x44 | s97 => DD x8 x45 | s98 => DD x8 x46 | s99 => DD x8 x47 | s100 => DD x8 x48 | s101 => DD x8 x49 | s102 => DD x8 x50 | s103 => DD x8 x51 | s104 => DD x8 x52 | s105 => DD x8 x53 | s106 => DD x8 x54 | s107 => DD x8 x55 | s108 => DD x8 x56 | s109 => DD x8 x57 | s110 => DD x8 x58 | s111 => DD x8 x59 | s112 => DD x8 x60 | s113 => DD x8 x61 | s114 => DD x8 x62 | s115 => DD x8 x63 | s116 => DD x9 x0 | s117 => DD x9 x1 | s118 => DD x9 x2 | s119 => DD x9 x3 | s120 => DD x9 x4 | s121 => DD x9 x5 | s122 => DD x9 x6 | s123 => DD x9 x7 | s124 => DD x9 x8 | s125 => DD x9 x9 | s126 => DD x9 x10 end.
Definition m462 (c : sum2) : dd := match c with s0 => DD x7 x14 | s1 => DD x7 x15 | s2 => DD x7 x16 | s3 => DD x7 x17 | s4 => DD x7 x18 | s5 => DD x7 x19 | s6 => DD x7 x20 | s7 => DD x7 x21 | s8 => DD x7 x22 | s9 => DD x7 x23 | s10 => DD x7 x24 | s11 => DD x7 x25 | s12 => DD x7 x26 | s13 => DD x7 x27 | s14 => DD x7 x28 | s15 => DD x7 x29 | s16 => DD x7 x30 | s17 => DD x7 x31 | s18 => DD x7 x32 | s19 => DD x7 x33 | s20 => DD x7 x34 | s21 => DD x7 x35 | s22 => DD x7 x36 | s23 => DD x7 x37 | s24 => DD x7 x38 | s25 => DD x7 x39 | s26 => DD x7 x40 | s27 => DD x7 x41 | s28 => DD x7 x42 | s29 => DD x7 x43 | s30 => DD x7 x44 | s31 => DD x7 x45 | s32 => DD x7 x46 | s33 => DD x7 x47 | s34 => DD x7 x48 | s35 => DD x7 x49 | s36 => DD x7 x50 | s37 => DD x7 x51 | s38 => DD x7 x52 | s39 => DD x7 x53 | s40 => DD x7 x54 | s41 => DD x7 x55 | s42 => DD x7 x56 | s43 => DD x7 x57 | s44 => DD x7 x58 | s45 => DD x7 x59 | s46 => DD x7 x60 | s47 => DD x7 x61 | s48 => DD x7 x62 | s49 => DD x7 x63 | s50 => DD x8 x0 | s51 => DD x8 x1 | s52 => DD x8 x2 | s53 => DD x8 x3 | s54 => DD x8 x4 | s55 => DD x8 x5 | s56 => DD x8 x6 | s57 => DD x8 x7 | s58 => DD x8 x8 | s59 => DD x8 x9 | s60 => DD x8 x10 | s61 => DD x8 x11 | s62 => DD x8 x12 | s63 => DD x8 x13 | s64 => DD x8 x14 | s65 => DD x8 x15 | s66 => DD x8 x16 | s67 => DD x8 x17 | s68 => DD x8 x18 | s69 => DD x8 x19 | s70 => DD x8 x20 | s71 => DD x8 x21 | s72 => DD x8 x22 | s73 => DD x8 x23 | s74 => DD x8 x24 | s75 => DD x8 x25 | s76 => DD x8 x26 | s77 => DD x8 x27 | s78 => DD x8 x28 | s79 => DD x8 x29 | s80 => DD x8 x30 | s81 => DD x8 x31 | s82 => DD x8 x32 | s83 => DD x8 x33 | s84 => DD x8 x34 | s85 => DD x8 x35 | s86 => DD x8 x36 | s87 => DD x8 x37 | s88 => DD x8 x38 | s89 => DD x8 x39 | s90 => DD x8 x40 | s91 => DD x8 x41 | s92 => DD x8 x42 | s93 => DD x8 x43 | s94 => DD x8 x44 | s95 => DD x8 x45 | s96 => DD x8 x46 | s97 => DD x8 x47 | s98 => DD x8 x48 | s99 => DD x8 x49 | s100 => DD x8 x50 | s101 => DD x8 x51 | s102 => DD x8 x52 | s103 => DD x8 x53 | s104 => DD x8 x54 | s105 => DD x8 x55 | s106 => DD x8 x56 | s107 => DD x8 x57 | s108 => DD x8 x58 | s109 => DD x8 x59 | s110 => DD x8 x60 | s111 => DD x8 x61 | s112 => DD x8 x62 | s113 => DD x8 x63 | s114 => DD x9 x0 | s115 => DD x9 x1 | s116 => DD x9 x2 | s117 => DD x9 x3 | s118 => DD x9 x4 | s119 => DD x9 x5 | s120 => DD x9 x6 | s121 => DD x9 x7 | s122 => DD x9 x8 | s123 => DD x9 x9 | s124 => DD x9 x10 | s125 => DD x9 x11 | s126 => DD x9 x12 end.
Definition m464 (c : sum2) : dd := match c with s0 => DD x7 x16 | s1 => DD x7 x17 | s2 => DD x7 x18 | s3 => DD x7 x19 | s4 => DD x7 x20 | s5 => DD x7 x21 | s6 => DD x7 x22 | s7 => DD x7 x23 | s8 => DD x7 x24 | s9 => DD x7 x25 | s10 => DD x7 x26 | s11 => DD x7 x27 | s12 => DD x7 x28 | s13 => DD x7 x29 | s14 => DD x7 x30 | s15 => DD x7 x31 | s16 => DD x7 x32 | s17 => DD x7 x33 | s18 => DD x7 x34 | s19 => DD x7 x35 | s20 => DD x7 x36 | s21 => DD x7 x37 | s22 => DD x7 x38 | s23 => DD x7 x39 | s24 => DD x7 x40 | s25 => DD x7 x41 | s26 => DD x7 x42 | s27 => DD x7 x43 | s28 => DD x7 x44 | s29 => DD x7 x45 | s30 => DD x7 x46 | s31 => DD x7 x47 | s32 => DD x7 x48 | s33 => DD x7 x49 | s34 => DD x7 x50 | s35 => DD x7 x51 | s36 => DD x7 x52 | s37 => DD x7 x53 | s38 => DD x7 x54 | s39 => DD x7 x55 | s40 => DD x7 x56 | s41 => DD x7 x57 | s42 => DD x7 x58 | s43 => DD x7 x59 | s44 => DD x7 x60 | s45 => DD x7 x61 | s46 => DD x7 x62 | s47 => DD x7 x63 | s48 => DD x8 x0 | s49 => DD x8 x1 | s50 => DD x8 x2 | s51 => DD x8 x3 | s52 => DD x8 x4 | s53 => DD x8 x5 | s54 => DD x8 x6 | s55 => DD x8 x7 | s56 => DD x8 x8 | s57 => DD x8 x9 | s58 => DD x8 x10 | s59 => DD x8 x11 | s60 => DD x8 x12 | s61 => DD x8 x13 | s62 => DD x8 x14 | s63 => DD x8 x15 | s64 => DD x8 x16 | s65 => DD x8 x17 | s66 => DD x8 x18 | s67 => DD x8 x19 | s68 => DD x8 x20 | s69 => DD x8 x21 | s70 => DD x8 x22 | s71 => DD x8 x23 | s72 => DD x8 x24 | s73 => DD x8 x25 | s74 => DD x8 x26 | s75 => DD x8 x27 | s76 => DD x8 x28 | s77 => DD x8 x29 | s78 => DD x8 x30 | s79 => DD x8 x31 | s80 => DD x8 x32 | s81 => DD x8 x33 | s82 => DD x8 x34 | s83 => DD x8 x35 | s84 => DD x8 x36 | s85 => DD x8 x37 | s86 => DD x8 x38 | s87 => DD x8 x39 | s88 => DD x8 x40 | s89 => DD x8 x41 | s90 => DD x8 x42 | s91 => DD x8 x43 | s92 => DD x8 x44 | s93 => DD x8 x45 | s94 => DD x8 x46 | s95 => DD x8 x47 | s96 => DD x8 x48 | s97 => DD x8 x49 | s98 => DD x8 x50 | s99 => DD x8 x51 | s100 => DD x8 x52 | s101 => DD x8 x53 | s102 => DD x8 x54 | s103 => DD x8 x55 | s104 => DD x8 x56 | s105 => DD x8 x57 | s106 => DD x8 x58 | s107 => DD x8 x59 | s108 => DD x8 x60 | s109 => DD x8 x61 | s110 => DD x8 x62 | s111 => DD x8 x63 | s112 => DD x9 x0 | s113 => DD x9 x1 | s114 => DD x9 x2 | s115 => DD x9 x3 | s116 => DD x9 x4 | s117 => DD x9 x5 | s118 => DD x9 x6 | s119 => DD x9 x7 | s120 => DD x9 x8 | s121 => DD x9 x9 | s122 => DD x9 x10 | s123 => DD x9 x11 | s124 => DD x9 x12 | s125 => DD x9 x13 | s126 => DD x9 x14 end.
Definition m465 (c : sum2) : dd := match c with s0 => DD x7 x17 | s1 => DD x7 x18 | s2 => DD x7 x19 | s3 => DD x7 x20 | s4 => DD x7 x21 | s5 => DD x7 x22 | s6 => DD x7 x23 | s7 => DD x7 x24 | s8 => DD x7 x25 | s9 => DD x7 x26 | s10 => DD x7 x27 | s11 => DD x7 x28 | s12 => DD x7 x29 | s13 => DD x7 x30 | s14 => DD x7 x31 | s15 => DD x7 x32 | s16 => DD x7 x33 | s17 => DD x7 x34 | s18 => DD x7 x35 | s19 => DD x7 x36 | s20 => DD x7 x37 | s21 => DD x7 x38 | s22 => DD x7 x39 | s23 => DD x7 x40 | s24 => DD x7 x41 | s25 => DD x7 x42 | s26 => DD x7 x43 | s27 => DD x7 x44 | s28 => DD x7 x45 | s29 => DD x7 x46 | s30 => DD x7 x47 | s31 => DD x7 x48 | s32 => DD x7 x49 | s33 => DD x7 x50 | s34 => DD x7 x51 | s35 => DD x7 x52 | s36 => DD x7 x53 | s37 => DD x7 x54 | s38 => DD x7 x55 | s39 => DD x7 x56 | s40 => DD x7 x57 | s41 => DD x7 x58 | s42 => DD x7 x59 | s43 => DD x7 x60 | s44 => DD x7 x61 | s45 => DD x7 x62 | s46 => DD x7 x63 | s47 => DD x8 x0 | s48 => DD x8 x1 | s49 => DD x8 x2 | s50 => DD x8 x3 | s51 => DD x8 x4 | s52 => DD x8 x5 | s53 => DD x8 x6 | s54 => DD x8 x7 | s55 => DD x8 x8 | s56 => DD x8 x9 | s57 => DD x8 x10 | s58 => DD x8 x11 | s59 => DD x8 x12 | s60 => DD x8 x13 | s61 => DD x8 x14 | s62 => DD x8 x15 | s63 => DD x8 x16 | s64 => DD x8 x17 | s65 => DD x8 x18 | s66 => DD x8 x19 | s67 => DD x8 x20 | s68 => DD x8 x21 | s69 => DD x8 x22 | s70 => DD x8 x23 | s71 => DD x8 x24 | s72 => DD x8 x25 | s73 => DD x8 x26 | s74 => DD x8 x27 | s75 => DD x8 x28 | s76 => DD x8 x29 | s77 => DD x8 x30 | s78 => DD x8 x31 | s79 => DD x8 x32 | s80 => DD x8 x33 | s81 => DD x8 x34 | s82 => DD x8 x35 | s83 => DD x8 x36 | s84 => DD x8 x37 | s85 => DD x8 x38 | s86 => DD x8 x39 | s87 => DD x8 x40 | s88 => DD x8 x41 | s89 => DD x8 x42 | s90 => DD x8 x43 | s91 => DD x8 x44 | s92 => DD x8 x45 | s93 => DD x8 x46 | s94 => DD x8 x47 | s95 => DD x8 x48 | s96 => DD x8 x49 | s97 => DD x8 x50 | s98 => DD x8 x51 | s99 => DD x8 x52 | s100 => DD x8 x53 | s101 => DD x8 x54 | s102 => DD x8 x55 | s103 => DD x8 x56 | s104 => DD x8 x57 | s105 => DD x8 x58 | s106 => DD x8 x59 | s107 => DD x8 x60 | s108 => DD x8 x61 | s109 => DD x8 x62 | s110 => DD x8 x63 | s111 => DD x9 x0 | s112 => DD x9 x1 | s113 => DD x9 x2 | s114 => DD x9 x3 | s115 => DD x9 x4 | s116 => DD x9 x5 | s117 => DD x9 x6 | s118 => DD x9 x7 | s119 => DD x9 x8 | s120 => DD x9 x9 | s121 => DD x9 x10 | s122 => DD x9 x11 | s123 => DD x9 x12 | s124 => DD x9 x13 | s125 => DD x9 x14 | s126 => DD x9 x15 end.
Definition m468 (c : sum2) : dd := match c with s0 => DD x7 x20 | s1 => DD x7 x21 | s2 => DD x7 x22 | s3 => DD x7 x23 | s4 => DD x7 x24 | s5 => DD x7 x25 | s6 => DD x7 x26 | s7 => DD x7 x27 | s8 => DD x7 x28 | s9 => DD x7 x29 | s10 => DD x7 x30 | s11 => DD x7 x31 | s12 => DD x7 x32 | s13 => DD x7 x33 | s14 => DD x7 x34 | s15 => DD x7 x35 | s16 => DD x7 x36 | s17 => DD x7 x37 | s18 => DD x7 x38 | s19 => DD x7 x39 | s20 => DD x7 x40 | s21 => DD x7 x41 | s22 => DD x7 x42 | s23 => DD x7 x43 | s24 => DD x7 x44 | s25 => DD x7 x45 | s26 => DD x7 x46 | s27 => DD x7 x47 | s28 => DD x7 x48 | s29 => DD x7 x49 | s30 => DD x7 x50 | s31 => DD x7 x51 | s32 => DD x7 x52 | s33 => DD x7 x53 | s34 => DD x7 x54 | s35 => DD x7 x55 | s36 => DD x7 x56 | s37 => DD x7 x57 | s38 => DD x7 x58 | s39 => DD x7 x59 | s40 => DD x7 x60 | s41 => DD x7 x61 | s42 => DD x7 x62 | s43 => DD x7 x63 | s44 => DD x8 x0 | s45 => DD x8 x1 | s46 => DD x8 x2 | s47 => DD x8 x3 | s48 => DD x8 x4 | s49 => DD x8 x5 | s50 => DD x8 x6 | s51 => DD x8 x7 | s52 => DD x8 x8 | s53 => DD x8 x9 | s54 => DD x8 x10 | s55 => DD x8 x11 | s56 => DD x8 x12 | s57 => DD x8 x13 | s58 => DD x8 x14 | s59 => DD x8 x15 | s60 => DD x8 x16 | s61 => DD x8 x17 | s62 => DD x8 x18 | s63 => DD x8 x19 | s64 => DD x8 x20 | s65 => DD x8 x21 | s66 => DD x8 x22 | s67 => DD x8 x23 | s68 => DD x8 x24 | s69 => DD x8 x25 | s70 => DD x8 x26 | s71 => DD x8 x27 | s72 => DD x8 x28 | s73 => DD x8 x29 | s74 => DD x8 x30 | s75 => DD x8 x31 | s76 => DD x8 x32 | s77 => DD x8 x33 | s78 => DD x8 x34 | s79 => DD x8 x35 | s80 => DD x8 x36 | s81 => DD x8 x37 | s82 => DD x8 x38 | s83 => DD x8 x39 | s84 => DD x8 x40 | s85 => DD x8 x41 | s86 => DD x8 x42 | s87 => DD x8 x43 | s88 => DD x8 x44 | s89 => DD x8 x45 | s90 => DD x8 x46 | s91 => DD x8 x47 | s92 => DD x8 x48 | s93 => DD x8 x49 | s94 => DD x8 x50 | s95 => DD x8 x51 | s96 => DD x8 x52 | s97 => DD x8 x53 | s98 => DD x8 x54 | s99 => DD x8 x55 | s100 => DD x8 x56 | s101 => DD x8 x57 | s102 => DD x8 x58 | s103 => DD x8 x59 | s104 => DD x8 x60 | s105 => DD x8 x61 | s106 => DD x8 x62 | s107 => DD x8 x63 | s108 => DD x9 x0 | s109 => DD x9 x1 | s110 => DD x9 x2 | s111 => DD x9 x3 | s112 => DD x9 x4 | s113 => DD x9 x5 | s114 => DD x9 x6 | s115 => DD x9 x7 | s116 => DD x9 x8 | s117 => DD x9 x9 | s118 => DD x9 x10 | s119 => DD x9 x11 | s120 => DD x9 x12 | s121 => DD x9 x13 | s122 => DD x9 x14 | s123 => DD x9 x15 | s124 => DD x9 x16 | s125 => DD x9 x17 | s126 => DD x9 x18 end.
Definition m470 (c : sum2) : dd := match c with s0 => DD x7 x22 | s1 => DD x7 x23 | s2 => DD x7 x24 | s3 => DD x7 x25 | s4 => DD x7 x26 | s5 => DD x7 x27 | s6 => DD x7 x28 | s7 => DD x7 x29 | s8 => DD x7 x30 | s9 => DD x7 x31 | s10 => DD x7 x32 | s11 => DD x7 x33 | s12 => DD x7 x34 | s13 => DD x7 x35 | s14 => DD x7 x36 | s15 => DD x7 x37 | s16 => DD x7 x38 | s17 => DD x7 x39 | s18 => DD x7 x40 | s19 => DD x7 x41 | s20 => DD x7 x42 | s21 => DD x7 x43 | s22 => DD x7 x44 | s23 => DD x7 x45 | s24 => DD x7 x46 | s25 => DD x7 x47 | s26 => DD x7 x48 | s27 => DD x7 x49 | s28 => DD x7 x50 | s29 => DD x7 x51 | s30 => DD x7 x52 | s31 => DD x7 x53 | s32 => DD x7 x54 | s33 => DD x7 x55 | s34 => DD x7 x56 | s35 => DD x7 x57 | s36 => DD x7 x58 | s37 => DD x7 x59 | s38 => DD x7 x60 | s39 => DD x7 x61 | s40 => DD x7 x62 | s41 => DD x7 x63 | s42 => DD x8 x0 | s43 => DD x8 x1 | s44 => DD x8 x2 | s45 => DD x8 x3 | s46 => DD x8 x4 | s47 => DD x8 x5 | s48 => DD x8 x6 | s49 => DD x8 x7 | s50 => DD x8 x8 | s51 => DD x8 x9 | s52 => DD x8 x10 | s53 => DD x8 x11 | s54 => DD x8 x12 | s55 => DD x8 x13 | s56 => DD x8 x14 | s57 => DD x8 x15 | s58 => DD x8 x16 | s59 => DD x8 x17 | s60 => DD x8 x18 | s61 => DD x8 x19 | s62 => DD x8 x20 | s63 => DD x8 x21 | s64 => DD x8 x22 | s65 => DD x8 x23 | s66 => DD x8 x24 | s67 => DD x8 x25 | s68 => DD x8 x26 | s69 => DD x8 x27 | s70 => DD x8 x28 | s71 => DD x8 x29 | s72 => DD x8 x30 | s73 => DD x8 x31 | s74 => DD x8 x32 | s75 => DD x8 x33 | s76 => DD x8 x34 | s77 => DD x8 x35 | s78 => DD x8 x36 | s79 => DD x8 x37 | s80 => DD x8 x38 | s81 => DD x8 x39 | s82 => DD x8 x40 | s83 => DD x8 x41 | s84 => DD x8 x42 | s85 => DD x8 x43 | s86 => DD x8 x44 | s87 => DD x8 x45 | s88 => DD x8 x46 | s89 => DD x8 x47 | s90 => DD x8 x48 | s91 => DD x8 x49 | s92 => DD x8 x50 | s93 => DD x8 x51 | s94 => DD x8 x52 | s95 => DD x8 x53 | s96 => DD x8 x54 | s97 => DD x8 x55 | s98 => DD x8 x56 | s99 => DD x8 x57 | s100 => DD x8 x58 | s101 => DD x8 x59 | s102 => DD x8 x60 | s103 => DD x8 x61 | s104 => DD x8 x62 | s105 => DD x8 x63 | s106 => DD x9 x0 | s107 => DD x9 x1 | s108 => DD x9 x2 | s109 => DD x9 x3 | s110 => DD x9 x4 | s111 => DD x9 x5 | s112 => DD x9 x6 | s113 => DD x9 x7 | s114 => DD x9 x8 | s115 => DD x9 x9 | s116 => DD x9 x10 | s117 => DD x9 x11 | s118 => DD x9 x12 | s119 => DD x9 x13 | s120 => DD x9 x14 | s121 => DD x9 x15 | s122 => DD x9 x16 | s123 => DD x9 x17 | s124 => DD x9 x18 | s125 => DD x9 x19 | s126 => DD x9 x20 end.
Definition m472 (c : sum2) : dd := match c with s0 => DD x7 x24 | s1 => DD x7 x25 | s2 => DD x7 x26 | s3 => DD x7 x27 | s4 => DD x7 x28 | s5 => DD x7 x29 | s6 => DD x7 x30 | s7 => DD x7 x31 | s8 => DD x7 x32 | s9 => DD x7 x33 | s10 => DD x7 x34 | s11 => DD x7 x35 | s12 => DD x7 x36 | s13 => DD x7 x37 | s14 => DD x7 x38 | s15 => DD x7 x39 | s16 => DD x7 x40 | s17 => DD x7 x41 | s18 => DD x7 x42 | s19 => DD x7 x43 | s20 => DD x7 x44 | s21 => DD x7 x45 | s22 => DD x7 x46 | s23 => DD x7 x47 | s24 => DD x7 x48 | s25 => DD x7 x49 | s26 => DD x7 x50 | s27 => DD x7 x51 | s28 => DD x7 x52 | s29 => DD x7 x53 | s30 => DD x7 x54 | s31 => DD x7 x55 | s32 => DD x7 x56 | s33 => DD x7 x57 | s34 => DD x7 x58 | s35 => DD x7 x59 | s36 => DD x7 x60 | s37 => DD x7 x61 | s38 => DD x7 x62 | s39 => DD x7 x63 | s40 => DD x8 x0 | s41 => DD x8 x1 | s42 => DD x8 x2 | s43 => DD x8 x3 | s44 => DD x8 x4 | s45 => DD x8 x5 | s46 => DD x8 x6 | s47 => DD x8 x7 | s48 => DD x8 x8 | s49 => DD x8 x9 | s50 => DD x8 x10 | s51 => DD x8 x11 | s52 => DD x8 x12 | s53 => DD x8 x13 | s54 => DD x8 x14 | s55 => DD x8 x15 | s56 => DD x8 x16 | s57 => DD x8 x17 | s58 => DD x8 x18 | s59 => DD x8 x19 | s60 => DD x8 x20 | s61 => DD x8 x21 | s62 => DD x8 x22 | s63 => DD x8 x23 | s64 => DD x8 x24 | s65 => DD x8 x25 | s66 => DD x8 x26 | s67 => DD x8 x27 | s68 => DD x8 x28 | s69 => DD x8 x29 | s70 => DD x8 x30 | s71 => DD x8 x31 | s72 => DD x8 x32 | s73 => DD x8 x33 | s74 => DD x8 x34 | s75 => DD x8 x35 | s76 => DD x8 x36 | s77 => DD x8 x37 | s78 => DD x8 x38 | s79 => DD x8 x39 | s80 => DD x8 x40 | s81 => DD x8 x41 | s82 => DD x8 x42 | s83 => DD x8 x43 | s84 => DD x8 x44 | s85 => DD x8 x45 | s86 => DD x8 x46 | s87 => DD x8 x47 | s88 => DD x8 x48 | s89 => DD x8 x49 | s90 => DD x8 x50 | s91 => DD x8 x51 | s92 => DD x8 x52 | s93 => DD x8 x53 | s94 => DD x8 x54 | s95 => DD x8 x55 | s96 => DD x8 x56 | s97 => DD x8 x57 | s98 => DD x8 x58 | s99 => DD x8 x59 | s100 => DD x8 x60 | s101 => DD x8 x61 | s102 => DD x8 x62 | s103 => DD x8 x63 | s104 => DD x9 x0 | s105 => DD x9 x1 | s106 => DD x9 x2 | s107 => DD x9 x3 | s108 => DD x9 x4 | s109 => DD x9 x5 | s110 => DD x9 x6 | s111 => DD x9 x7 | s112 => DD x9 x8 | s113 => DD x9 x9 | s114 => DD x9 x10 | s115 => DD x9 x11 | s116 => DD x9 x12 | s117 => DD x9 x13 | s118 => DD x9 x14 | s119 => DD x9 x15 | s120 => DD x9 x16 | s121 => DD x9 x17 | s122 => DD x9 x18 | s123 => DD x9 x19 | s124 => DD x9 x20 | s125 => DD x9 x21 | s126 => DD x9 x22 end.
Definition m473 (c : sum2) : dd := match c with s0 => DD x7 x25 | s1 => DD x7 x26 | s2 => DD x7 x27 | s3 => DD x7 x28 | s4 => DD x7 x29 | s5 => DD x7 x30 | s6 => DD x7 x31 | s7 => DD x7 x32 | s8 => DD x7 x33 | s9 => DD x7 x34 | s10 => DD x7 x35 | s11 => DD x7 x36 | s12 => DD x7 x37 | s13 => DD x7 x38 | s14 => DD x7 x39 | s15 => DD x7 x40 | s16 => DD x7 x41 | s17 => DD x7 x42 | s18 => DD x7 x43 | s19 => DD x7 x44 | s20 => DD x7 x45 | s21 => DD x7 x46 | s22 => DD x7 x47 | s23 => DD x7 x48 | s24 => DD x7 x49 | s25 => DD x7 x50 | s26 => DD x7 x51 | s27 => DD x7 x52 | s28 => DD x7 x53 | s29 => DD x7 x54 | s30 => DD x7 x55 | s31 => DD x7 x56 | s32 => DD x7 x57 | s33 => DD x7 x58 | s34 => DD x7 x59 | s35 => DD x7 x60 | s36 => DD x7 x61 | s37 => DD x7 x62 | s38 => DD x7 x63 | s39 => DD x8 x0 | s40 => DD x8 x1 | s41 => DD x8 x2 | s42 => DD x8 x3 | s43 => DD x8 x4 | s44 => DD x8 x5 | s45 => DD x8 x6 | s46 => DD x8 x7 | s47 => DD x8 x8 | s48 => DD x8 x9 | s49 => DD x8 x10 | s50 => DD x8 x11 | s51 => DD x8 x12 | s52 => DD x8 x13 | s53 => DD x8 x14 | s54 => DD x8 x15 | s55 => DD x8 x16 | s56 => DD x8 x17 | s57 => DD x8 x18 | s58 => DD x8 x19 | s59 => DD x8 x20 | s60 => DD x8 x21 | s61 => DD x8 x22 | s62 => DD x8 x23 | s63 => DD x8 x24 | s64 => DD x8 x25 | s65 => DD x8 x26 | s66 => DD x8 x27 | s67 => DD x8 x28 | s68 => DD x8 x29 | s69 => DD x8 x30 | s70 => DD x8 x31 | s71 => DD x8 x32 | s72 => DD x8 x33 | s73 => DD x8 x34 | s74 => DD x8 x35 | s75 => DD x8 x36 | s76 => DD x8 x37 | s77 => DD x8 x38 | s78 => DD x8 x39 | s79 => DD x8 x40 | s80 => DD x8 x41 | s81 => DD x8 x42 | s82 => DD x8 x43 | s83 => DD x8 x44 | s84 => DD x8 x45 | s85 => DD x8 x46 | s86 => DD x8 x47 | s87 => DD x8 x48 | s88 => DD x8 x49 | s89 => DD x8 x50 | s90 => DD x8 x51 | s91 => DD x8 x52 | s92 => DD x8 x53 | s93 => DD x8 x54 | s94 => DD x8 x55 | s95 => DD x8 x56 | s96 => DD x8 x57 | s97 => DD x8 x58 | s98 => DD x8 x59 | s99 => DD x8 x60 | s100 => DD x8 x61 | s101 => DD x8 x62 | s102 => DD x8 x63 | s103 => DD x9 x0 | s104 => DD x9 x1 | s105 => DD x9 x2 | s106 => DD x9 x3 | s107 => DD x9 x4 | s108 => DD x9 x5 | s109 => DD x9 x6 | s110 => DD x9 x7 | s111 => DD x9 x8 | s112 => DD x9 x9 | s113 => DD x9 x10 | s114 => DD x9 x11 | s115 => DD x9 x12 | s116 => DD x9 x13 | s117 => DD x9 x14 | s118 => DD x9 x15 | s119 => DD x9 x16 | s120 => DD x9 x17 | s121 => DD x9 x18 | s122 => DD x9 x19 | s123 => DD x9 x20 | s124 => DD x9 x21 | s125 => DD x9 x22 | s126 => DD x9 x23 end.
Definition m475 (c : sum2) : dd := match c with s0 => DD x7 x27 | s1 => DD x7 x28 | s2 => DD x7 x29 | s3 => DD x7 x30 | s4 => DD x7 x31 | s5 => DD x7 x32 | s6 => DD x7 x33 | s7 => DD x7 x34 | s8 => DD x7 x35 | s9 => DD x7 x36 | s10 => DD x7 x37 | s11 => DD x7 x38 | s12 => DD x7 x39 | s13 => DD x7 x40 | s14 => DD x7 x41 | s15 => DD x7 x42 | s16 => DD x7 x43 | s17 => DD x7 x44 | s18 => DD x7 x45 | s19 => DD x7 x46 | s20 => DD x7 x47 | s21 => DD x7 x48 | s22 => DD x7 x49 | s23 => DD x7 x50 | s24 => DD x7 x51 | s25 => DD x7 x52 | s26 => DD x7 x53 | s27 => DD x7 x54 | s28 => DD x7 x55 | s29 => DD x7 x56 | s30 => DD x7 x57 | s31 => DD x7 x58 | s32 => DD x7 x59 | s33 => DD x7 x60 | s34 => DD x7 x61 | s35 => DD x7 x62 | s36 => DD x7 x63 | s37 => DD x8 x0 | s38 => DD x8 x1 | s39 => DD x8 x2 | s40 => DD x8 x3 | s41 => DD x8 x4 | s42 => DD x8 x5 | s43 => DD x8 x6 | s44 => DD x8 x7 | s45 => DD x8 x8 | s46 => DD x8 x9 | s47 => DD x8 x10 | s48 => DD x8 x11 | s49 => DD x8 x12 | s50 => DD x8 x13 | s51 => DD x8 x14 | s52 => DD x8 x15 | s53 => DD x8 x16 | s54 => DD x8 x17 | s55 => DD x8 x18 | s56 => DD x8 x19 | s57 => DD x8 x20 | s58 => DD x8 x21 | s59 => DD x8 x22 | s60 => DD x8 x23 | s61 => DD x8 x24 | s62 => DD x8 x25 | s63 => DD x8 x26 | s64 => DD x8 x27 | s65 => DD x8 x28 | s66 => DD x8 x29 | s67 => DD x8 x30 | s68 => DD x8 x31 | s69 => DD x8 x32 | s70 => DD x8 x33 | s71 => DD x8 x34 | s72 => DD x8 x35 | s73 => DD x8 x36 | s74 => DD x8 x37 | s75 => DD x8 x38 | s76 => DD x8 x39 | s77 => DD x8 x40 | s78 => DD x8 x41 | s79 => DD x8 x42 | s80 => DD x8 x43 | s81 => DD x8 x44 | s82 => DD x8 x45 | s83 => DD x8 x46 | s84 => DD x8 x47 | s85 => DD x8 x48 | s86 => DD x8 x49 | s87 => DD x8 x50 | s88 => DD x8 x51 | s89 => DD x8 x52 | s90 => DD x8 x53 | s91 => DD x8 x54 | s92 => DD x8 x55 | s93 => DD x8 x56 | s94 => DD x8 x57 | s95 => DD x8 x58 | s96 => DD x8 x59 | s97 => DD x8 x60 | s98 => DD x8 x61 | s99 => DD x8 x62 | s100 => DD x8 x63 | s101 => DD x9 x0 | s102 => DD x9 x1 | s103 => DD x9 x2 | s104 => DD x9 x3 | s105 => DD x9 x4 | s106 => DD x9 x5 | s107 => DD x9 x6 | s108 => DD x9 x7 | s109 => DD x9 x8 | s110 => DD x9 x9 | s111 => DD x9 x10 | s112 => DD x9 x11 | s113 => DD x9 x12 | s114 => DD x9 x13 | s115 => DD x9 x14 | s116 => DD x9 x15 | s117 => DD x9 x16 | s118 => DD x9 x17 | s119 => DD x9 x18 | s120 => DD x9 x19 | s121 => DD x9 x20 | s122 => DD x9 x21 | s123 => DD x9 x22 | s124 => DD x9 x23 | s125 => DD x9 x24 | s126 => DD x9 x25 end.
Definition m476 (c : sum2) : dd := match c with s0 => DD x7 x28 | s1 => DD x7 x29 | s2 => DD x7 x30 | s3 => DD x7 x31 | s4 => DD x7 x32 | s5 => DD x7 x33 | s6 => DD x7 x34 | s7 => DD x7 x35 | s8 => DD x7 x36 | s9 => DD x7 x37 | s10 => DD x7 x38 | s11 => DD x7 x39 | s12 => DD x7 x40 | s13 => DD x7 x41 | s14 => DD x7 x42 | s15 => DD x7 x43 | s16 => DD x7 x44 | s17 => DD x7 x45 | s18 => DD x7 x46 | s19 => DD x7 x47 | s20 => DD x7 x48 | s21 => DD x7 x49 | s22 => DD x7 x50 | s23 => DD x7 x51 | s24 => DD x7 x52 | s25 => DD x7 x53 | s26 => DD x7 x54 | s27 => DD x7 x55 | s28 => DD x7 x56 | s29 => DD x7 x57 | s30 => DD x7 x58 | s31 => DD x7 x59 | s32 => DD x7 x60 | s33 => DD x7 x61 | s34 => DD x7 x62 | s35 => DD x7 x63 | s36 => DD x8 x0 | s37 => DD x8 x1 | s38 => DD x8 x2 | s39 => DD x8 x3 | s40 => DD x8 x4 | s41 => DD x8 x5 | s42 => DD x8 x6 | s43 => DD x8 x7 | s44 => DD x8 x8 | s45 => DD x8 x9 | s46 => DD x8 x10 | s47 => DD x8 x11 | s48 => DD x8 x12 | s49 => DD x8 x13 | s50 => DD x8 x14 | s51 => DD x8 x15 | s52 => DD x8 x16 | s53 => DD x8 x17 | s54 => DD x8 x18 | s55 => DD x8 x19 | s56 => DD x8 x20 | s57 => DD x8 x21 | s58 => DD x8 x22 | s59 => DD x8 x23 | s60 => DD x8 x24 | s61 => DD x8 x25 | s62 => DD x8 x26 | s63 => DD x8 x27 | s64 => DD x8 x28 | s65 => DD x8 x29 | s66 => DD x8 x30 | s67 => DD x8 x31 | s68 => DD x8 x32 | s69 => DD x8 x33 | s70 => DD x8 x34 | s71 => DD x8 x35 | s72 => DD x8 x36 | s73 => DD x8 x37 | s74 => DD x8 x38 | s75 => DD x8 x39 | s76 => DD x8 x40 | s77 => DD x8 x41 | s78 => DD x8 x42 | s79 => DD x8 x43 | s80 => DD x8 x44 | s81 => DD x8 x45 | s82 => DD x8 x46 | s83 => DD x8 x47 | s84 => DD x8 x48 | s85 => DD x8 x49 | s86 => DD x8 x50 | s87 => DD x8 x51 | s88 => DD x8 x52 | s89 => DD x8 x53 | s90 => DD x8 x54 | s91 => DD x8 x55 | s92 => DD x8 x56 | s93 => DD x8 x57 | s94 => DD x8 x58 | s95 => DD x8 x59 | s96 => DD x8 x60 | s97 => DD x8 x61 | s98 => DD x8 x62 | s99 => DD x8 x63 | s100 => DD x9 x0 | s101 => DD x9 x1 | s102 => DD x9 x2 | s103 => DD x9 x3 | s104 => DD x9 x4 | s105 => DD x9 x5 | s106 => DD x9 x6 | s107 => DD x9 x7 | s108 => DD x9 x8 | s109 => DD x9 x9 | s110 => DD x9 x10 | s111 => DD x9 x11 | s112 => DD x9 x12 | s113 => DD x9 x13 | s114 => DD x9 x14 | s115 => DD x9 x15 | s116 => DD x9 x16 | s117 => DD x9 x17 | s118 => DD x9 x18 | s119 => DD x9 x19 | s120 => DD x9 x20 | s121 => DD x9 x21 | s122 => DD x9 x22 | s123 => DD x9 x23 | s124 => DD x9 x24 | s125 => DD x9 x25 | s126 => DD x9 x26 end.
Definition m477 (c : sum2) : dd := match c with s0 => DD x7 x29 | s1 => DD x7 x30 | s2 => DD x7 x31 | s3 => DD x7 x32 | s4 => DD x7 x33 | s5 => DD x7 x34 | s6 => DD x7 x35 | s7 => DD x7 x36 | s8 => DD x7 x37 | s9 => DD x7 x38 | s10 => DD x7 x39 | s11 => DD x7 x40 | s12 => DD x7 x41 | s13 => DD x7 x42 | s14 => DD x7 x43 | s15 => DD x7 x44 | s16 => DD x7 x45 | s17 => DD x7 x46 | s18 => DD x7 x47 | s19 => DD x7 x48 | s20 => DD x7 x49 | s21 => DD x7 x50 | s22 => DD x7 x51 | s23 => DD x7 x52 | s24 => DD x7 x53 | s25 => DD x7 x54 | s26 => DD x7 x55 | s27 => DD x7 x56 | s28 => DD x7 x57 | s29 => DD x7 x58 | s30 => DD x7 x59 | s31 => DD x7 x60 | s32 => DD x7 x61 | s33 => DD x7 x62 | s34 => DD x7 x63 | s35 => DD x8 x0 | s36 => DD x8 x1 | s37 => DD x8 x2 | s38 => DD x8 x3 | s39 => DD x8 x4 | s40 => DD x8 x5 | s41 => DD x8 x6 | s42 => DD x8 x7 | s43 => DD x8 x8 | s44 => DD x8 x9 | s45 => DD x8 x10 | s46 => DD x8 x11 | s47 => DD x8 x12 | s48 => DD x8 x13 | s49 => DD x8 x14 | s50 => DD x8 x15 | s51 => DD x8 x16 | s52 => DD x8 x17 | s53 => DD x8 x18 | s54 => DD x8 x19 | s55 => DD x8 x20 | s56 => DD x8 x21 | s57 => DD x8 x22 | s58 => DD x8 x23 | s59 => DD x8 x24 | s60 => DD x8 x25 | s61 => DD x8 x26 | s62 => DD x8 x27 | s63 => DD x8 x28 | s64 => DD x8 x29 | s65 => DD x8 x30 | s66 => DD x8 x31 | s67 => DD x8 x32 | s68 => DD x8 x33 | s69 => DD x8 x34 | s70 => DD x8 x35 | s71 => DD x8 x36 | s72 => DD x8 x37 | s73 => DD x8 x38 | s74 => DD x8 x39 | s75 => DD x8 x40 | s76 => DD x8 x41 | s77 => DD x8 x42 | s78 => DD x8 x43 | s79 => DD x8 x44 | s80 => DD x8 x45 | s81 => DD x8 x46 | s82 => DD x8 x47 | s83 => DD x8 x48 | s84 => DD x8 x49 | s85 => DD x8 x50 | s86 => DD x8 x51 | s87 => DD x8 x52 | s88 => DD x8 x53 | s89 => DD x8 x54 | s90 => DD x8 x55 | s91 => DD x8 x56 | s92 => DD x8 x57 | s93 => DD x8 x58 | s94 => DD x8 x59 | s95 => DD x8 x60 | s96 => DD x8 x61 | s97 => DD x8 x62 | s98 => DD x8 x63 | s99 => DD x9 x0 | s100 => DD x9 x1 | s101 => DD x9 x2 | s102 => DD x9 x3 | s103 => DD x9 x4 | s104 => DD x9 x5 | s105 => DD x9 x6 | s106 => DD x9 x7 | s107 => DD x9 x8 | s108 => DD x9 x9 | s109 => DD x9 x10 | s110 => DD x9 x11 | s111 => DD x9 x12 | s112 => DD x9 x13 | s113 => DD x9 x14 | s114 => DD x9 x15 | s115 => DD x9 x16 | s116 => DD x9 x17 | s117 => DD x9 x18 | s118 => DD x9 x19 | s119 => DD x9 x20 | s120 => DD x9 x21 | s121 => DD x9 x22 | s122 => DD x9 x23 | s123 => DD x9 x24 | s124 => DD x9 x25 | s125 => DD x9 x26 | s126 => DD x9 x27 end.
Definition m480 (c : sum2) : dd := match c with s0 => DD x7 x32 | s1 => DD x7 x33 | s2 => DD x7 x34 | s3 => DD x7 x35 | s4 => DD x7 x36 | s5 => DD x7 x37 | s6 => DD x7 x38 | s7 => DD x7 x39 | s8 => DD x7 x40 | s9 => DD x7 x41 | s10 => DD x7 x42 | s11 => DD x7 x43 | s12 => DD x7 x44 | s13 => DD x7 x45 | s14 => DD x7 x46 | s15 => DD x7 x47 | s16 => DD x7 x48 | s17 => DD x7 x49 | s18 => DD x7 x50 | s19 => DD x7 x51 | s20 => DD x7 x52 | s21 => DD x7 x53 | s22 => DD x7 x54 | s23 => DD x7 x55 | s24 => DD x7 x56 | s25 => DD x7 x57 | s26 => DD x7 x58 | s27 => DD x7 x59 | s28 => DD x7 x60 | s29 => DD x7 x61 | s30 => DD x7 x62 | s31 => DD x7 x63 | s32 => DD x8 x0 | s33 => DD x8 x1 | s34 => DD x8 x2 | s35 => DD x8 x3 | s36 => DD x8 x4 | s37 => DD x8 x5 | s38 => DD x8 x6 | s39 => DD x8 x7 | s40 => DD x8 x8 | s41 => DD x8 x9 | s42 => DD x8 x10 | s43 => DD x8 x11 | s44 => DD x8 x12 | s45 => DD x8 x13 | s46 => DD x8 x14 | s47 => DD x8 x15 | s48 => DD x8 x16 | s49 => DD x8 x17 | s50 => DD x8 x18 | s51 => DD x8 x19 | s52 => DD x8 x20 | s53 => DD x8 x21 | s54 => DD x8 x22 | s55 => DD x8 x23 | s56 => DD x8 x24 | s57 => DD x8 x25 | s58 => DD x8 x26 | s59 => DD x8 x27 | s60 => DD x8 x28 | s61 => DD x8 x29 | s62 => DD x8 x30 | s63 => DD x8 x31 | s64 => DD x8 x32 | s65 => DD x8 x33 | s66 => DD x8 x34 | s67 => DD x8 x35 | s68 => DD x8 x36 | s69 => DD x8 x37 | s70 => DD x8 x38 | s71 => DD x8 x39 | s72 => DD x8 x40 | s73 => DD x8 x41 | s74 => DD x8 x42 | s75 => DD x8 x43 | s76 => DD x8 x44 | s77 => DD x8 x45 | s78 => DD x8 x46 | s79 => DD x8 x47 | s80 => DD x8 x48 | s81 => DD x8 x49 | s82 => DD x8 x50 | s83 => DD x8 x51 | s84 => DD x8 x52 | s85 => DD x8 x53 | s86 => DD x8 x54 | s87 => DD x8 x55 | s88 => DD x8 x56 | s89 => DD x8 x57 | s90 => DD x8 x58 | s91 => DD x8 x59 | s92 => DD x8 x60 | s93 => DD x8 x61 | s94 => DD x8 x62 | s95 => DD x8 x63 | s96 => DD x9 x0 | s97 => DD x9 x1 | s98 => DD x9 x2 | s99 => DD x9 x3 | s100 => DD x9 x4 | s101 => DD x9 x5 | s102 => DD x9 x6 | s103 => DD x9 x7 | s104 => DD x9 x8 | s105 => DD x9 x9 | s106 => DD x9 x10 | s107 => DD x9 x11 | s108 => DD x9 x12 | s109 => DD x9 x13 | s110 => DD x9 x14 | s111 => DD x9 x15 | s112 => DD x9 x16 | s113 => DD x9 x17 | s114 => DD x9 x18 | s115 => DD x9 x19 | s116 => DD x9 x20 | s117 => DD x9 x21 | s118 => DD x9 x22 | s119 => DD x9 x23 | s120 => DD x9 x24 | s121 => DD x9 x25 | s122 => DD x9 x26 | s123 => DD x9 x27 | s124 => DD x9 x28 | s125 => DD x9 x29 | s126 => DD x9 x30 end.
Definition m481 (c : sum2) : dd := match c with s0 => DD x7 x33 | s1 => DD x7 x34 | s2 => DD x7 x35 | s3 => DD x7 x36 | s4 => DD x7 x37 | s5 => DD x7 x38 | s6 => DD x7 x39 | s7 => DD x7 x40 | s8 => DD x7 x41 | s9 => DD x7 x42 | s10 => DD x7 x43 | s11 => DD x7 x44 | s12 => DD x7 x45 | s13 => DD x7 x46 | s14 => DD x7 x47 | s15 => DD x7 x48 | s16 => DD x7 x49 | s17 => DD x7 x50 | s18 => DD x7 x51 | s19 => DD x7 x52 | s20 => DD x7 x53 | s21 => DD x7 x54 | s22 => DD x7 x55 | s23 => DD x7 x56 | s24 => DD x7 x57 | s25 => DD x7 x58 | s26 => DD x7 x59 | s27 => DD x7 x60 | s28 => DD x7 x61 | s29 => DD x7 x62 | s30 => DD x7 x63 | s31 => DD x8 x0 | s32 => DD x8 x1 | s33 => DD x8 x2 | s34 => DD x8 x3 | s35 => DD x8 x4 | s36 => DD x8 x5 | s37 => DD x8 x6 | s38 => DD x8 x7 | s39 => DD x8 x8 | s40 => DD x8 x9 | s41 => DD x8 x10 | s42 => DD x8 x11 | s43 => DD x8 x12 | s44 => DD x8 x13 | s45 => DD x8 x14 | s46 => DD x8 x15 | s47 => DD x8 x16 | s48 => DD x8 x17 | s49 => DD x8 x18 | s50 => DD x8 x19 | s51 => DD x8 x20 | s52 => DD x8 x21 | s53 => DD x8 x22 | s54 => DD x8 x23 | s55 => DD x8 x24 | s56 => DD x8 x25 | s57 => DD x8 x26 | s58 => DD x8 x27 | s59 => DD x8 x28 | s60 => DD x8 x29 | s61 => DD x8 x30 | s62 => DD x8 x31 | s63 => DD x8 x32 | s64 => DD x8 x33 | s65 => DD x8 x34 | s66 => DD x8 x35 | s67 => DD x8 x36 | s68 => DD x8 x37 | s69 => DD x8 x38 | s70 => DD x8 x39 | s71 => DD x8 x40 | s72 => DD x8 x41 | s73 => DD x8 x42 | s74 => DD x8 x43 | s75 => DD x8 x44 | s76 => DD x8 x45 | s77 => DD x8 x46 | s78 => DD x8 x47 | s79 => DD x8 x48 | s80 => DD x8 x49 | s81 => DD x8 x50 | s82 => DD x8 x51 | s83 => DD x8 x52 | s84 => DD x8 x53 | s85 => DD x8 x54 | s86 => DD x8 x55 | s87 => DD x8 x56 | s88 => DD x8 x57 | s89 => DD x8 x58 | s90 => DD x8 x59 | s91 => DD x8 x60 | s92 => DD x8 x61 | s93 => DD x8 x62 | s94 => DD x8 x63 | s95 => DD x9 x0 | s96 => DD x9 x1 | s97 => DD x9 x2 | s98 => DD x9 x3 | s99 => DD x9 x4 | s100 => DD x9 x5 | s101 => DD x9 x6 | s102 => DD x9 x7 | s103 => DD x9 x8 | s104 => DD x9 x9 | s105 => DD x9 x10 | s106 => DD x9 x11 | s107 => DD x9 x12 | s108 => DD x9 x13 | s109 => DD x9 x14 | s110 => DD x9 x15 | s111 => DD x9 x16 | s112 => DD x9 x17 | s113 => DD x9 x18 | s114 => DD x9 x19 | s115 => DD x9 x20 | s116 => DD x9 x21 | s117 => DD x9 x22 | s118 => DD x9 x23 | s119 => DD x9 x24 | s120 => DD x9 x25 | s121 => DD x9 x26 | s122 => DD x9 x27 | s123 => DD x9 x28 | s124 => DD x9 x29 | s125 => DD x9 x30 | s126 => DD x9 x31 end.
Definition m483 (c : sum2) : dd := match c with s0 => DD x7 x35 | s1 => DD x7 x36 | s2 => DD x7 x37 | s3 => DD x7 x38 | s4 => DD x7 x39 | s5 => DD x7 x40 | s6 => DD x7 x41 | s7 => DD x7 x42 | s8 => DD x7 x43 | s9 => DD x7 x44 | s10 => DD x7 x45 | s11 => DD x7 x46 | s12 => DD x7 x47 | s13 => DD x7 x48 | s14 => DD x7 x49 | s15 => DD x7 x50 | s16 => DD x7 x51 | s17 => DD x7 x52 | s18 => DD x7 x53 | s19 => DD x7 x54 | s20 => DD x7 x55 | s21 => DD x7 x56 | s22 => DD x7 x57 | s23 => DD x7 x58 | s24 => DD x7 x59 | s25 => DD x7 x60 | s26 => DD x7 x61 | s27 => DD x7 x62 | s28 => DD x7 x63 | s29 => DD x8 x0 | s30 => DD x8 x1 | s31 => DD x8 x2 | s32 => DD x8 x3 | s33 => DD x8 x4 | s34 => DD x8 x5 | s35 => DD x8 x6 | s36 => DD x8 x7 | s37 => DD x8 x8 | s38 => DD x8 x9 | s39 => DD x8 x10 | s40 => DD x8 x11 | s41 => DD x8 x12 | s42 => DD x8 x13 | s43 => DD x8 x14 | s44 => DD x8 x15 | s45 => DD x8 x16 | s46 => DD x8 x17 | s47 => DD x8 x18 | s48 => DD x8 x19 | s49 => DD x8 x20 | s50 => DD x8 x21 | s51 => DD x8 x22 | s52 => DD x8 x23 | s53 => DD x8 x24 | s54 => DD x8 x25 | s55 => DD x8 x26 | s56 => DD x8 x27 | s57 => DD x8 x28 | s58 => DD x8 x29 | s59 => DD x8 x30 | s60 => DD x8 x31 | s61 => DD x8 x32 | s62 => DD x8 x33 | s63 => DD x8 x34 | s64 => DD x8 x35 | s65 => DD x8 x36 | s66 => DD x8 x37 | s67 => DD x8 x38 | s68 => DD x8 x39 | s69 => DD x8 x40 | s70 => DD x8 x41 | s71 => DD x8 x42 | s72 => DD x8 x43 | s73 => DD x8 x44 | s74 => DD x8 x45 | s75 => DD x8 x46 | s76 => DD x8 x47 | s77 => DD x8 x48 | s78 => DD x8 x49 | s79 => DD x8 x50 | s80 => DD x8 x51 | s81 => DD x8 x52 | s82 => DD x8 x53 | s83 => DD x8 x54 | s84 => DD x8 x55 | s85 => DD x8 x56 | s86 => DD x8 x57 | s87 => DD x8 x58 | s88 => DD x8 x59 | s89 => DD x8 x60 | s90 => DD x8 x61 | s91 => DD x8 x62 | s92 => DD x8 x63 | s93 => DD x9 x0 | s94 => DD x9 x1 | s95 => DD x9 x2 | s96 => DD x9 x3 | s97 => DD x9 x4 | s98 => DD x9 x5 | s99 => DD x9 x6 | s100 => DD x9 x7 | s101 => DD x9 x8 | s102 => DD x9 x9 | s103 => DD x9 x10 | s104 => DD x9 x11 | s105 => DD x9 x12 | s106 => DD x9 x13 | s107 => DD x9 x14 | s108 => DD x9 x15 | s109 => DD x9 x16 | s110 => DD x9 x17 | s111 => DD x9 x18 | s112 => DD x9 x19 | s113 => DD x9 x20 | s114 => DD x9 x21 | s115 => DD x9 x22 | s116 => DD x9 x23 | s117 => DD x9 x24 | s118 => DD x9 x25 | s119 => DD x9 x26 | s120 => DD x9 x27 | s121 => DD x9 x28 | s122 => DD x9 x29 | s123 => DD x9 x30 | s124 => DD x9 x31 | s125 => DD x9 x32 | s126 => DD x9 x33 end.
Definition m484 (c : sum2) : dd := match c with s0 => DD x7 x36 | s1 => DD x7 x37 | s2 => DD x7 x38 | s3 => DD x7 x39 | s4 => DD x7 x40 | s5 => DD x7 x41 | s6 => DD x7 x42 | s7 => DD x7 x43 | s8 => DD x7 x44 | s9 => DD x7 x45 | s10 => DD x7 x46 | s11 => DD x7 x47 | s12 => DD x7 x48 | s13 => DD x7 x49 | s14 => DD x7 x50 | s15 => DD x7 x51 | s16 => DD x7 x52 | s17 => DD x7 x53 | s18 => DD x7 x54 | s19 => DD x7 x55 | s20 => DD x7 x56 | s21 => DD x7 x57 | s22 => DD x7 x58 | s23 => DD x7 x59 | s24 => DD x7 x60 | s25 => DD x7 x61 | s26 => DD x7 x62 | s27 => DD x7 x63 | s28 => DD x8 x0 | s29 => DD x8 x1 | s30 => DD x8 x2 | s31 => DD x8 x3 | s32 => DD x8 x4 | s33 => DD x8 x5 | s34 => DD x8 x6 | s35 => DD x8 x7 | s36 => DD x8 x8 | s37 => DD x8 x9 | s38 => DD x8 x10 | s39 => DD x8 x11 | s40 => DD x8 x12 | s41 => DD x8 x13 | s42 => DD x8 x14 | s43 => DD x8 x15 | s44 => DD x8 x16 | s45 => DD x8 x17 | s46 => DD x8 x18 | s47 => DD x8 x19 | s48 => DD x8 x20 | s49 => DD x8 x21 | s50 => DD x8 x22 | s51 => DD x8 x23 | s52 => DD x8 x24 | s53 => DD x8 x25 | s54 => DD x8 x26 | s55 => DD x8 x27 | s56 => DD x8 x28 | s57 => DD x8 x29 | s58 => DD x8 x30 | s59 => DD x8 x31 | s60 => DD x8 x32 | s61 => DD x8 x33 | s62 => DD x8 x34 | s63 => DD x8 x35 | s64 => DD x8 x36 | s65 => DD x8 x37 | s66 => DD x8 x38 | s67 => DD x8 x39 | s68 => DD x8 x40 | s69 => DD x8 x41 | s70 => DD x8 x42 | s71 => DD x8 x43 | s72 => DD x8 x44 | s73 => DD x8 x45 | s74 => DD x8 x46 | s75 => DD x8 x47 | s76 => DD x8 x48 | s77 => DD x8 x49 | s78 => DD x8 x50 | s79 => DD x8 x51 | s80 => DD x8 x52 | s81 => DD x8 x53 | s82 => DD x8 x54 | s83 => DD x8 x55 | s84 => DD x8 x56 | s85 => DD x8 x57 | s86 => DD x8 x58 | s87 => DD x8 x59 | s88 => DD x8 x60 | s89 => DD x8 x61 | s90 => DD x8 x62 | s91 => DD x8 x63 | s92 => DD x9 x0 | s93 => DD x9 x1 | s94 => DD x9 x2 | s95 => DD x9 x3 | s96 => DD x9 x4 | s97 => DD x9 x5 | s98 => DD x9 x6 | s99 => DD x9 x7 | s100 => DD x9 x8 | s101 => DD x9 x9 | s102 => DD x9 x10 | s103 => DD x9 x11 | s104 => DD x9 x12 | s105 => DD x9 x13 | s106 => DD x9 x14 | s107 => DD x9 x15 | s108 => DD x9 x16 | s109 => DD x9 x17 | s110 => DD x9 x18 | s111 => DD x9 x19 | s112 => DD x9 x20 | s113 => DD x9 x21 | s114 => DD x9 x22 | s115 => DD x9 x23 | s116 => DD x9 x24 | s117 => DD x9 x25 | s118 => DD x9 x26 | s119 => DD x9 x27 | s120 => DD x9 x28 | s121 => DD x9 x29 | s122 => DD x9 x30 | s123 => DD x9 x31 | s124 => DD x9 x32 | s125 => DD x9 x33 | s126 => DD x9 x34 end.
Definition m486 (c : sum2) : dd := match c with s0 => DD x7 x38 | s1 => DD x7 x39 | s2 => DD x7 x40 | s3 => DD x7 x41 | s4 => DD x7 x42 | s5 => DD x7 x43 | s6 => DD x7 x44 | s7 => DD x7 x45 | s8 => DD x7 x46 | s9 => DD x7 x47 | s10 => DD x7 x48 | s11 => DD x7 x49 | s12 => DD x7 x50 | s13 => DD x7 x51 | s14 => DD x7 x52 | s15 => DD x7 x53 | s16 => DD x7 x54 | s17 => DD x7 x55 | s18 => DD x7 x56 | s19 => DD x7 x57 | s20 => DD x7 x58 | s21 => DD x7 x59 | s22 => DD x7 x60 | s23 => DD x7 x61 | s24 => DD x7 x62 | s25 => DD x7 x63 | s26 => DD x8 x0 | s27 => DD x8 x1 | s28 => DD x8 x2 | s29 => DD x8 x3 | s30 => DD x8 x4 | s31 => DD x8 x5 | s32 => DD x8 x6 | s33 => DD x8 x7 | s34 => DD x8 x8 | s35 => DD x8 x9 | s36 => DD x8 x10 | s37 => DD x8 x11 | s38 => DD x8 x12 | s39 => DD x8 x13 | s40 => DD x8 x14 | s41 => DD x8 x15 | s42 => DD x8 x16 | s43 => DD x8 x17 | s44 => DD x8 x18 | s45 => DD x8 x19 | s46 => DD x8 x20 | s47 => DD x8 x21 | s48 => DD x8 x22 | s49 => DD x8 x23 | s50 => DD x8 x24 | s51 => DD x8 x25 | s52 => DD x8 x26 | s53 => DD x8 x27 | s54 => DD x8 x28 | s55 => DD x8 x29 | s56 => DD x8 x30 | s57 => DD x8 x31 | s58 => DD x8 x32 | s59 => DD x8 x33 | s60 => DD x8 x34 | s61 => DD x8 x35 | s62 => DD x8 x36 | s63 => DD x8 x37 | s64 => DD x8 x38 | s65 => DD x8 x39 | s66 => DD x8 x40 | s67 => DD x8 x41 | s68 => DD x8 x42 | s69 => DD x8 x43 | s70 => DD x8 x44 | s71 => DD x8 x45 | s72 => DD x8 x46 | s73 => DD x8 x47 | s74 => DD x8 x48 | s75 => DD x8 x49 | s76 => DD x8 x50 | s77 => DD x8 x51 | s78 => DD x8 x52 | s79 => DD x8 x53 | s80 => DD x8 x54 | s81 => DD x8 x55 | s82 => DD x8 x56 | s83 => DD x8 x57 | s84 => DD x8 x58 | s85 => DD x8 x59 | s86 => DD x8 x60 | s87 => DD x8 x61 | s88 => DD x8 x62 | s89 => DD x8 x63 | s90 => DD x9 x0 | s91 => DD x9 x1 | s92 => DD x9 x2 | s93 => DD x9 x3 | s94 => DD x9 x4 | s95 => DD x9 x5 | s96 => DD x9 x6 | s97 => DD x9 x7 | s98 => DD x9 x8 | s99 => DD x9 x9 | s100 => DD x9 x10 | s101 => DD x9 x11 | s102 => DD x9 x12 | s103 => DD x9 x13 | s104 => DD x9 x14 | s105 => DD x9 x15 | s106 => DD x9 x16 | s107 => DD x9 x17 | s108 => DD x9 x18 | s109 => DD x9 x19 | s110 => DD x9 x20 | s111 => DD x9 x21 | s112 => DD x9 x22 | s113 => DD x9 x23 | s114 => DD x9 x24 | s115 => DD x9 x25 | s116 => DD x9 x26 | s117 => DD x9 x27 | s118 => DD x9 x28 | s119 => DD x9 x29 | s120 => DD x9 x30 | s121 => DD x9 x31 | s122 => DD x9 x32 | s123 => DD x9 x33 | s124 => DD x9 x34 | s125 => DD x9 x35 | s126 => DD x9 x36 end.
Definition m488 (c : sum2) : dd := match c with s0 => DD x7 x40 | s1 => DD x7 x41 | s2 => DD x7 x42 | s3 => DD x7 x43 | s4 => DD x7 x44 | s5 => DD x7 x45 | s6 => DD x7 x46 | s7 => DD x7 x47 | s8 => DD x7 x48 | s9 => DD x7 x49 | s10 => DD x7 x50 | s11 => DD x7 x51 | s12 => DD x7 x52 | s13 => DD x7 x53 | s14 => DD x7 x54 | s15 => DD x7 x55 | s16 => DD x7 x56 | s17 => DD x7 x57 | s18 => DD x7 x58 | s19 => DD x7 x59 | s20 => DD x7 x60 | s21 => DD x7 x61 | s22 => DD x7 x62 | s23 => DD x7 x63 | s24 => DD x8 x0 | s25 => DD x8 x1 | s26 => DD x8 x2 | s27 => DD x8 x3 | s28 => DD x8 x4 | s29 => DD x8 x5 | s30 => DD x8 x6 | s31 => DD x8 x7 | s32 => DD x8 x8 | s33 => DD x8 x9 | s34 => DD x8 x10 | s35 => DD x8 x11 | s36 => DD x8 x12 | s37 => DD x8 x13 | s38 => DD x8 x14 | s39 => DD x8 x15 | s40 => DD x8 x16 | s41 => DD x8 x17 | s42 => DD x8 x18 | s43 => DD x8 x19 | s44 => DD x8 x20 | s45 => DD x8 x21 | s46 => DD x8 x22 | s47 => DD x8 x23 | s48 => DD x8 x24 | s49 => DD x8 x25 | s50 => DD x8 x26 | s51 => DD x8 x27 | s52 => DD x8 x28 | s53 => DD x8 x29 | s54 => DD x8 x30 | s55 => DD x8 x31 | s56 => DD x8 x32 | s57 => DD x8 x33 | s58 => DD x8 x34 | s59 => DD x8 x35 | s60 => DD x8 x36 | s61 => DD x8 x37 | s62 => DD x8 x38 | s63 => DD x8 x39 | s64 => DD x8 x40 | s65 => DD x8 x41 | s66 => DD x8 x42 | s67 => DD x8 x43 | s68 => DD x8 x44 | s69 => DD x8 x45 | s70 => DD x8 x46 | s71 => DD x8 x47 | s72 => DD x8 x48 | s73 => DD x8 x49 | s74 => DD x8 x50 | s75 => DD x8 x51 | s76 => DD x8 x52 | s77 => DD x8 x53 | s78 => DD x8 x54 | s79 => DD x8 x55 | s80 => DD x8 x56 | s81 => DD x8 x57 | s82 => DD x8 x58 | s83 => DD x8 x59 | s84 => DD x8 x60 | s85 => DD x8 x61 | s86 => DD x8 x62 | s87 => DD x8 x63 | s88 => DD x9 x0 | s89 => DD x9 x1 | s90 => DD x9 x2 | s91 => DD x9 x3 | s92 => DD x9 x4 | s93 => DD x9 x5 | s94 => DD x9 x6 | s95 => DD x9 x7 | s96 => DD x9 x8 | s97 => DD x9 x9 | s98 => DD x9 x10 | s99 => DD x9 x11 | s100 => DD x9 x12 | s101 => DD x9 x13 | s102 => DD x9 x14 | s103 => DD x9 x15 | s104 => DD x9 x16 | s105 => DD x9 x17 | s106 => DD x9 x18 | s107 => DD x9 x19 | s108 => DD x9 x20 | s109 => DD x9 x21 | s110 => DD x9 x22 | s111 => DD x9 x23 | s112 => DD x9 x24 | s113 => DD x9 x25 | s114 => DD x9 x26 | s115 => DD x9 x27 | s116 => DD x9 x28 | s117 => DD x9 x29 | s118 => DD x9 x30 | s119 => DD x9 x31 | s120 => DD x9 x32 | s121 => DD x9 x33 | s122 => DD x9 x34 | s123 => DD x9 x35 | s124 => DD x9 x36 | s125 => DD x9 x37 | s126 => DD x9 x38 end.
Definition m490 (c : sum2) : dd := match c with s0 => DD x7 x42 | s1 => DD x7 x43 | s2 => DD x7 x44 | s3 => DD x7 x45 | s4 => DD x7 x46 | s5 => DD x7 x47 | s6 => DD x7 x48 | s7 => DD x7 x49 | s8 => DD x7 x50 | s9 => DD x7 x51 | s10 => DD x7 x52 | s11 => DD x7 x53 | s12 => DD x7 x54 | s13 => DD x7 x55 | s14 => DD x7 x56 | s15 => DD x7 x57 | s16 => DD x7 x58 | s17 => DD x7 x59 | s18 => DD x7 x60 | s19 => DD x7 x61 | s20 => DD x7 x62 | s21 => DD x7 x63 | s22 => DD x8 x0 | s23 => DD x8 x1 | s24 => DD x8 x2 | s25 => DD x8 x3 | s26 => DD x8 x4 | s27 => DD x8 x5 | s28 => DD x8 x6 | s29 => DD x8 x7 | s30 => DD x8 x8 | s31 => DD x8 x9 | s32 => DD x8 x10 | s33 => DD x8 x11 | s34 => DD x8 x12 | s35 => DD x8 x13 | s36 => DD x8 x14 | s37 => DD x8 x15 | s38 => DD x8 x16 | s39 => DD x8 x17 | s40 => DD x8 x18 | s41 => DD x8 x19 | s42 => DD x8 x20 | s43 => DD x8 x21 | s44 => DD x8 x22 | s45 => DD x8 x23 | s46 => DD x8 x24 | s47 => DD x8 x25 | s48 => DD x8 x26 | s49 => DD x8 x27 | s50 => DD x8 x28 | s51 => DD x8 x29 | s52 => DD x8 x30 | s53 => DD x8 x31 | s54 => DD x8 x32 | s55 => DD x8 x33 | s56 => DD x8 x34 | s57 => DD x8 x35 | s58 => DD x8 x36 | s59 => DD x8 x37 | s60 => DD x8 x38 | s61 => DD x8 x39 | s62 => DD x8 x40 | s63 => DD x8 x41 | s64 => DD x8 x42 | s65 => DD x8 x43 | s66 => DD x8 x44 | s67 => DD x8 x45 | s68 => DD x8 x46 | s69 => DD x8 x47 | s70 => DD x8 x48 | s71 => DD x8 x49 | s72 => DD x8 x50 | s73 => DD x8 x51 | s74 => DD x8 x52 | s75 => DD x8 x53 | s76 => DD x8 x54 | s77 => DD x8 x55 | s78 => DD x8 x56 | s79 => DD x8 x57 | s80 => DD x8 x58 | s81 => DD x8 x59 | s82 => DD x8 x60 | s83 => DD x8 x61 | s84 => DD x8 x62 | s85 => DD x8 x63 | s86 => DD x9 x0 | s87 => DD x9 x1 | s88 => DD x9 x2 | s89 => DD x9 x3 | s90 => DD x9 x4 | s91 => DD x9 x5 | s92 => DD x9 x6 | s93 => DD x9 x7 | s94 => DD x9 x8 | s95 => DD x9 x9 | s96 => DD x9 x10 | s97 => DD x9 x11 | s98 => DD x9 x12 | s99 => DD x9 x13 | s100 => DD x9 x14 | s101 => DD x9 x15 | s102 => DD x9 x16 | s103 => DD x9 x17 | s104 => DD x9 x18 | s105 => DD x9 x19 | s106 => DD x9 x20 | s107 => DD x9 x21 | s108 => DD x9 x22 | s109 => DD x9 x23 | s110 => DD x9 x24 | s111 => DD x9 x25 | s112 => DD x9 x26 | s113 => DD x9 x27 | s114 => DD x9 x28 | s115 => DD x9 x29 | s116 => DD x9 x30 | s117 => DD x9 x31 | s118 => DD x9 x32 | s119 => DD x9 x33 | s120 => DD x9 x34 | s121 => DD x9 x35 | s122 => DD x9 x36 | s123 => DD x9 x37 | s124 => DD x9 x38 | s125 => DD x9 x39 | s126 => DD x9 x40 end.
Definition m492 (c : sum2) : dd := match c with s0 => DD x7 x44 | s1 => DD x7 x45 | s2 => DD x7 x46 | s3 => DD x7 x47 | s4 => DD x7 x48 | s5 => DD x7 x49 | s6 => DD x7 x50 | s7 => DD x7 x51 | s8 => DD x7 x52 | s9 => DD x7 x53 | s10 => DD x7 x54 | s11 => DD x7 x55 | s12 => DD x7 x56 | s13 => DD x7 x57 | s14 => DD x7 x58 | s15 => DD x7 x59 | s16 => DD x7 x60 | s17 => DD x7 x61 | s18 => DD x7 x62 | s19 => DD x7 x63 | s20 => DD x8 x0 | s21 => DD x8 x1 | s22 => DD x8 x2 | s23 => DD x8 x3 | s24 => DD x8 x4 | s25 => DD x8 x5 | s26 => DD x8 x6 | s27 => DD x8 x7 | s28 => DD x8 x8 | s29 => DD x8 x9 | s30 => DD x8 x10 | s31 => DD x8 x11 | s32 => DD x8 x12 | s33 => DD x8 x13 | s34 => DD x8 x14 | s35 => DD x8 x15 | s36 => DD x8 x16 | s37 => DD x8 x17 | s38 => DD x8 x18 | s39 => DD x8 x19 | s40 => DD x8 x20 | s41 => DD x8 x21 | s42 => DD x8 x22 | s43 => DD x8 x23 | s44 => DD x8 x24 | s45 => DD x8 x25 | s46 => DD x8 x26 | s47 => DD x8 x27 | s48 => DD x8 x28 | s49 => DD x8 x29 | s50 => DD x8 x30 | s51 => DD x8 x31 | s52 => DD x8 x32 | s53 => DD x8 x33 | s54 => DD x8 x34 | s55 => DD x8 x35 | s56 => DD x8 x36 | s57 => DD x8 x37 | s58 => DD x8 x38 | s59 => DD x8 x39 | s60 => DD x8 x40 | s61 => DD x8 x41 | s62 => DD x8 x42 | s63 => DD x8 x43 | s64 => DD x8 x44 | s65 => DD x8 x45 | s66 => DD x8 x46 | s67 => DD x8 x47 | s68 => DD x8 x48 | s69 => DD x8 x49 | s70 => DD x8 x50 | s71 => DD x8 x51 | s72 => DD x8 x52 | s73 => DD x8 x53 | s74 => DD x8 x54 | s75 => DD x8 x55 | s76 => DD x8 x56 | s77 => DD x8 x57 | s78 => DD x8 x58 | s79 => DD x8 x59 | s80 => DD x8 x60 | s81 => DD x8 x61 | s82 => DD x8 x62 | s83 => DD x8 x63 | s84 => DD x9 x0 | s85 => DD x9 x1 | s86 => DD x9 x2 | s87 => DD x9 x3 | s88 => DD x9 x4 | s89 => DD x9 x5 | s90 => DD x9 x6 | s91 => DD x9 x7 | s92 => DD x9 x8 | s93 => DD x9 x9 | s94 => DD x9 x10 | s95 => DD x9 x11 | s96 => DD x9 x12 | s97 => DD x9 x13 | s98 => DD x9 x14 | s99 => DD x9 x15 | s100 => DD x9 x16 | s101 => DD x9 x17 | s102 => DD x9 x18 | s103 => DD x9 x19 | s104 => DD x9 x20 | s105 => DD x9 x21 | s106 => DD x9 x22 | s107 => DD x9 x23 | s108 => DD x9 x24 | s109 => DD x9 x25 | s110 => DD x9 x26 | s111 => DD x9 x27 | s112 => DD x9 x28 | s113 => DD x9 x29 | s114 => DD x9 x30 | s115 => DD x9 x31 | s116 => DD x9 x32 | s117 => DD x9 x33 | s118 => DD x9 x34 | s119 => DD x9 x35 | s120 => DD x9 x36 | s121 => DD x9 x37 | s122 => DD x9 x38 | s123 => DD x9 x39 | s124 => DD x9 x40 | s125 => DD x9 x41 | s126 => DD x9 x42 end.
Definition m493 (c : sum2) : dd := match c with s0 => DD x7 x45 | s1 => DD x7 x46 | s2 => DD x7 x47 | s3 => DD x7 x48 | s4 => DD x7 x49 | s5 => DD x7 x50 | s6 => DD x7 x51 | s7 => DD x7 x52 | s8 => DD x7 x53 | s9 => DD x7 x54 | s10 => DD x7 x55 | s11 => DD x7 x56 | s12 => DD x7 x57 | s13 => DD x7 x58 | s14 => DD x7 x59 | s15 => DD x7 x60 | s16 => DD x7 x61 | s17 => DD x7 x62 | s18 => DD x7 x63 | s19 => DD x8 x0 | s20 => DD x8 x1 | s21 => DD x8 x2 | s22 => DD x8 x3 | s23 => DD x8 x4 | s24 => DD x8 x5 | s25 => DD x8 x6 | s26 => DD x8 x7 | s27 => DD x8 x8 | s28 => DD x8 x9 | s29 => DD x8 x10 | s30 => DD x8 x11 | s31 => DD x8 x12 | s32 => DD x8 x13 | s33 => DD x8 x14 | s34 => DD x8 x15 | s35 => DD x8 x16 | s36 => DD x8 x17 | s37 => DD x8 x18 | s38 => DD x8 x19 | s39 => DD x8 x20 | s40 => DD x8 x21 | s41 => DD x8 x22 | s42 => DD x8 x23 | s43 => DD x8 x24 | s44 => DD x8 x25 | s45 => DD x8 x26 | s46 => DD x8 x27 | s47 => DD x8 x28 | s48 => DD x8 x29 | s49 => DD x8 x30 | s50 => DD x8 x31 | s51 => DD x8 x32 | s52 => DD x8 x33 | s53 => DD x8 x34 | s54 => DD x8 x35 | s55 => DD x8 x36 | s56 => DD x8 x37 | s57 => DD x8 x38 | s58 => DD x8 x39 | s59 => DD x8 x40 | s60 => DD x8 x41 | s61 => DD x8 x42 | s62 => DD x8 x43 | s63 => DD x8 x44 | s64 => DD x8 x45 | s65 => DD x8 x46 | s66 => DD x8 x47 | s67 => DD x8 x48 | s68 => DD x8 x49 | s69 => DD x8 x50 | s70 => DD x8 x51 | s71 => DD x8 x52 | s72 => DD x8 x53 | s73 => DD x8 x54 | s74 => DD x8 x55 | s75 => DD x8 x56 | s76 => DD x8 x57 | s77 => DD x8 x58 | s78 => DD x8 x59 | s79 => DD x8 x60 | s80 => DD x8 x61 | s81 => DD x8 x62 | s82 => DD x8 x63 | s83 => DD x9 x0 | s84 => DD x9 x1 | s85 => DD x9 x2 | s86 => DD x9 x3 | s87 => DD x9 x4 | s88 => DD x9 x5 | s89 => DD x9 x6 | s90 => DD x9 x7 | s91 => DD x9 x8 | s92 => DD x9 x9 | s93 => DD x9 x10 | s94 => DD x9 x11 | s95 => DD x9 x12 | s96 => DD x9 x13 | s97 => DD x9 x14 | s98 => DD x9 x15 | s99 => DD x9 x16 | s100 => DD x9 x17 | s101 => DD x9 x18 | s102 => DD x9 x19 | s103 => DD x9 x20 | s104 => DD x9 x21 | s105 => DD x9 x22 | s106 => DD x9 x23 | s107 => DD x9 x24 | s108 => DD x9 x25 | s109 => DD x9 x26 | s110 => DD x9 x27 | s111 => DD x9 x28 | s112 => DD x9 x29 | s113 => DD x9 x30 | s114 => DD x9 x31 | s115 => DD x9 x32 | s116 => DD x9 x33 | s117 => DD x9 x34 | s118 => DD x9 x35 | s119 => DD x9 x36 | s120 => DD x9 x37 | s121 => DD x9 x38 | s122 => DD x9 x39 | s123 => DD x9 x40 | s124 => DD x9 x41 | s125 => DD x9 x42 | s126 => DD x9 x43 end.
Definition m494 (c : sum2) : dd := match c with s0 => DD x7 x46 | s1 => DD x7 x47 | s2 => DD x7 x48 | s3 => DD x7 x49 | s4 => DD x7 x50 | s5 => DD x7 x51 | s6 => DD x7 x52 | s7 => DD x7 x53 | s8 => DD x7 x54 | s9 => DD x7 x55 | s10 => DD x7 x56 | s11 => DD x7 x57 | s12 => DD x7 x58 | s13 => DD x7 x59 | s14 => DD x7 x60 | s15 => DD x7 x61 | s16 => DD x7 x62 | s17 => DD x7 x63 | s18 => DD x8 x0 | s19 => DD x8 x1 | s20 => DD x8 x2 | s21 => DD x8 x3 | s22 => DD x8 x4 | s23 => DD x8 x5 | s24 => DD x8 x6 | s25 => DD x8 x7 | s26 => DD x8 x8 | s27 => DD x8 x9 | s28 => DD x8 x10 | s29 => DD x8 x11 | s30 => DD x8 x12 | s31 => DD x8 x13 | s32 => DD x8 x14 | s33 => DD x8 x15 | s34 => DD x8 x16 | s35 => DD x8 x17 | s36 => DD x8 x18 | s37 => DD x8 x19 | s38 => DD x8 x20 | s39 => DD x8 x21 | s40 => DD x8 x22 | s41 => DD x8 x23 | s42 => DD x8 x24 | s43 => DD x8 x25 | s44 => DD x8 x26 | s45 => DD x8 x27 | s46 => DD x8 x28 | s47 => DD x8 x29 | s48 => DD x8 x30 | s49 => DD x8 x31 | s50 => DD x8 x32 | s51 => DD x8 x33 | s52 => DD x8 x34 | s53 => DD x8 x35 | s54 => DD x8 x36 | s55 => DD x8 x37 | s56 => DD x8 x38 | s57 => DD x8 x39 | s58 => DD x8 x40 | s59 => DD x8 x41 | s60 => DD x8 x42 | s61 => DD x8 x43 | s62 => DD x8 x44 | s63 => DD x8 x45 | s64 => DD x8 x46 | s65 => DD x8 x47 | s66 => DD x8 x48 | s67 => DD x8 x49 | s68 => DD x8 x50 | s69 => DD x8 x51 | s70 => DD x8 x52 | s71 => DD x8 x53 | s72 => DD x8 x54 | s73 => DD x8 x55 | s74 => DD x8 x56 | s75 => DD x8 x57 | s76 => DD x8 x58 | s77 => DD x8 x59 | s78 => DD x8 x60 | s79 => DD x8 x61 | s80 => DD x8 x62 | s81 => DD x8 x63 | s82 => DD x9 x0 | s83 => DD x9 x1 | s84 => DD x9 x2 | s85 => DD x9 x3 | s86 => DD x9 x4 | s87 => DD x9 x5 | s88 => DD x9 x6 | s89 => DD x9 x7 | s90 => DD x9 x8 | s91 => DD x9 x9 | s92 => DD x9 x10 | s93 => DD x9 x11 | s94 => DD x9 x12 | s95 => DD x9 x13 | s96 => DD x9 x14 | s97 => DD x9 x15 | s98 => DD x9 x16 | s99 => DD x9 x17 | s100 => DD x9 x18 | s101 => DD x9 x19 | s102 => DD x9 x20 | s103 => DD x9 x21 | s104 => DD x9 x22 | s105 => DD x9 x23 | s106 => DD x9 x24 | s107 => DD x9 x25 | s108 => DD x9 x26 | s109 => DD x9 x27 | s110 => DD x9 x28 | s111 => DD x9 x29 | s112 => DD x9 x30 | s113 => DD x9 x31 | s114 => DD x9 x32 | s115 => DD x9 x33 | s116 => DD x9 x34 | s117 => DD x9 x35 | s118 => DD x9 x36 | s119 => DD x9 x37 | s120 => DD x9 x38 | s121 => DD x9 x39 | s122 => DD x9 x40 | s123 => DD x9 x41 | s124 => DD x9 x42 | s125 => DD x9 x43 | s126 => DD x9 x44 end.
Definition m495 (c : sum2) : dd := match c with s0 => DD x7 x47 | s1 => DD x7 x48 | s2 => DD x7 x49 | s3 => DD x7 x50 | s4 => DD x7 x51 | s5 => DD x7 x52 | s6 => DD x7 x53 | s7 => DD x7 x54 | s8 => DD x7 x55 | s9 => DD x7 x56 | s10 => DD x7 x57 | s11 => DD x7 x58 | s12 => DD x7 x59 | s13 => DD x7 x60 | s14 => DD x7 x61 | s15 => DD x7 x62 | s16 => DD x7 x63 | s17 => DD x8 x0 | s18 => DD x8 x1 | s19 => DD x8 x2 | s20 => DD x8 x3 | s21 => DD x8 x4 | s22 => DD x8 x5 | s23 => DD x8 x6 | s24 => DD x8 x7 | s25 => DD x8 x8 | s26 => DD x8 x9 | s27 => DD x8 x10 | s28 => DD x8 x11 | s29 => DD x8 x12 | s30 => DD x8 x13 | s31 => DD x8 x14 | s32 => DD x8 x15 | s33 => DD x8 x16 | s34 => DD x8 x17 | s35 => DD x8 x18 | s36 => DD x8 x19 | s37 => DD x8 x20 | s38 => DD x8 x21 | s39 => DD x8 x22 | s40 => DD x8 x23 | s41 => DD x8 x24 | s42 => DD x8 x25 | s43 => DD x8 x26 | s44 => DD x8 x27 | s45 => DD x8 x28 | s46 => DD x8 x29 | s47 => DD x8 x30 | s48 => DD x8 x31 | s49 => DD x8 x32 | s50 => DD x8 x33 | s51 => DD x8 x34 | s52 => DD x8 x35 | s53 => DD x8 x36 | s54 => DD x8 x37 | s55 => DD x8 x38 | s56 => DD x8 x39 | s57 => DD x8 x40 | s58 => DD x8 x41 | s59 => DD x8 x42 | s60 => DD x8 x43 | s61 => DD x8 x44 | s62 => DD x8 x45 | s63 => DD x8 x46 | s64 => DD x8 x47 | s65 => DD x8 x48 | s66 => DD x8 x49 | s67 => DD x8 x50 | s68 => DD x8 x51 | s69 => DD x8 x52 | s70 => DD x8 x53 | s71 => DD x8 x54 | s72 => DD x8 x55 | s73 => DD x8 x56 | s74 => DD x8 x57 | s75 => DD x8 x58 | s76 => DD x8 x59 | s77 => DD x8 x60 | s78 => DD x8 x61 | s79 => DD x8 x62 | s80 => DD x8 x63 | s81 => DD x9 x0 | s82 => DD x9 x1 | s83 => DD x9 x2 | s84 => DD x9 x3 | s85 => DD x9 x4 | s86 => DD x9 x5 | s87 => DD x9 x6 | s88 => DD x9 x7 | s89 => DD x9 x8 | s90 => DD x9 x9 | s91 => DD x9 x10 | s92 => DD x9 x11 | s93 => DD x9 x12 | s94 => DD x9 x13 | s95 => DD x9 x14 | s96 => DD x9 x15 | s97 => DD x9 x16 | s98 => DD x9 x17 | s99 => DD x9 x18 | s100 => DD x9 x19 | s101 => DD x9 x20 | s102 => DD x9 x21 | s103 => DD x9 x22 | s104 => DD x9 x23 | s105 => DD x9 x24 | s106 => DD x9 x25 | s107 => DD x9 x26 | s108 => DD x9 x27 | s109 => DD x9 x28 | s110 => DD x9 x29 | s111 => DD x9 x30 | s112 => DD x9 x31 | s113 => DD x9 x32 | s114 => DD x9 x33 | s115 => DD x9 x34 | s116 => DD x9 x35 | s117 => DD x9 x36 | s118 => DD x9 x37 | s119 => DD x9 x38 | s120 => DD x9 x39 | s121 => DD x9 x40 | s122 => DD x9 x41 | s123 => DD x9 x42 | s124 => DD x9 x43 | s125 => DD x9 x44 | s126 => DD x9 x45 end.
Definition m496 (c : sum2) : dd := match c with s0 => DD x7 x48 | s1 => DD x7 x49 | s2 => DD x7 x50 | s3 => DD x7 x51 | s4 => DD x7 x52 | s5 => DD x7 x53 | s6 => DD x7 x54 | s7 => DD x7 x55 | s8 => DD x7 x56 | s9 => DD x7 x57 | s10 => DD x7 x58 | s11 => DD x7 x59 | s12 => DD x7 x60 | s13 => DD x7 x61 | s14 => DD x7 x62 | s15 => DD x7 x63 | s16 => DD x8 x0 | s17 => DD x8 x1 | s18 => DD x8 x2 | s19 => DD x8 x3 | s20 => DD x8 x4 | s21 => DD x8 x5 | s22 => DD x8 x6 | s23 => DD x8 x7 | s24 => DD x8 x8 | s25 => DD x8 x9 | s26 => DD x8 x10 | s27 => DD x8 x11 | s28 => DD x8 x12 | s29 => DD x8 x13 | s30 => DD x8 x14 | s31 => DD x8 x15 | s32 => DD x8 x16 | s33 => DD x8 x17 | s34 => DD x8 x18 | s35 => DD x8 x19 | s36 => DD x8 x20 | s37 => DD x8 x21 | s38 => DD x8 x22 | s39 => DD x8 x23 | s40 => DD x8 x24 | s41 => DD x8 x25 | s42 => DD x8 x26 | s43 => DD x8 x27 | s44 => DD x8 x28 | s45 => DD x8 x29 | s46 => DD x8 x30 | s47 => DD x8 x31 | s48 => DD x8 x32 | s49 => DD x8 x33 | s50 => DD x8 x34 | s51 => DD x8 x35 | s52 => DD x8 x36 | s53 => DD x8 x37 | s54 => DD x8 x38 | s55 => DD x8 x39 | s56 => DD x8 x40 | s57 => DD x8 x41 | s58 => DD x8 x42 | s59 => DD x8 x43 | s60 => DD x8 x44 | s61 => DD x8 x45 | s62 => DD x8 x46 | s63 => DD x8 x47 | s64 => DD x8 x48 | s65 => DD x8 x49 | s66 => DD x8 x50 | s67 => DD x8 x51 | s68 => DD x8 x52 | s69 => DD x8 x53 | s70 => DD x8 x54 | s71 => DD x8 x55 | s72 => DD x8 x56 | s73 => DD x8 x57 | s74 => DD x8 x58 | s75 => DD x8 x59 | s76 => DD x8 x60 | s77 => DD x8 x61 | s78 => DD x8 x62 | s79 => DD x8 x63 | s80 => DD x9 x0 | s81 => DD x9 x1 | s82 => DD x9 x2 | s83 => DD x9 x3 | s84 => DD x9 x4 | s85 => DD x9 x5 | s86 => DD x9 x6 | s87 => DD x9 x7 | s88 => DD x9 x8 | s89 => DD x9 x9 | s90 => DD x9 x10 | s91 => DD x9 x11 | s92 => DD x9 x12 | s93 => DD x9 x13 | s94 => DD x9 x14 | s95 => DD x9 x15 | s96 => DD x9 x16 | s97 => DD x9 x17 | s98 => DD x9 x18 | s99 => DD x9 x19 | s100 => DD x9 x20 | s101 => DD x9 x21 | s102 => DD x9 x22 | s103 => DD x9 x23 | s104 => DD x9 x24 | s105 => DD x9 x25 | s106 => DD x9 x26 | s107 => DD x9 x27 | s108 => DD x9 x28 | s109 => DD x9 x29 | s110 => DD x9 x30 | s111 => DD x9 x31 | s112 => DD x9 x32 | s113 => DD x9 x33 | s114 => DD x9 x34 | s115 => DD x9 x35 | s116 => DD x9 x36 | s117 => DD x9 x37 | s118 => DD x9 x38 | s119 => DD x9 x39 | s120 => DD x9 x40 | s121 => DD x9 x41 | s122 => DD x9 x42 | s123 => DD x9 x43 | s124 => DD x9 x44 | s125 => DD x9 x45 | s126 => DD x9 x46 end.
Definition m500 (c : sum2) : dd := match c with s0 => DD x7 x52 | s1 => DD x7 x53 | s2 => DD x7 x54 | s3 => DD x7 x55 | s4 => DD x7 x56 | s5 => DD x7 x57 | s6 => DD x7 x58 | s7 => DD x7 x59 | s8 => DD x7 x60 | s9 => DD x7 x61 | s10 => DD x7 x62 | s11 => DD x7 x63 | s12 => DD x8 x0 | s13 => DD x8 x1 | s14 => DD x8 x2 | s15 => DD x8 x3 | s16 => DD x8 x4 | s17 => DD x8 x5 | s18 => DD x8 x6 | s19 => DD x8 x7 | s20 => DD x8 x8 | s21 => DD x8 x9 | s22 => DD x8 x10 | s23 => DD x8 x11 | s24 => DD x8 x12 | s25 => DD x8 x13 | s26 => DD x8 x14 | s27 => DD x8 x15 | s28 => DD x8 x16 | s29 => DD x8 x17 | s30 => DD x8 x18 | s31 => DD x8 x19 | s32 => DD x8 x20 | s33 => DD x8 x21 | s34 => DD x8 x22 | s35 => DD x8 x23 | s36 => DD x8 x24 | s37 => DD x8 x25 | s38 => DD x8 x26 | s39 => DD x8 x27 | s40 => DD x8 x28 | s41 => DD x8 x29 | s42 => DD x8 x30 | s43 => DD x8 x31 | s44 => DD x8 x32 | s45 => DD x8 x33 | s46 => DD x8 x34 | s47 => DD x8 x35 | s48 => DD x8 x36 | s49 => DD x8 x37 | s50 => DD x8 x38 | s51 => DD x8 x39 | s52 => DD x8 x40 | s53 => DD x8 x41 | s54 => DD x8 x42 | s55 => DD x8 x43 | s56 => DD x8 x44 | s57 => DD x8 x45 | s58 => DD x8 x46 | s59 => DD x8 x47 | s60 => DD x8 x48 | s61 => DD x8 x49 | s62 => DD x8 x50 | s63 => DD x8 x51 | s64 => DD x8 x52 | s65 => DD x8 x53 | s66 => DD x8 x54 | s67 => DD x8 x55 | s68 => DD x8 x56 | s69 => DD x8 x57 | s70 => DD x8 x58 | s71 => DD x8 x59 | s72 => DD x8 x60 | s73 => DD x8 x61 | s74 => DD x8 x62 | s75 => DD x8 x63 | s76 => DD x9 x0 | s77 => DD x9 x1 | s78 => DD x9 x2 | s79 => DD x9 x3 | s80 => DD x9 x4 | s81 => DD x9 x5 | s82 => DD x9 x6 | s83 => DD x9 x7 | s84 => DD x9 x8 | s85 => DD x9 x9 | s86 => DD x9 x10 | s87 => DD x9 x11 | s88 => DD x9 x12 | s89 => DD x9 x13 | s90 => DD x9 x14 | s91 => DD x9 x15 | s92 => DD x9 x16 | s93 => DD x9 x17 | s94 => DD x9 x18 | s95 => DD x9 x19 | s96 => DD x9 x20 | s97 => DD x9 x21 | s98 => DD x9 x22 | s99 => DD x9 x23 | s100 => DD x9 x24 | s101 => DD x9 x25 | s102 => DD x9 x26 | s103 => DD x9 x27 | s104 => DD x9 x28 | s105 => DD x9 x29 | s106 => DD x9 x30 | s107 => DD x9 x31 | s108 => DD x9 x32 | s109 => DD x9 x33 | s110 => DD x9 x34 | s111 => DD x9 x35 | s112 => DD x9 x36 | s113 => DD x9 x37 | s114 => DD x9 x38 | s115 => DD x9 x39 | s116 => DD x9 x40 | s117 => DD x9 x41 | s118 => DD x9 x42 | s119 => DD x9 x43 | s120 => DD x9 x44 | s121 => DD x9 x45 | s122 => DD x9 x46 | s123 => DD x9 x47 | s124 => DD x9 x48 | s125 => DD x9 x49 | s126 => DD x9 x50 end.
Definition m504 (c : sum2) : dd := match c with s0 => DD x7 x56 | s1 => DD x7 x57 | s2 => DD x7 x58 | s3 => DD x7 x59 | s4 => DD x7 x60 | s5 => DD x7 x61 | s6 => DD x7 x62 | s7 => DD x7 x63 | s8 => DD x8 x0 | s9 => DD x8 x1 | s10 => DD x8 x2 | s11 => DD x8 x3 | s12 => DD x8 x4 | s13 => DD x8 x5 | s14 => DD x8 x6 | s15 => DD x8 x7 | s16 => DD x8 x8 | s17 => DD x8 x9 | s18 => DD x8 x10 | s19 => DD x8 x11 | s20 => DD x8 x12 | s21 => DD x8 x13 | s22 => DD x8 x14 | s23 => DD x8 x15 | s24 => DD x8 x16 | s25 => DD x8 x17 | s26 => DD x8 x18 | s27 => DD x8 x19 | s28 => DD x8 x20 | s29 => DD x8 x21 | s30 => DD x8 x22 | s31 => DD x8 x23 | s32 => DD x8 x24 | s33 => DD x8 x25 | s34 => DD x8 x26 | s35 => DD x8 x27 | s36 => DD x8 x28 | s37 => DD x8 x29 | s38 => DD x8 x30 | s39 => DD x8 x31 | s40 => DD x8 x32 | s41 => DD x8 x33 | s42 => DD x8 x34 | s43 => DD x8 x35 | s44 => DD x8 x36 | s45 => DD x8 x37 | s46 => DD x8 x38 | s47 => DD x8 x39 | s48 => DD x8 x40 | s49 => DD x8 x41 | s50 => DD x8 x42 | s51 => DD x8 x43 | s52 => DD x8 x44 | s53 => DD x8 x45 | s54 => DD x8 x46 | s55 => DD x8 x47 | s56 => DD x8 x48 | s57 => DD x8 x49 | s58 => DD x8 x50 | s59 => DD x8 x51 | s60 => DD x8 x52 | s61 => DD x8 x53 | s62 => DD x8 x54 | s63 => DD x8 x55 | s64 => DD x8 x56 | s65 => DD x8 x57 | s66 => DD x8 x58 | s67 => DD x8 x59 | s68 => DD x8 x60 | s69 => DD x8 x61 | s70 => DD x8 x62 | s71 => DD x8 x63 | s72 => DD x9 x0 | s73 => DD x9 x1 | s74 => DD x9 x2 | s75 => DD x9 x3 | s76 => DD x9 x4 | s77 => DD x9 x5 | s78 => DD x9 x6 | s79 => DD x9 x7 | s80 => DD x9 x8 | s81 => DD x9 x9 | s82 => DD x9 x10 | s83 => DD x9 x11 | s84 => DD x9 x12 | s85 => DD x9 x13 | s86 => DD x9 x14 | s87 => DD x9 x15 | s88 => DD x9 x16 | s89 => DD x9 x17 | s90 => DD x9 x18 | s91 => DD x9 x19 | s92 => DD x9 x20 | s93 => DD x9 x21 | s94 => DD x9 x22 | s95 => DD x9 x23 | s96 => DD x9 x24 | s97 => DD x9 x25 | s98 => DD x9 x26 | s99 => DD x9 x27 | s100 => DD x9 x28 | s101 => DD x9 x29 | s102 => DD x9 x30 | s103 => DD x9 x31 | s104 => DD x9 x32 | s105 => DD x9 x33 | s106 => DD x9 x34 | s107 => DD x9 x35 | s108 => DD x9 x36 | s109 => DD x9 x37 | s110 => DD x9 x38 | s111 => DD x9 x39 | s112 => DD x9 x40 | s113 => DD x9 x41 | s114 => DD x9 x42 | s115 => DD x9 x43 | s116 => DD x9 x44 | s117 => DD x9 x45 | s118 => DD x9 x46 | s119 => DD x9 x47 | s120 => DD x9 x48 | s121 => DD x9 x49 | s122 => DD x9 x50 | s123 => DD x9 x51 | s124 => DD x9 x52 | s125 => DD x9 x53 | s126 => DD x9 x54 end.
Definition m506 (c : sum2) : dd := match c with s0 => DD x7 x58 | s1 => DD x7 x59 | s2 => DD x7 x60 | s3 => DD x7 x61 | s4 => DD x7 x62 | s5 => DD x7 x63 | s6 => DD x8 x0 | s7 => DD x8 x1 | s8 => DD x8 x2 | s9 => DD x8 x3 | s10 => DD x8 x4 | s11 => DD x8 x5 | s12 => DD x8 x6 | s13 => DD x8 x7 | s14 => DD x8 x8 | s15 => DD x8 x9 | s16 => DD x8 x10 | s17 => DD x8 x11 | s18 => DD x8 x12 | s19 => DD x8 x13 | s20 => DD x8 x14 | s21 => DD x8 x15 | s22 => DD x8 x16 | s23 => DD x8 x17 | s24 => DD x8 x18 | s25 => DD x8 x19 | s26 => DD x8 x20 | s27 => DD x8 x21 | s28 => DD x8 x22 | s29 => DD x8 x23 | s30 => DD x8 x24 | s31 => DD x8 x25 | s32 => DD x8 x26 | s33 => DD x8 x27 | s34 => DD x8 x28 | s35 => DD x8 x29 | s36 => DD x8 x30 | s37 => DD x8 x31 | s38 => DD x8 x32 | s39 => DD x8 x33 | s40 => DD x8 x34 | s41 => DD x8 x35 | s42 => DD x8 x36 | s43 => DD x8 x37 | s44 => DD x8 x38 | s45 => DD x8 x39 | s46 => DD x8 x40 | s47 => DD x8 x41 | s48 => DD x8 x42 | s49 => DD x8 x43 | s50 => DD x8 x44 | s51 => DD x8 x45 | s52 => DD x8 x46 | s53 => DD x8 x47 | s54 => DD x8 x48 | s55 => DD x8 x49 | s56 => DD x8 x50 | s57 => DD x8 x51 | s58 => DD x8 x52 | s59 => DD x8 x53 | s60 => DD x8 x54 | s61 => DD x8 x55 | s62 => DD x8 x56 | s63 => DD x8 x57 | s64 => DD x8 x58 | s65 => DD x8 x59 | s66 => DD x8 x60 | s67 => DD x8 x61 | s68 => DD x8 x62 | s69 => DD x8 x63 | s70 => DD x9 x0 | s71 => DD x9 x1 | s72 => DD x9 x2 | s73 => DD x9 x3 | s74 => DD x9 x4 | s75 => DD x9 x5 | s76 => DD x9 x6 | s77 => DD x9 x7 | s78 => DD x9 x8 | s79 => DD x9 x9 | s80 => DD x9 x10 | s81 => DD x9 x11 | s82 => DD x9 x12 | s83 => DD x9 x13 | s84 => DD x9 x14 | s85 => DD x9 x15 | s86 => DD x9 x16 | s87 => DD x9 x17 | s88 => DD x9 x18 | s89 => DD x9 x19 | s90 => DD x9 x20 | s91 => DD x9 x21 | s92 => DD x9 x22 | s93 => DD x9 x23 | s94 => DD x9 x24 | s95 => DD x9 x25 | s96 => DD x9 x26 | s97 => DD x9 x27 | s98 => DD x9 x28 | s99 => DD x9 x29 | s100 => DD x9 x30 | s101 => DD x9 x31 | s102 => DD x9 x32 | s103 => DD x9 x33 | s104 => DD x9 x34 | s105 => DD x9 x35 | s106 => DD x9 x36 | s107 => DD x9 x37 | s108 => DD x9 x38 | s109 => DD x9 x39 | s110 => DD x9 x40 | s111 => DD x9 x41 | s112 => DD x9 x42 | s113 => DD x9 x43 | s114 => DD x9 x44 | s115 => DD x9 x45 | s116 => DD x9 x46 | s117 => DD x9 x47 | s118 => DD x9 x48 | s119 => DD x9 x49 | s120 => DD x9 x50 | s121 => DD x9 x51 | s122 => DD x9 x52 | s123 => DD x9 x53 | s124 => DD x9 x54 | s125 => DD x9 x55 | s126 => DD x9 x56 end.
Definition m507 (c : sum2) : dd := match c with s0 => DD x7 x59 | s1 => DD x7 x60 | s2 => DD x7 x61 | s3 => DD x7 x62 | s4 => DD x7 x63 | s5 => DD x8 x0 | s6 => DD x8 x1 | s7 => DD x8 x2 | s8 => DD x8 x3 | s9 => DD x8 x4 | s10 => DD x8 x5 | s11 => DD x8 x6 | s12 => DD x8 x7 | s13 => DD x8 x8 | s14 => DD x8 x9 | s15 => DD x8 x10 | s16 => DD x8 x11 | s17 => DD x8 x12 | s18 => DD x8 x13 | s19 => DD x8 x14 | s20 => DD x8 x15 | s21 => DD x8 x16 | s22 => DD x8 x17 | s23 => DD x8 x18 | s24 => DD x8 x19 | s25 => DD x8 x20 | s26 => DD x8 x21 | s27 => DD x8 x22 | s28 => DD x8 x23 | s29 => DD x8 x24 | s30 => DD x8 x25 | s31 => DD x8 x26 | s32 => DD x8 x27 | s33 => DD x8 x28 | s34 => DD x8 x29 | s35 => DD x8 x30 | s36 => DD x8 x31 | s37 => DD x8 x32 | s38 => DD x8 x33 | s39 => DD x8 x34 | s40 => DD x8 x35 | s41 => DD x8 x36 | s42 => DD x8 x37 | s43 => DD x8 x38 | s44 => DD x8 x39 | s45 => DD x8 x40 | s46 => DD x8 x41 | s47 => DD x8 x42 | s48 => DD x8 x43 | s49 => DD x8 x44 | s50 => DD x8 x45 | s51 => DD x8 x46 | s52 => DD x8 x47 | s53 => DD x8 x48 | s54 => DD x8 x49 | s55 => DD x8 x50 | s56 => DD x8 x51 | s57 => DD x8 x52 | s58 => DD x8 x53 | s59 => DD x8 x54 | s60 => DD x8 x55 | s61 => DD x8 x56 | s62 => DD x8 x57 | s63 => DD x8 x58 | s64 => DD x8 x59 | s65 => DD x8 x60 | s66 => DD x8 x61 | s67 => DD x8 x62 | s68 => DD x8 x63 | s69 => DD x9 x0 | s70 => DD x9 x1 | s71 => DD x9 x2 | s72 => DD x9 x3 | s73 => DD x9 x4 | s74 => DD x9 x5 | s75 => DD x9 x6 | s76 => DD x9 x7 | s77 => DD x9 x8 | s78 => DD x9 x9 | s79 => DD x9 x10 | s80 => DD x9 x11 | s81 => DD x9 x12 | s82 => DD x9 x13 | s83 => DD x9 x14 | s84 => DD x9 x15 | s85 => DD x9 x16 | s86 => DD x9 x17 | s87 => DD x9 x18 | s88 => DD x9 x19 | s89 => DD x9 x20 | s90 => DD x9 x21 | s91 => DD x9 x22 | s92 => DD x9 x23 | s93 => DD x9 x24 | s94 => DD x9 x25 | s95 => DD x9 x26 | s96 => DD x9 x27 | s97 => DD x9 x28 | s98 => DD x9 x29 | s99 => DD x9 x30 | s100 => DD x9 x31 | s101 => DD x9 x32 | s102 => DD x9 x33 | s103 => DD x9 x34 | s104 => DD x9 x35 | s105 => DD x9 x36 | s106 => DD x9 x37 | s107 => DD x9 x38 | s108 => DD x9 x39 | s109 => DD x9 x40 | s110 => DD x9 x41 | s111 => DD x9 x42 | s112 => DD x9 x43 | s113 => DD x9 x44 | s114 => DD x9 x45 | s115 => DD x9 x46 | s116 => DD x9 x47 | s117 => DD x9 x48 | s118 => DD x9 x49 | s119 => DD x9 x50 | s120 => DD x9 x51 | s121 => DD x9 x52 | s122 => DD x9 x53 | s123 => DD x9 x54 | s124 => DD x9 x55 | s125 => DD x9 x56 | s126 => DD x9 x57 end.
Definition m510 (c : sum2) : dd := match c with s0 => DD x7 x62 | s1 => DD x7 x63 | s2 => DD x8 x0 | s3 => DD x8 x1 | s4 => DD x8 x2 | s5 => DD x8 x3 | s6 => DD x8 x4 | s7 => DD x8 x5 | s8 => DD x8 x6 | s9 => DD x8 x7 | s10 => DD x8 x8 | s11 => DD x8 x9 | s12 => DD x8 x10 | s13 => DD x8 x11 | s14 => DD x8 x12 | s15 => DD x8 x13 | s16 => DD x8 x14 | s17 => DD x8 x15 | s18 => DD x8 x16 | s19 => DD x8 x17 | s20 => DD x8 x18 | s21 => DD x8 x19 | s22 => DD x8 x20 | s23 => DD x8 x21 | s24 => DD x8 x22 | s25 => DD x8 x23 | s26 => DD x8 x24 | s27 => DD x8 x25 | s28 => DD x8 x26 | s29 => DD x8 x27 | s30 => DD x8 x28 | s31 => DD x8 x29 | s32 => DD x8 x30 | s33 => DD x8 x31 | s34 => DD x8 x32 | s35 => DD x8 x33 | s36 => DD x8 x34 | s37 => DD x8 x35 | s38 => DD x8 x36 | s39 => DD x8 x37 | s40 => DD x8 x38 | s41 => DD x8 x39 | s42 => DD x8 x40 | s43 => DD x8 x41 | s44 => DD x8 x42 | s45 => DD x8 x43 | s46 => DD x8 x44 | s47 => DD x8 x45 | s48 => DD x8 x46 | s49 => DD x8 x47 | s50 => DD x8 x48 | s51 => DD x8 x49 | s52 => DD x8 x50 | s53 => DD x8 x51 | s54 => DD x8 x52 | s55 => DD x8 x53 | s56 => DD x8 x54 | s57 => DD x8 x55 | s58 => DD x8 x56 | s59 => DD x8 x57 | s60 => DD x8 x58 | s61 => DD x8 x59 | s62 => DD x8 x60 | s63 => DD x8 x61 | s64 => DD x8 x62 | s65 => DD x8 x63 | s66 => DD x9 x0 | s67 => DD x9 x1 | s68 => DD x9 x2 | s69 => DD x9 x3 | s70 => DD x9 x4 | s71 => DD x9 x5 | s72 => DD x9 x6 | s73 => DD x9 x7 | s74 => DD x9 x8 | s75 => DD x9 x9 | s76 => DD x9 x10 | s77 => DD x9 x11 | s78 => DD x9 x12 | s79 => DD x9 x13 | s80 => DD x9 x14 | s81 => DD x9 x15 | s82 => DD x9 x16 | s83 => DD x9 x17 | s84 => DD x9 x18 | s85 => DD x9 x19 | s86 => DD x9 x20 | s87 => DD x9 x21 | s88 => DD x9 x22 | s89 => DD x9 x23 | s90 => DD x9 x24 | s91 => DD x9 x25 | s92 => DD x9 x26 | s93 => DD x9 x27 | s94 => DD x9 x28 | s95 => DD x9 x29 | s96 => DD x9 x30 | s97 => DD x9 x31 | s98 => DD x9 x32 | s99 => DD x9 x33 | s100 => DD x9 x34 | s101 => DD x9 x35 | s102 => DD x9 x36 | s103 => DD x9 x37 | s104 => DD x9 x38 | s105 => DD x9 x39 | s106 => DD x9 x40 | s107 => DD x9 x41 | s108 => DD x9 x42 | s109 => DD x9 x43 | s110 => DD x9 x44 | s111 => DD x9 x45 | s112 => DD x9 x46 | s113 => DD x9 x47 | s114 => DD x9 x48 | s115 => DD x9 x49 | s116 => DD x9 x50 | s117 => DD x9 x51 | s118 => DD x9 x52 | s119 => DD x9 x53 | s120 => DD x9 x54 | s121 => DD x9 x55 | s122 => DD x9 x56 | s123 => DD x9 x57 | s124 => DD x9 x58 | s125 => DD x9 x59 | s126 => DD x9 x60 end.
Definition m512 (c : sum2) : dd := match c with s0 => DD x8 x0 | s1 => DD x8 x1 | s2 => DD x8 x2 | s3 => DD x8 x3 | s4 => DD x8 x4 | s5 => DD x8 x5 | s6 => DD x8 x6 | s7 => DD x8 x7 | s8 => DD x8 x8 | s9 => DD x8 x9 | s10 => DD x8 x10 | s11 => DD x8 x11 | s12 => DD x8 x12 | s13 => DD x8 x13 | s14 => DD x8 x14 | s15 => DD x8 x15 | s16 => DD x8 x16 | s17 => DD x8 x17 | s18 => DD x8 x18 | s19 => DD x8 x19 | s20 => DD x8 x20 | s21 => DD x8 x21 | s22 => DD x8 x22 | s23 => DD x8 x23 | s24 => DD x8 x24 | s25 => DD x8 x25 | s26 => DD x8 x26 | s27 => DD x8 x27 | s28 => DD x8 x28 | s29 => DD x8 x29 | s30 => DD x8 x30 | s31 => DD x8 x31 | s32 => DD x8 x32 | s33 => DD x8 x33 | s34 => DD x8 x34 | s35 => DD x8 x35 | s36 => DD x8 x36 | s37 => DD x8 x37 | s38 => DD x8 x38 | s39 => DD x8 x39 | s40 => DD x8 x40 | s41 => DD x8 x41 | s42 => DD x8 x42 | s43 => DD x8 x43 | s44 => DD x8 x44 | s45 => DD x8 x45 | s46 => DD x8 x46 | s47 => DD x8 x47 | s48 => DD x8 x48 | s49 => DD x8 x49 | s50 => DD x8 x50 | s51 => DD x8 x51 | s52 => DD x8 x52 | s53 => DD x8 x53 | s54 => DD x8 x54 | s55 => DD x8 x55 | s56 => DD x8 x56 | s57 => DD x8 x57 | s58 => DD x8 x58 | s59 => DD x8 x59 | s60 => DD x8 x60 | s61 => DD x8 x61 | s62 => DD x8 x62 | s63 => DD x8 x63 | s64 => DD x9 x0 | s65 => DD x9 x1 | s66 => DD x9 x2 | s67 => DD x9 x3 | s68 => DD x9 x4 | s69 => DD x9 x5 | s70 => DD x9 x6 | s71 => DD x9 x7 | s72 => DD x9 x8 | s73 => DD x9 x9 | s74 => DD x9 x10 | s75 => DD x9 x11 | s76 => DD x9 x12 | s77 => DD x9 x13 | s78 => DD x9 x14 | s79 => DD x9 x15 | s80 => DD x9 x16 | s81 => DD x9 x17 | s82 => DD x9 x18 | s83 => DD x9 x19 | s84 => DD x9 x20 | s85 => DD x9 x21 | s86 => DD x9 x22 | s87 => DD x9 x23 | s88 => DD x9 x24 | s89 => DD x9 x25 | s90 => DD x9 x26 | s91 => DD x9 x27 | s92 => DD x9 x28 | s93 => DD x9 x29 | s94 => DD x9 x30 | s95 => DD x9 x31 | s96 => DD x9 x32 | s97 => DD x9 x33 | s98 => DD x9 x34 | s99 => DD x9 x35 | s100 => DD x9 x36 | s101 => DD x9 x37 | s102 => DD x9 x38 | s103 => DD x9 x39 | s104 => DD x9 x40 | s105 => DD x9 x41 | s106 => DD x9 x42 | s107 => DD x9 x43 | s108 => DD x9 x44 | s109 => DD x9 x45 | s110 => DD x9 x46 | s111 => DD x9 x47 | s112 => DD x9 x48 | s113 => DD x9 x49 | s114 => DD x9 x50 | s115 => DD x9 x51 | s116 => DD x9 x52 | s117 => DD x9 x53 | s118 => DD x9 x54 | s119 => DD x9 x55 | s120 => DD x9 x56 | s121 => DD x9 x57 | s122 => DD x9 x58 | s123 => DD x9 x59 | s124 => DD x9 x60 | s125 => DD x9 x61 | s126 => DD x9 x62 end.
Definition m513 (c : sum2) : dd := match c with s0 => DD x8 x1 | s1 => DD x8 x2 | s2 => DD x8 x3 | s3 => DD x8 x4 | s4 => DD x8 x5 | s5 => DD x8 x6 | s6 => DD x8 x7 | s7 => DD x8 x8 | s8 => DD x8 x9 | s9 => DD x8 x10 | s10 => DD x8 x11 | s11 => DD x8 x12 | s12 => DD x8 x13 | s13 => DD x8 x14 | s14 => DD x8 x15 | s15 => DD x8 x16 | s16 => DD x8 x17 | s17 => DD x8 x18 | s18 => DD x8 x19 | s19 => DD x8 x20 | s20 => DD x8 x21 | s21 => DD x8 x22 | s22 => DD x8 x23 | s23 => DD x8 x24 | s24 => DD x8 x25 | s25 => DD x8 x26 | s26 => DD x8 x27 | s27 => DD x8 x28 | s28 => DD x8 x29 | s29 => DD x8 x30 | s30 => DD x8 x31 | s31 => DD x8 x32 | s32 => DD x8 x33 | s33 => DD x8 x34 | s34 => DD x8 x35 | s35 => DD x8 x36 | s36 => DD x8 x37 | s37 => DD x8 x38 | s38 => DD x8 x39 | s39 => DD x8 x40 | s40 => DD x8 x41 | s41 => DD x8 x42 | s42 => DD x8 x43 | s43 => DD x8 x44 | s44 => DD x8 x45 | s45 => DD x8 x46 | s46 => DD x8 x47 | s47 => DD x8 x48 | s48 => DD x8 x49 | s49 => DD x8 x50 | s50 => DD x8 x51 | s51 => DD x8 x52 | s52 => DD x8 x53 | s53 => DD x8 x54 | s54 => DD x8 x55 | s55 => DD x8 x56 | s56 => DD x8 x57 | s57 => DD x8 x58 | s58 => DD x8 x59 | s59 => DD x8 x60 | s60 => DD x8 x61 | s61 => DD x8 x62 | s62 => DD x8 x63 | s63 => DD x9 x0 | s64 => DD x9 x1 | s65 => DD x9 x2 | s66 => DD x9 x3 | s67 => DD x9 x4 | s68 => DD x9 x5 | s69 => DD x9 x6 | s70 => DD x9 x7 | s71 => DD x9 x8 | s72 => DD x9 x9 | s73 => DD x9 x10 | s74 => DD x9 x11 | s75 => DD x9 x12 | s76 => DD x9 x13 | s77 => DD x9 x14 | s78 => DD x9 x15 | s79 => DD x9 x16 | s80 => DD x9 x17 | s81 => DD x9 x18 | s82 => DD x9 x19 | s83 => DD x9 x20 | s84 => DD x9 x21 | s85 => DD x9 x22 | s86 => DD x9 x23 | s87 => DD x9 x24 | s88 => DD x9 x25 | s89 => DD x9 x26 | s90 => DD x9 x27 | s91 => DD x9 x28 | s92 => DD x9 x29 | s93 => DD x9 x30 | s94 => DD x9 x31 | s95 => DD x9 x32 | s96 => DD x9 x33 | s97 => DD x9 x34 | s98 => DD x9 x35 | s99 => DD x9 x36 | s100 => DD x9 x37 | s101 => DD x9 x38 | s102 => DD x9 x39 | s103 => DD x9 x40 | s104 => DD x9 x41 | s105 => DD x9 x42 | s106 => DD x9 x43 | s107 => DD x9 x44 | s108 => DD x9 x45 | s109 => DD x9 x46 | s110 => DD x9 x47 | s111 => DD x9 x48 | s112 => DD x9 x49 | s113 => DD x9 x50 | s114 => DD x9 x51 | s115 => DD x9 x52 | s116 => DD x9 x53 | s117 => DD x9 x54 | s118 => DD x9 x55 | s119 => DD x9 x56 | s120 => DD x9 x57 | s121 => DD x9 x58 | s122 => DD x9 x59 | s123 => DD x9 x60 | s124 => DD x9 x61 | s125 => DD x9 x62 | s126 => DD x9 x63 end.
Definition m516 (c : sum2) : dd := match c with s0 => DD x8 x4 | s1 => DD x8 x5 | s2 => DD x8 x6 | s3 => DD x8 x7 | s4 => DD x8 x8 | s5 => DD x8 x9 | s6 => DD x8 x10 | s7 => DD x8 x11 | s8 => DD x8 x12 | s9 => DD x8 x13 | s10 => DD x8 x14 | s11 => DD x8 x15 | s12 => DD x8 x16 | s13 => DD x8 x17 | s14 => DD x8 x18 | s15 => DD x8 x19 | s16 => DD x8 x20 | s17 => DD x8 x21 | s18 => DD x8 x22 | s19 => DD x8 x23 | s20 => DD x8 x24 | s21 => DD x8 x25 | s22 => DD x8 x26 | s23 => DD x8 x27 | s24 => DD x8 x28 | s25 => DD x8 x29 | s26 => DD x8 x30 | s27 => DD x8 x31 | s28 => DD x8 x32 | s29 => DD x8 x33 | s30 => DD x8 x34 | s31 => DD x8 x35 | s32 => DD x8 x36 | s33 => DD x8 x37 | s34 => DD x8 x38 | s35 => DD x8 x39 | s36 => DD x8 x40 | s37 => DD x8 x41 | s38 => DD x8 x42 | s39 => DD x8 x43 | s40 => DD x8 x44 | s41 => DD x8 x45 | s42 => DD x8 x46 | s43 => DD x8 x47 | s44 => DD x8 x48 | s45 => DD x8 x49 | s46 => DD x8 x50 | s47 => DD x8 x51 | s48 => DD x8 x52 | s49 => DD x8 x53 | s50 => DD x8 x54 | s51 => DD x8 x55 | s52 => DD x8 x56 | s53 => DD x8 x57 | s54 => DD x8 x58 | s55 => DD x8 x59 | s56 => DD x8 x60 | s57 => DD x8 x61 | s58 => DD x8 x62 | s59 => DD x8 x63 | s60 => DD x9 x0 | s61 => DD x9 x1 | s62 => DD x9 x2 | s63 => DD x9 x3 | s64 => DD x9 x4 | s65 => DD x9 x5 | s66 => DD x9 x6 | s67 => DD x9 x7 | s68 => DD x9 x8 | s69 => DD x9 x9 | s70 => DD x9 x10 | s71 => DD x9 x11 | s72 => DD x9 x12 | s73 => DD x9 x13 | s74 => DD x9 x14 | s75 => DD x9 x15 | s76 => DD x9 x16 | s77 => DD x9 x17 | s78 => DD x9 x18 | s79 => DD x9 x19 | s80 => DD x9 x20 | s81 => DD x9 x21 | s82 => DD x9 x22 | s83 => DD x9 x23 | s84 => DD x9 x24 | s85 => DD x9 x25 | s86 => DD x9 x26 | s87 => DD x9 x27 | s88 => DD x9 x28 | s89 => DD x9 x29 | s90 => DD x9 x30 | s91 => DD x9 x31 | s92 => DD x9 x32 | s93 => DD x9 x33 | s94 => DD x9 x34 | s95 => DD x9 x35 | s96 => DD x9 x36 | s97 => DD x9 x37 | s98 => DD x9 x38 | s99 => DD x9 x39 | s100 => DD x9 x40 | s101 => DD x9 x41 | s102 => DD x9 x42 | s103 => DD x9 x43 | s104 => DD x9 x44 | s105 => DD x9 x45 | s106 => DD x9 x46 | s107 => DD x9 x47 | s108 => DD x9 x48 | s109 => DD x9 x49 | s110 => DD x9 x50 | s111 => DD x9 x51 | s112 => DD x9 x52 | s113 => DD x9 x53 | s114 => DD x9 x54 | s115 => DD x9 x55 | s116 => DD x9 x56 | s117 => DD x9 x57 | s118 => DD x9 x58 | s119 => DD x9 x59 | s120 => DD x9 x60 | s121 => DD x9 x61 | s122 => DD x9 x62 | s123 => DD x9 x63 | s124 => DD x10 x0 | s125 => DD x10 x1 | s126 => DD x10 x2 end.
Definition m517 (c : sum2) : dd := match c with s0 => DD x8 x5 | s1 => DD x8 x6 | s2 => DD x8 x7 | s3 => DD x8 x8 | s4 => DD x8 x9 | s5 => DD x8 x10 | s6 => DD x8 x11 | s7 => DD x8 x12 | s8 => DD x8 x13 | s9 => DD x8 x14 | s10 => DD x8 x15 | s11 => DD x8 x16 | s12 => DD x8 x17 | s13 => DD x8 x18 | s14 => DD x8 x19 | s15 => DD x8 x20 | s16 => DD x8 x21 | s17 => DD x8 x22 | s18 => DD x8 x23 | s19 => DD x8 x24 | s20 => DD x8 x25 | s21 => DD x8 x26 | s22 => DD x8 x27 | s23 => DD x8 x28 | s24 => DD x8 x29 | s25 => DD x8 x30 | s26 => DD x8 x31 | s27 => DD x8 x32 | s28 => DD x8 x33 | s29 => DD x8 x34 | s30 => DD x8 x35 | s31 => DD x8 x36 | s32 => DD x8 x37 | s33 => DD x8 x38 | s34 => DD x8 x39 | s35 => DD x8 x40 | s36 => DD x8 x41 | s37 => DD x8 x42 | s38 => DD x8 x43 | s39 => DD x8 x44 | s40 => DD x8 x45 | s41 => DD x8 x46 | s42 => DD x8 x47 | s43 => DD x8 x48 | s44 => DD x8 x49 | s45 => DD x8 x50 | s46 => DD x8 x51 | s47 => DD x8 x52 | s48 => DD x8 x53 | s49 => DD x8 x54 | s50 => DD x8 x55 | s51 => DD x8 x56 | s52 => DD x8 x57 | s53 => DD x8 x58 | s54 => DD x8 x59 | s55 => DD x8 x60 | s56 => DD x8 x61 | s57 => DD x8 x62 | s58 => DD x8 x63 | s59 => DD x9 x0 | s60 => DD x9 x1 | s61 => DD x9 x2 | s62 => DD x9 x3 | s63 => DD x9 x4 | s64 => DD x9 x5 | s65 => DD x9 x6 | s66 => DD x9 x7 | s67 => DD x9 x8 | s68 => DD x9 x9 | s69 => DD x9 x10 | s70 => DD x9 x11 | s71 => DD x9 x12 | s72 => DD x9 x13 | s73 => DD x9 x14 | s74 => DD x9 x15 | s75 => DD x9 x16 | s76 => DD x9 x17 | s77 => DD x9 x18 | s78 => DD x9 x19 | s79 => DD x9 x20 | s80 => DD x9 x21 | s81 => DD x9 x22 | s82 => DD x9 x23 | s83 => DD x9 x24 | s84 => DD x9 x25 | s85 => DD x9 x26 | s86 => DD x9 x27 | s87 => DD x9 x28 | s88 => DD x9 x29 | s89 => DD x9 x30 | s90 => DD x9 x31 | s91 => DD x9 x32 | s92 => DD x9 x33 | s93 => DD x9 x34 | s94 => DD x9 x35 | s95 => DD x9 x36 | s96 => DD x9 x37 | s97 => DD x9 x38 | s98 => DD x9 x39 | s99 => DD x9 x40 | s100 => DD x9 x41 | s101 => DD x9 x42 | s102 => DD x9 x43 | s103 => DD x9 x44 | s104 => DD x9 x45 | s105 => DD x9 x46 | s106 => DD x9 x47 | s107 => DD x9 x48 | s108 => DD x9 x49 | s109 => DD x9 x50 | s110 => DD x9 x51 | s111 => DD x9 x52 | s112 => DD x9 x53 | s113 => DD x9 x54 | s114 => DD x9 x55 | s115 => DD x9 x56 | s116 => DD x9 x57 | s117 => DD x9 x58 | s118 => DD x9 x59 | s119 => DD x9 x60 | s120 => DD x9 x61 | s121 => DD x9 x62 | s122 => DD x9 x63 | s123 => DD x10 x0 | s124 => DD x10 x1 | s125 => DD x10 x2 | s126 => DD x10 x3 end.
Definition m518 (c : sum2) : dd := match c with s0 => DD x8 x6 | s1 => DD x8 x7 | s2 => DD x8 x8 | s3 => DD x8 x9 | s4 => DD x8 x10 | s5 => DD x8 x11 | s6 => DD x8 x12 | s7 => DD x8 x13 | s8 => DD x8 x14 | s9 => DD x8 x15 | s10 => DD x8 x16 | s11 => DD x8 x17 | s12 => DD x8 x18 | s13 => DD x8 x19 | s14 => DD x8 x20 | s15 => DD x8 x21 | s16 => DD x8 x22 | s17 => DD x8 x23 | s18 => DD x8 x24 | s19 => DD x8 x25 | s20 => DD x8 x26 | s21 => DD x8 x27 | s22 => DD x8 x28 | s23 => DD x8 x29 | s24 => DD x8 x30 | s25 => DD x8 x31 | s26 => DD x8 x32 | s27 => DD x8 x33 | s28 => DD x8 x34 | s29 => DD x8 x35 | s30 => DD x8 x36 | s31 => DD x8 x37 | s32 => DD x8 x38 | s33 => DD x8 x39 | s34 => DD x8 x40 | s35 => DD x8 x41 | s36 => DD x8 x42 | s37 => DD x8 x43 | s38 => DD x8 x44 | s39 => DD x8 x45 | s40 => DD x8 x46 | s41 => DD x8 x47 | s42 => DD x8 x48 | s43 => DD x8 x49 | s44 => DD x8 x50 | s45 => DD x8 x51 | s46 => DD x8 x52 | s47 => DD x8 x53 | s48 => DD x8 x54 | s49 => DD x8 x55 | s50 => DD x8 x56 | s51 => DD x8 x57 | s52 => DD x8 x58 | s53 => DD x8 x59 | s54 => DD x8 x60 | s55 => DD x8 x61 | s56 => DD x8 x62 | s57 => DD x8 x63 | s58 => DD x9 x0 | s59 => DD x9 x1 | s60 => DD x9 x2 | s61 => DD x9 x3 | s62 => DD x9 x4 | s63 => DD x9 x5 | s64 => DD x9 x6 | s65 => DD x9 x7 | s66 => DD x9 x8 | s67 => DD x9 x9 | s68 => DD x9 x10 | s69 => DD x9 x11 | s70 => DD x9 x12 | s71 => DD x9 x13 | s72 => DD x9 x14 | s73 => DD x9 x15 | s74 => DD x9 x16 | s75 => DD x9 x17 | s76 => DD x9 x18 | s77 => DD x9 x19 | s78 => DD x9 x20 | s79 => DD x9 x21 | s80 => DD x9 x22 | s81 => DD x9 x23 | s82 => DD x9 x24 | s83 => DD x9 x25 | s84 => DD x9 x26 | s85 => DD x9 x27 | s86 => DD x9 x28 | s87 => DD x9 x29 | s88 => DD x9 x30 | s89 => DD x9 x31 | s90 => DD x9 x32 | s91 => DD x9 x33 | s92 => DD x9 x34 | s93 => DD x9 x35 | s94 => DD x9 x36 | s95 => DD x9 x37 | s96 => DD x9 x38 | s97 => DD x9 x39 | s98 => DD x9 x40 | s99 => DD x9 x41 | s100 => DD x9 x42 | s101 => DD x9 x43 | s102 => DD x9 x44 | s103 => DD x9 x45 | s104 => DD x9 x46 | s105 => DD x9 x47 | s106 => DD x9 x48 | s107 => DD x9 x49 | s108 => DD x9 x50 | s109 => DD x9 x51 | s110 => DD x9 x52 | s111 => DD x9 x53 | s112 => DD x9 x54 | s113 => DD x9 x55 | s114 => DD x9 x56 | s115 => DD x9 x57 | s116 => DD x9 x58 | s117 => DD x9 x59 | s118 => DD x9 x60 | s119 => DD x9 x61 | s120 => DD x9 x62 | s121 => DD x9 x63 | s122 => DD x10 x0 | s123 => DD x10 x1 | s124 => DD x10 x2 | s125 => DD x10 x3 | s126 => DD x10 x4 end.
Definition m520 (c : sum2) : dd := match c with s0 => DD x8 x8 | s1 => DD x8 x9 | s2 => DD x8 x10 | s3 => DD x8 x11 | s4 => DD x8 x12 | s5 => DD x8 x13 | s6 => DD x8 x14 | s7 => DD x8 x15 | s8 => DD x8 x16 | s9 => DD x8 x17 | s10 => DD x8 x18 | s11 => DD x8 x19 | s12 => DD x8 x20 | s13 => DD x8 x21 | s14 => DD x8 x22 | s15 => DD x8 x23 | s16 => DD x8 x24 | s17 => DD x8 x25 | s18 => DD x8 x26 | s19 => DD x8 x27 | s20 => DD x8 x28 | s21 => DD x8 x29 | s22 => DD x8 x30 | s23 => DD x8 x31 | s24 => DD x8 x32 | s25 => DD x8 x33 | s26 => DD x8 x34 | s27 => DD x8 x35 | s28 => DD x8 x36 | s29 => DD x8 x37 | s30 => DD x8 x38 | s31 => DD x8 x39 | s32 => DD x8 x40 | s33 => DD x8 x41 | s34 => DD x8 x42 | s35 => DD x8 x43 | s36 => DD x8 x44 | s37 => DD x8 x45 | s38 => DD x8 x46 | s39 => DD x8 x47 | s40 => DD x8 x48 | s41 => DD x8 x49 | s42 => DD x8 x50 | s43 => DD x8 x51 | s44 => DD x8 x52 | s45 => DD x8 x53 | s46 => DD x8 x54 | s47 => DD x8 x55 | s48 => DD x8 x56 | s49 => DD x8 x57 | s50 => DD x8 x58 | s51 => DD x8 x59 | s52 => DD x8 x60 | s53 => DD x8 x61 | s54 => DD x8 x62 | s55 => DD x8 x63 | s56 => DD x9 x0 | s57 => DD x9 x1 | s58 => DD x9 x2 | s59 => DD x9 x3 | s60 => DD x9 x4 | s61 => DD x9 x5 | s62 => DD x9 x6 | s63 => DD x9 x7 | s64 => DD x9 x8 | s65 => DD x9 x9 | s66 => DD x9 x10 | s67 => DD x9 x11 | s68 => DD x9 x12 | s69 => DD x9 x13 | s70 => DD x9 x14 | s71 => DD x9 x15 | s72 => DD x9 x16 | s73 => DD x9 x17 | s74 => DD x9 x18 | s75 => DD x9 x19 | s76 => DD x9 x20 | s77 => DD x9 x21 | s78 => DD x9 x22 | s79 => DD x9 x23 | s80 => DD x9 x24 | s81 => DD x9 x25 | s82 => DD x9 x26 | s83 => DD x9 x27 | s84 => DD x9 x28 | s85 => DD x9 x29 | s86 => DD x9 x30 | s87 => DD x9 x31 | s88 => DD x9 x32 | s89 => DD x9 x33 | s90 => DD x9 x34 | s91 => DD x9 x35 | s92 => DD x9 x36 | s93 => DD x9 x37 | s94 => DD x9 x38 | s95 => DD x9 x39 | s96 => DD x9 x40 | s97 => DD x9 x41 | s98 => DD x9 x42 | s99 => DD x9 x43 | s100 => DD x9 x44 | s101 => DD x9 x45 | s102 => DD x9 x46 | s103 => DD x9 x47 | s104 => DD x9 x48 | s105 => DD x9 x49 | s106 => DD x9 x50 | s107 => DD x9 x51 | s108 => DD x9 x52 | s109 => DD x9 x53 | s110 => DD x9 x54 | s111 => DD x9 x55 | s112 => DD x9 x56 | s113 => DD x9 x57 | s114 => DD x9 x58 | s115 => DD x9 x59 | s116 => DD x9 x60 | s117 => DD x9 x61 | s118 => DD x9 x62 | s119 => DD x9 x63 | s120 => DD x10 x0 | s121 => DD x10 x1 | s122 => DD x10 x2 | s123 => DD x10 x3 | s124 => DD x10 x4 | s125 => DD x10 x5 | s126 => DD x10 x6 end.
Definition m522 (c : sum2) : dd := match c with s0 => DD x8 x10 | s1 => DD x8 x11 | s2 => DD x8 x12 | s3 => DD x8 x13 | s4 => DD x8 x14 | s5 => DD x8 x15 | s6 => DD x8 x16 | s7 => DD x8 x17 | s8 => DD x8 x18 | s9 => DD x8 x19 | s10 => DD x8 x20 | s11 => DD x8 x21 | s12 => DD x8 x22 | s13 => DD x8 x23 | s14 => DD x8 x24 | s15 => DD x8 x25 | s16 => DD x8 x26 | s17 => DD x8 x27 | s18 => DD x8 x28 | s19 => DD x8 x29 | s20 => DD x8 x30 | s21 => DD x8 x31 | s22 => DD x8 x32 | s23 => DD x8 x33 | s24 => DD x8 x34 | s25 => DD x8 x35 | s26 => DD x8 x36 | s27 => DD x8 x37 | s28 => DD x8 x38 | s29 => DD x8 x39 | s30 => DD x8 x40 | s31 => DD x8 x41 | s32 => DD x8 x42 | s33 => DD x8 x43 | s34 => DD x8 x44 | s35 => DD x8 x45 | s36 => DD x8 x46 | s37 => DD x8 x47 | s38 => DD x8 x48 | s39 => DD x8 x49 | s40 => DD x8 x50 | s41 => DD x8 x51 | s42 => DD x8 x52 | s43 => DD x8 x53 | s44 => DD x8 x54 | s45 => DD x8 x55 | s46 => DD x8 x56 | s47 => DD x8 x57 | s48 => DD x8 x58 | s49 => DD x8 x59 | s50 => DD x8 x60 | s51 => DD x8 x61 | s52 => DD x8 x62 | s53 => DD x8 x63 | s54 => DD x9 x0 | s55 => DD x9 x1 | s56 => DD x9 x2 | s57 => DD x9 x3 | s58 => DD x9 x4 | s59 => DD x9 x5 | s60 => DD x9 x6 | s61 => DD x9 x7 | s62 => DD x9 x8 | s63 => DD x9 x9 | s64 => DD x9 x10 | s65 => DD x9 x11 | s66 => DD x9 x12 | s67 => DD x9 x13 | s68 => DD x9 x14 | s69 => DD x9 x15 | s70 => DD x9 x16 | s71 => DD x9 x17 | s72 => DD x9 x18 | s73 => DD x9 x19 | s74 => DD x9 x20 | s75 => DD x9 x21 | s76 => DD x9 x22 | s77 => DD x9 x23 | s78 => DD x9 x24 | s79 => DD x9 x25 | s80 => DD x9 x26 | s81 => DD x9 x27 | s82 => DD x9 x28 | s83 => DD x9 x29 | s84 => DD x9 x30 | s85 => DD x9 x31 | s86 => DD x9 x32 | s87 => DD x9 x33 | s88 => DD x9 x34 | s89 => DD x9 x35 | s90 => DD x9 x36 | s91 => DD x9 x37 | s92 => DD x9 x38 | s93 => DD x9 x39 | s94 => DD x9 x40 | s95 => DD x9 x41 | s96 => DD x9 x42 | s97 => DD x9 x43 | s98 => DD x9 x44 | s99 => DD x9 x45 | s100 => DD x9 x46 | s101 => DD x9 x47 | s102 => DD x9 x48 | s103 => DD x9 x49 | s104 => DD x9 x50 | s105 => DD x9 x51 | s106 => DD x9 x52 | s107 => DD x9 x53 | s108 => DD x9 x54 | s109 => DD x9 x55 | s110 => DD x9 x56 | s111 => DD x9 x57 | s112 => DD x9 x58 | s113 => DD x9 x59 | s114 => DD x9 x60 | s115 => DD x9 x61 | s116 => DD x9 x62 | s117 => DD x9 x63 | s118 => DD x10 x0 | s119 => DD x10 x1 | s120 => DD x10 x2 | s121 => DD x10 x3 | s122 => DD x10 x4 | s123 => DD x10 x5 | s124 => DD x10 x6 | s125 => DD x10 x7 | s126 => DD x10 x8 end.
Definition m525 (c : sum2) : dd := match c with s0 => DD x8 x13 | s1 => DD x8 x14 | s2 => DD x8 x15 | s3 => DD x8 x16 | s4 => DD x8 x17 | s5 => DD x8 x18 | s6 => DD x8 x19 | s7 => DD x8 x20 | s8 => DD x8 x21 | s9 => DD x8 x22 | s10 => DD x8 x23 | s11 => DD x8 x24 | s12 => DD x8 x25 | s13 => DD x8 x26 | s14 => DD x8 x27 | s15 => DD x8 x28 | s16 => DD x8 x29 | s17 => DD x8 x30 | s18 => DD x8 x31 | s19 => DD x8 x32 | s20 => DD x8 x33 | s21 => DD x8 x34 | s22 => DD x8 x35 | s23 => DD x8 x36 | s24 => DD x8 x37 | s25 => DD x8 x38 | s26 => DD x8 x39 | s27 => DD x8 x40 | s28 => DD x8 x41 | s29 => DD x8 x42 | s30 => DD x8 x43 | s31 => DD x8 x44 | s32 => DD x8 x45 | s33 => DD x8 x46 | s34 => DD x8 x47 | s35 => DD x8 x48 | s36 => DD x8 x49 | s37 => DD x8 x50 | s38 => DD x8 x51 | s39 => DD x8 x52 | s40 => DD x8 x53 | s41 => DD x8 x54 | s42 => DD x8 x55 | s43 => DD x8 x56 | s44 => DD x8 x57 | s45 => DD x8 x58 | s46 => DD x8 x59 | s47 => DD x8 x60 | s48 => DD x8 x61 | s49 => DD x8 x62 | s50 => DD x8 x63 | s51 => DD x9 x0 | s52 => DD x9 x1 | s53 => DD x9 x2 | s54 => DD x9 x3 | s55 => DD x9 x4 | s56 => DD x9 x5 | s57 => DD x9 x6 | s58 => DD x9 x7 | s59 => DD x9 x8 | s60 => DD x9 x9 | s61 => DD x9 x10 | s62 => DD x9 x11 | s63 => DD x9 x12 | s64 => DD x9 x13 | s65 => DD x9 x14 | s66 => DD x9 x15 | s67 => DD x9 x16 | s68 => DD x9 x17 | s69 => DD x9 x18 | s70 => DD x9 x19 | s71 => DD x9 x20 | s72 => DD x9 x21 | s73 => DD x9 x22 | s74 => DD x9 x23 | s75 => DD x9 x24 | s76 => DD x9 x25 | s77 => DD x9 x26 | s78 => DD x9 x27 | s79 => DD x9 x28 | s80 => DD x9 x29 | s81 => DD x9 x30 | s82 => DD x9 x31 | s83 => DD x9 x32 | s84 => DD x9 x33 | s85 => DD x9 x34 | s86 => DD x9 x35 | s87 => DD x9 x36 | s88 => DD x9 x37 | s89 => DD x9 x38 | s90 => DD x9 x39 | s91 => DD x9 x40 | s92 => DD x9 x41 | s93 => DD x9 x42 | s94 => DD x9 x43 | s95 => DD x9 x44 | s96 => DD x9 x45 | s97 => DD x9 x46 | s98 => DD x9 x47 | s99 => DD x9 x48 | s100 => DD x9 x49 | s101 => DD x9 x50 | s102 => DD x9 x51 | s103 => DD x9 x52 | s104 => DD x9 x53 | s105 => DD x9 x54 | s106 => DD x9 x55 | s107 => DD x9 x56 | s108 => DD x9 x57 | s109 => DD x9 x58 | s110 => DD x9 x59 | s111 => DD x9 x60 | s112 => DD x9 x61 | s113 => DD x9 x62 | s114 => DD x9 x63 | s115 => DD x10 x0 | s116 => DD x10 x1 | s117 => DD x10 x2 | s118 => DD x10 x3 | s119 => DD x10 x4 | s120 => DD x10 x5 | s121 => DD x10 x6 | s122 => DD x10 x7 | s123 => DD x10 x8 | s124 => DD x10 x9 | s125 => DD x10 x10 | s126 => DD x10 x11 end.
Definition m527 (c : sum2) : dd := match c with s0 => DD x8 x15 | s1 => DD x8 x16 | s2 => DD x8 x17 | s3 => DD x8 x18 | s4 => DD x8 x19 | s5 => DD x8 x20 | s6 => DD x8 x21 | s7 => DD x8 x22 | s8 => DD x8 x23 | s9 => DD x8 x24 | s10 => DD x8 x25 | s11 => DD x8 x26 | s12 => DD x8 x27 | s13 => DD x8 x28 | s14 => DD x8 x29 | s15 => DD x8 x30 | s16 => DD x8 x31 | s17 => DD x8 x32 | s18 => DD x8 x33 | s19 => DD x8 x34 | s20 => DD x8 x35 | s21 => DD x8 x36 | s22 => DD x8 x37 | s23 => DD x8 x38 | s24 => DD x8 x39 | s25 => DD x8 x40 | s26 => DD x8 x41 | s27 => DD x8 x42 | s28 => DD x8 x43 | s29 => DD x8 x44 | s30 => DD x8 x45 | s31 => DD x8 x46 | s32 => DD x8 x47 | s33 => DD x8 x48 | s34 => DD x8 x49 | s35 => DD x8 x50 | s36 => DD x8 x51 | s37 => DD x8 x52 | s38 => DD x8 x53 | s39 => DD x8 x54 | s40 => DD x8 x55 | s41 => DD x8 x56 | s42 => DD x8 x57 | s43 => DD x8 x58 | s44 => DD x8 x59 | s45 => DD x8 x60 | s46 => DD x8 x61 | s47 => DD x8 x62 | s48 => DD x8 x63 | s49 => DD x9 x0 | s50 => DD x9 x1 | s51 => DD x9 x2 | s52 => DD x9 x3 | s53 => DD x9 x4 | s54 => DD x9 x5 | s55 => DD x9 x6 | s56 => DD x9 x7 | s57 => DD x9 x8 | s58 => DD x9 x9 | s59 => DD x9 x10 | s60 => DD x9 x11 | s61 => DD x9 x12 | s62 => DD x9 x13 | s63 => DD x9 x14 | s64 => DD x9 x15 | s65 => DD x9 x16 | s66 => DD x9 x17 | s67 => DD x9 x18 | s68 => DD x9 x19 | s69 => DD x9 x20 | s70 => DD x9 x21 | s71 => DD x9 x22 | s72 => DD x9 x23 | s73 => DD x9 x24 | s74 => DD x9 x25 | s75 => DD x9 x26 | s76 => DD x9 x27 | s77 => DD x9 x28 | s78 => DD x9 x29 | s79 => DD x9 x30 | s80 => DD x9 x31 | s81 => DD x9 x32 | s82 => DD x9 x33 | s83 => DD x9 x34 | s84 => DD x9 x35 | s85 => DD x9 x36 | s86 => DD x9 x37 | s87 => DD x9 x38 | s88 => DD x9 x39 | s89 => DD x9 x40 | s90 => DD x9 x41 | s91 => DD x9 x42 | s92 => DD x9 x43 | s93 => DD x9 x44 | s94 => DD x9 x45 | s95 => DD x9 x46 | s96 => DD x9 x47 | s97 => DD x9 x48 | s98 => DD x9 x49 | s99 => DD x9 x50 | s100 => DD x9 x51 | s101 => DD x9 x52 | s102 => DD x9 x53 | s103 => DD x9 x54 | s104 => DD x9 x55 | s105 => DD x9 x56 | s106 => DD x9 x57 | s107 => DD x9 x58 | s108 => DD x9 x59 | s109 => DD x9 x60 | s110 => DD x9 x61 | s111 => DD x9 x62 | s112 => DD x9 x63 | s113 => DD x10 x0 | s114 => DD x10 x1 | s115 => DD x10 x2 | s116 => DD x10 x3 | s117 => DD x10 x4 | s118 => DD x10 x5 | s119 => DD x10 x6 | s120 => DD x10 x7 | s121 => DD x10 x8 | s122 => DD x10 x9 | s123 => DD x10 x10 | s124 => DD x10 x11 | s125 => DD x10 x12 | s126 => DD x10 x13 end.
Definition m528 (c : sum2) : dd := match c with s0 => DD x8 x16 | s1 => DD x8 x17 | s2 => DD x8 x18 | s3 => DD x8 x19 | s4 => DD x8 x20 | s5 => DD x8 x21 | s6 => DD x8 x22 | s7 => DD x8 x23 | s8 => DD x8 x24 | s9 => DD x8 x25 | s10 => DD x8 x26 | s11 => DD x8 x27 | s12 => DD x8 x28 | s13 => DD x8 x29 | s14 => DD x8 x30 | s15 => DD x8 x31 | s16 => DD x8 x32 | s17 => DD x8 x33 | s18 => DD x8 x34 | s19 => DD x8 x35 | s20 => DD x8 x36 | s21 => DD x8 x37 | s22 => DD x8 x38 | s23 => DD x8 x39 | s24 => DD x8 x40 | s25 => DD x8 x41 | s26 => DD x8 x42 | s27 => DD x8 x43 | s28 => DD x8 x44 | s29 => DD x8 x45 | s30 => DD x8 x46 | s31 => DD x8 x47 | s32 => DD x8 x48 | s33 => DD x8 x49 | s34 => DD x8 x50 | s35 => DD x8 x51 | s36 => DD x8 x52 | s37 => DD x8 x53 | s38 => DD x8 x54 | s39 => DD x8 x55 | s40 => DD x8 x56 | s41 => DD x8 x57 | s42 => DD x8 x58 | s43 => DD x8 x59 | s44 => DD x8 x60 | s45 => DD x8 x61 | s46 => DD x8 x62 | s47 => DD x8 x63 | s48 => DD x9 x0 | s49 => DD x9 x1 | s50 => DD x9 x2 | s51 => DD x9 x3 | s52 => DD x9 x4 | s53 => DD x9 x5 | s54 => DD x9 x6 | s55 => DD x9 x7 | s56 => DD x9 x8 | s57 => DD x9 x9 | s58 => DD x9 x10 | s59 => DD x9 x11 | s60 => DD x9 x12 | s61 => DD x9 x13 | s62 => DD x9 x14 | s63 => DD x9 x15 | s64 => DD x9 x16 | s65 => DD x9 x17 | s66 => DD x9 x18 | s67 => DD x9 x19 | s68 => DD x9 x20 | s69 => DD x9 x21 | s70 => DD x9 x22 | s71 => DD x9 x23 | s72 => DD x9 x24 | s73 => DD x9 x25 | s74 => DD x9 x26 | s75 => DD x9 x27 | s76 => DD x9 x28 | s77 => DD x9 x29 | s78 => DD x9 x30 | s79 => DD x9 x31 | s80 => DD x9 x32 | s81 => DD x9 x33 | s82 => DD x9 x34 | s83 => DD x9 x35 | s84 => DD x9 x36 | s85 => DD x9 x37 | s86 => DD x9 x38 | s87 => DD x9 x39 | s88 => DD x9 x40 | s89 => DD x9 x41 | s90 => DD x9 x42 | s91 => DD x9 x43 | s92 => DD x9 x44 | s93 => DD x9 x45 | s94 => DD x9 x46 | s95 => DD x9 x47 | s96 => DD x9 x48 | s97 => DD x9 x49 | s98 => DD x9 x50 | s99 => DD x9 x51 | s100 => DD x9 x52 | s101 => DD x9 x53 | s102 => DD x9 x54 | s103 => DD x9 x55 | s104 => DD x9 x56 | s105 => DD x9 x57 | s106 => DD x9 x58 | s107 => DD x9 x59 | s108 => DD x9 x60 | s109 => DD x9 x61 | s110 => DD x9 x62 | s111 => DD x9 x63 | s112 => DD x10 x0 | s113 => DD x10 x1 | s114 => DD x10 x2 | s115 => DD x10 x3 | s116 => DD x10 x4 | s117 => DD x10 x5 | s118 => DD x10 x6 | s119 => DD x10 x7 | s120 => DD x10 x8 | s121 => DD x10 x9 | s122 => DD x10 x10 | s123 => DD x10 x11 | s124 => DD x10 x12 | s125 => DD x10 x13 | s126 => DD x10 x14 end.
Definition m529 (c : sum2) : dd := match c with s0 => DD x8 x17 | s1 => DD x8 x18 | s2 => DD x8 x19 | s3 => DD x8 x20 | s4 => DD x8 x21 | s5 => DD x8 x22 | s6 => DD x8 x23 | s7 => DD x8 x24 | s8 => DD x8 x25 | s9 => DD x8 x26 | s10 => DD x8 x27 | s11 => DD x8 x28 | s12 => DD x8 x29 | s13 => DD x8 x30 | s14 => DD x8 x31 | s15 => DD x8 x32 | s16 => DD x8 x33 | s17 => DD x8 x34 | s18 => DD x8 x35 | s19 => DD x8 x36 | s20 => DD x8 x37 | s21 => DD x8 x38 | s22 => DD x8 x39 | s23 => DD x8 x40 | s24 => DD x8 x41 | s25 => DD x8 x42 | s26 => DD x8 x43 | s27 => DD x8 x44 | s28 => DD x8 x45 | s29 => DD x8 x46 | s30 => DD x8 x47 | s31 => DD x8 x48 | s32 => DD x8 x49 | s33 => DD x8 x50 | s34 => DD x8 x51 | s35 => DD x8 x52 | s36 => DD x8 x53 | s37 => DD x8 x54 | s38 => DD x8 x55 | s39 => DD x8 x56 | s40 => DD x8 x57 | s41 => DD x8 x58 | s42 => DD x8 x59 | s43 => DD x8 x60 | s44 => DD x8 x61 | s45 => DD x8 x62 | s46 => DD x8 x63 | s47 => DD x9 x0 | s48 => DD x9 x1 | s49 => DD x9 x2 | s50 => DD x9 x3 | s51 => DD x9 x4 | s52 => DD x9 x5 | s53 => DD x9 x6 | s54 => DD x9 x7 | s55 => DD x9 x8 | s56 => DD x9 x9 | s57 => DD x9 x10 | s58 => DD x9 x11 | s59 => DD x9 x12 | s60 => DD x9 x13 | s61 => DD x9 x14 | s62 => DD x9 x15 | s63 => DD x9 x16 | s64 => DD x9 x17 | s65 => DD x9 x18 | s66 => DD x9 x19 | s67 => DD x9 x20 | s68 => DD x9 x21 | s69 => DD x9 x22 | s70 => DD x9 x23 | s71 => DD x9 x24 | s72 => DD x9 x25 | s73 => DD x9 x26 | s74 => DD x9 x27 | s75 => DD x9 x28 | s76 => DD x9 x29 | s77 => DD x9 x30 | s78 => DD x9 x31 | s79 => DD x9 x32 | s80 => DD x9 x33 | s81 => DD x9 x34 | s82 => DD x9 x35 | s83 => DD x9 x36 | s84 => DD x9 x37 | s85 => DD x9 x38 | s86 => DD x9 x39 | s87 => DD x9 x40 | s88 => DD x9 x41 | s89 => DD x9 x42 | s90 => DD x9 x43 | s91 => DD x9 x44 | s92 => DD x9 x45 | s93 => DD x9 x46 | s94 => DD x9 x47 | s95 => DD x9 x48 | s96 => DD x9 x49 | s97 => DD x9 x50 | s98 => DD x9 x51 | s99 => DD x9 x52 | s100 => DD x9 x53 | s101 => DD x9 x54 | s102 => DD x9 x55 | s103 => DD x9 x56 | s104 => DD x9 x57 | s105 => DD x9 x58 | s106 => DD x9 x59 | s107 => DD x9 x60 | s108 => DD x9 x61 | s109 => DD x9 x62 | s110 => DD x9 x63 | s111 => DD x10 x0 | s112 => DD x10 x1 | s113 => DD x10 x2 | s114 => DD x10 x3 | s115 => DD x10 x4 | s116 => DD x10 x5 | s117 => DD x10 x6 | s118 => DD x10 x7 | s119 => DD x10 x8 | s120 => DD x10 x9 | s121 => DD x10 x10 | s122 => DD x10 x11 | s123 => DD x10 x12 | s124 => DD x10 x13 | s125 => DD x10 x14 | s126 => DD x10 x15 end.
Definition m530 (c : sum2) : dd := match c with s0 => DD x8 x18 | s1 => DD x8 x19 | s2 => DD x8 x20 | s3 => DD x8 x21 | s4 => DD x8 x22 | s5 => DD x8 x23 | s6 => DD x8 x24 | s7 => DD x8 x25 | s8 => DD x8 x26 | s9 => DD x8 x27 | s10 => DD x8 x28 | s11 => DD x8 x29 | s12 => DD x8 x30 | s13 => DD x8 x31 | s14 => DD x8 x32 | s15 => DD x8 x33 | s16 => DD x8 x34 | s17 => DD x8 x35 | s18 => DD x8 x36 | s19 => DD x8 x37 | s20 => DD x8 x38 | s21 => DD x8 x39 | s22 => DD x8 x40 | s23 => DD x8 x41 | s24 => DD x8 x42 | s25 => DD x8 x43 | s26 => DD x8 x44 | s27 => DD x8 x45 | s28 => DD x8 x46 | s29 => DD x8 x47 | s30 => DD x8 x48 | s31 => DD x8 x49 | s32 => DD x8 x50 | s33 => DD x8 x51 | s34 => DD x8 x52 | s35 => DD x8 x53 | s36 => DD x8 x54 | s37 => DD x8 x55 | s38 => DD x8 x56 | s39 => DD x8 x57 | s40 => DD x8 x58 | s41 => DD x8 x59 | s42 => DD x8 x60 | s43 => DD x8 x61 | s44 => DD x8 x62 | s45 => DD x8 x63 | s46 => DD x9 x0 | s47 => DD x9 x1 | s48 => DD x9 x2 | s49 => DD x9 x3 | s50 => DD x9 x4 | s51 => DD x9 x5 | s52 => DD x9 x6 | s53 => DD x9 x7 | s54 => DD x9 x8 | s55 => DD x9 x9 | s56 => DD x9 x10 | s57 => DD x9 x11 | s58 => DD x9 x12 | s59 => DD x9 x13 | s60 => DD x9 x14 | s61 => DD x9 x15 | s62 => DD x9 x16 | s63 => DD x9 x17 | s64 => DD x9 x18 | s65 => DD x9 x19 | s66 => DD x9 x20 | s67 => DD x9 x21 | s68 => DD x9 x22 | s69 => DD x9 x23 | s70 => DD x9 x24 | s71 => DD x9 x25 | s72 => DD x9 x26 | s73 => DD x9 x27 | s74 => DD x9 x28 | s75 => DD x9 x29 | s76 => DD x9 x30 | s77 => DD x9 x31 | s78 => DD x9 x32 | s79 => DD x9 x33 | s80 => DD x9 x34 | s81 => DD x9 x35 | s82 => DD x9 x36 | s83 => DD x9 x37 | s84 => DD x9 x38 | s85 => DD x9 x39 | s86 => DD x9 x40 | s87 => DD x9 x41 | s88 => DD x9 x42 | s89 => DD x9 x43 | s90 => DD x9 x44 | s91 => DD x9 x45 | s92 => DD x9 x46 | s93 => DD x9 x47 | s94 => DD x9 x48 | s95 => DD x9 x49 | s96 => DD x9 x50 | s97 => DD x9 x51 | s98 => DD x9 x52 | s99 => DD x9 x53 | s100 => DD x9 x54 | s101 => DD x9 x55 | s102 => DD x9 x56 | s103 => DD x9 x57 | s104 => DD x9 x58 | s105 => DD x9 x59 | s106 => DD x9 x60 | s107 => DD x9 x61 | s108 => DD x9 x62 | s109 => DD x9 x63 | s110 => DD x10 x0 | s111 => DD x10 x1 | s112 => DD x10 x2 | s113 => DD x10 x3 | s114 => DD x10 x4 | s115 => DD x10 x5 | s116 => DD x10 x6 | s117 => DD x10 x7 | s118 => DD x10 x8 | s119 => DD x10 x9 | s120 => DD x10 x10 | s121 => DD x10 x11 | s122 => DD x10 x12 | s123 => DD x10 x13 | s124 => DD x10 x14 | s125 => DD x10 x15 | s126 => DD x10 x16 end.
Definition m531 (c : sum2) : dd := match c with s0 => DD x8 x19 | s1 => DD x8 x20 | s2 => DD x8 x21 | s3 => DD x8 x22 | s4 => DD x8 x23 | s5 => DD x8 x24 | s6 => DD x8 x25 | s7 => DD x8 x26 | s8 => DD x8 x27 | s9 => DD x8 x28 | s10 => DD x8 x29 | s11 => DD x8 x30 | s12 => DD x8 x31 | s13 => DD x8 x32 | s14 => DD x8 x33 | s15 => DD x8 x34 | s16 => DD x8 x35 | s17 => DD x8 x36 | s18 => DD x8 x37 | s19 => DD x8 x38 | s20 => DD x8 x39 | s21 => DD x8 x40 | s22 => DD x8 x41 | s23 => DD x8 x42 | s24 => DD x8 x43 | s25 => DD x8 x44 | s26 => DD x8 x45 | s27 => DD x8 x46 | s28 => DD x8 x47 | s29 => DD x8 x48 | s30 => DD x8 x49 | s31 => DD x8 x50 | s32 => DD x8 x51 | s33 => DD x8 x52 | s34 => DD x8 x53 | s35 => DD x8 x54 | s36 => DD x8 x55 | s37 => DD x8 x56 | s38 => DD x8 x57 | s39 => DD x8 x58 | s40 => DD x8 x59 | s41 => DD x8 x60 | s42 => DD x8 x61 | s43 => DD x8 x62 | s44 => DD x8 x63 | s45 => DD x9 x0 | s46 => DD x9 x1 | s47 => DD x9 x2 | s48 => DD x9 x3 | s49 => DD x9 x4 | s50 => DD x9 x5 | s51 => DD x9 x6 | s52 => DD x9 x7 | s53 => DD x9 x8 | s54 => DD x9 x9 | s55 => DD x9 x10 | s56 => DD x9 x11 | s57 => DD x9 x12 | s58 => DD x9 x13 | s59 => DD x9 x14 | s60 => DD x9 x15 | s61 => DD x9 x16 | s62 => DD x9 x17 | s63 => DD x9 x18 | s64 => DD x9 x19 | s65 => DD x9 x20 | s66 => DD x9 x21 | s67 => DD x9 x22 | s68 => DD x9 x23 | s69 => DD x9 x24 | s70 => DD x9 x25 | s71 => DD x9 x26 | s72 => DD x9 x27 | s73 => DD x9 x28 | s74 => DD x9 x29 | s75 => DD x9 x30 | s76 => DD x9 x31 | s77 => DD x9 x32 | s78 => DD x9 x33 | s79 => DD x9 x34 | s80 => DD x9 x35 | s81 => DD x9 x36 | s82 => DD x9 x37 | s83 => DD x9 x38 | s84 => DD x9 x39 | s85 => DD x9 x40 | s86 => DD x9 x41 | s87 => DD x9 x42 | s88 => DD x9 x43 | s89 => DD x9 x44 | s90 => DD x9 x45 | s91 => DD x9 x46 | s92 => DD x9 x47 | s93 => DD x9 x48 | s94 => DD x9 x49 | s95 => DD x9 x50 | s96 => DD x9 x51 | s97 => DD x9 x52 | s98 => DD x9 x53 | s99 => DD x9 x54 | s100 => DD x9 x55 | s101 => DD x9 x56 | s102 => DD x9 x57 | s103 => DD x9 x58 | s104 => DD x9 x59 | s105 => DD x9 x60 | s106 => DD x9 x61 | s107 => DD x9 x62 | s108 => DD x9 x63 | s109 => DD x10 x0 | s110 => DD x10 x1 | s111 => DD x10 x2 | s112 => DD x10 x3 | s113 => DD x10 x4 | s114 => DD x10 x5 | s115 => DD x10 x6 | s116 => DD x10 x7 | s117 => DD x10 x8 | s118 => DD x10 x9 | s119 => DD x10 x10 | s120 => DD x10 x11 | s121 => DD x10 x12 | s122 => DD x10 x13 | s123 => DD x10 x14 | s124 => DD x10 x15 | s125 => DD x10 x16 | s126 => DD x10 x17 end.
Definition m532 (c : sum2) : dd := match c with s0 => DD x8 x20 | s1 => DD x8 x21 | s2 => DD x8 x22 | s3 => DD x8 x23 | s4 => DD x8 x24 | s5 => DD x8 x25 | s6 => DD x8 x26 | s7 => DD x8 x27 | s8 => DD x8 x28 | s9 => DD x8 x29 | s10 => DD x8 x30 | s11 => DD x8 x31 | s12 => DD x8 x32 | s13 => DD x8 x33 | s14 => DD x8 x34 | s15 => DD x8 x35 | s16 => DD x8 x36 | s17 => DD x8 x37 | s18 => DD x8 x38 | s19 => DD x8 x39 | s20 => DD x8 x40 | s21 => DD x8 x41 | s22 => DD x8 x42 | s23 => DD x8 x43 | s24 => DD x8 x44 | s25 => DD x8 x45 | s26 => DD x8 x46 | s27 => DD x8 x47 | s28 => DD x8 x48 | s29 => DD x8 x49 | s30 => DD x8 x50 | s31 => DD x8 x51 | s32 => DD x8 x52 | s33 => DD x8 x53 | s34 => DD x8 x54 | s35 => DD x8 x55 | s36 => DD x8 x56 | s37 => DD x8 x57 | s38 => DD x8 x58 | s39 => DD x8 x59 | s40 => DD x8 x60 | s41 => DD x8 x61 | s42 => DD x8 x62 | s43 => DD x8 x63 | s44 => DD x9 x0 | s45 => DD x9 x1 | s46 => DD x9 x2 | s47 => DD x9 x3 | s48 => DD x9 x4 | s49 => DD x9 x5 | s50 => DD x9 x6 | s51 => DD x9 x7 | s52 => DD x9 x8 | s53 => DD x9 x9 | s54 => DD x9 x10 | s55 => DD x9 x11 | s56 => DD x9 x12 | s57 => DD x9 x13 | s58 => DD x9 x14 | s59 => DD x9 x15 | s60 => DD x9 x16 | s61 => DD x9 x17 | s62 => DD x9 x18 | s63 => DD x9 x19 | s64 => DD x9 x20 | s65 => DD x9 x21 | s66 => DD x9 x22 | s67 => DD x9 x23 | s68 => DD x9 x24 | s69 => DD x9 x25 | s70 => DD x9 x26 | s71 => DD x9 x27 | s72 => DD x9 x28 | s73 => DD x9 x29 | s74 => DD x9 x30 | s75 => DD x9 x31 | s76 => DD x9 x32 | s77 => DD x9 x33 | s78 => DD x9 x34 | s79 => DD x9 x35 | s80 => DD x9 x36 | s81 => DD x9 x37 | s82 => DD x9 x38 | s83 => DD x9 x39 | s84 => DD x9 x40 | s85 => DD x9 x41 | s86 => DD x9 x42 | s87 => DD x9 x43 | s88 => DD x9 x44 | s89 => DD x9 x45 | s90 => DD x9 x46 | s91 => DD x9 x47 | s92 => DD x9 x48 | s93 => DD x9 x49 | s94 => DD x9 x50 | s95 => DD x9 x51 | s96 => DD x9 x52 | s97 => DD x9 x53 | s98 => DD x9 x54 | s99 => DD x9 x55 | s100 => DD x9 x56 | s101 => DD x9 x57 | s102 => DD x9 x58 | s103 => DD x9 x59 | s104 => DD x9 x60 | s105 => DD x9 x61 | s106 => DD x9 x62 | s107 => DD x9 x63 | s108 => DD x10 x0 | s109 => DD x10 x1 | s110 => DD x10 x2 | s111 => DD x10 x3 | s112 => DD x10 x4 | s113 => DD x10 x5 | s114 => DD x10 x6 | s115 => DD x10 x7 | s116 => DD x10 x8 | s117 => DD x10 x9 | s118 => DD x10 x10 | s119 => DD x10 x11 | s120 => DD x10 x12 | s121 => DD x10 x13 | s122 => DD x10 x14 | s123 => DD x10 x15 | s124 => DD x10 x16 | s125 => DD x10 x17 | s126 => DD x10 x18 end.
Definition m533 (c : sum2) : dd := match c with s0 => DD x8 x21 | s1 => DD x8 x22 | s2 => DD x8 x23 | s3 => DD x8 x24 | s4 => DD x8 x25 | s5 => DD x8 x26 | s6 => DD x8 x27 | s7 => DD x8 x28 | s8 => DD x8 x29 | s9 => DD x8 x30 | s10 => DD x8 x31 | s11 => DD x8 x32 | s12 => DD x8 x33 | s13 => DD x8 x34 | s14 => DD x8 x35 | s15 => DD x8 x36 | s16 => DD x8 x37 | s17 => DD x8 x38 | s18 => DD x8 x39 | s19 => DD x8 x40 | s20 => DD x8 x41 | s21 => DD x8 x42 | s22 => DD x8 x43 | s23 => DD x8 x44 | s24 => DD x8 x45 | s25 => DD x8 x46 | s26 => DD x8 x47 | s27 => DD x8 x48 | s28 => DD x8 x49 | s29 => DD x8 x50 | s30 => DD x8 x51 | s31 => DD x8 x52 | s32 => DD x8 x53 | s33 => DD x8 x54 | s34 => DD x8 x55 | s35 => DD x8 x56 | s36 => DD x8 x57 | s37 => DD x8 x58 | s38 => DD x8 x59 | s39 => DD x8 x60 | s40 => DD x8 x61 | s41 => DD x8 x62 | s42 => DD x8 x63 | s43 => DD x9 x0 | s44 => DD x9 x1 | s45 => DD x9 x2 | s46 => DD x9 x3 | s47 => DD x9 x4 | s48 => DD x9 x5 | s49 => DD x9 x6 | s50 => DD x9 x7 | s51 => DD x9 x8 | s52 => DD x9 x9 | s53 => DD x9 x10 | s54 => DD x9 x11 | s55 => DD x9 x12 | s56 => DD x9 x13 | s57 => DD x9 x14 | s58 => DD x9 x15 | s59 => DD x9 x16 | s60 => DD x9 x17 | s61 => DD x9 x18 | s62 => DD x9 x19 | s63 => DD x9 x20 | s64 => DD x9 x21 | s65 => DD x9 x22 | s66 => DD x9 x23 | s67 => DD x9 x24 | s68 => DD x9 x25 | s69 => DD x9 x26 | s70 => DD x9 x27 | s71 => DD x9 x28 | s72 => DD x9 x29 | s73 => DD x9 x30 | s74 => DD x9 x31 | s75 => DD x9 x32 | s76 => DD x9 x33 | s77 => DD x9 x34 | s78 => DD x9 x35 | s79 => DD x9 x36 | s80 => DD x9 x37 | s81 => DD x9 x38 | s82 => DD x9 x39 | s83 => DD x9 x40 | s84 => DD x9 x41 | s85 => DD x9 x42 | s86 => DD x9 x43 | s87 => DD x9 x44 | s88 => DD x9 x45 | s89 => DD x9 x46 | s90 => DD x9 x47 | s91 => DD x9 x48 | s92 => DD x9 x49 | s93 => DD x9 x50 | s94 => DD x9 x51 | s95 => DD x9 x52 | s96 => DD x9 x53 | s97 => DD x9 x54 | s98 => DD x9 x55 | s99 => DD x9 x56 | s100 => DD x9 x57 | s101 => DD x9 x58 | s102 => DD x9 x59 | s103 => DD x9 x60 | s104 => DD x9 x61 | s105 => DD x9 x62 | s106 => DD x9 x63 | s107 => DD x10 x0 | s108 => DD x10 x1 | s109 => DD x10 x2 | s110 => DD x10 x3 | s111 => DD x10 x4 | s112 => DD x10 x5 | s113 => DD x10 x6 | s114 => DD x10 x7 | s115 => DD x10 x8 | s116 => DD x10 x9 | s117 => DD x10 x10 | s118 => DD x10 x11 | s119 => DD x10 x12 | s120 => DD x10 x13 | s121 => DD x10 x14 | s122 => DD x10 x15 | s123 => DD x10 x16 | s124 => DD x10 x17 | s125 => DD x10 x18 | s126 => DD x10 x19 end.
Definition m539 (c : sum2) : dd := match c with s0 => DD x8 x27 | s1 => DD x8 x28 | s2 => DD x8 x29 | s3 => DD x8 x30 | s4 => DD x8 x31 | s5 => DD x8 x32 | s6 => DD x8 x33 | s7 => DD x8 x34 | s8 => DD x8 x35 | s9 => DD x8 x36 | s10 => DD x8 x37 | s11 => DD x8 x38 | s12 => DD x8 x39 | s13 => DD x8 x40 | s14 => DD x8 x41 | s15 => DD x8 x42 | s16 => DD x8 x43 | s17 => DD x8 x44 | s18 => DD x8 x45 | s19 => DD x8 x46 | s20 => DD x8 x47 | s21 => DD x8 x48 | s22 => DD x8 x49 | s23 => DD x8 x50 | s24 => DD x8 x51 | s25 => DD x8 x52 | s26 => DD x8 x53 | s27 => DD x8 x54 | s28 => DD x8 x55 | s29 => DD x8 x56 | s30 => DD x8 x57 | s31 => DD x8 x58 | s32 => DD x8 x59 | s33 => DD x8 x60 | s34 => DD x8 x61 | s35 => DD x8 x62 | s36 => DD x8 x63 | s37 => DD x9 x0 | s38 => DD x9 x1 | s39 => DD x9 x2 | s40 => DD x9 x3 | s41 => DD x9 x4 | s42 => DD x9 x5 | s43 => DD x9 x6 | s44 => DD x9 x7 | s45 => DD x9 x8 | s46 => DD x9 x9 | s47 => DD x9 x10 | s48 => DD x9 x11 | s49 => DD x9 x12 | s50 => DD x9 x13 | s51 => DD x9 x14 | s52 => DD x9 x15 | s53 => DD x9 x16 | s54 => DD x9 x17 | s55 => DD x9 x18 | s56 => DD x9 x19 | s57 => DD x9 x20 | s58 => DD x9 x21 | s59 => DD x9 x22 | s60 => DD x9 x23 | s61 => DD x9 x24 | s62 => DD x9 x25 | s63 => DD x9 x26 | s64 => DD x9 x27 | s65 => DD x9 x28 | s66 => DD x9 x29 | s67 => DD x9 x30 | s68 => DD x9 x31 | s69 => DD x9 x32 | s70 => DD x9 x33 | s71 => DD x9 x34 | s72 => DD x9 x35 | s73 => DD x9 x36 | s74 => DD x9 x37 | s75 => DD x9 x38 | s76 => DD x9 x39 | s77 => DD x9 x40 | s78 => DD x9 x41 | s79 => DD x9 x42 | s80 => DD x9 x43 | s81 => DD x9 x44 | s82 => DD x9 x45 | s83 => DD x9 x46 | s84 => DD x9 x47 | s85 => DD x9 x48 | s86 => DD x9 x49 | s87 => DD x9 x50 | s88 => DD x9 x51 | s89 => DD x9 x52 | s90 => DD x9 x53 | s91 => DD x9 x54 | s92 => DD x9 x55 | s93 => DD x9 x56 | s94 => DD x9 x57 | s95 => DD x9 x58 | s96 => DD x9 x59 | s97 => DD x9 x60 | s98 => DD x9 x61 | s99 => DD x9 x62 | s100 => DD x9 x63 | s101 => DD x10 x0 | s102 => DD x10 x1 | s103 => DD x10 x2 | s104 => DD x10 x3 | s105 => DD x10 x4 | s106 => DD x10 x5 | s107 => DD x10 x6 | s108 => DD x10 x7 | s109 => DD x10 x8 | s110 => DD x10 x9 | s111 => DD x10 x10 | s112 => DD x10 x11 | s113 => DD x10 x12 | s114 => DD x10 x13 | s115 => DD x10 x14 | s116 => DD x10 x15 | s117 => DD x10 x16 | s118 => DD x10 x17 | s119 => DD x10 x18 | s120 => DD x10 x19 | s121 => DD x10 x20 | s122 => DD x10 x21 | s123 => DD x10 x22 | s124 => DD x10 x23 | s125 => DD x10 x24 | s126 => DD x10 x25 end.
Definition m540 (c : sum2) : dd := match c with s0 => DD x8 x28 | s1 => DD x8 x29 | s2 => DD x8 x30 | s3 => DD x8 x31 | s4 => DD x8 x32 | s5 => DD x8 x33 | s6 => DD x8 x34 | s7 => DD x8 x35 | s8 => DD x8 x36 | s9 => DD x8 x37 | s10 => DD x8 x38 | s11 => DD x8 x39 | s12 => DD x8 x40 | s13 => DD x8 x41 | s14 => DD x8 x42 | s15 => DD x8 x43 | s16 => DD x8 x44 | s17 => DD x8 x45 | s18 => DD x8 x46 | s19 => DD x8 x47 | s20 => DD x8 x48 | s21 => DD x8 x49 | s22 => DD x8 x50 | s23 => DD x8 x51 | s24 => DD x8 x52 | s25 => DD x8 x53 | s26 => DD x8 x54 | s27 => DD x8 x55 | s28 => DD x8 x56 | s29 => DD x8 x57 | s30 => DD x8 x58 | s31 => DD x8 x59 | s32 => DD x8 x60 | s33 => DD x8 x61 | s34 => DD x8 x62 | s35 => DD x8 x63 | s36 => DD x9 x0 | s37 => DD x9 x1 | s38 => DD x9 x2 | s39 => DD x9 x3 | s40 => DD x9 x4 | s41 => DD x9 x5 | s42 => DD x9 x6 | s43 => DD x9 x7 | s44 => DD x9 x8 | s45 => DD x9 x9 | s46 => DD x9 x10 | s47 => DD x9 x11 | s48 => DD x9 x12 | s49 => DD x9 x13 | s50 => DD x9 x14 | s51 => DD x9 x15 | s52 => DD x9 x16 | s53 => DD x9 x17 | s54 => DD x9 x18 | s55 => DD x9 x19 | s56 => DD x9 x20 | s57 => DD x9 x21 | s58 => DD x9 x22 | s59 => DD x9 x23 | s60 => DD x9 x24 | s61 => DD x9 x25 | s62 => DD x9 x26 | s63 => DD x9 x27 | s64 => DD x9 x28 | s65 => DD x9 x29 | s66 => DD x9 x30 | s67 => DD x9 x31 | s68 => DD x9 x32 | s69 => DD x9 x33 | s70 => DD x9 x34 | s71 => DD x9 x35 | s72 => DD x9 x36 | s73 => DD x9 x37 | s74 => DD x9 x38 | s75 => DD x9 x39 | s76 => DD x9 x40 | s77 => DD x9 x41 | s78 => DD x9 x42 | s79 => DD x9 x43 | s80 => DD x9 x44 | s81 => DD x9 x45 | s82 => DD x9 x46 | s83 => DD x9 x47 | s84 => DD x9 x48 | s85 => DD x9 x49 | s86 => DD x9 x50 | s87 => DD x9 x51 | s88 => DD x9 x52 | s89 => DD x9 x53 | s90 => DD x9 x54 | s91 => DD x9 x55 | s92 => DD x9 x56 | s93 => DD x9 x57 | s94 => DD x9 x58 | s95 => DD x9 x59 | s96 => DD x9 x60 | s97 => DD x9 x61 | s98 => DD x9 x62 | s99 => DD x9 x63 | s100 => DD x10 x0 | s101 => DD x10 x1 | s102 => DD x10 x2 | s103 => DD x10 x3 | s104 => DD x10 x4 | s105 => DD x10 x5 | s106 => DD x10 x6 | s107 => DD x10 x7 | s108 => DD x10 x8 | s109 => DD x10 x9 | s110 => DD x10 x10 | s111 => DD x10 x11 | s112 => DD x10 x12 | s113 => DD x10 x13 | s114 => DD x10 x14 | s115 => DD x10 x15 | s116 => DD x10 x16 | s117 => DD x10 x17 | s118 => DD x10 x18 | s119 => DD x10 x19 | s120 => DD x10 x20 | s121 => DD x10 x21 | s122 => DD x10 x22 | s123 => DD x10 x23 | s124 => DD x10 x24 | s125 => DD x10 x25 | s126 => DD x10 x26 end.
Definition m544 (c : sum2) : dd := match c with s0 => DD x8 x32 | s1 => DD x8 x33 | s2 => DD x8 x34 | s3 => DD x8 x35 | s4 => DD x8 x36 | s5 => DD x8 x37 | s6 => DD x8 x38 | s7 => DD x8 x39 | s8 => DD x8 x40 | s9 => DD x8 x41 | s10 => DD x8 x42 | s11 => DD x8 x43 | s12 => DD x8 x44 | s13 => DD x8 x45 | s14 => DD x8 x46 | s15 => DD x8 x47 | s16 => DD x8 x48 | s17 => DD x8 x49 | s18 => DD x8 x50 | s19 => DD x8 x51 | s20 => DD x8 x52 | s21 => DD x8 x53 | s22 => DD x8 x54 | s23 => DD x8 x55 | s24 => DD x8 x56 | s25 => DD x8 x57 | s26 => DD x8 x58 | s27 => DD x8 x59 | s28 => DD x8 x60 | s29 => DD x8 x61 | s30 => DD x8 x62 | s31 => DD x8 x63 | s32 => DD x9 x0 | s33 => DD x9 x1 | s34 => DD x9 x2 | s35 => DD x9 x3 | s36 => DD x9 x4 | s37 => DD x9 x5 | s38 => DD x9 x6 | s39 => DD x9 x7 | s40 => DD x9 x8 | s41 => DD x9 x9 | s42 => DD x9 x10 | s43 => DD x9 x11 | s44 => DD x9 x12 | s45 => DD x9 x13 | s46 => DD x9 x14 | s47 => DD x9 x15 | s48 => DD x9 x16 | s49 => DD x9 x17 | s50 => DD x9 x18 | s51 => DD x9 x19 | s52 => DD x9 x20 | s53 => DD x9 x21 | s54 => DD x9 x22 | s55 => DD x9 x23 | s56 => DD x9 x24 | s57 => DD x9 x25 | s58 => DD x9 x26 | s59 => DD x9 x27 | s60 => DD x9 x28 | s61 => DD x9 x29 | s62 => DD x9 x30 | s63 => DD x9 x31 | s64 => DD x9 x32 | s65 => DD x9 x33 | s66 => DD x9 x34 | s67 => DD x9 x35 | s68 => DD x9 x36 | s69 => DD x9 x37 | s70 => DD x9 x38 | s71 => DD x9 x39 | s72 => DD x9 x40 | s73 => DD x9 x41 | s74 => DD x9 x42 | s75 => DD x9 x43 | s76 => DD x9 x44 | s77 => DD x9 x45 | s78 => DD x9 x46 | s79 => DD x9 x47 | s80 => DD x9 x48 | s81 => DD x9 x49 | s82 => DD x9 x50 | s83 => DD x9 x51 | s84 => DD x9 x52 | s85 => DD x9 x53 | s86 => DD x9 x54 | s87 => DD x9 x55 | s88 => DD x9 x56 | s89 => DD x9 x57 | s90 => DD x9 x58 | s91 => DD x9 x59 | s92 => DD x9 x60 | s93 => DD x9 x61 | s94 => DD x9 x62 | s95 => DD x9 x63 | s96 => DD x10 x0 | s97 => DD x10 x1 | s98 => DD x10 x2 | s99 => DD x10 x3 | s100 => DD x10 x4 | s101 => DD x10 x5 | s102 => DD x10 x6 | s103 => DD x10 x7 | s104 => DD x10 x8 | s105 => DD x10 x9 | s106 => DD x10 x10 | s107 => DD x10 x11 | s108 => DD x10 x12 | s109 => DD x10 x13 | s110 => DD x10 x14 | s111 => DD x10 x15 | s112 => DD x10 x16 | s113 => DD x10 x17 | s114 => DD x10 x18 | s115 => DD x10 x19 | s116 => DD x10 x20 | s117 => DD x10 x21 | s118 => DD x10 x22 | s119 => DD x10 x23 | s120 => DD x10 x24 | s121 => DD x10 x25 | s122 => DD x10 x26 | s123 => DD x10 x27 | s124 => DD x10 x28 | s125 => DD x10 x29 | s126 => DD x10 x30 end.
Definition m546 (c : sum2) : dd := match c with s0 => DD x8 x34 | s1 => DD x8 x35 | s2 => DD x8 x36 | s3 => DD x8 x37 | s4 => DD x8 x38 | s5 => DD x8 x39 | s6 => DD x8 x40 | s7 => DD x8 x41 | s8 => DD x8 x42 | s9 => DD x8 x43 | s10 => DD x8 x44 | s11 => DD x8 x45 | s12 => DD x8 x46 | s13 => DD x8 x47 | s14 => DD x8 x48 | s15 => DD x8 x49 | s16 => DD x8 x50 | s17 => DD x8 x51 | s18 => DD x8 x52 | s19 => DD x8 x53 | s20 => DD x8 x54 | s21 => DD x8 x55 | s22 => DD x8 x56 | s23 => DD x8 x57 | s24 => DD x8 x58 | s25 => DD x8 x59 | s26 => DD x8 x60 | s27 => DD x8 x61 | s28 => DD x8 x62 | s29 => DD x8 x63 | s30 => DD x9 x0 | s31 => DD x9 x1 | s32 => DD x9 x2 | s33 => DD x9 x3 | s34 => DD x9 x4 | s35 => DD x9 x5 | s36 => DD x9 x6 | s37 => DD x9 x7 | s38 => DD x9 x8 | s39 => DD x9 x9 | s40 => DD x9 x10 | s41 => DD x9 x11 | s42 => DD x9 x12 | s43 => DD x9 x13 | s44 => DD x9 x14 | s45 => DD x9 x15 | s46 => DD x9 x16 | s47 => DD x9 x17 | s48 => DD x9 x18 | s49 => DD x9 x19 | s50 => DD x9 x20 | s51 => DD x9 x21 | s52 => DD x9 x22 | s53 => DD x9 x23 | s54 => DD x9 x24 | s55 => DD x9 x25 | s56 => DD x9 x26 | s57 => DD x9 x27 | s58 => DD x9 x28 | s59 => DD x9 x29 | s60 => DD x9 x30 | s61 => DD x9 x31 | s62 => DD x9 x32 | s63 => DD x9 x33 | s64 => DD x9 x34 | s65 => DD x9 x35 | s66 => DD x9 x36 | s67 => DD x9 x37 | s68 => DD x9 x38 | s69 => DD x9 x39 | s70 => DD x9 x40 | s71 => DD x9 x41 | s72 => DD x9 x42 | s73 => DD x9 x43 | s74 => DD x9 x44 | s75 => DD x9 x45 | s76 => DD x9 x46 | s77 => DD x9 x47 | s78 => DD x9 x48 | s79 => DD x9 x49 | s80 => DD x9 x50 | s81 => DD x9 x51 | s82 => DD x9 x52 | s83 => DD x9 x53 | s84 => DD x9 x54 | s85 => DD x9 x55 | s86 => DD x9 x56 | s87 => DD x9 x57 | s88 => DD x9 x58 | s89 => DD x9 x59 | s90 => DD x9 x60 | s91 => DD x9 x61 | s92 => DD x9 x62 | s93 => DD x9 x63 | s94 => DD x10 x0 | s95 => DD x10 x1 | s96 => DD x10 x2 | s97 => DD x10 x3 | s98 => DD x10 x4 | s99 => DD x10 x5 | s100 => DD x10 x6 | s101 => DD x10 x7 | s102 => DD x10 x8 | s103 => DD x10 x9 | s104 => DD x10 x10 | s105 => DD x10 x11 | s106 => DD x10 x12 | s107 => DD x10 x13 | s108 => DD x10 x14 | s109 => DD x10 x15 | s110 => DD x10 x16 | s111 => DD x10 x17 | s112 => DD x10 x18 | s113 => DD x10 x19 | s114 => DD x10 x20 | s115 => DD x10 x21 | s116 => DD x10 x22 | s117 => DD x10 x23 | s118 => DD x10 x24 | s119 => DD x10 x25 | s120 => DD x10 x26 | s121 => DD x10 x27 | s122 => DD x10 x28 | s123 => DD x10 x29 | s124 => DD x10 x30 | s125 => DD x10 x31 | s126 => DD x10 x32 end.
Definition m549 (c : sum2) : dd := match c with s0 => DD x8 x37 | s1 => DD x8 x38 | s2 => DD x8 x39 | s3 => DD x8 x40 | s4 => DD x8 x41 | s5 => DD x8 x42 | s6 => DD x8 x43 | s7 => DD x8 x44 | s8 => DD x8 x45 | s9 => DD x8 x46 | s10 => DD x8 x47 | s11 => DD x8 x48 | s12 => DD x8 x49 | s13 => DD x8 x50 | s14 => DD x8 x51 | s15 => DD x8 x52 | s16 => DD x8 x53 | s17 => DD x8 x54 | s18 => DD x8 x55 | s19 => DD x8 x56 | s20 => DD x8 x57 | s21 => DD x8 x58 | s22 => DD x8 x59 | s23 => DD x8 x60 | s24 => DD x8 x61 | s25 => DD x8 x62 | s26 => DD x8 x63 | s27 => DD x9 x0 | s28 => DD x9 x1 | s29 => DD x9 x2 | s30 => DD x9 x3 | s31 => DD x9 x4 | s32 => DD x9 x5 | s33 => DD x9 x6 | s34 => DD x9 x7 | s35 => DD x9 x8 | s36 => DD x9 x9 | s37 => DD x9 x10 | s38 => DD x9 x11 | s39 => DD x9 x12 | s40 => DD x9 x13 | s41 => DD x9 x14 | s42 => DD x9 x15 | s43 => DD x9 x16 | s44 => DD x9 x17 | s45 => DD x9 x18 | s46 => DD x9 x19 | s47 => DD x9 x20 | s48 => DD x9 x21 | s49 => DD x9 x22 | s50 => DD x9 x23 | s51 => DD x9 x24 | s52 => DD x9 x25 | s53 => DD x9 x26 | s54 => DD x9 x27 | s55 => DD x9 x28 | s56 => DD x9 x29 | s57 => DD x9 x30 | s58 => DD x9 x31 | s59 => DD x9 x32 | s60 => DD x9 x33 | s61 => DD x9 x34 | s62 => DD x9 x35 | s63 => DD x9 x36 | s64 => DD x9 x37 | s65 => DD x9 x38 | s66 => DD x9 x39 | s67 => DD x9 x40 | s68 => DD x9 x41 | s69 => DD x9 x42 | s70 => DD x9 x43 | s71 => DD x9 x44 | s72 => DD x9 x45 | s73 => DD x9 x46 | s74 => DD x9 x47 | s75 => DD x9 x48 | s76 => DD x9 x49 | s77 => DD x9 x50 | s78 => DD x9 x51 | s79 => DD x9 x52 | s80 => DD x9 x53 | s81 => DD x9 x54 | s82 => DD x9 x55 | s83 => DD x9 x56 | s84 => DD x9 x57 | s85 => DD x9 x58 | s86 => DD x9 x59 | s87 => DD x9 x60 | s88 => DD x9 x61 | s89 => DD x9 x62 | s90 => DD x9 x63 | s91 => DD x10 x0 | s92 => DD x10 x1 | s93 => DD x10 x2 | s94 => DD x10 x3 | s95 => DD x10 x4 | s96 => DD x10 x5 | s97 => DD x10 x6 | s98 => DD x10 x7 | s99 => DD x10 x8 | s100 => DD x10 x9 | s101 => DD x10 x10 | s102 => DD x10 x11 | s103 => DD x10 x12 | s104 => DD x10 x13 | s105 => DD x10 x14 | s106 => DD x10 x15 | s107 => DD x10 x16 | s108 => DD x10 x17 | s109 => DD x10 x18 | s110 => DD x10 x19 | s111 => DD x10 x20 | s112 => DD x10 x21 | s113 => DD x10 x22 | s114 => DD x10 x23 | s115 => DD x10 x24 | s116 => DD x10 x25 | s117 => DD x10 x26 | s118 => DD x10 x27 | s119 => DD x10 x28 | s120 => DD x10 x29 | s121 => DD x10 x30 | s122 => DD x10 x31 | s123 => DD x10 x32 | s124 => DD x10 x33 | s125 => DD x10 x34 | s126 => DD x10 x35 end.
Definition m550 (c : sum2) : dd := match c with s0 => DD x8 x38 | s1 => DD x8 x39 | s2 => DD x8 x40 | s3 => DD x8 x41 | s4 => DD x8 x42 | s5 => DD x8 x43 | s6 => DD x8 x44 | s7 => DD x8 x45 | s8 => DD x8 x46 | s9 => DD x8 x47 | s10 => DD x8 x48 | s11 => DD x8 x49 | s12 => DD x8 x50 | s13 => DD x8 x51 | s14 => DD x8 x52 | s15 => DD x8 x53 | s16 => DD x8 x54 | s17 => DD x8 x55 | s18 => DD x8 x56 | s19 => DD x8 x57 | s20 => DD x8 x58 | s21 => DD x8 x59 | s22 => DD x8 x60 | s23 => DD x8 x61 | s24 => DD x8 x62 | s25 => DD x8 x63 | s26 => DD x9 x0 | s27 => DD x9 x1 | s28 => DD x9 x2 | s29 => DD x9 x3 | s30 => DD x9 x4 | s31 => DD x9 x5 | s32 => DD x9 x6 | s33 => DD x9 x7 | s34 => DD x9 x8 | s35 => DD x9 x9 | s36 => DD x9 x10 | s37 => DD x9 x11 | s38 => DD x9 x12 | s39 => DD x9 x13 | s40 => DD x9 x14 | s41 => DD x9 x15 | s42 => DD x9 x16 | s43 => DD x9 x17 | s44 => DD x9 x18 | s45 => DD x9 x19 | s46 => DD x9 x20 | s47 => DD x9 x21 | s48 => DD x9 x22 | s49 => DD x9 x23 | s50 => DD x9 x24 | s51 => DD x9 x25 | s52 => DD x9 x26 | s53 => DD x9 x27 | s54 => DD x9 x28 | s55 => DD x9 x29 | s56 => DD x9 x30 | s57 => DD x9 x31 | s58 => DD x9 x32 | s59 => DD x9 x33 | s60 => DD x9 x34 | s61 => DD x9 x35 | s62 => DD x9 x36 | s63 => DD x9 x37 | s64 => DD x9 x38 | s65 => DD x9 x39 | s66 => DD x9 x40 | s67 => DD x9 x41 | s68 => DD x9 x42 | s69 => DD x9 x43 | s70 => DD x9 x44 | s71 => DD x9 x45 | s72 => DD x9 x46 | s73 => DD x9 x47 | s74 => DD x9 x48 | s75 => DD x9 x49 | s76 => DD x9 x50 | s77 => DD x9 x51 | s78 => DD x9 x52 | s79 => DD x9 x53 | s80 => DD x9 x54 | s81 => DD x9 x55 | s82 => DD x9 x56 | s83 => DD x9 x57 | s84 => DD x9 x58 | s85 => DD x9 x59 | s86 => DD x9 x60 | s87 => DD x9 x61 | s88 => DD x9 x62 | s89 => DD x9 x63 | s90 => DD x10 x0 | s91 => DD x10 x1 | s92 => DD x10 x2 | s93 => DD x10 x3 | s94 => DD x10 x4 | s95 => DD x10 x5 | s96 => DD x10 x6 | s97 => DD x10 x7 | s98 => DD x10 x8 | s99 => DD x10 x9 | s100 => DD x10 x10 | s101 => DD x10 x11 | s102 => DD x10 x12 | s103 => DD x10 x13 | s104 => DD x10 x14 | s105 => DD x10 x15 | s106 => DD x10 x16 | s107 => DD x10 x17 | s108 => DD x10 x18 | s109 => DD x10 x19 | s110 => DD x10 x20 | s111 => DD x10 x21 | s112 => DD x10 x22 | s113 => DD x10 x23 | s114 => DD x10 x24 | s115 => DD x10 x25 | s116 => DD x10 x26 | s117 => DD x10 x27 | s118 => DD x10 x28 | s119 => DD x10 x29 | s120 => DD x10 x30 | s121 => DD x10 x31 | s122 => DD x10 x32 | s123 => DD x10 x33 | s124 => DD x10 x34 | s125 => DD x10 x35 | s126 => DD x10 x36 end.
Definition m551 (c : sum2) : dd := match c with s0 => DD x8 x39 | s1 => DD x8 x40 | s2 => DD x8 x41 | s3 => DD x8 x42 | s4 => DD x8 x43 | s5 => DD x8 x44 | s6 => DD x8 x45 | s7 => DD x8 x46 | s8 => DD x8 x47 | s9 => DD x8 x48 | s10 => DD x8 x49 | s11 => DD x8 x50 | s12 => DD x8 x51 | s13 => DD x8 x52 | s14 => DD x8 x53 | s15 => DD x8 x54 | s16 => DD x8 x55 | s17 => DD x8 x56 | s18 => DD x8 x57 | s19 => DD x8 x58 | s20 => DD x8 x59 | s21 => DD x8 x60 | s22 => DD x8 x61 | s23 => DD x8 x62 | s24 => DD x8 x63 | s25 => DD x9 x0 | s26 => DD x9 x1 | s27 => DD x9 x2 | s28 => DD x9 x3 | s29 => DD x9 x4 | s30 => DD x9 x5 | s31 => DD x9 x6 | s32 => DD x9 x7 | s33 => DD x9 x8 | s34 => DD x9 x9 | s35 => DD x9 x10 | s36 => DD x9 x11 | s37 => DD x9 x12 | s38 => DD x9 x13 | s39 => DD x9 x14 | s40 => DD x9 x15 | s41 => DD x9 x16 | s42 => DD x9 x17 | s43 => DD x9 x18 | s44 => DD x9 x19 | s45 => DD x9 x20 | s46 => DD x9 x21 | s47 => DD x9 x22 | s48 => DD x9 x23 | s49 => DD x9 x24 | s50 => DD x9 x25 | s51 => DD x9 x26 | s52 => DD x9 x27 | s53 => DD x9 x28 | s54 => DD x9 x29 | s55 => DD x9 x30 | s56 => DD x9 x31 | s57 => DD x9 x32 | s58 => DD x9 x33 | s59 => DD x9 x34 | s60 => DD x9 x35 | s61 => DD x9 x36 | s62 => DD x9 x37 | s63 => DD x9 x38 | s64 => DD x9 x39 | s65 => DD x9 x40 | s66 => DD x9 x41 | s67 => DD x9 x42 | s68 => DD x9 x43 | s69 => DD x9 x44 | s70 => DD x9 x45 | s71 => DD x9 x46 | s72 => DD x9 x47 | s73 => DD x9 x48 | s74 => DD x9 x49 | s75 => DD x9 x50 | s76 => DD x9 x51 | s77 => DD x9 x52 | s78 => DD x9 x53 | s79 => DD x9 x54 | s80 => DD x9 x55 | s81 => DD x9 x56 | s82 => DD x9 x57 | s83 => DD x9 x58 | s84 => DD x9 x59 | s85 => DD x9 x60 | s86 => DD x9 x61 | s87 => DD x9 x62 | s88 => DD x9 x63 | s89 => DD x10 x0 | s90 => DD x10 x1 | s91 => DD x10 x2 | s92 => DD x10 x3 | s93 => DD x10 x4 | s94 => DD x10 x5 | s95 => DD x10 x6 | s96 => DD x10 x7 | s97 => DD x10 x8 | s98 => DD x10 x9 | s99 => DD x10 x10 | s100 => DD x10 x11 | s101 => DD x10 x12 | s102 => DD x10 x13 | s103 => DD x10 x14 | s104 => DD x10 x15 | s105 => DD x10 x16 | s106 => DD x10 x17 | s107 => DD x10 x18 | s108 => DD x10 x19 | s109 => DD x10 x20 | s110 => DD x10 x21 | s111 => DD x10 x22 | s112 => DD x10 x23 | s113 => DD x10 x24 | s114 => DD x10 x25 | s115 => DD x10 x26 | s116 => DD x10 x27 | s117 => DD x10 x28 | s118 => DD x10 x29 | s119 => DD x10 x30 | s120 => DD x10 x31 | s121 => DD x10 x32 | s122 => DD x10 x33 | s123 => DD x10 x34 | s124 => DD x10 x35 | s125 => DD x10 x36 | s126 => DD x10 x37 end.
Definition m552 (c : sum2) : dd := match c with s0 => DD x8 x40 | s1 => DD x8 x41 | s2 => DD x8 x42 | s3 => DD x8 x43 | s4 => DD x8 x44 | s5 => DD x8 x45 | s6 => DD x8 x46 | s7 => DD x8 x47 | s8 => DD x8 x48 | s9 => DD x8 x49 | s10 => DD x8 x50 | s11 => DD x8 x51 | s12 => DD x8 x52 | s13 => DD x8 x53 | s14 => DD x8 x54 | s15 => DD x8 x55 | s16 => DD x8 x56 | s17 => DD x8 x57 | s18 => DD x8 x58 | s19 => DD x8 x59 | s20 => DD x8 x60 | s21 => DD x8 x61 | s22 => DD x8 x62 | s23 => DD x8 x63 | s24 => DD x9 x0 | s25 => DD x9 x1 | s26 => DD x9 x2 | s27 => DD x9 x3 | s28 => DD x9 x4 | s29 => DD x9 x5 | s30 => DD x9 x6 | s31 => DD x9 x7 | s32 => DD x9 x8 | s33 => DD x9 x9 | s34 => DD x9 x10 | s35 => DD x9 x11 | s36 => DD x9 x12 | s37 => DD x9 x13 | s38 => DD x9 x14 | s39 => DD x9 x15 | s40 => DD x9 x16 | s41 => DD x9 x17 | s42 => DD x9 x18 | s43 => DD x9 x19 | s44 => DD x9 x20 | s45 => DD x9 x21 | s46 => DD x9 x22 | s47 => DD x9 x23 | s48 => DD x9 x24 | s49 => DD x9 x25 | s50 => DD x9 x26 | s51 => DD x9 x27 | s52 => DD x9 x28 | s53 => DD x9 x29 | s54 => DD x9 x30 | s55 => DD x9 x31 | s56 => DD x9 x32 | s57 => DD x9 x33 | s58 => DD x9 x34 | s59 => DD x9 x35 | s60 => DD x9 x36 | s61 => DD x9 x37 | s62 => DD x9 x38 | s63 => DD x9 x39 | s64 => DD x9 x40 | s65 => DD x9 x41 | s66 => DD x9 x42 | s67 => DD x9 x43 | s68 => DD x9 x44 | s69 => DD x9 x45 | s70 => DD x9 x46 | s71 => DD x9 x47 | s72 => DD x9 x48 | s73 => DD x9 x49 | s74 => DD x9 x50 | s75 => DD x9 x51 | s76 => DD x9 x52 | s77 => DD x9 x53 | s78 => DD x9 x54 | s79 => DD x9 x55 | s80 => DD x9 x56 | s81 => DD x9 x57 | s82 => DD x9 x58 | s83 => DD x9 x59 | s84 => DD x9 x60 | s85 => DD x9 x61 | s86 => DD x9 x62 | s87 => DD x9 x63 | s88 => DD x10 x0 | s89 => DD x10 x1 | s90 => DD x10 x2 | s91 => DD x10 x3 | s92 => DD x10 x4 | s93 => DD x10 x5 | s94 => DD x10 x6 | s95 => DD x10 x7 | s96 => DD x10 x8 | s97 => DD x10 x9 | s98 => DD x10 x10 | s99 => DD x10 x11 | s100 => DD x10 x12 | s101 => DD x10 x13 | s102 => DD x10 x14 | s103 => DD x10 x15 | s104 => DD x10 x16 | s105 => DD x10 x17 | s106 => DD x10 x18 | s107 => DD x10 x19 | s108 => DD x10 x20 | s109 => DD x10 x21 | s110 => DD x10 x22 | s111 => DD x10 x23 | s112 => DD x10 x24 | s113 => DD x10 x25 | s114 => DD x10 x26 | s115 => DD x10 x27 | s116 => DD x10 x28 | s117 => DD x10 x29 | s118 => DD x10 x30 | s119 => DD x10 x31 | s120 => DD x10 x32 | s121 => DD x10 x33 | s122 => DD x10 x34 | s123 => DD x10 x35 | s124 => DD x10 x36 | s125 => DD x10 x37 | s126 => DD x10 x38 end.
Definition m555 (c : sum2) : dd := match c with s0 => DD x8 x43 | s1 => DD x8 x44 | s2 => DD x8 x45 | s3 => DD x8 x46 | s4 => DD x8 x47 | s5 => DD x8 x48 | s6 => DD x8 x49 | s7 => DD x8 x50 | s8 => DD x8 x51 | s9 => DD x8 x52 | s10 => DD x8 x53 | s11 => DD x8 x54 | s12 => DD x8 x55 | s13 => DD x8 x56 | s14 => DD x8 x57 | s15 => DD x8 x58 | s16 => DD x8 x59 | s17 => DD x8 x60 | s18 => DD x8 x61 | s19 => DD x8 x62 | s20 => DD x8 x63 | s21 => DD x9 x0 | s22 => DD x9 x1 | s23 => DD x9 x2 | s24 => DD x9 x3 | s25 => DD x9 x4 | s26 => DD x9 x5 | s27 => DD x9 x6 | s28 => DD x9 x7 | s29 => DD x9 x8 | s30 => DD x9 x9 | s31 => DD x9 x10 | s32 => DD x9 x11 | s33 => DD x9 x12 | s34 => DD x9 x13 | s35 => DD x9 x14 | s36 => DD x9 x15 | s37 => DD x9 x16 | s38 => DD x9 x17 | s39 => DD x9 x18 | s40 => DD x9 x19 | s41 => DD x9 x20 | s42 => DD x9 x21 | s43 => DD x9 x22 | s44 => DD x9 x23 | s45 => DD x9 x24 | s46 => DD x9 x25 | s47 => DD x9 x26 | s48 => DD x9 x27 | s49 => DD x9 x28 | s50 => DD x9 x29 | s51 => DD x9 x30 | s52 => DD x9 x31 | s53 => DD x9 x32 | s54 => DD x9 x33 | s55 => DD x9 x34 | s56 => DD x9 x35 | s57 => DD x9 x36 | s58 => DD x9 x37 | s59 => DD x9 x38 | s60 => DD x9 x39 | s61 => DD x9 x40 | s62 => DD x9 x41 | s63 => DD x9 x42 | s64 => DD x9 x43 | s65 => DD x9 x44 | s66 => DD x9 x45 | s67 => DD x9 x46 | s68 => DD x9 x47 | s69 => DD x9 x48 | s70 => DD x9 x49 | s71 => DD x9 x50 | s72 => DD x9 x51 | s73 => DD x9 x52 | s74 => DD x9 x53 | s75 => DD x9 x54 | s76 => DD x9 x55 | s77 => DD x9 x56 | s78 => DD x9 x57 | s79 => DD x9 x58 | s80 => DD x9 x59 | s81 => DD x9 x60 | s82 => DD x9 x61 | s83 => DD x9 x62 | s84 => DD x9 x63 | s85 => DD x10 x0 | s86 => DD x10 x1 | s87 => DD x10 x2 | s88 => DD x10 x3 | s89 => DD x10 x4 | s90 => DD x10 x5 | s91 => DD x10 x6 | s92 => DD x10 x7 | s93 => DD x10 x8 | s94 => DD x10 x9 | s95 => DD x10 x10 | s96 => DD x10 x11 | s97 => DD x10 x12 | s98 => DD x10 x13 | s99 => DD x10 x14 | s100 => DD x10 x15 | s101 => DD x10 x16 | s102 => DD x10 x17 | s103 => DD x10 x18 | s104 => DD x10 x19 | s105 => DD x10 x20 | s106 => DD x10 x21 | s107 => DD x10 x22 | s108 => DD x10 x23 | s109 => DD x10 x24 | s110 => DD x10 x25 | s111 => DD x10 x26 | s112 => DD x10 x27 | s113 => DD x10 x28 | s114 => DD x10 x29 | s115 => DD x10 x30 | s116 => DD x10 x31 | s117 => DD x10 x32 | s118 => DD x10 x33 | s119 => DD x10 x34 | s120 => DD x10 x35 | s121 => DD x10 x36 | s122 => DD x10 x37 | s123 => DD x10 x38 | s124 => DD x10 x39 | s125 => DD x10 x40 | s126 => DD x10 x41 end.
Definition m558 (c : sum2) : dd := match c with s0 => DD x8 x46 | s1 => DD x8 x47 | s2 => DD x8 x48 | s3 => DD x8 x49 | s4 => DD x8 x50 | s5 => DD x8 x51 | s6 => DD x8 x52 | s7 => DD x8 x53 | s8 => DD x8 x54 | s9 => DD x8 x55 | s10 => DD x8 x56 | s11 => DD x8 x57 | s12 => DD x8 x58 | s13 => DD x8 x59 | s14 => DD x8 x60 | s15 => DD x8 x61 | s16 => DD x8 x62 | s17 => DD x8 x63 | s18 => DD x9 x0 | s19 => DD x9 x1 | s20 => DD x9 x2 | s21 => DD x9 x3 | s22 => DD x9 x4 | s23 => DD x9 x5 | s24 => DD x9 x6 | s25 => DD x9 x7 | s26 => DD x9 x8 | s27 => DD x9 x9 | s28 => DD x9 x10 | s29 => DD x9 x11 | s30 => DD x9 x12 | s31 => DD x9 x13 | s32 => DD x9 x14 | s33 => DD x9 x15 | s34 => DD x9 x16 | s35 => DD x9 x17 | s36 => DD x9 x18 | s37 => DD x9 x19 | s38 => DD x9 x20 | s39 => DD x9 x21 | s40 => DD x9 x22 | s41 => DD x9 x23 | s42 => DD x9 x24 | s43 => DD x9 x25 | s44 => DD x9 x26 | s45 => DD x9 x27 | s46 => DD x9 x28 | s47 => DD x9 x29 | s48 => DD x9 x30 | s49 => DD x9 x31 | s50 => DD x9 x32 | s51 => DD x9 x33 | s52 => DD x9 x34 | s53 => DD x9 x35 | s54 => DD x9 x36 | s55 => DD x9 x37 | s56 => DD x9 x38 | s57 => DD x9 x39 | s58 => DD x9 x40 | s59 => DD x9 x41 | s60 => DD x9 x42 | s61 => DD x9 x43 | s62 => DD x9 x44 | s63 => DD x9 x45 | s64 => DD x9 x46 | s65 => DD x9 x47 | s66 => DD x9 x48 | s67 => DD x9 x49 | s68 => DD x9 x50 | s69 => DD x9 x51 | s70 => DD x9 x52 | s71 => DD x9 x53 | s72 => DD x9 x54 | s73 => DD x9 x55 | s74 => DD x9 x56 | s75 => DD x9 x57 | s76 => DD x9 x58 | s77 => DD x9 x59 | s78 => DD x9 x60 | s79 => DD x9 x61 | s80 => DD x9 x62 | s81 => DD x9 x63 | s82 => DD x10 x0 | s83 => DD x10 x1 | s84 => DD x10 x2 | s85 => DD x10 x3 | s86 => DD x10 x4 | s87 => DD x10 x5 | s88 => DD x10 x6 | s89 => DD x10 x7 | s90 => DD x10 x8 | s91 => DD x10 x9 | s92 => DD x10 x10 | s93 => DD x10 x11 | s94 => DD x10 x12 | s95 => DD x10 x13 | s96 => DD x10 x14 | s97 => DD x10 x15 | s98 => DD x10 x16 | s99 => DD x10 x17 | s100 => DD x10 x18 | s101 => DD x10 x19 | s102 => DD x10 x20 | s103 => DD x10 x21 | s104 => DD x10 x22 | s105 => DD x10 x23 | s106 => DD x10 x24 | s107 => DD x10 x25 | s108 => DD x10 x26 | s109 => DD x10 x27 | s110 => DD x10 x28 | s111 => DD x10 x29 | s112 => DD x10 x30 | s113 => DD x10 x31 | s114 => DD x10 x32 | s115 => DD x10 x33 | s116 => DD x10 x34 | s117 => DD x10 x35 | s118 => DD x10 x36 | s119 => DD x10 x37 | s120 => DD x10 x38 | s121 => DD x10 x39 | s122 => DD x10 x40 | s123 => DD x10 x41 | s124 => DD x10 x42 | s125 => DD x10 x43 | s126 => DD x10 x44 end.
Definition m559 (c : sum2) : dd := match c with s0 => DD x8 x47 | s1 => DD x8 x48 | s2 => DD x8 x49 | s3 => DD x8 x50 | s4 => DD x8 x51 | s5 => DD x8 x52 | s6 => DD x8 x53 | s7 => DD x8 x54 | s8 => DD x8 x55 | s9 => DD x8 x56 | s10 => DD x8 x57 | s11 => DD x8 x58 | s12 => DD x8 x59 | s13 => DD x8 x60 | s14 => DD x8 x61 | s15 => DD x8 x62 | s16 => DD x8 x63 | s17 => DD x9 x0 | s18 => DD x9 x1 | s19 => DD x9 x2 | s20 => DD x9 x3 | s21 => DD x9 x4 | s22 => DD x9 x5 | s23 => DD x9 x6 | s24 => DD x9 x7 | s25 => DD x9 x8 | s26 => DD x9 x9 | s27 => DD x9 x10 | s28 => DD x9 x11 | s29 => DD x9 x12 | s30 => DD x9 x13 | s31 => DD x9 x14 | s32 => DD x9 x15 | s33 => DD x9 x16 | s34 => DD x9 x17 | s35 => DD x9 x18 | s36 => DD x9 x19 | s37 => DD x9 x20 | s38 => DD x9 x21 | s39 => DD x9 x22 | s40 => DD x9 x23 | s41 => DD x9 x24 | s42 => DD x9 x25 | s43 => DD x9 x26 | s44 => DD x9 x27 | s45 => DD x9 x28 | s46 => DD x9 x29 | s47 => DD x9 x30 | s48 => DD x9 x31 | s49 => DD x9 x32 | s50 => DD x9 x33 | s51 => DD x9 x34 | s52 => DD x9 x35 | s53 => DD x9 x36 | s54 => DD x9 x37 | s55 => DD x9 x38 | s56 => DD x9 x39 | s57 => DD x9 x40 | s58 => DD x9 x41 | s59 => DD x9 x42 | s60 => DD x9 x43 | s61 => DD x9 x44 | s62 => DD x9 x45 | s63 => DD x9 x46 | s64 => DD x9 x47 | s65 => DD x9 x48 | s66 => DD x9 x49 | s67 => DD x9 x50 | s68 => DD x9 x51 | s69 => DD x9 x52 | s70 => DD x9 x53 | s71 => DD x9 x54 | s72 => DD x9 x55 | s73 => DD x9 x56 | s74 => DD x9 x57 | s75 => DD x9 x58 | s76 => DD x9 x59 | s77 => DD x9 x60 | s78 => DD x9 x61 | s79 => DD x9 x62 | s80 => DD x9 x63 | s81 => DD x10 x0 | s82 => DD x10 x1 | s83 => DD x10 x2 | s84 => DD x10 x3 | s85 => DD x10 x4 | s86 => DD x10 x5 | s87 => DD x10 x6 | s88 => DD x10 x7 | s89 => DD x10 x8 | s90 => DD x10 x9 | s91 => DD x10 x10 | s92 => DD x10 x11 | s93 => DD x10 x12 | s94 => DD x10 x13 | s95 => DD x10 x14 | s96 => DD x10 x15 | s97 => DD x10 x16 | s98 => DD x10 x17 | s99 => DD x10 x18 | s100 => DD x10 x19 | s101 => DD x10 x20 | s102 => DD x10 x21 | s103 => DD x10 x22 | s104 => DD x10 x23 | s105 => DD x10 x24 | s106 => DD x10 x25 | s107 => DD x10 x26 | s108 => DD x10 x27 | s109 => DD x10 x28 | s110 => DD x10 x29 | s111 => DD x10 x30 | s112 => DD x10 x31 | s113 => DD x10 x32 | s114 => DD x10 x33 | s115 => DD x10 x34 | s116 => DD x10 x35 | s117 => DD x10 x36 | s118 => DD x10 x37 | s119 => DD x10 x38 | s120 => DD x10 x39 | s121 => DD x10 x40 | s122 => DD x10 x41 | s123 => DD x10 x42 | s124 => DD x10 x43 | s125 => DD x10 x44 | s126 => DD x10 x45 end.
Definition m560 (c : sum2) : dd := match c with s0 => DD x8 x48 | s1 => DD x8 x49 | s2 => DD x8 x50 | s3 => DD x8 x51 | s4 => DD x8 x52 | s5 => DD x8 x53 | s6 => DD x8 x54 | s7 => DD x8 x55 | s8 => DD x8 x56 | s9 => DD x8 x57 | s10 => DD x8 x58 | s11 => DD x8 x59 | s12 => DD x8 x60 | s13 => DD x8 x61 | s14 => DD x8 x62 | s15 => DD x8 x63 | s16 => DD x9 x0 | s17 => DD x9 x1 | s18 => DD x9 x2 | s19 => DD x9 x3 | s20 => DD x9 x4 | s21 => DD x9 x5 | s22 => DD x9 x6 | s23 => DD x9 x7 | s24 => DD x9 x8 | s25 => DD x9 x9 | s26 => DD x9 x10 | s27 => DD x9 x11 | s28 => DD x9 x12 | s29 => DD x9 x13 | s30 => DD x9 x14 | s31 => DD x9 x15 | s32 => DD x9 x16 | s33 => DD x9 x17 | s34 => DD x9 x18 | s35 => DD x9 x19 | s36 => DD x9 x20 | s37 => DD x9 x21 | s38 => DD x9 x22 | s39 => DD x9 x23 | s40 => DD x9 x24 | s41 => DD x9 x25 | s42 => DD x9 x26 | s43 => DD x9 x27 | s44 => DD x9 x28 | s45 => DD x9 x29 | s46 => DD x9 x30 | s47 => DD x9 x31 | s48 => DD x9 x32 | s49 => DD x9 x33 | s50 => DD x9 x34 | s51 => DD x9 x35 | s52 => DD x9 x36 | s53 => DD x9 x37 | s54 => DD x9 x38 | s55 => DD x9 x39 | s56 => DD x9 x40 | s57 => DD x9 x41 | s58 => DD x9 x42 | s59 => DD x9 x43 | s60 => DD x9 x44 | s61 => DD x9 x45 | s62 => DD x9 x46 | s63 => DD x9 x47 | s64 => DD x9 x48 | s65 => DD x9 x49 | s66 => DD x9 x50 | s67 => DD x9 x51 | s68 => DD x9 x52 | s69 => DD x9 x53 | s70 => DD x9 x54 | s71 => DD x9 x55 | s72 => DD x9 x56 | s73 => DD x9 x57 | s74 => DD x9 x58 | s75 => DD x9 x59 | s76 => DD x9 x60 | s77 => DD x9 x61 | s78 => DD x9 x62 | s79 => DD x9 x63 | s80 => DD x10 x0 | s81 => DD x10 x1 | s82 => DD x10 x2 | s83 => DD x10 x3 | s84 => DD x10 x4 | s85 => DD x10 x5 | s86 => DD x10 x6 | s87 => DD x10 x7 | s88 => DD x10 x8 | s89 => DD x10 x9 | s90 => DD x10 x10 | s91 => DD x10 x11 | s92 => DD x10 x12 | s93 => DD x10 x13 | s94 => DD x10 x14 | s95 => DD x10 x15 | s96 => DD x10 x16 | s97 => DD x10 x17 | s98 => DD x10 x18 | s99 => DD x10 x19 | s100 => DD x10 x20 | s101 => DD x10 x21 | s102 => DD x10 x22 | s103 => DD x10 x23 | s104 => DD x10 x24 | s105 => DD x10 x25 | s106 => DD x10 x26 | s107 => DD x10 x27 | s108 => DD x10 x28 | s109 => DD x10 x29 | s110 => DD x10 x30 | s111 => DD x10 x31 | s112 => DD x10 x32 | s113 => DD x10 x33 | s114 => DD x10 x34 | s115 => DD x10 x35 | s116 => DD x10 x36 | s117 => DD x10 x37 | s118 => DD x10 x38 | s119 => DD x10 x39 | s120 => DD x10 x40 | s121 => DD x10 x41 | s122 => DD x10 x42 | s123 => DD x10 x43 | s124 => DD x10 x44 | s125 => DD x10 x45 | s126 => DD x10 x46 end.
Definition m561 (c : sum2) : dd := match c with s0 => DD x8 x49 | s1 => DD x8 x50 | s2 => DD x8 x51 | s3 => DD x8 x52 | s4 => DD x8 x53 | s5 => DD x8 x54 | s6 => DD x8 x55 | s7 => DD x8 x56 | s8 => DD x8 x57 | s9 => DD x8 x58 | s10 => DD x8 x59 | s11 => DD x8 x60 | s12 => DD x8 x61 | s13 => DD x8 x62 | s14 => DD x8 x63 | s15 => DD x9 x0 | s16 => DD x9 x1 | s17 => DD x9 x2 | s18 => DD x9 x3 | s19 => DD x9 x4 | s20 => DD x9 x5 | s21 => DD x9 x6 | s22 => DD x9 x7 | s23 => DD x9 x8 | s24 => DD x9 x9 | s25 => DD x9 x10 | s26 => DD x9 x11 | s27 => DD x9 x12 | s28 => DD x9 x13 | s29 => DD x9 x14 | s30 => DD x9 x15 | s31 => DD x9 x16 | s32 => DD x9 x17 | s33 => DD x9 x18 | s34 => DD x9 x19 | s35 => DD x9 x20 | s36 => DD x9 x21 | s37 => DD x9 x22 | s38 => DD x9 x23 | s39 => DD x9 x24 | s40 => DD x9 x25 | s41 => DD x9 x26 | s42 => DD x9 x27 | s43 => DD x9 x28 | s44 => DD x9 x29 | s45 => DD x9 x30 | s46 => DD x9 x31 | s47 => DD x9 x32 | s48 => DD x9 x33 | s49 => DD x9 x34 | s50 => DD x9 x35 | s51 => DD x9 x36 | s52 => DD x9 x37 | s53 => DD x9 x38 | s54 => DD x9 x39 | s55 => DD x9 x40 | s56 => DD x9 x41 | s57 => DD x9 x42 | s58 => DD x9 x43 | s59 => DD x9 x44 | s60 => DD x9 x45 | s61 => DD x9 x46 | s62 => DD x9 x47 | s63 => DD x9 x48 | s64 => DD x9 x49 | s65 => DD x9 x50 | s66 => DD x9 x51 | s67 => DD x9 x52 | s68 => DD x9 x53 | s69 => DD x9 x54 | s70 => DD x9 x55 | s71 => DD x9 x56 | s72 => DD x9 x57 | s73 => DD x9 x58 | s74 => DD x9 x59 | s75 => DD x9 x60 | s76 => DD x9 x61 | s77 => DD x9 x62 | s78 => DD x9 x63 | s79 => DD x10 x0 | s80 => DD x10 x1 | s81 => DD x10 x2 | s82 => DD x10 x3 | s83 => DD x10 x4 | s84 => DD x10 x5 | s85 => DD x10 x6 | s86 => DD x10 x7 | s87 => DD x10 x8 | s88 => DD x10 x9 | s89 => DD x10 x10 | s90 => DD x10 x11 | s91 => DD x10 x12 | s92 => DD x10 x13 | s93 => DD x10 x14 | s94 => DD x10 x15 | s95 => DD x10 x16 | s96 => DD x10 x17 | s97 => DD x10 x18 | s98 => DD x10 x19 | s99 => DD x10 x20 | s100 => DD x10 x21 | s101 => DD x10 x22 | s102 => DD x10 x23 | s103 => DD x10 x24 | s104 => DD x10 x25 | s105 => DD x10 x26 | s106 => DD x10 x27 | s107 => DD x10 x28 | s108 => DD x10 x29 | s109 => DD x10 x30 | s110 => DD x10 x31 | s111 => DD x10 x32 | s112 => DD x10 x33 | s113 => DD x10 x34 | s114 => DD x10 x35 | s115 => DD x10 x36 | s116 => DD x10 x37 | s117 => DD x10 x38 | s118 => DD x10 x39 | s119 => DD x10 x40 | s120 => DD x10 x41 | s121 => DD x10 x42 | s122 => DD x10 x43 | s123 => DD x10 x44 | s124 => DD x10 x45 | s125 => DD x10 x46 | s126 => DD x10 x47 end.
Definition m564 (c : sum2) : dd := match c with s0 => DD x8 x52 | s1 => DD x8 x53 | s2 => DD x8 x54 | s3 => DD x8 x55 | s4 => DD x8 x56 | s5 => DD x8 x57 | s6 => DD x8 x58 | s7 => DD x8 x59 | s8 => DD x8 x60 | s9 => DD x8 x61 | s10 => DD x8 x62 | s11 => DD x8 x63 | s12 => DD x9 x0 | s13 => DD x9 x1 | s14 => DD x9 x2 | s15 => DD x9 x3 | s16 => DD x9 x4 | s17 => DD x9 x5 | s18 => DD x9 x6 | s19 => DD x9 x7 | s20 => DD x9 x8 | s21 => DD x9 x9 | s22 => DD x9 x10 | s23 => DD x9 x11 | s24 => DD x9 x12 | s25 => DD x9 x13 | s26 => DD x9 x14 | s27 => DD x9 x15 | s28 => DD x9 x16 | s29 => DD x9 x17 | s30 => DD x9 x18 | s31 => DD x9 x19 | s32 => DD x9 x20 | s33 => DD x9 x21 | s34 => DD x9 x22 | s35 => DD x9 x23 | s36 => DD x9 x24 | s37 => DD x9 x25 | s38 => DD x9 x26 | s39 => DD x9 x27 | s40 => DD x9 x28 | s41 => DD x9 x29 | s42 => DD x9 x30 | s43 => DD x9 x31 | s44 => DD x9 x32 | s45 => DD x9 x33 | s46 => DD x9 x34 | s47 => DD x9 x35 | s48 => DD x9 x36 | s49 => DD x9 x37 | s50 => DD x9 x38 | s51 => DD x9 x39 | s52 => DD x9 x40 | s53 => DD x9 x41 | s54 => DD x9 x42 | s55 => DD x9 x43 | s56 => DD x9 x44 | s57 => DD x9 x45 | s58 => DD x9 x46 | s59 => DD x9 x47 | s60 => DD x9 x48 | s61 => DD x9 x49 | s62 => DD x9 x50 | s63 => DD x9 x51 | s64 => DD x9 x52 | s65 => DD x9 x53 | s66 => DD x9 x54 | s67 => DD x9 x55 | s68 => DD x9 x56 | s69 => DD x9 x57 | s70 => DD x9 x58 | s71 => DD x9 x59 | s72 => DD x9 x60 | s73 => DD x9 x61 | s74 => DD x9 x62 | s75 => DD x9 x63 | s76 => DD x10 x0 | s77 => DD x10 x1 | s78 => DD x10 x2 | s79 => DD x10 x3 | s80 => DD x10 x4 | s81 => DD x10 x5 | s82 => DD x10 x6 | s83 => DD x10 x7 | s84 => DD x10 x8 | s85 => DD x10 x9 | s86 => DD x10 x10 | s87 => DD x10 x11 | s88 => DD x10 x12 | s89 => DD x10 x13 | s90 => DD x10 x14 | s91 => DD x10 x15 | s92 => DD x10 x16 | s93 => DD x10 x17 | s94 => DD x10 x18 | s95 => DD x10 x19 | s96 => DD x10 x20 | s97 => DD x10 x21 | s98 => DD x10 x22 | s99 => DD x10 x23 | s100 => DD x10 x24 | s101 => DD x10 x25 | s102 => DD x10 x26 | s103 => DD x10 x27 | s104 => DD x10 x28 | s105 => DD x10 x29 | s106 => DD x10 x30 | s107 => DD x10 x31 | s108 => DD x10 x32 | s109 => DD x10 x33 | s110 => DD x10 x34 | s111 => DD x10 x35 | s112 => DD x10 x36 | s113 => DD x10 x37 | s114 => DD x10 x38 | s115 => DD x10 x39 | s116 => DD x10 x40 | s117 => DD x10 x41 | s118 => DD x10 x42 | s119 => DD x10 x43 | s120 => DD x10 x44 | s121 => DD x10 x45 | s122 => DD x10 x46 | s123 => DD x10 x47 | s124 => DD x10 x48 | s125 => DD x10 x49 | s126 => DD x10 x50 end.
Definition m567 (c : sum2) : dd := match c with s0 => DD x8 x55 | s1 => DD x8 x56 | s2 => DD x8 x57 | s3 => DD x8 x58 | s4 => DD x8 x59 | s5 => DD x8 x60 | s6 => DD x8 x61 | s7 => DD x8 x62 | s8 => DD x8 x63 | s9 => DD x9 x0 | s10 => DD x9 x1 | s11 => DD x9 x2 | s12 => DD x9 x3 | s13 => DD x9 x4 | s14 => DD x9 x5 | s15 => DD x9 x6 | s16 => DD x9 x7 | s17 => DD x9 x8 | s18 => DD x9 x9 | s19 => DD x9 x10 | s20 => DD x9 x11 | s21 => DD x9 x12 | s22 => DD x9 x13 | s23 => DD x9 x14 | s24 => DD x9 x15 | s25 => DD x9 x16 | s26 => DD x9 x17 | s27 => DD x9 x18 | s28 => DD x9 x19 | s29 => DD x9 x20 | s30 => DD x9 x21 | s31 => DD x9 x22 | s32 => DD x9 x23 | s33 => DD x9 x24 | s34 => DD x9 x25 | s35 => DD x9 x26 | s36 => DD x9 x27 | s37 => DD x9 x28 | s38 => DD x9 x29 | s39 => DD x9 x30 | s40 => DD x9 x31 | s41 => DD x9 x32 | s42 => DD x9 x33 | s43 => DD x9 x34 | s44 => DD x9 x35 | s45 => DD x9 x36 | s46 => DD x9 x37 | s47 => DD x9 x38 | s48 => DD x9 x39 | s49 => DD x9 x40 | s50 => DD x9 x41 | s51 => DD x9 x42 | s52 => DD x9 x43 | s53 => DD x9 x44 | s54 => DD x9 x45 | s55 => DD x9 x46 | s56 => DD x9 x47 | s57 => DD x9 x48 | s58 => DD x9 x49 | s59 => DD x9 x50 | s60 => DD x9 x51 | s61 => DD x9 x52 | s62 => DD x9 x53 | s63 => DD x9 x54 | s64 => DD x9 x55 | s65 => DD x9 x56 | s66 => DD x9 x57 | s67 => DD x9 x58 | s68 => DD x9 x59 | s69 => DD x9 x60 | s70 => DD x9 x61 | s71 => DD x9 x62 | s72 => DD x9 x63 | s73 => DD x10 x0 | s74 => DD x10 x1 | s75 => DD x10 x2 | s76 => DD x10 x3 | s77 => DD x10 x4 | s78 => DD x10 x5 | s79 => DD x10 x6 | s80 => DD x10 x7 | s81 => DD x10 x8 | s82 => DD x10 x9 | s83 => DD x10 x10 | s84 => DD x10 x11 | s85 => DD x10 x12 | s86 => DD x10 x13 | s87 => DD x10 x14 | s88 => DD x10 x15 | s89 => DD x10 x16 | s90 => DD x10 x17 | s91 => DD x10 x18 | s92 => DD x10 x19 | s93 => DD x10 x20 | s94 => DD x10 x21 | s95 => DD x10 x22 | s96 => DD x10 x23 | s97 => DD x10 x24 | s98 => DD x10 x25 | s99 => DD x10 x26 | s100 => DD x10 x27 | s101 => DD x10 x28 | s102 => DD x10 x29 | s103 => DD x10 x30 | s104 => DD x10 x31 | s105 => DD x10 x32 | s106 => DD x10 x33 | s107 => DD x10 x34 | s108 => DD x10 x35 | s109 => DD x10 x36 | s110 => DD x10 x37 | s111 => DD x10 x38 | s112 => DD x10 x39 | s113 => DD x10 x40 | s114 => DD x10 x41 | s115 => DD x10 x42 | s116 => DD x10 x43 | s117 => DD x10 x44 | s118 => DD x10 x45 | s119 => DD x10 x46 | s120 => DD x10 x47 | s121 => DD x10 x48 | s122 => DD x10 x49 | s123 => DD x10 x50 | s124 => DD x10 x51 | s125 => DD x10 x52 | s126 => DD x10 x53 end.
Definition m570 (c : sum2) : dd := match c with s0 => DD x8 x58 | s1 => DD x8 x59 | s2 => DD x8 x60 | s3 => DD x8 x61 | s4 => DD x8 x62 | s5 => DD x8 x63 | s6 => DD x9 x0 | s7 => DD x9 x1 | s8 => DD x9 x2 | s9 => DD x9 x3 | s10 => DD x9 x4 | s11 => DD x9 x5 | s12 => DD x9 x6 | s13 => DD x9 x7 | s14 => DD x9 x8 | s15 => DD x9 x9 | s16 => DD x9 x10 | s17 => DD x9 x11 | s18 => DD x9 x12 | s19 => DD x9 x13 | s20 => DD x9 x14 | s21 => DD x9 x15 | s22 => DD x9 x16 | s23 => DD x9 x17 | s24 => DD x9 x18 | s25 => DD x9 x19 | s26 => DD x9 x20 | s27 => DD x9 x21 | s28 => DD x9 x22 | s29 => DD x9 x23 | s30 => DD x9 x24 | s31 => DD x9 x25 | s32 => DD x9 x26 | s33 => DD x9 x27 | s34 => DD x9 x28 | s35 => DD x9 x29 | s36 => DD x9 x30 | s37 => DD x9 x31 | s38 => DD x9 x32 | s39 => DD x9 x33 | s40 => DD x9 x34 | s41 => DD x9 x35 | s42 => DD x9 x36 | s43 => DD x9 x37 | s44 => DD x9 x38 | s45 => DD x9 x39 | s46 => DD x9 x40 | s47 => DD x9 x41 | s48 => DD x9 x42 | s49 => DD x9 x43 | s50 => DD x9 x44 | s51 => DD x9 x45 | s52 => DD x9 x46 | s53 => DD x9 x47 | s54 => DD x9 x48 | s55 => DD x9 x49 | s56 => DD x9 x50 | s57 => DD x9 x51 | s58 => DD x9 x52 | s59 => DD x9 x53 | s60 => DD x9 x54 | s61 => DD x9 x55 | s62 => DD x9 x56 | s63 => DD x9 x57 | s64 => DD x9 x58 | s65 => DD x9 x59 | s66 => DD x9 x60 | s67 => DD x9 x61 | s68 => DD x9 x62 | s69 => DD x9 x63 | s70 => DD x10 x0 | s71 => DD x10 x1 | s72 => DD x10 x2 | s73 => DD x10 x3 | s74 => DD x10 x4 | s75 => DD x10 x5 | s76 => DD x10 x6 | s77 => DD x10 x7 | s78 => DD x10 x8 | s79 => DD x10 x9 | s80 => DD x10 x10 | s81 => DD x10 x11 | s82 => DD x10 x12 | s83 => DD x10 x13 | s84 => DD x10 x14 | s85 => DD x10 x15 | s86 => DD x10 x16 | s87 => DD x10 x17 | s88 => DD x10 x18 | s89 => DD x10 x19 | s90 => DD x10 x20 | s91 => DD x10 x21 | s92 => DD x10 x22 | s93 => DD x10 x23 | s94 => DD x10 x24 | s95 => DD x10 x25 | s96 => DD x10 x26 | s97 => DD x10 x27 | s98 => DD x10 x28 | s99 => DD x10 x29 | s100 => DD x10 x30 | s101 => DD x10 x31 | s102 => DD x10 x32 | s103 => DD x10 x33 | s104 => DD x10 x34 | s105 => DD x10 x35 | s106 => DD x10 x36 | s107 => DD x10 x37 | s108 => DD x10 x38 | s109 => DD x10 x39 | s110 => DD x10 x40 | s111 => DD x10 x41 | s112 => DD x10 x42 | s113 => DD x10 x43 | s114 => DD x10 x44 | s115 => DD x10 x45 | s116 => DD x10 x46 | s117 => DD x10 x47 | s118 => DD x10 x48 | s119 => DD x10 x49 | s120 => DD x10 x50 | s121 => DD x10 x51 | s122 => DD x10 x52 | s123 => DD x10 x53 | s124 => DD x10 x54 | s125 => DD x10 x55 | s126 => DD x10 x56 end.
Definition m572 (c : sum2) : dd := match c with s0 => DD x8 x60 | s1 => DD x8 x61 | s2 => DD x8 x62 | s3 => DD x8 x63 | s4 => DD x9 x0 | s5 => DD x9 x1 | s6 => DD x9 x2 | s7 => DD x9 x3 | s8 => DD x9 x4 | s9 => DD x9 x5 | s10 => DD x9 x6 | s11 => DD x9 x7 | s12 => DD x9 x8 | s13 => DD x9 x9 | s14 => DD x9 x10 | s15 => DD x9 x11 | s16 => DD x9 x12 | s17 => DD x9 x13 | s18 => DD x9 x14 | s19 => DD x9 x15 | s20 => DD x9 x16 | s21 => DD x9 x17 | s22 => DD x9 x18 | s23 => DD x9 x19 | s24 => DD x9 x20 | s25 => DD x9 x21 | s26 => DD x9 x22 | s27 => DD x9 x23 | s28 => DD x9 x24 | s29 => DD x9 x25 | s30 => DD x9 x26 | s31 => DD x9 x27 | s32 => DD x9 x28 | s33 => DD x9 x29 | s34 => DD x9 x30 | s35 => DD x9 x31 | s36 => DD x9 x32 | s37 => DD x9 x33 | s38 => DD x9 x34 | s39 => DD x9 x35 | s40 => DD x9 x36 | s41 => DD x9 x37 | s42 => DD x9 x38 | s43 => DD x9 x39 | s44 => DD x9 x40 | s45 => DD x9 x41 | s46 => DD x9 x42 | s47 => DD x9 x43 | s48 => DD x9 x44 | s49 => DD x9 x45 | s50 => DD x9 x46 | s51 => DD x9 x47 | s52 => DD x9 x48 | s53 => DD x9 x49 | s54 => DD x9 x50 | s55 => DD x9 x51 | s56 => DD x9 x52 | s57 => DD x9 x53 | s58 => DD x9 x54 | s59 => DD x9 x55 | s60 => DD x9 x56 | s61 => DD x9 x57 | s62 => DD x9 x58 | s63 => DD x9 x59 | s64 => DD x9 x60 | s65 => DD x9 x61 | s66 => DD x9 x62 | s67 => DD x9 x63 | s68 => DD x10 x0 | s69 => DD x10 x1 | s70 => DD x10 x2 | s71 => DD x10 x3 | s72 => DD x10 x4 | s73 => DD x10 x5 | s74 => DD x10 x6 | s75 => DD x10 x7 | s76 => DD x10 x8 | s77 => DD x10 x9 | s78 => DD x10 x10 | s79 => DD x10 x11 | s80 => DD x10 x12 | s81 => DD x10 x13 | s82 => DD x10 x14 | s83 => DD x10 x15 | s84 => DD x10 x16 | s85 => DD x10 x17 | s86 => DD x10 x18 | s87 => DD x10 x19 | s88 => DD x10 x20 | s89 => DD x10 x21 | s90 => DD x10 x22 | s91 => DD x10 x23 | s92 => DD x10 x24 | s93 => DD x10 x25 | s94 => DD x10 x26 | s95 => DD x10 x27 | s96 => DD x10 x28 | s97 => DD x10 x29 | s98 => DD x10 x30 | s99 => DD x10 x31 | s100 => DD x10 x32 | s101 => DD x10 x33 | s102 => DD x10 x34 | s103 => DD x10 x35 | s104 => DD x10 x36 | s105 => DD x10 x37 | s106 => DD x10 x38 | s107 => DD x10 x39 | s108 => DD x10 x40 | s109 => DD x10 x41 | s110 => DD x10 x42 | s111 => DD x10 x43 | s112 => DD x10 x44 | s113 => DD x10 x45 | s114 => DD x10 x46 | s115 => DD x10 x47 | s116 => DD x10 x48 | s117 => DD x10 x49 | s118 => DD x10 x50 | s119 => DD x10 x51 | s120 => DD x10 x52 | s121 => DD x10 x53 | s122 => DD x10 x54 | s123 => DD x10 x55 | s124 => DD x10 x56 | s125 => DD x10 x57 | s126 => DD x10 x58 end.
Definition m574 (c : sum2) : dd := match c with s0 => DD x8 x62 | s1 => DD x8 x63 | s2 => DD x9 x0 | s3 => DD x9 x1 | s4 => DD x9 x2 | s5 => DD x9 x3 | s6 => DD x9 x4 | s7 => DD x9 x5 | s8 => DD x9 x6 | s9 => DD x9 x7 | s10 => DD x9 x8 | s11 => DD x9 x9 | s12 => DD x9 x10 | s13 => DD x9 x11 | s14 => DD x9 x12 | s15 => DD x9 x13 | s16 => DD x9 x14 | s17 => DD x9 x15 | s18 => DD x9 x16 | s19 => DD x9 x17 | s20 => DD x9 x18 | s21 => DD x9 x19 | s22 => DD x9 x20 | s23 => DD x9 x21 | s24 => DD x9 x22 | s25 => DD x9 x23 | s26 => DD x9 x24 | s27 => DD x9 x25 | s28 => DD x9 x26 | s29 => DD x9 x27 | s30 => DD x9 x28 | s31 => DD x9 x29 | s32 => DD x9 x30 | s33 => DD x9 x31 | s34 => DD x9 x32 | s35 => DD x9 x33 | s36 => DD x9 x34 | s37 => DD x9 x35 | s38 => DD x9 x36 | s39 => DD x9 x37 | s40 => DD x9 x38 | s41 => DD x9 x39 | s42 => DD x9 x40 | s43 => DD x9 x41 | s44 => DD x9 x42 | s45 => DD x9 x43 | s46 => DD x9 x44 | s47 => DD x9 x45 | s48 => DD x9 x46 | s49 => DD x9 x47 | s50 => DD x9 x48 | s51 => DD x9 x49 | s52 => DD x9 x50 | s53 => DD x9 x51 | s54 => DD x9 x52 | s55 => DD x9 x53 | s56 => DD x9 x54 | s57 => DD x9 x55 | s58 => DD x9 x56 | s59 => DD x9 x57 | s60 => DD x9 x58 | s61 => DD x9 x59 | s62 => DD x9 x60 | s63 => DD x9 x61 | s64 => DD x9 x62 | s65 => DD x9 x63 | s66 => DD x10 x0 | s67 => DD x10 x1 | s68 => DD x10 x2 | s69 => DD x10 x3 | s70 => DD x10 x4 | s71 => DD x10 x5 | s72 => DD x10 x6 | s73 => DD x10 x7 | s74 => DD x10 x8 | s75 => DD x10 x9 | s76 => DD x10 x10 | s77 => DD x10 x11 | s78 => DD x10 x12 | s79 => DD x10 x13 | s80 => DD x10 x14 | s81 => DD x10 x15 | s82 => DD x10 x16 | s83 => DD x10 x17 | s84 => DD x10 x18 | s85 => DD x10 x19 | s86 => DD x10 x20 | s87 => DD x10 x21 | s88 => DD x10 x22 | s89 => DD x10 x23 | s90 => DD x10 x24 | s91 => DD x10 x25 | s92 => DD x10 x26 | s93 => DD x10 x27 | s94 => DD x10 x28 | s95 => DD x10 x29 | s96 => DD x10 x30 | s97 => DD x10 x31 | s98 => DD x10 x32 | s99 => DD x10 x33 | s100 => DD x10 x34 | s101 => DD x10 x35 | s102 => DD x10 x36 | s103 => DD x10 x37 | s104 => DD x10 x38 | s105 => DD x10 x39 | s106 => DD x10 x40 | s107 => DD x10 x41 | s108 => DD x10 x42 | s109 => DD x10 x43 | s110 => DD x10 x44 | s111 => DD x10 x45 | s112 => DD x10 x46 | s113 => DD x10 x47 | s114 => DD x10 x48 | s115 => DD x10 x49 | s116 => DD x10 x50 | s117 => DD x10 x51 | s118 => DD x10 x52 | s119 => DD x10 x53 | s120 => DD x10 x54 | s121 => DD x10 x55 | s122 => DD x10 x56 | s123 => DD x10 x57 | s124 => DD x10 x58 | s125 => DD x10 x59 | s126 => DD x10 x60 end.
Definition m575 (c : sum2) : dd := match c with s0 => DD x8 x63 | s1 => DD x9 x0 | s2 => DD x9 x1 | s3 => DD x9 x2 | s4 => DD x9 x3 | s5 => DD x9 x4 | s6 => DD x9 x5 | s7 => DD x9 x6 | s8 => DD x9 x7 | s9 => DD x9 x8 | s10 => DD x9 x9 | s11 => DD x9 x10 | s12 => DD x9 x11 | s13 => DD x9 x12 | s14 => DD x9 x13 | s15 => DD x9 x14 | s16 => DD x9 x15 | s17 => DD x9 x16 | s18 => DD x9 x17 | s19 => DD x9 x18 | s20 => DD x9 x19 | s21 => DD x9 x20 | s22 => DD x9 x21 | s23 => DD x9 x22 | s24 => DD x9 x23 | s25 => DD x9 x24 | s26 => DD x9 x25 | s27 => DD x9 x26 | s28 => DD x9 x27 | s29 => DD x9 x28 | s30 => DD x9 x29 | s31 => DD x9 x30 | s32 => DD x9 x31 | s33 => DD x9 x32 | s34 => DD x9 x33 | s35 => DD x9 x34 | s36 => DD x9 x35 | s37 => DD x9 x36 | s38 => DD x9 x37 | s39 => DD x9 x38 | s40 => DD x9 x39 | s41 => DD x9 x40 | s42 => DD x9 x41 | s43 => DD x9 x42 | s44 => DD x9 x43 | s45 => DD x9 x44 | s46 => DD x9 x45 | s47 => DD x9 x46 | s48 => DD x9 x47 | s49 => DD x9 x48 | s50 => DD x9 x49 | s51 => DD x9 x50 | s52 => DD x9 x51 | s53 => DD x9 x52 | s54 => DD x9 x53 | s55 => DD x9 x54 | s56 => DD x9 x55 | s57 => DD x9 x56 | s58 => DD x9 x57 | s59 => DD x9 x58 | s60 => DD x9 x59 | s61 => DD x9 x60 | s62 => DD x9 x61 | s63 => DD x9 x62 | s64 => DD x9 x63 | s65 => DD x10 x0 | s66 => DD x10 x1 | s67 => DD x10 x2 | s68 => DD x10 x3 | s69 => DD x10 x4 | s70 => DD x10 x5 | s71 => DD x10 x6 | s72 => DD x10 x7 | s73 => DD x10 x8 | s74 => DD x10 x9 | s75 => DD x10 x10 | s76 => DD x10 x11 | s77 => DD x10 x12 | s78 => DD x10 x13 | s79 => DD x10 x14 | s80 => DD x10 x15 | s81 => DD x10 x16 | s82 => DD x10 x17 | s83 => DD x10 x18 | s84 => DD x10 x19 | s85 => DD x10 x20 | s86 => DD x10 x21 | s87 => DD x10 x22 | s88 => DD x10 x23 | s89 => DD x10 x24 | s90 => DD x10 x25 | s91 => DD x10 x26 | s92 => DD x10 x27 | s93 => DD x10 x28 | s94 => DD x10 x29 | s95 => DD x10 x30 | s96 => DD x10 x31 | s97 => DD x10 x32 | s98 => DD x10 x33 | s99 => DD x10 x34 | s100 => DD x10 x35 | s101 => DD x10 x36 | s102 => DD x10 x37 | s103 => DD x10 x38 | s104 => DD x10 x39 | s105 => DD x10 x40 | s106 => DD x10 x41 | s107 => DD x10 x42 | s108 => DD x10 x43 | s109 => DD x10 x44 | s110 => DD x10 x45 | s111 => DD x10 x46 | s112 => DD x10 x47 | s113 => DD x10 x48 | s114 => DD x10 x49 | s115 => DD x10 x50 | s116 => DD x10 x51 | s117 => DD x10 x52 | s118 => DD x10 x53 | s119 => DD x10 x54 | s120 => DD x10 x55 | s121 => DD x10 x56 | s122 => DD x10 x57 | s123 => DD x10 x58 | s124 => DD x10 x59 | s125 => DD x10 x60 | s126 => DD x10 x61 end.
Definition m576 (c : sum2) : dd := match c with s0 => DD x9 x0 | s1 => DD x9 x1 | s2 => DD x9 x2 | s3 => DD x9 x3 | s4 => DD x9 x4 | s5 => DD x9 x5 | s6 => DD x9 x6 | s7 => DD x9 x7 | s8 => DD x9 x8 | s9 => DD x9 x9 | s10 => DD x9 x10 | s11 => DD x9 x11 | s12 => DD x9 x12 | s13 => DD x9 x13 | s14 => DD x9 x14 | s15 => DD x9 x15 | s16 => DD x9 x16 | s17 => DD x9 x17 | s18 => DD x9 x18 | s19 => DD x9 x19 | s20 => DD x9 x20 | s21 => DD x9 x21 | s22 => DD x9 x22 | s23 => DD x9 x23 | s24 => DD x9 x24 | s25 => DD x9 x25 | s26 => DD x9 x26 | s27 => DD x9 x27 | s28 => DD x9 x28 | s29 => DD x9 x29 | s30 => DD x9 x30 | s31 => DD x9 x31 | s32 => DD x9 x32 | s33 => DD x9 x33 | s34 => DD x9 x34 | s35 => DD x9 x35 | s36 => DD x9 x36 | s37 => DD x9 x37 | s38 => DD x9 x38 | s39 => DD x9 x39 | s40 => DD x9 x40 | s41 => DD x9 x41 | s42 => DD x9 x42 | s43 => DD x9 x43 | s44 => DD x9 x44 | s45 => DD x9 x45 | s46 => DD x9 x46 | s47 => DD x9 x47 | s48 => DD x9 x48 | s49 => DD x9 x49 | s50 => DD x9 x50 | s51 => DD x9 x51 | s52 => DD x9 x52 | s53 => DD x9 x53 | s54 => DD x9 x54 | s55 => DD x9 x55 | s56 => DD x9 x56 | s57 => DD x9 x57 | s58 => DD x9 x58 | s59 => DD x9 x59 | s60 => DD x9 x60 | s61 => DD x9 x61 | s62 => DD x9 x62 | s63 => DD x9 x63 | s64 => DD x10 x0 | s65 => DD x10 x1 | s66 => DD x10 x2 | s67 => DD x10 x3 | s68 => DD x10 x4 | s69 => DD x10 x5 | s70 => DD x10 x6 | s71 => DD x10 x7 | s72 => DD x10 x8 | s73 => DD x10 x9 | s74 => DD x10 x10 | s75 => DD x10 x11 | s76 => DD x10 x12 | s77 => DD x10 x13 | s78 => DD x10 x14 | s79 => DD x10 x15 | s80 => DD x10 x16 | s81 => DD x10 x17 | s82 => DD x10 x18 | s83 => DD x10 x19 | s84 => DD x10 x20 | s85 => DD x10 x21 | s86 => DD x10 x22 | s87 => DD x10 x23 | s88 => DD x10 x24 | s89 => DD x10 x25 | s90 => DD x10 x26 | s91 => DD x10 x27 | s92 => DD x10 x28 | s93 => DD x10 x29 | s94 => DD x10 x30 | s95 => DD x10 x31 | s96 => DD x10 x32 | s97 => DD x10 x33 | s98 => DD x10 x34 | s99 => DD x10 x35 | s100 => DD x10 x36 | s101 => DD x10 x37 | s102 => DD x10 x38 | s103 => DD x10 x39 | s104 => DD x10 x40 | s105 => DD x10 x41 | s106 => DD x10 x42 | s107 => DD x10 x43 | s108 => DD x10 x44 | s109 => DD x10 x45 | s110 => DD x10 x46 | s111 => DD x10 x47 | s112 => DD x10 x48 | s113 => DD x10 x49 | s114 => DD x10 x50 | s115 => DD x10 x51 | s116 => DD x10 x52 | s117 => DD x10 x53 | s118 => DD x10 x54 | s119 => DD x10 x55 | s120 => DD x10 x56 | s121 => DD x10 x57 | s122 => DD x10 x58 | s123 => DD x10 x59 | s124 => DD x10 x60 | s125 => DD x10 x61 | s126 => DD x10 x62 end.
Definition m578 (c : sum2) : dd := match c with s0 => DD x9 x2 | s1 => DD x9 x3 | s2 => DD x9 x4 | s3 => DD x9 x5 | s4 => DD x9 x6 | s5 => DD x9 x7 | s6 => DD x9 x8 | s7 => DD x9 x9 | s8 => DD x9 x10 | s9 => DD x9 x11 | s10 => DD x9 x12 | s11 => DD x9 x13 | s12 => DD x9 x14 | s13 => DD x9 x15 | s14 => DD x9 x16 | s15 => DD x9 x17 | s16 => DD x9 x18 | s17 => DD x9 x19 | s18 => DD x9 x20 | s19 => DD x9 x21 | s20 => DD x9 x22 | s21 => DD x9 x23 | s22 => DD x9 x24 | s23 => DD x9 x25 | s24 => DD x9 x26 | s25 => DD x9 x27 | s26 => DD x9 x28 | s27 => DD x9 x29 | s28 => DD x9 x30 | s29 => DD x9 x31 | s30 => DD x9 x32 | s31 => DD x9 x33 | s32 => DD x9 x34 | s33 => DD x9 x35 | s34 => DD x9 x36 | s35 => DD x9 x37 | s36 => DD x9 x38 | s37 => DD x9 x39 | s38 => DD x9 x40 | s39 => DD x9 x41 | s40 => DD x9 x42 | s41 => DD x9 x43 | s42 => DD x9 x44 | s43 => DD x9 x45 | s44 => DD x9 x46 | s45 => DD x9 x47 | s46 => DD x9 x48 | s47 => DD x9 x49 | s48 => DD x9 x50 | s49 => DD x9 x51 | s50 => DD x9 x52 | s51 => DD x9 x53 | s52 => DD x9 x54 | s53 => DD x9 x55 | s54 => DD x9 x56 | s55 => DD x9 x57 | s56 => DD x9 x58 | s57 => DD x9 x59 | s58 => DD x9 x60 | s59 => DD x9 x61 | s60 => DD x9 x62 | s61 => DD x9 x63 | s62 => DD x10 x0 | s63 => DD x10 x1 | s64 => DD x10 x2 | s65 => DD x10 x3 | s66 => DD x10 x4 | s67 => DD x10 x5 | s68 => DD x10 x6 | s69 => DD x10 x7 | s70 => DD x10 x8 | s71 => DD x10 x9 | s72 => DD x10 x10 | s73 => DD x10 x11 | s74 => DD x10 x12 | s75 => DD x10 x13 | s76 => DD x10 x14 | s77 => DD x10 x15 | s78 => DD x10 x16 | s79 => DD x10 x17 | s80 => DD x10 x18 | s81 => DD x10 x19 | s82 => DD x10 x20 | s83 => DD x10 x21 | s84 => DD x10 x22 | s85 => DD x10 x23 | s86 => DD x10 x24 | s87 => DD x10 x25 | s88 => DD x10 x26 | s89 => DD x10 x27 | s90 => DD x10 x28 | s91 => DD x10 x29 | s92 => DD x10 x30 | s93 => DD x10 x31 | s94 => DD x10 x32 | s95 => DD x10 x33 | s96 => DD x10 x34 | s97 => DD x10 x35 | s98 => DD x10 x36 | s99 => DD x10 x37 | s100 => DD x10 x38 | s101 => DD x10 x39 | s102 => DD x10 x40 | s103 => DD x10 x41 | s104 => DD x10 x42 | s105 => DD x10 x43 | s106 => DD x10 x44 | s107 => DD x10 x45 | s108 => DD x10 x46 | s109 => DD x10 x47 | s110 => DD x10 x48 | s111 => DD x10 x49 | s112 => DD x10 x50 | s113 => DD x10 x51 | s114 => DD x10 x52 | s115 => DD x10 x53 | s116 => DD x10 x54 | s117 => DD x10 x55 | s118 => DD x10 x56 | s119 => DD x10 x57 | s120 => DD x10 x58 | s121 => DD x10 x59 | s122 => DD x10 x60 | s123 => DD x10 x61 | s124 => DD x10 x62 | s125 => DD x10 x63 | s126 => DD x11 x0 end.
Definition m580 (c : sum2) : dd := match c with s0 => DD x9 x4 | s1 => DD x9 x5 | s2 => DD x9 x6 | s3 => DD x9 x7 | s4 => DD x9 x8 | s5 => DD x9 x9 | s6 => DD x9 x10 | s7 => DD x9 x11 | s8 => DD x9 x12 | s9 => DD x9 x13 | s10 => DD x9 x14 | s11 => DD x9 x15 | s12 => DD x9 x16 | s13 => DD x9 x17 | s14 => DD x9 x18 | s15 => DD x9 x19 | s16 => DD x9 x20 | s17 => DD x9 x21 | s18 => DD x9 x22 | s19 => DD x9 x23 | s20 => DD x9 x24 | s21 => DD x9 x25 | s22 => DD x9 x26 | s23 => DD x9 x27 | s24 => DD x9 x28 | s25 => DD x9 x29 | s26 => DD x9 x30 | s27 => DD x9 x31 | s28 => DD x9 x32 | s29 => DD x9 x33 | s30 => DD x9 x34 | s31 => DD x9 x35 | s32 => DD x9 x36 | s33 => DD x9 x37 | s34 => DD x9 x38 | s35 => DD x9 x39 | s36 => DD x9 x40 | s37 => DD x9 x41 | s38 => DD x9 x42 | s39 => DD x9 x43 | s40 => DD x9 x44 | s41 => DD x9 x45 | s42 => DD x9 x46 | s43 => DD x9 x47 | s44 => DD x9 x48 | s45 => DD x9 x49 | s46 => DD x9 x50 | s47 => DD x9 x51 | s48 => DD x9 x52 | s49 => DD x9 x53 | s50 => DD x9 x54 | s51 => DD x9 x55 | s52 => DD x9 x56 | s53 => DD x9 x57 | s54 => DD x9 x58 | s55 => DD x9 x59 | s56 => DD x9 x60 | s57 => DD x9 x61 | s58 => DD x9 x62 | s59 => DD x9 x63 | s60 => DD x10 x0 | s61 => DD x10 x1 | s62 => DD x10 x2 | s63 => DD x10 x3 | s64 => DD x10 x4 | s65 => DD x10 x5 | s66 => DD x10 x6 | s67 => DD x10 x7 | s68 => DD x10 x8 | s69 => DD x10 x9 | s70 => DD x10 x10 | s71 => DD x10 x11 | s72 => DD x10 x12 | s73 => DD x10 x13 | s74 => DD x10 x14 | s75 => DD x10 x15 | s76 => DD x10 x16 | s77 => DD x10 x17 | s78 => DD x10 x18 | s79 => DD x10 x19 | s80 => DD x10 x20 | s81 => DD x10 x21 | s82 => DD x10 x22 | s83 => DD x10 x23 | s84 => DD x10 x24 | s85 => DD x10 x25 | s86 => DD x10 x26 | s87 => DD x10 x27 | s88 => DD x10 x28 | s89 => DD x10 x29 | s90 => DD x10 x30 | s91 => DD x10 x31 | s92 => DD x10 x32 | s93 => DD x10 x33 | s94 => DD x10 x34 | s95 => DD x10 x35 | s96 => DD x10 x36 | s97 => DD x10 x37 | s98 => DD x10 x38 | s99 => DD x10 x39 | s100 => DD x10 x40 | s101 => DD x10 x41 | s102 => DD x10 x42 | s103 => DD x10 x43 | s104 => DD x10 x44 | s105 => DD x10 x45 | s106 => DD x10 x46 | s107 => DD x10 x47 | s108 => DD x10 x48 | s109 => DD x10 x49 | s110 => DD x10 x50 | s111 => DD x10 x51 | s112 => DD x10 x52 | s113 => DD x10 x53 | s114 => DD x10 x54 | s115 => DD x10 x55 | s116 => DD x10 x56 | s117 => DD x10 x57 | s118 => DD x10 x58 | s119 => DD x10 x59 | s120 => DD x10 x60 | s121 => DD x10 x61 | s122 => DD x10 x62 | s123 => DD x10 x63 | s124 => DD x11 x0 | s125 => DD x11 x1 | s126 => DD x11 x2 end.
Definition m583 (c : sum2) : dd := match c with s0 => DD x9 x7 | s1 => DD x9 x8 | s2 => DD x9 x9 | s3 => DD x9 x10 | s4 => DD x9 x11 | s5 => DD x9 x12 | s6 => DD x9 x13 | s7 => DD x9 x14 | s8 => DD x9 x15 | s9 => DD x9 x16 | s10 => DD x9 x17 | s11 => DD x9 x18 | s12 => DD x9 x19 | s13 => DD x9 x20 | s14 => DD x9 x21 | s15 => DD x9 x22 | s16 => DD x9 x23 | s17 => DD x9 x24 | s18 => DD x9 x25 | s19 => DD x9 x26 | s20 => DD x9 x27 | s21 => DD x9 x28 | s22 => DD x9 x29 | s23 => DD x9 x30 | s24 => DD x9 x31 | s25 => DD x9 x32 | s26 => DD x9 x33 | s27 => DD x9 x34 | s28 => DD x9 x35 | s29 => DD x9 x36 | s30 => DD x9 x37 | s31 => DD x9 x38 | s32 => DD x9 x39 | s33 => DD x9 x40 | s34 => DD x9 x41 | s35 => DD x9 x42 | s36 => DD x9 x43 | s37 => DD x9 x44 | s38 => DD x9 x45 | s39 => DD x9 x46 | s40 => DD x9 x47 | s41 => DD x9 x48 | s42 => DD x9 x49 | s43 => DD x9 x50 | s44 => DD x9 x51 | s45 => DD x9 x52 | s46 => DD x9 x53 | s47 => DD x9 x54 | s48 => DD x9 x55 | s49 => DD x9 x56 | s50 => DD x9 x57 | s51 => DD x9 x58 | s52 => DD x9 x59 | s53 => DD x9 x60 | s54 => DD x9 x61 | s55 => DD x9 x62 | s56 => DD x9 x63 | s57 => DD x10 x0 | s58 => DD x10 x1 | s59 => DD x10 x2 | s60 => DD x10 x3 | s61 => DD x10 x4 | s62 => DD x10 x5 | s63 => DD x10 x6 | s64 => DD x10 x7 | s65 => DD x10 x8 | s66 => DD x10 x9 | s67 => DD x10 x10 | s68 => DD x10 x11 | s69 => DD x10 x12 | s70 => DD x10 x13 | s71 => DD x10 x14 | s72 => DD x10 x15 | s73 => DD x10 x16 | s74 => DD x10 x17 | s75 => DD x10 x18 | s76 => DD x10 x19 | s77 => DD x10 x20 | s78 => DD x10 x21 | s79 => DD x10 x22 | s80 => DD x10 x23 | s81 => DD x10 x24 | s82 => DD x10 x25 | s83 => DD x10 x26 | s84 => DD x10 x27 | s85 => DD x10 x28 | s86 => DD x10 x29 | s87 => DD x10 x30 | s88 => DD x10 x31 | s89 => DD x10 x32 | s90 => DD x10 x33 | s91 => DD x10 x34 | s92 => DD x10 x35 | s93 => DD x10 x36 | s94 => DD x10 x37 | s95 => DD x10 x38 | s96 => DD x10 x39 | s97 => DD x10 x40 | s98 => DD x10 x41 | s99 => DD x10 x42 | s100 => DD x10 x43 | s101 => DD x10 x44 | s102 => DD x10 x45 | s103 => DD x10 x46 | s104 => DD x10 x47 | s105 => DD x10 x48 | s106 => DD x10 x49 | s107 => DD x10 x50 | s108 => DD x10 x51 | s109 => DD x10 x52 | s110 => DD x10 x53 | s111 => DD x10 x54 | s112 => DD x10 x55 | s113 => DD x10 x56 | s114 => DD x10 x57 | s115 => DD x10 x58 | s116 => DD x10 x59 | s117 => DD x10 x60 | s118 => DD x10 x61 | s119 => DD x10 x62 | s120 => DD x10 x63 | s121 => DD x11 x0 | s122 => DD x11 x1 | s123 => DD x11 x2 | s124 => DD x11 x3 | s125 => DD x11 x4 | s126 => DD x11 x5 end.
Definition m585 (c : sum2) : dd := match c with s0 => DD x9 x9 | s1 => DD x9 x10 | s2 => DD x9 x11 | s3 => DD x9 x12 | s4 => DD x9 x13 | s5 => DD x9 x14 | s6 => DD x9 x15 | s7 => DD x9 x16 | s8 => DD x9 x17 | s9 => DD x9 x18 | s10 => DD x9 x19 | s11 => DD x9 x20 | s12 => DD x9 x21 | s13 => DD x9 x22 | s14 => DD x9 x23 | s15 => DD x9 x24 | s16 => DD x9 x25 | s17 => DD x9 x26 | s18 => DD x9 x27 | s19 => DD x9 x28 | s20 => DD x9 x29 | s21 => DD x9 x30 | s22 => DD x9 x31 | s23 => DD x9 x32 | s24 => DD x9 x33 | s25 => DD x9 x34 | s26 => DD x9 x35 | s27 => DD x9 x36 | s28 => DD x9 x37 | s29 => DD x9 x38 | s30 => DD x9 x39 | s31 => DD x9 x40 | s32 => DD x9 x41 | s33 => DD x9 x42 | s34 => DD x9 x43 | s35 => DD x9 x44 | s36 => DD x9 x45 | s37 => DD x9 x46 | s38 => DD x9 x47 | s39 => DD x9 x48 | s40 => DD x9 x49 | s41 => DD x9 x50 | s42 => DD x9 x51 | s43 => DD x9 x52 | s44 => DD x9 x53 | s45 => DD x9 x54 | s46 => DD x9 x55 | s47 => DD x9 x56 | s48 => DD x9 x57 | s49 => DD x9 x58 | s50 => DD x9 x59 | s51 => DD x9 x60 | s52 => DD x9 x61 | s53 => DD x9 x62 | s54 => DD x9 x63 | s55 => DD x10 x0 | s56 => DD x10 x1 | s57 => DD x10 x2 | s58 => DD x10 x3 | s59 => DD x10 x4 | s60 => DD x10 x5 | s61 => DD x10 x6 | s62 => DD x10 x7 | s63 => DD x10 x8 | s64 => DD x10 x9 | s65 => DD x10 x10 | s66 => DD x10 x11 | s67 => DD x10 x12 | s68 => DD x10 x13 | s69 => DD x10 x14 | s70 => DD x10 x15 | s71 => DD x10 x16 | s72 => DD x10 x17 | s73 => DD x10 x18 | s74 => DD x10 x19 | s75 => DD x10 x20 | s76 => DD x10 x21 | s77 => DD x10 x22 | s78 => DD x10 x23 | s79 => DD x10 x24 | s80 => DD x10 x25 | s81 => DD x10 x26 | s82 => DD x10 x27 | s83 => DD x10 x28 | s84 => DD x10 x29 | s85 => DD x10 x30 | s86 => DD x10 x31 | s87 => DD x10 x32 | s88 => DD x10 x33 | s89 => DD x10 x34 | s90 => DD x10 x35 | s91 => DD x10 x36 | s92 => DD x10 x37 | s93 => DD x10 x38 | s94 => DD x10 x39 | s95 => DD x10 x40 | s96 => DD x10 x41 | s97 => DD x10 x42 | s98 => DD x10 x43 | s99 => DD x10 x44 | s100 => DD x10 x45 | s101 => DD x10 x46 | s102 => DD x10 x47 | s103 => DD x10 x48 | s104 => DD x10 x49 | s105 => DD x10 x50 | s106 => DD x10 x51 | s107 => DD x10 x52 | s108 => DD x10 x53 | s109 => DD x10 x54 | s110 => DD x10 x55 | s111 => DD x10 x56 | s112 => DD x10 x57 | s113 => DD x10 x58 | s114 => DD x10 x59 | s115 => DD x10 x60 | s116 => DD x10 x61 | s117 => DD x10 x62 | s118 => DD x10 x63 | s119 => DD x11 x0 | s120 => DD x11 x1 | s121 => DD x11 x2 | s122 => DD x11 x3 | s123 => DD x11 x4 | s124 => DD x11 x5 | s125 => DD x11 x6 | s126 => DD x11 x7 end.
Definition m588 (c : sum2) : dd := match c with s0 => DD x9 x12 | s1 => DD x9 x13 | s2 => DD x9 x14 | s3 => DD x9 x15 | s4 => DD x9 x16 | s5 => DD x9 x17 | s6 => DD x9 x18 | s7 => DD x9 x19 | s8 => DD x9 x20 | s9 => DD x9 x21 | s10 => DD x9 x22 | s11 => DD x9 x23 | s12 => DD x9 x24 | s13 => DD x9 x25 | s14 => DD x9 x26 | s15 => DD x9 x27 | s16 => DD x9 x28 | s17 => DD x9 x29 | s18 => DD x9 x30 | s19 => DD x9 x31 | s20 => DD x9 x32 | s21 => DD x9 x33 | s22 => DD x9 x34 | s23 => DD x9 x35 | s24 => DD x9 x36 | s25 => DD x9 x37 | s26 => DD x9 x38 | s27 => DD x9 x39 | s28 => DD x9 x40 | s29 => DD x9 x41 | s30 => DD x9 x42 | s31 => DD x9 x43 | s32 => DD x9 x44 | s33 => DD x9 x45 | s34 => DD x9 x46 | s35 => DD x9 x47 | s36 => DD x9 x48 | s37 => DD x9 x49 | s38 => DD x9 x50 | s39 => DD x9 x51 | s40 => DD x9 x52 | s41 => DD x9 x53 | s42 => DD x9 x54 | s43 => DD x9 x55 | s44 => DD x9 x56 | s45 => DD x9 x57 | s46 => DD x9 x58 | s47 => DD x9 x59 | s48 => DD x9 x60 | s49 => DD x9 x61 | s50 => DD x9 x62 | s51 => DD x9 x63 | s52 => DD x10 x0 | s53 => DD x10 x1 | s54 => DD x10 x2 | s55 => DD x10 x3 | s56 => DD x10 x4 | s57 => DD x10 x5 | s58 => DD x10 x6 | s59 => DD x10 x7 | s60 => DD x10 x8 | s61 => DD x10 x9 | s62 => DD x10 x10 | s63 => DD x10 x11 | s64 => DD x10 x12 | s65 => DD x10 x13 | s66 => DD x10 x14 | s67 => DD x10 x15 | s68 => DD x10 x16 | s69 => DD x10 x17 | s70 => DD x10 x18 | s71 => DD x10 x19 | s72 => DD x10 x20 | s73 => DD x10 x21 | s74 => DD x10 x22 | s75 => DD x10 x23 | s76 => DD x10 x24 | s77 => DD x10 x25 | s78 => DD x10 x26 | s79 => DD x10 x27 | s80 => DD x10 x28 | s81 => DD x10 x29 | s82 => DD x10 x30 | s83 => DD x10 x31 | s84 => DD x10 x32 | s85 => DD x10 x33 | s86 => DD x10 x34 | s87 => DD x10 x35 | s88 => DD x10 x36 | s89 => DD x10 x37 | s90 => DD x10 x38 | s91 => DD x10 x39 | s92 => DD x10 x40 | s93 => DD x10 x41 | s94 => DD x10 x42 | s95 => DD x10 x43 | s96 => DD x10 x44 | s97 => DD x10 x45 | s98 => DD x10 x46 | s99 => DD x10 x47 | s100 => DD x10 x48 | s101 => DD x10 x49 | s102 => DD x10 x50 | s103 => DD x10 x51 | s104 => DD x10 x52 | s105 => DD x10 x53 | s106 => DD x10 x54 | s107 => DD x10 x55 | s108 => DD x10 x56 | s109 => DD x10 x57 | s110 => DD x10 x58 | s111 => DD x10 x59 | s112 => DD x10 x60 | s113 => DD x10 x61 | s114 => DD x10 x62 | s115 => DD x10 x63 | s116 => DD x11 x0 | s117 => DD x11 x1 | s118 => DD x11 x2 | s119 => DD x11 x3 | s120 => DD x11 x4 | s121 => DD x11 x5 | s122 => DD x11 x6 | s123 => DD x11 x7 | s124 => DD x11 x8 | s125 => DD x11 x9 | s126 => DD x11 x10 end.
Definition m589 (c : sum2) : dd := match c with s0 => DD x9 x13 | s1 => DD x9 x14 | s2 => DD x9 x15 | s3 => DD x9 x16 | s4 => DD x9 x17 | s5 => DD x9 x18 | s6 => DD x9 x19 | s7 => DD x9 x20 | s8 => DD x9 x21 | s9 => DD x9 x22 | s10 => DD x9 x23 | s11 => DD x9 x24 | s12 => DD x9 x25 | s13 => DD x9 x26 | s14 => DD x9 x27 | s15 => DD x9 x28 | s16 => DD x9 x29 | s17 => DD x9 x30 | s18 => DD x9 x31 | s19 => DD x9 x32 | s20 => DD x9 x33 | s21 => DD x9 x34 | s22 => DD x9 x35 | s23 => DD x9 x36 | s24 => DD x9 x37 | s25 => DD x9 x38 | s26 => DD x9 x39 | s27 => DD x9 x40 | s28 => DD x9 x41 | s29 => DD x9 x42 | s30 => DD x9 x43 | s31 => DD x9 x44 | s32 => DD x9 x45 | s33 => DD x9 x46 | s34 => DD x9 x47 | s35 => DD x9 x48 | s36 => DD x9 x49 | s37 => DD x9 x50 | s38 => DD x9 x51 | s39 => DD x9 x52 | s40 => DD x9 x53 | s41 => DD x9 x54 | s42 => DD x9 x55 | s43 => DD x9 x56 | s44 => DD x9 x57 | s45 => DD x9 x58 | s46 => DD x9 x59 | s47 => DD x9 x60 | s48 => DD x9 x61 | s49 => DD x9 x62 | s50 => DD x9 x63 | s51 => DD x10 x0 | s52 => DD x10 x1 | s53 => DD x10 x2 | s54 => DD x10 x3 | s55 => DD x10 x4 | s56 => DD x10 x5 | s57 => DD x10 x6 | s58 => DD x10 x7 | s59 => DD x10 x8 | s60 => DD x10 x9 | s61 => DD x10 x10 | s62 => DD x10 x11 | s63 => DD x10 x12 | s64 => DD x10 x13 | s65 => DD x10 x14 | s66 => DD x10 x15 | s67 => DD x10 x16 | s68 => DD x10 x17 | s69 => DD x10 x18 | s70 => DD x10 x19 | s71 => DD x10 x20 | s72 => DD x10 x21 | s73 => DD x10 x22 | s74 => DD x10 x23 | s75 => DD x10 x24 | s76 => DD x10 x25 | s77 => DD x10 x26 | s78 => DD x10 x27 | s79 => DD x10 x28 | s80 => DD x10 x29 | s81 => DD x10 x30 | s82 => DD x10 x31 | s83 => DD x10 x32 | s84 => DD x10 x33 | s85 => DD x10 x34 | s86 => DD x10 x35 | s87 => DD x10 x36 | s88 => DD x10 x37 | s89 => DD x10 x38 | s90 => DD x10 x39 | s91 => DD x10 x40 | s92 => DD x10 x41 | s93 => DD x10 x42 | s94 => DD x10 x43 | s95 => DD x10 x44 | s96 => DD x10 x45 | s97 => DD x10 x46 | s98 => DD x10 x47 | s99 => DD x10 x48 | s100 => DD x10 x49 | s101 => DD x10 x50 | s102 => DD x10 x51 | s103 => DD x10 x52 | s104 => DD x10 x53 | s105 => DD x10 x54 | s106 => DD x10 x55 | s107 => DD x10 x56 | s108 => DD x10 x57 | s109 => DD x10 x58 | s110 => DD x10 x59 | s111 => DD x10 x60 | s112 => DD x10 x61 | s113 => DD x10 x62 | s114 => DD x10 x63 | s115 => DD x11 x0 | s116 => DD x11 x1 | s117 => DD x11 x2 | s118 => DD x11 x3 | s119 => DD x11 x4 | s120 => DD x11 x5 | s121 => DD x11 x6 | s122 => DD x11 x7 | s123 => DD x11 x8 | s124 => DD x11 x9 | s125 => DD x11 x10 | s126 => DD x11 x11 end.
Definition m590 (c : sum2) : dd := match c with s0 => DD x9 x14 | s1 => DD x9 x15 | s2 => DD x9 x16 | s3 => DD x9 x17 | s4 => DD x9 x18 | s5 => DD x9 x19 | s6 => DD x9 x20 | s7 => DD x9 x21 | s8 => DD x9 x22 | s9 => DD x9 x23 | s10 => DD x9 x24 | s11 => DD x9 x25 | s12 => DD x9 x26 | s13 => DD x9 x27 | s14 => DD x9 x28 | s15 => DD x9 x29 | s16 => DD x9 x30 | s17 => DD x9 x31 | s18 => DD x9 x32 | s19 => DD x9 x33 | s20 => DD x9 x34 | s21 => DD x9 x35 | s22 => DD x9 x36 | s23 => DD x9 x37 | s24 => DD x9 x38 | s25 => DD x9 x39 | s26 => DD x9 x40 | s27 => DD x9 x41 | s28 => DD x9 x42 | s29 => DD x9 x43 | s30 => DD x9 x44 | s31 => DD x9 x45 | s32 => DD x9 x46 | s33 => DD x9 x47 | s34 => DD x9 x48 | s35 => DD x9 x49 | s36 => DD x9 x50 | s37 => DD x9 x51 | s38 => DD x9 x52 | s39 => DD x9 x53 | s40 => DD x9 x54 | s41 => DD x9 x55 | s42 => DD x9 x56 | s43 => DD x9 x57 | s44 => DD x9 x58 | s45 => DD x9 x59 | s46 => DD x9 x60 | s47 => DD x9 x61 | s48 => DD x9 x62 | s49 => DD x9 x63 | s50 => DD x10 x0 | s51 => DD x10 x1 | s52 => DD x10 x2 | s53 => DD x10 x3 | s54 => DD x10 x4 | s55 => DD x10 x5 | s56 => DD x10 x6 | s57 => DD x10 x7 | s58 => DD x10 x8 | s59 => DD x10 x9 | s60 => DD x10 x10 | s61 => DD x10 x11 | s62 => DD x10 x12 | s63 => DD x10 x13 | s64 => DD x10 x14 | s65 => DD x10 x15 | s66 => DD x10 x16 | s67 => DD x10 x17 | s68 => DD x10 x18 | s69 => DD x10 x19 | s70 => DD x10 x20 | s71 => DD x10 x21 | s72 => DD x10 x22 | s73 => DD x10 x23 | s74 => DD x10 x24 | s75 => DD x10 x25 | s76 => DD x10 x26 | s77 => DD x10 x27 | s78 => DD x10 x28 | s79 => DD x10 x29 | s80 => DD x10 x30 | s81 => DD x10 x31 | s82 => DD x10 x32 | s83 => DD x10 x33 | s84 => DD x10 x34 | s85 => DD x10 x35 | s86 => DD x10 x36 | s87 => DD x10 x37 | s88 => DD x10 x38 | s89 => DD x10 x39 | s90 => DD x10 x40 | s91 => DD x10 x41 | s92 => DD x10 x42 | s93 => DD x10 x43 | s94 => DD x10 x44 | s95 => DD x10 x45 | s96 => DD x10 x46 | s97 => DD x10 x47 | s98 => DD x10 x48 | s99 => DD x10 x49 | s100 => DD x10 x50 | s101 => DD x10 x51 | s102 => DD x10 x52 | s103 => DD x10 x53 | s104 => DD x10 x54 | s105 => DD x10 x55 | s106 => DD x10 x56 | s107 => DD x10 x57 | s108 => DD x10 x58 | s109 => DD x10 x59 | s110 => DD x10 x60 | s111 => DD x10 x61 | s112 => DD x10 x62 | s113 => DD x10 x63 | s114 => DD x11 x0 | s115 => DD x11 x1 | s116 => DD x11 x2 | s117 => DD x11 x3 | s118 => DD x11 x4 | s119 => DD x11 x5 | s120 => DD x11 x6 | s121 => DD x11 x7 | s122 => DD x11 x8 | s123 => DD x11 x9 | s124 => DD x11 x10 | s125 => DD x11 x11 | s126 => DD x11 x12 end.
Definition m592 (c : sum2) : dd := match c with s0 => DD x9 x16 | s1 => DD x9 x17 | s2 => DD x9 x18 | s3 => DD x9 x19 | s4 => DD x9 x20 | s5 => DD x9 x21 | s6 => DD x9 x22 | s7 => DD x9 x23 | s8 => DD x9 x24 | s9 => DD x9 x25 | s10 => DD x9 x26 | s11 => DD x9 x27 | s12 => DD x9 x28 | s13 => DD x9 x29 | s14 => DD x9 x30 | s15 => DD x9 x31 | s16 => DD x9 x32 | s17 => DD x9 x33 | s18 => DD x9 x34 | s19 => DD x9 x35 | s20 => DD x9 x36 | s21 => DD x9 x37 | s22 => DD x9 x38 | s23 => DD x9 x39 | s24 => DD x9 x40 | s25 => DD x9 x41 | s26 => DD x9 x42 | s27 => DD x9 x43 | s28 => DD x9 x44 | s29 => DD x9 x45 | s30 => DD x9 x46 | s31 => DD x9 x47 | s32 => DD x9 x48 | s33 => DD x9 x49 | s34 => DD x9 x50 | s35 => DD x9 x51 | s36 => DD x9 x52 | s37 => DD x9 x53 | s38 => DD x9 x54 | s39 => DD x9 x55 | s40 => DD x9 x56 | s41 => DD x9 x57 | s42 => DD x9 x58 | s43 => DD x9 x59 | s44 => DD x9 x60 | s45 => DD x9 x61 | s46 => DD x9 x62 | s47 => DD x9 x63 | s48 => DD x10 x0 | s49 => DD x10 x1 | s50 => DD x10 x2 | s51 => DD x10 x3 | s52 => DD x10 x4 | s53 => DD x10 x5 | s54 => DD x10 x6 | s55 => DD x10 x7 | s56 => DD x10 x8 | s57 => DD x10 x9 | s58 => DD x10 x10 | s59 => DD x10 x11 | s60 => DD x10 x12 | s61 => DD x10 x13 | s62 => DD x10 x14 | s63 => DD x10 x15 | s64 => DD x10 x16 | s65 => DD x10 x17 | s66 => DD x10 x18 | s67 => DD x10 x19 | s68 => DD x10 x20 | s69 => DD x10 x21 | s70 => DD x10 x22 | s71 => DD x10 x23 | s72 => DD x10 x24 | s73 => DD x10 x25 | s74 => DD x10 x26 | s75 => DD x10 x27 | s76 => DD x10 x28 | s77 => DD x10 x29 | s78 => DD x10 x30 | s79 => DD x10 x31 | s80 => DD x10 x32 | s81 => DD x10 x33 | s82 => DD x10 x34 | s83 => DD x10 x35 | s84 => DD x10 x36 | s85 => DD x10 x37 | s86 => DD x10 x38 | s87 => DD x10 x39 | s88 => DD x10 x40 | s89 => DD x10 x41 | s90 => DD x10 x42 | s91 => DD x10 x43 | s92 => DD x10 x44 | s93 => DD x10 x45 | s94 => DD x10 x46 | s95 => DD x10 x47 | s96 => DD x10 x48 | s97 => DD x10 x49 | s98 => DD x10 x50 | s99 => DD x10 x51 | s100 => DD x10 x52 | s101 => DD x10 x53 | s102 => DD x10 x54 | s103 => DD x10 x55 | s104 => DD x10 x56 | s105 => DD x10 x57 | s106 => DD x10 x58 | s107 => DD x10 x59 | s108 => DD x10 x60 | s109 => DD x10 x61 | s110 => DD x10 x62 | s111 => DD x10 x63 | s112 => DD x11 x0 | s113 => DD x11 x1 | s114 => DD x11 x2 | s115 => DD x11 x3 | s116 => DD x11 x4 | s117 => DD x11 x5 | s118 => DD x11 x6 | s119 => DD x11 x7 | s120 => DD x11 x8 | s121 => DD x11 x9 | s122 => DD x11 x10 | s123 => DD x11 x11 | s124 => DD x11 x12 | s125 => DD x11 x13 | s126 => DD x11 x14 end.
Definition m594 (c : sum2) : dd := match c with s0 => DD x9 x18 | s1 => DD x9 x19 | s2 => DD x9 x20 | s3 => DD x9 x21 | s4 => DD x9 x22 | s5 => DD x9 x23 | s6 => DD x9 x24 | s7 => DD x9 x25 | s8 => DD x9 x26 | s9 => DD x9 x27 | s10 => DD x9 x28 | s11 => DD x9 x29 | s12 => DD x9 x30 | s13 => DD x9 x31 | s14 => DD x9 x32 | s15 => DD x9 x33 | s16 => DD x9 x34 | s17 => DD x9 x35 | s18 => DD x9 x36 | s19 => DD x9 x37 | s20 => DD x9 x38 | s21 => DD x9 x39 | s22 => DD x9 x40 | s23 => DD x9 x41 | s24 => DD x9 x42 | s25 => DD x9 x43 | s26 => DD x9 x44 | s27 => DD x9 x45 | s28 => DD x9 x46 | s29 => DD x9 x47 | s30 => DD x9 x48 | s31 => DD x9 x49 | s32 => DD x9 x50 | s33 => DD x9 x51 | s34 => DD x9 x52 | s35 => DD x9 x53 | s36 => DD x9 x54 | s37 => DD x9 x55 | s38 => DD x9 x56 | s39 => DD x9 x57 | s40 => DD x9 x58 | s41 => DD x9 x59 | s42 => DD x9 x60 | s43 => DD x9 x61 | s44 => DD x9 x62 | s45 => DD x9 x63 | s46 => DD x10 x0 | s47 => DD x10 x1 | s48 => DD x10 x2 | s49 => DD x10 x3 | s50 => DD x10 x4 | s51 => DD x10 x5 | s52 => DD x10 x6 | s53 => DD x10 x7 | s54 => DD x10 x8 | s55 => DD x10 x9 | s56 => DD x10 x10 | s57 => DD x10 x11 | s58 => DD x10 x12 | s59 => DD x10 x13 | s60 => DD x10 x14 | s61 => DD x10 x15 | s62 => DD x10 x16 | s63 => DD x10 x17 | s64 => DD x10 x18 | s65 => DD x10 x19 | s66 => DD x10 x20 | s67 => DD x10 x21 | s68 => DD x10 x22 | s69 => DD x10 x23 | s70 => DD x10 x24 | s71 => DD x10 x25 | s72 => DD x10 x26 | s73 => DD x10 x27 | s74 => DD x10 x28 | s75 => DD x10 x29 | s76 => DD x10 x30 | s77 => DD x10 x31 | s78 => DD x10 x32 | s79 => DD x10 x33 | s80 => DD x10 x34 | s81 => DD x10 x35 | s82 => DD x10 x36 | s83 => DD x10 x37 | s84 => DD x10 x38 | s85 => DD x10 x39 | s86 => DD x10 x40 | s87 => DD x10 x41 | s88 => DD x10 x42 | s89 => DD x10 x43 | s90 => DD x10 x44 | s91 => DD x10 x45 | s92 => DD x10 x46 | s93 => DD x10 x47 | s94 => DD x10 x48 | s95 => DD x10 x49 | s96 => DD x10 x50 | s97 => DD x10 x51 | s98 => DD x10 x52 | s99 => DD x10 x53 | s100 => DD x10 x54 | s101 => DD x10 x55 | s102 => DD x10 x56 | s103 => DD x10 x57 | s104 => DD x10 x58 | s105 => DD x10 x59 | s106 => DD x10 x60 | s107 => DD x10 x61 | s108 => DD x10 x62 | s109 => DD x10 x63 | s110 => DD x11 x0 | s111 => DD x11 x1 | s112 => DD x11 x2 | s113 => DD x11 x3 | s114 => DD x11 x4 | s115 => DD x11 x5 | s116 => DD x11 x6 | s117 => DD x11 x7 | s118 => DD x11 x8 | s119 => DD x11 x9 | s120 => DD x11 x10 | s121 => DD x11 x11 | s122 => DD x11 x12 | s123 => DD x11 x13 | s124 => DD x11 x14 | s125 => DD x11 x15 | s126 => DD x11 x16 end.
Definition m595 (c : sum2) : dd := match c with s0 => DD x9 x19 | s1 => DD x9 x20 | s2 => DD x9 x21 | s3 => DD x9 x22 | s4 => DD x9 x23 | s5 => DD x9 x24 | s6 => DD x9 x25 | s7 => DD x9 x26 | s8 => DD x9 x27 | s9 => DD x9 x28 | s10 => DD x9 x29 | s11 => DD x9 x30 | s12 => DD x9 x31 | s13 => DD x9 x32 | s14 => DD x9 x33 | s15 => DD x9 x34 | s16 => DD x9 x35 | s17 => DD x9 x36 | s18 => DD x9 x37 | s19 => DD x9 x38 | s20 => DD x9 x39 | s21 => DD x9 x40 | s22 => DD x9 x41 | s23 => DD x9 x42 | s24 => DD x9 x43 | s25 => DD x9 x44 | s26 => DD x9 x45 | s27 => DD x9 x46 | s28 => DD x9 x47 | s29 => DD x9 x48 | s30 => DD x9 x49 | s31 => DD x9 x50 | s32 => DD x9 x51 | s33 => DD x9 x52 | s34 => DD x9 x53 | s35 => DD x9 x54 | s36 => DD x9 x55 | s37 => DD x9 x56 | s38 => DD x9 x57 | s39 => DD x9 x58 | s40 => DD x9 x59 | s41 => DD x9 x60 | s42 => DD x9 x61 | s43 => DD x9 x62 | s44 => DD x9 x63 | s45 => DD x10 x0 | s46 => DD x10 x1 | s47 => DD x10 x2 | s48 => DD x10 x3 | s49 => DD x10 x4 | s50 => DD x10 x5 | s51 => DD x10 x6 | s52 => DD x10 x7 | s53 => DD x10 x8 | s54 => DD x10 x9 | s55 => DD x10 x10 | s56 => DD x10 x11 | s57 => DD x10 x12 | s58 => DD x10 x13 | s59 => DD x10 x14 | s60 => DD x10 x15 | s61 => DD x10 x16 | s62 => DD x10 x17 | s63 => DD x10 x18 | s64 => DD x10 x19 | s65 => DD x10 x20 | s66 => DD x10 x21 | s67 => DD x10 x22 | s68 => DD x10 x23 | s69 => DD x10 x24 | s70 => DD x10 x25 | s71 => DD x10 x26 | s72 => DD x10 x27 | s73 => DD x10 x28 | s74 => DD x10 x29 | s75 => DD x10 x30 | s76 => DD x10 x31 | s77 => DD x10 x32 | s78 => DD x10 x33 | s79 => DD x10 x34 | s80 => DD x10 x35 | s81 => DD x10 x36 | s82 => DD x10 x37 | s83 => DD x10 x38 | s84 => DD x10 x39 | s85 => DD x10 x40 | s86 => DD x10 x41 | s87 => DD x10 x42 | s88 => DD x10 x43 | s89 => DD x10 x44 | s90 => DD x10 x45 | s91 => DD x10 x46 | s92 => DD x10 x47 | s93 => DD x10 x48 | s94 => DD x10 x49 | s95 => DD x10 x50 | s96 => DD x10 x51 | s97 => DD x10 x52 | s98 => DD x10 x53 | s99 => DD x10 x54 | s100 => DD x10 x55 | s101 => DD x10 x56 | s102 => DD x10 x57 | s103 => DD x10 x58 | s104 => DD x10 x59 | s105 => DD x10 x60 | s106 => DD x10 x61 | s107 => DD x10 x62 | s108 => DD x10 x63 | s109 => DD x11 x0 | s110 => DD x11 x1 | s111 => DD x11 x2 | s112 => DD x11 x3 | s113 => DD x11 x4 | s114 => DD x11 x5 | s115 => DD x11 x6 | s116 => DD x11 x7 | s117 => DD x11 x8 | s118 => DD x11 x9 | s119 => DD x11 x10 | s120 => DD x11 x11 | s121 => DD x11 x12 | s122 => DD x11 x13 | s123 => DD x11 x14 | s124 => DD x11 x15 | s125 => DD x11 x16 | s126 => DD x11 x17 end.
Definition m598 (c : sum2) : dd := match c with s0 => DD x9 x22 | s1 => DD x9 x23 | s2 => DD x9 x24 | s3 => DD x9 x25 | s4 => DD x9 x26 | s5 => DD x9 x27 | s6 => DD x9 x28 | s7 => DD x9 x29 | s8 => DD x9 x30 | s9 => DD x9 x31 | s10 => DD x9 x32 | s11 => DD x9 x33 | s12 => DD x9 x34 | s13 => DD x9 x35 | s14 => DD x9 x36 | s15 => DD x9 x37 | s16 => DD x9 x38 | s17 => DD x9 x39 | s18 => DD x9 x40 | s19 => DD x9 x41 | s20 => DD x9 x42 | s21 => DD x9 x43 | s22 => DD x9 x44 | s23 => DD x9 x45 | s24 => DD x9 x46 | s25 => DD x9 x47 | s26 => DD x9 x48 | s27 => DD x9 x49 | s28 => DD x9 x50 | s29 => DD x9 x51 | s30 => DD x9 x52 | s31 => DD x9 x53 | s32 => DD x9 x54 | s33 => DD x9 x55 | s34 => DD x9 x56 | s35 => DD x9 x57 | s36 => DD x9 x58 | s37 => DD x9 x59 | s38 => DD x9 x60 | s39 => DD x9 x61 | s40 => DD x9 x62 | s41 => DD x9 x63 | s42 => DD x10 x0 | s43 => DD x10 x1 | s44 => DD x10 x2 | s45 => DD x10 x3 | s46 => DD x10 x4 | s47 => DD x10 x5 | s48 => DD x10 x6 | s49 => DD x10 x7 | s50 => DD x10 x8 | s51 => DD x10 x9 | s52 => DD x10 x10 | s53 => DD x10 x11 | s54 => DD x10 x12 | s55 => DD x10 x13 | s56 => DD x10 x14 | s57 => DD x10 x15 | s58 => DD x10 x16 | s59 => DD x10 x17 | s60 => DD x10 x18 | s61 => DD x10 x19 | s62 => DD x10 x20 | s63 => DD x10 x21 | s64 => DD x10 x22 | s65 => DD x10 x23 | s66 => DD x10 x24 | s67 => DD x10 x25 | s68 => DD x10 x26 | s69 => DD x10 x27 | s70 => DD x10 x28 | s71 => DD x10 x29 | s72 => DD x10 x30 | s73 => DD x10 x31 | s74 => DD x10 x32 | s75 => DD x10 x33 | s76 => DD x10 x34 | s77 => DD x10 x35 | s78 => DD x10 x36 | s79 => DD x10 x37 | s80 => DD x10 x38 | s81 => DD x10 x39 | s82 => DD x10 x40 | s83 => DD x10 x41 | s84 => DD x10 x42 | s85 => DD x10 x43 | s86 => DD x10 x44 | s87 => DD x10 x45 | s88 => DD x10 x46 | s89 => DD x10 x47 | s90 => DD x10 x48 | s91 => DD x10 x49 | s92 => DD x10 x50 | s93 => DD x10 x51 | s94 => DD x10 x52 | s95 => DD x10 x53 | s96 => DD x10 x54 | s97 => DD x10 x55 | s98 => DD x10 x56 | s99 => DD x10 x57 | s100 => DD x10 x58 | s101 => DD x10 x59 | s102 => DD x10 x60 | s103 => DD x10 x61 | s104 => DD x10 x62 | s105 => DD x10 x63 | s106 => DD x11 x0 | s107 => DD x11 x1 | s108 => DD x11 x2 | s109 => DD x11 x3 | s110 => DD x11 x4 | s111 => DD x11 x5 | s112 => DD x11 x6 | s113 => DD x11 x7 | s114 => DD x11 x8 | s115 => DD x11 x9 | s116 => DD x11 x10 | s117 => DD x11 x11 | s118 => DD x11 x12 | s119 => DD x11 x13 | s120 => DD x11 x14 | s121 => DD x11 x15 | s122 => DD x11 x16 | s123 => DD x11 x17 | s124 => DD x11 x18 | s125 => DD x11 x19 | s126 => DD x11 x20 end.
Definition m600 (c : sum2) : dd := match c with s0 => DD x9 x24 | s1 => DD x9 x25 | s2 => DD x9 x26 | s3 => DD x9 x27 | s4 => DD x9 x28 | s5 => DD x9 x29 | s6 => DD x9 x30 | s7 => DD x9 x31 | s8 => DD x9 x32 | s9 => DD x9 x33 | s10 => DD x9 x34 | s11 => DD x9 x35 | s12 => DD x9 x36 | s13 => DD x9 x37 | s14 => DD x9 x38 | s15 => DD x9 x39 | s16 => DD x9 x40 | s17 => DD x9 x41 | s18 => DD x9 x42 | s19 => DD x9 x43 | s20 => DD x9 x44 | s21 => DD x9 x45 | s22 => DD x9 x46 | s23 => DD x9 x47 | s24 => DD x9 x48 | s25 => DD x9 x49 | s26 => DD x9 x50 | s27 => DD x9 x51 | s28 => DD x9 x52 | s29 => DD x9 x53 | s30 => DD x9 x54 | s31 => DD x9 x55 | s32 => DD x9 x56 | s33 => DD x9 x57 | s34 => DD x9 x58 | s35 => DD x9 x59 | s36 => DD x9 x60 | s37 => DD x9 x61 | s38 => DD x9 x62 | s39 => DD x9 x63 | s40 => DD x10 x0 | s41 => DD x10 x1 | s42 => DD x10 x2 | s43 => DD x10 x3 | s44 => DD x10 x4 | s45 => DD x10 x5 | s46 => DD x10 x6 | s47 => DD x10 x7 | s48 => DD x10 x8 | s49 => DD x10 x9 | s50 => DD x10 x10 | s51 => DD x10 x11 | s52 => DD x10 x12 | s53 => DD x10 x13 | s54 => DD x10 x14 | s55 => DD x10 x15 | s56 => DD x10 x16 | s57 => DD x10 x17 | s58 => DD x10 x18 | s59 => DD x10 x19 | s60 => DD x10 x20 | s61 => DD x10 x21 | s62 => DD x10 x22 | s63 => DD x10 x23 | s64 => DD x10 x24 | s65 => DD x10 x25 | s66 => DD x10 x26 | s67 => DD x10 x27 | s68 => DD x10 x28 | s69 => DD x10 x29 | s70 => DD x10 x30 | s71 => DD x10 x31 | s72 => DD x10 x32 | s73 => DD x10 x33 | s74 => DD x10 x34 | s75 => DD x10 x35 | s76 => DD x10 x36 | s77 => DD x10 x37 | s78 => DD x10 x38 | s79 => DD x10 x39 | s80 => DD x10 x40 | s81 => DD x10 x41 | s82 => DD x10 x42 | s83 => DD x10 x43 | s84 => DD x10 x44 | s85 => DD x10 x45 | s86 => DD x10 x46 | s87 => DD x10 x47 | s88 => DD x10 x48 | s89 => DD x10 x49 | s90 => DD x10 x50 | s91 => DD x10 x51 | s92 => DD x10 x52 | s93 => DD x10 x53 | s94 => DD x10 x54 | s95 => DD x10 x55 | s96 => DD x10 x56 | s97 => DD x10 x57 | s98 => DD x10 x58 | s99 => DD x10 x59 | s100 => DD x10 x60 | s101 => DD x10 x61 | s102 => DD x10 x62 | s103 => DD x10 x63 | s104 => DD x11 x0 | s105 => DD x11 x1 | s106 => DD x11 x2 | s107 => DD x11 x3 | s108 => DD x11 x4 | s109 => DD x11 x5 | s110 => DD x11 x6 | s111 => DD x11 x7 | s112 => DD x11 x8 | s113 => DD x11 x9 | s114 => DD x11 x10 | s115 => DD x11 x11 | s116 => DD x11 x12 | s117 => DD x11 x13 | s118 => DD x11 x14 | s119 => DD x11 x15 | s120 => DD x11 x16 | s121 => DD x11 x17 | s122 => DD x11 x18 | s123 => DD x11 x19 | s124 => DD x11 x20 | s125 => DD x11 x21 | s126 => DD x11 x22 end.
Definition m602 (c : sum2) : dd := match c with s0 => DD x9 x26 | s1 => DD x9 x27 | s2 => DD x9 x28 | s3 => DD x9 x29 | s4 => DD x9 x30 | s5 => DD x9 x31 | s6 => DD x9 x32 | s7 => DD x9 x33 | s8 => DD x9 x34 | s9 => DD x9 x35 | s10 => DD x9 x36 | s11 => DD x9 x37 | s12 => DD x9 x38 | s13 => DD x9 x39 | s14 => DD x9 x40 | s15 => DD x9 x41 | s16 => DD x9 x42 | s17 => DD x9 x43 | s18 => DD x9 x44 | s19 => DD x9 x45 | s20 => DD x9 x46 | s21 => DD x9 x47 | s22 => DD x9 x48 | s23 => DD x9 x49 | s24 => DD x9 x50 | s25 => DD x9 x51 | s26 => DD x9 x52 | s27 => DD x9 x53 | s28 => DD x9 x54 | s29 => DD x9 x55 | s30 => DD x9 x56 | s31 => DD x9 x57 | s32 => DD x9 x58 | s33 => DD x9 x59 | s34 => DD x9 x60 | s35 => DD x9 x61 | s36 => DD x9 x62 | s37 => DD x9 x63 | s38 => DD x10 x0 | s39 => DD x10 x1 | s40 => DD x10 x2 | s41 => DD x10 x3 | s42 => DD x10 x4 | s43 => DD x10 x5 | s44 => DD x10 x6 | s45 => DD x10 x7 | s46 => DD x10 x8 | s47 => DD x10 x9 | s48 => DD x10 x10 | s49 => DD x10 x11 | s50 => DD x10 x12 | s51 => DD x10 x13 | s52 => DD x10 x14 | s53 => DD x10 x15 | s54 => DD x10 x16 | s55 => DD x10 x17 | s56 => DD x10 x18 | s57 => DD x10 x19 | s58 => DD x10 x20 | s59 => DD x10 x21 | s60 => DD x10 x22 | s61 => DD x10 x23 | s62 => DD x10 x24 | s63 => DD x10 x25 | s64 => DD x10 x26 | s65 => DD x10 x27 | s66 => DD x10 x28 | s67 => DD x10 x29 | s68 => DD x10 x30 | s69 => DD x10 x31 | s70 => DD x10 x32 | s71 => DD x10 x33 | s72 => DD x10 x34 | s73 => DD x10 x35 | s74 => DD x10 x36 | s75 => DD x10 x37 | s76 => DD x10 x38 | s77 => DD x10 x39 | s78 => DD x10 x40 | s79 => DD x10 x41 | s80 => DD x10 x42 | s81 => DD x10 x43 | s82 => DD x10 x44 | s83 => DD x10 x45 | s84 => DD x10 x46 | s85 => DD x10 x47 | s86 => DD x10 x48 | s87 => DD x10 x49 | s88 => DD x10 x50 | s89 => DD x10 x51 | s90 => DD x10 x52 | s91 => DD x10 x53 | s92 => DD x10 x54 | s93 => DD x10 x55 | s94 => DD x10 x56 | s95 => DD x10 x57 | s96 => DD x10 x58 | s97 => DD x10 x59 | s98 => DD x10 x60 | s99 => DD x10 x61 | s100 => DD x10 x62 | s101 => DD x10 x63 | s102 => DD x11 x0 | s103 => DD x11 x1 | s104 => DD x11 x2 | s105 => DD x11 x3 | s106 => DD x11 x4 | s107 => DD x11 x5 | s108 => DD x11 x6 | s109 => DD x11 x7 | s110 => DD x11 x8 | s111 => DD x11 x9 | s112 => DD x11 x10 | s113 => DD x11 x11 | s114 => DD x11 x12 | s115 => DD x11 x13 | s116 => DD x11 x14 | s117 => DD x11 x15 | s118 => DD x11 x16 | s119 => DD x11 x17 | s120 => DD x11 x18 | s121 => DD x11 x19 | s122 => DD x11 x20 | s123 => DD x11 x21 | s124 => DD x11 x22 | s125 => DD x11 x23 | s126 => DD x11 x24 end.
Definition m605 (c : sum2) : dd := match c with s0 => DD x9 x29 | s1 => DD x9 x30 | s2 => DD x9 x31 | s3 => DD x9 x32 | s4 => DD x9 x33 | s5 => DD x9 x34 | s6 => DD x9 x35 | s7 => DD x9 x36 | s8 => DD x9 x37 | s9 => DD x9 x38 | s10 => DD x9 x39 | s11 => DD x9 x40 | s12 => DD x9 x41 | s13 => DD x9 x42 | s14 => DD x9 x43 | s15 => DD x9 x44 | s16 => DD x9 x45 | s17 => DD x9 x46 | s18 => DD x9 x47 | s19 => DD x9 x48 | s20 => DD x9 x49 | s21 => DD x9 x50 | s22 => DD x9 x51 | s23 => DD x9 x52 | s24 => DD x9 x53 | s25 => DD x9 x54 | s26 => DD x9 x55 | s27 => DD x9 x56 | s28 => DD x9 x57 | s29 => DD x9 x58 | s30 => DD x9 x59 | s31 => DD x9 x60 | s32 => DD x9 x61 | s33 => DD x9 x62 | s34 => DD x9 x63 | s35 => DD x10 x0 | s36 => DD x10 x1 | s37 => DD x10 x2 | s38 => DD x10 x3 | s39 => DD x10 x4 | s40 => DD x10 x5 | s41 => DD x10 x6 | s42 => DD x10 x7 | s43 => DD x10 x8 | s44 => DD x10 x9 | s45 => DD x10 x10 | s46 => DD x10 x11 | s47 => DD x10 x12 | s48 => DD x10 x13 | s49 => DD x10 x14 | s50 => DD x10 x15 | s51 => DD x10 x16 | s52 => DD x10 x17 | s53 => DD x10 x18 | s54 => DD x10 x19 | s55 => DD x10 x20 | s56 => DD x10 x21 | s57 => DD x10 x22 | s58 => DD x10 x23 | s59 => DD x10 x24 | s60 => DD x10 x25 | s61 => DD x10 x26 | s62 => DD x10 x27 | s63 => DD x10 x28 | s64 => DD x10 x29 | s65 => DD x10 x30 | s66 => DD x10 x31 | s67 => DD x10 x32 | s68 => DD x10 x33 | s69 => DD x10 x34 | s70 => DD x10 x35 | s71 => DD x10 x36 | s72 => DD x10 x37 | s73 => DD x10 x38 | s74 => DD x10 x39 | s75 => DD x10 x40 | s76 => DD x10 x41 | s77 => DD x10 x42 | s78 => DD x10 x43 | s79 => DD x10 x44 | s80 => DD x10 x45 | s81 => DD x10 x46 | s82 => DD x10 x47 | s83 => DD x10 x48 | s84 => DD x10 x49 | s85 => DD x10 x50 | s86 => DD x10 x51 | s87 => DD x10 x52 | s88 => DD x10 x53 | s89 => DD x10 x54 | s90 => DD x10 x55 | s91 => DD x10 x56 | s92 => DD x10 x57 | s93 => DD x10 x58 | s94 => DD x10 x59 | s95 => DD x10 x60 | s96 => DD x10 x61 | s97 => DD x10 x62 | s98 => DD x10 x63 | s99 => DD x11 x0 | s100 => DD x11 x1 | s101 => DD x11 x2 | s102 => DD x11 x3 | s103 => DD x11 x4 | s104 => DD x11 x5 | s105 => DD x11 x6 | s106 => DD x11 x7 | s107 => DD x11 x8 | s108 => DD x11 x9 | s109 => DD x11 x10 | s110 => DD x11 x11 | s111 => DD x11 x12 | s112 => DD x11 x13 | s113 => DD x11 x14 | s114 => DD x11 x15 | s115 => DD x11 x16 | s116 => DD x11 x17 | s117 => DD x11 x18 | s118 => DD x11 x19 | s119 => DD x11 x20 | s120 => DD x11 x21 | s121 => DD x11 x22 | s122 => DD x11 x23 | s123 => DD x11 x24 | s124 => DD x11 x25 | s125 => DD x11 x26 | s126 => DD x11 x27 end.
Definition m608 (c : sum2) : dd := match c with s0 => DD x9 x32 | s1 => DD x9 x33 | s2 => DD x9 x34 | s3 => DD x9 x35 | s4 => DD x9 x36 | s5 => DD x9 x37 | s6 => DD x9 x38 | s7 => DD x9 x39 | s8 => DD x9 x40 | s9 => DD x9 x41 | s10 => DD x9 x42 | s11 => DD x9 x43 | s12 => DD x9 x44 | s13 => DD x9 x45 | s14 => DD x9 x46 | s15 => DD x9 x47 | s16 => DD x9 x48 | s17 => DD x9 x49 | s18 => DD x9 x50 | s19 => DD x9 x51 | s20 => DD x9 x52 | s21 => DD x9 x53 | s22 => DD x9 x54 | s23 => DD x9 x55 | s24 => DD x9 x56 | s25 => DD x9 x57 | s26 => DD x9 x58 | s27 => DD x9 x59 | s28 => DD x9 x60 | s29 => DD x9 x61 | s30 => DD x9 x62 | s31 => DD x9 x63 | s32 => DD x10 x0 | s33 => DD x10 x1 | s34 => DD x10 x2 | s35 => DD x10 x3 | s36 => DD x10 x4 | s37 => DD x10 x5 | s38 => DD x10 x6 | s39 => DD x10 x7 | s40 => DD x10 x8 | s41 => DD x10 x9 | s42 => DD x10 x10 | s43 => DD x10 x11 | s44 => DD x10 x12 | s45 => DD x10 x13 | s46 => DD x10 x14 | s47 => DD x10 x15 | s48 => DD x10 x16 | s49 => DD x10 x17 | s50 => DD x10 x18 | s51 => DD x10 x19 | s52 => DD x10 x20 | s53 => DD x10 x21 | s54 => DD x10 x22 | s55 => DD x10 x23 | s56 => DD x10 x24 | s57 => DD x10 x25 | s58 => DD x10 x26 | s59 => DD x10 x27 | s60 => DD x10 x28 | s61 => DD x10 x29 | s62 => DD x10 x30 | s63 => DD x10 x31 | s64 => DD x10 x32 | s65 => DD x10 x33 | s66 => DD x10 x34 | s67 => DD x10 x35 | s68 => DD x10 x36 | s69 => DD x10 x37 | s70 => DD x10 x38 | s71 => DD x10 x39 | s72 => DD x10 x40 | s73 => DD x10 x41 | s74 => DD x10 x42 | s75 => DD x10 x43 | s76 => DD x10 x44 | s77 => DD x10 x45 | s78 => DD x10 x46 | s79 => DD x10 x47 | s80 => DD x10 x48 | s81 => DD x10 x49 | s82 => DD x10 x50 | s83 => DD x10 x51 | s84 => DD x10 x52 | s85 => DD x10 x53 | s86 => DD x10 x54 | s87 => DD x10 x55 | s88 => DD x10 x56 | s89 => DD x10 x57 | s90 => DD x10 x58 | s91 => DD x10 x59 | s92 => DD x10 x60 | s93 => DD x10 x61 | s94 => DD x10 x62 | s95 => DD x10 x63 | s96 => DD x11 x0 | s97 => DD x11 x1 | s98 => DD x11 x2 | s99 => DD x11 x3 | s100 => DD x11 x4 | s101 => DD x11 x5 | s102 => DD x11 x6 | s103 => DD x11 x7 | s104 => DD x11 x8 | s105 => DD x11 x9 | s106 => DD x11 x10 | s107 => DD x11 x11 | s108 => DD x11 x12 | s109 => DD x11 x13 | s110 => DD x11 x14 | s111 => DD x11 x15 | s112 => DD x11 x16 | s113 => DD x11 x17 | s114 => DD x11 x18 | s115 => DD x11 x19 | s116 => DD x11 x20 | s117 => DD x11 x21 | s118 => DD x11 x22 | s119 => DD x11 x23 | s120 => DD x11 x24 | s121 => DD x11 x25 | s122 => DD x11 x26 | s123 => DD x11 x27 | s124 => DD x11 x28 | s125 => DD x11 x29 | s126 => DD x11 x30 end.
Definition m609 (c : sum2) : dd := match c with s0 => DD x9 x33 | s1 => DD x9 x34 | s2 => DD x9 x35 | s3 => DD x9 x36 | s4 => DD x9 x37 | s5 => DD x9 x38 | s6 => DD x9 x39 | s7 => DD x9 x40 | s8 => DD x9 x41 | s9 => DD x9 x42 | s10 => DD x9 x43 | s11 => DD x9 x44 | s12 => DD x9 x45 | s13 => DD x9 x46 | s14 => DD x9 x47 | s15 => DD x9 x48 | s16 => DD x9 x49 | s17 => DD x9 x50 | s18 => DD x9 x51 | s19 => DD x9 x52 | s20 => DD x9 x53 | s21 => DD x9 x54 | s22 => DD x9 x55 | s23 => DD x9 x56 | s24 => DD x9 x57 | s25 => DD x9 x58 | s26 => DD x9 x59 | s27 => DD x9 x60 | s28 => DD x9 x61 | s29 => DD x9 x62 | s30 => DD x9 x63 | s31 => DD x10 x0 | s32 => DD x10 x1 | s33 => DD x10 x2 | s34 => DD x10 x3 | s35 => DD x10 x4 | s36 => DD x10 x5 | s37 => DD x10 x6 | s38 => DD x10 x7 | s39 => DD x10 x8 | s40 => DD x10 x9 | s41 => DD x10 x10 | s42 => DD x10 x11 | s43 => DD x10 x12 | s44 => DD x10 x13 | s45 => DD x10 x14 | s46 => DD x10 x15 | s47 => DD x10 x16 | s48 => DD x10 x17 | s49 => DD x10 x18 | s50 => DD x10 x19 | s51 => DD x10 x20 | s52 => DD x10 x21 | s53 => DD x10 x22 | s54 => DD x10 x23 | s55 => DD x10 x24 | s56 => DD x10 x25 | s57 => DD x10 x26 | s58 => DD x10 x27 | s59 => DD x10 x28 | s60 => DD x10 x29 | s61 => DD x10 x30 | s62 => DD x10 x31 | s63 => DD x10 x32 | s64 => DD x10 x33 | s65 => DD x10 x34 | s66 => DD x10 x35 | s67 => DD x10 x36 | s68 => DD x10 x37 | s69 => DD x10 x38 | s70 => DD x10 x39 | s71 => DD x10 x40 | s72 => DD x10 x41 | s73 => DD x10 x42 | s74 => DD x10 x43 | s75 => DD x10 x44 | s76 => DD x10 x45 | s77 => DD x10 x46 | s78 => DD x10 x47 | s79 => DD x10 x48 | s80 => DD x10 x49 | s81 => DD x10 x50 | s82 => DD x10 x51 | s83 => DD x10 x52 | s84 => DD x10 x53 | s85 => DD x10 x54 | s86 => DD x10 x55 | s87 => DD x10 x56 | s88 => DD x10 x57 | s89 => DD x10 x58 | s90 => DD x10 x59 | s91 => DD x10 x60 | s92 => DD x10 x61 | s93 => DD x10 x62 | s94 => DD x10 x63 | s95 => DD x11 x0 | s96 => DD x11 x1 | s97 => DD x11 x2 | s98 => DD x11 x3 | s99 => DD x11 x4 | s100 => DD x11 x5 | s101 => DD x11 x6 | s102 => DD x11 x7 | s103 => DD x11 x8 | s104 => DD x11 x9 | s105 => DD x11 x10 | s106 => DD x11 x11 | s107 => DD x11 x12 | s108 => DD x11 x13 | s109 => DD x11 x14 | s110 => DD x11 x15 | s111 => DD x11 x16 | s112 => DD x11 x17 | s113 => DD x11 x18 | s114 => DD x11 x19 | s115 => DD x11 x20 | s116 => DD x11 x21 | s117 => DD x11 x22 | s118 => DD x11 x23 | s119 => DD x11 x24 | s120 => DD x11 x25 | s121 => DD x11 x26 | s122 => DD x11 x27 | s123 => DD x11 x28 | s124 => DD x11 x29 | s125 => DD x11 x30 | s126 => DD x11 x31 end.
Definition m610 (c : sum2) : dd := match c with s0 => DD x9 x34 | s1 => DD x9 x35 | s2 => DD x9 x36 | s3 => DD x9 x37 | s4 => DD x9 x38 | s5 => DD x9 x39 | s6 => DD x9 x40 | s7 => DD x9 x41 | s8 => DD x9 x42 | s9 => DD x9 x43 | s10 => DD x9 x44 | s11 => DD x9 x45 | s12 => DD x9 x46 | s13 => DD x9 x47 | s14 => DD x9 x48 | s15 => DD x9 x49 | s16 => DD x9 x50 | s17 => DD x9 x51 | s18 => DD x9 x52 | s19 => DD x9 x53 | s20 => DD x9 x54 | s21 => DD x9 x55 | s22 => DD x9 x56 | s23 => DD x9 x57 | s24 => DD x9 x58 | s25 => DD x9 x59 | s26 => DD x9 x60 | s27 => DD x9 x61 | s28 => DD x9 x62 | s29 => DD x9 x63 | s30 => DD x10 x0 | s31 => DD x10 x1 | s32 => DD x10 x2 | s33 => DD x10 x3 | s34 => DD x10 x4 | s35 => DD x10 x5 | s36 => DD x10 x6 | s37 => DD x10 x7 | s38 => DD x10 x8 | s39 => DD x10 x9 | s40 => DD x10 x10 | s41 => DD x10 x11 | s42 => DD x10 x12 | s43 => DD x10 x13 | s44 => DD x10 x14 | s45 => DD x10 x15 | s46 => DD x10 x16 | s47 => DD x10 x17 | s48 => DD x10 x18 | s49 => DD x10 x19 | s50 => DD x10 x20 | s51 => DD x10 x21 | s52 => DD x10 x22 | s53 => DD x10 x23 | s54 => DD x10 x24 | s55 => DD x10 x25 | s56 => DD x10 x26 | s57 => DD x10 x27 | s58 => DD x10 x28 | s59 => DD x10 x29 | s60 => DD x10 x30 | s61 => DD x10 x31 | s62 => DD x10 x32 | s63 => DD x10 x33 | s64 => DD x10 x34 | s65 => DD x10 x35 | s66 => DD x10 x36 | s67 => DD x10 x37 | s68 => DD x10 x38 | s69 => DD x10 x39 | s70 => DD x10 x40 | s71 => DD x10 x41 | s72 => DD x10 x42 | s73 => DD x10 x43 | s74 => DD x10 x44 | s75 => DD x10 x45 | s76 => DD x10 x46 | s77 => DD x10 x47 | s78 => DD x10 x48 | s79 => DD x10 x49 | s80 => DD x10 x50 | s81 => DD x10 x51 | s82 => DD x10 x52 | s83 => DD x10 x53 | s84 => DD x10 x54 | s85 => DD x10 x55 | s86 => DD x10 x56 | s87 => DD x10 x57 | s88 => DD x10 x58 | s89 => DD x10 x59 | s90 => DD x10 x60 | s91 => DD x10 x61 | s92 => DD x10 x62 | s93 => DD x10 x63 | s94 => DD x11 x0 | s95 => DD x11 x1 | s96 => DD x11 x2 | s97 => DD x11 x3 | s98 => DD x11 x4 | s99 => DD x11 x5 | s100 => DD x11 x6 | s101 => DD x11 x7 | s102 => DD x11 x8 | s103 => DD x11 x9 | s104 => DD x11 x10 | s105 => DD x11 x11 | s106 => DD x11 x12 | s107 => DD x11 x13 | s108 => DD x11 x14 | s109 => DD x11 x15 | s110 => DD x11 x16 | s111 => DD x11 x17 | s112 => DD x11 x18 | s113 => DD x11 x19 | s114 => DD x11 x20 | s115 => DD x11 x21 | s116 => DD x11 x22 | s117 => DD x11 x23 | s118 => DD x11 x24 | s119 => DD x11 x25 | s120 => DD x11 x26 | s121 => DD x11 x27 | s122 => DD x11 x28 | s123 => DD x11 x29 | s124 => DD x11 x30 | s125 => DD x11 x31 | s126 => DD x11 x32 end.
Definition m611 (c : sum2) : dd := match c with s0 => DD x9 x35 | s1 => DD x9 x36 | s2 => DD x9 x37 | s3 => DD x9 x38 | s4 => DD x9 x39 | s5 => DD x9 x40 | s6 => DD x9 x41 | s7 => DD x9 x42 | s8 => DD x9 x43 | s9 => DD x9 x44 | s10 => DD x9 x45 | s11 => DD x9 x46 | s12 => DD x9 x47 | s13 => DD x9 x48 | s14 => DD x9 x49 | s15 => DD x9 x50 | s16 => DD x9 x51 | s17 => DD x9 x52 | s18 => DD x9 x53 | s19 => DD x9 x54 | s20 => DD x9 x55 | s21 => DD x9 x56 | s22 => DD x9 x57 | s23 => DD x9 x58 | s24 => DD x9 x59 | s25 => DD x9 x60 | s26 => DD x9 x61 | s27 => DD x9 x62 | s28 => DD x9 x63 | s29 => DD x10 x0 | s30 => DD x10 x1 | s31 => DD x10 x2 | s32 => DD x10 x3 | s33 => DD x10 x4 | s34 => DD x10 x5 | s35 => DD x10 x6 | s36 => DD x10 x7 | s37 => DD x10 x8 | s38 => DD x10 x9 | s39 => DD x10 x10 | s40 => DD x10 x11 | s41 => DD x10 x12 | s42 => DD x10 x13 | s43 => DD x10 x14 | s44 => DD x10 x15 | s45 => DD x10 x16 | s46 => DD x10 x17 | s47 => DD x10 x18 | s48 => DD x10 x19 | s49 => DD x10 x20 | s50 => DD x10 x21 | s51 => DD x10 x22 | s52 => DD x10 x23 | s53 => DD x10 x24 | s54 => DD x10 x25 | s55 => DD x10 x26 | s56 => DD x10 x27 | s57 => DD x10 x28 | s58 => DD x10 x29 | s59 => DD x10 x30 | s60 => DD x10 x31 | s61 => DD x10 x32 | s62 => DD x10 x33 | s63 => DD x10 x34 | s64 => DD x10 x35 | s65 => DD x10 x36 | s66 => DD x10 x37 | s67 => DD x10 x38 | s68 => DD x10 x39 | s69 => DD x10 x40 | s70 => DD x10 x41 | s71 => DD x10 x42 | s72 => DD x10 x43 | s73 => DD x10 x44 | s74 => DD x10 x45 | s75 => DD x10 x46 | s76 => DD x10 x47 | s77 => DD x10 x48 | s78 => DD x10 x49 | s79 => DD x10 x50 | s80 => DD x10 x51 | s81 => DD x10 x52 | s82 => DD x10 x53 | s83 => DD x10 x54 | s84 => DD x10 x55 | s85 => DD x10 x56 | s86 => DD x10 x57 | s87 => DD x10 x58 | s88 => DD x10 x59 | s89 => DD x10 x60 | s90 => DD x10 x61 | s91 => DD x10 x62 | s92 => DD x10 x63 | s93 => DD x11 x0 | s94 => DD x11 x1 | s95 => DD x11 x2 | s96 => DD x11 x3 | s97 => DD x11 x4 | s98 => DD x11 x5 | s99 => DD x11 x6 | s100 => DD x11 x7 | s101 => DD x11 x8 | s102 => DD x11 x9 | s103 => DD x11 x10 | s104 => DD x11 x11 | s105 => DD x11 x12 | s106 => DD x11 x13 | s107 => DD x11 x14 | s108 => DD x11 x15 | s109 => DD x11 x16 | s110 => DD x11 x17 | s111 => DD x11 x18 | s112 => DD x11 x19 | s113 => DD x11 x20 | s114 => DD x11 x21 | s115 => DD x11 x22 | s116 => DD x11 x23 | s117 => DD x11 x24 | s118 => DD x11 x25 | s119 => DD x11 x26 | s120 => DD x11 x27 | s121 => DD x11 x28 | s122 => DD x11 x29 | s123 => DD x11 x30 | s124 => DD x11 x31 | s125 => DD x11 x32 | s126 => DD x11 x33 end.
Definition m612 (c : sum2) : dd := match c with s0 => DD x9 x36 | s1 => DD x9 x37 | s2 => DD x9 x38 | s3 => DD x9 x39 | s4 => DD x9 x40 | s5 => DD x9 x41 | s6 => DD x9 x42 | s7 => DD x9 x43 | s8 => DD x9 x44 | s9 => DD x9 x45 | s10 => DD x9 x46 | s11 => DD x9 x47 | s12 => DD x9 x48 | s13 => DD x9 x49 | s14 => DD x9 x50 | s15 => DD x9 x51 | s16 => DD x9 x52 | s17 => DD x9 x53 | s18 => DD x9 x54 | s19 => DD x9 x55 | s20 => DD x9 x56 | s21 => DD x9 x57 | s22 => DD x9 x58 | s23 => DD x9 x59 | s24 => DD x9 x60 | s25 => DD x9 x61 | s26 => DD x9 x62 | s27 => DD x9 x63 | s28 => DD x10 x0 | s29 => DD x10 x1 | s30 => DD x10 x2 | s31 => DD x10 x3 | s32 => DD x10 x4 | s33 => DD x10 x5 | s34 => DD x10 x6 | s35 => DD x10 x7 | s36 => DD x10 x8 | s37 => DD x10 x9 | s38 => DD x10 x10 | s39 => DD x10 x11 | s40 => DD x10 x12 | s41 => DD x10 x13 | s42 => DD x10 x14 | s43 => DD x10 x15 | s44 => DD x10 x16 | s45 => DD x10 x17 | s46 => DD x10 x18 | s47 => DD x10 x19 | s48 => DD x10 x20 | s49 => DD x10 x21 | s50 => DD x10 x22 | s51 => DD x10 x23 | s52 => DD x10 x24 | s53 => DD x10 x25 | s54 => DD x10 x26 | s55 => DD x10 x27 | s56 => DD x10 x28 | s57 => DD x10 x29 | s58 => DD x10 x30 | s59 => DD x10 x31 | s60 => DD x10 x32 | s61 => DD x10 x33 | s62 => DD x10 x34 | s63 => DD x10 x35 | s64 => DD x10 x36 | s65 => DD x10 x37 | s66 => DD x10 x38 | s67 => DD x10 x39 | s68 => DD x10 x40 | s69 => DD x10 x41 | s70 => DD x10 x42 | s71 => DD x10 x43 | s72 => DD x10 x44 | s73 => DD x10 x45 | s74 => DD x10 x46 | s75 => DD x10 x47 | s76 => DD x10 x48 | s77 => DD x10 x49 | s78 => DD x10 x50 | s79 => DD x10 x51 | s80 => DD x10 x52 | s81 => DD x10 x53 | s82 => DD x10 x54 | s83 => DD x10 x55 | s84 => DD x10 x56 | s85 => DD x10 x57 | s86 => DD x10 x58 | s87 => DD x10 x59 | s88 => DD x10 x60 | s89 => DD x10 x61 | s90 => DD x10 x62 | s91 => DD x10 x63 | s92 => DD x11 x0 | s93 => DD x11 x1 | s94 => DD x11 x2 | s95 => DD x11 x3 | s96 => DD x11 x4 | s97 => DD x11 x5 | s98 => DD x11 x6 | s99 => DD x11 x7 | s100 => DD x11 x8 | s101 => DD x11 x9 | s102 => DD x11 x10 | s103 => DD x11 x11 | s104 => DD x11 x12 | s105 => DD x11 x13 | s106 => DD x11 x14 | s107 => DD x11 x15 | s108 => DD x11 x16 | s109 => DD x11 x17 | s110 => DD x11 x18 | s111 => DD x11 x19 | s112 => DD x11 x20 | s113 => DD x11 x21 | s114 => DD x11 x22 | s115 => DD x11 x23 | s116 => DD x11 x24 | s117 => DD x11 x25 | s118 => DD x11 x26 | s119 => DD x11 x27 | s120 => DD x11 x28 | s121 => DD x11 x29 | s122 => DD x11 x30 | s123 => DD x11 x31 | s124 => DD x11 x32 | s125 => DD x11 x33 | s126 => DD x11 x34 end.
Definition m615 (c : sum2) : dd := match c with s0 => DD x9 x39 | s1 => DD x9 x40 | s2 => DD x9 x41 | s3 => DD x9 x42 | s4 => DD x9 x43 | s5 => DD x9 x44 | s6 => DD x9 x45 | s7 => DD x9 x46 | s8 => DD x9 x47 | s9 => DD x9 x48 | s10 => DD x9 x49 | s11 => DD x9 x50 | s12 => DD x9 x51 | s13 => DD x9 x52 | s14 => DD x9 x53 | s15 => DD x9 x54 | s16 => DD x9 x55 | s17 => DD x9 x56 | s18 => DD x9 x57 | s19 => DD x9 x58 | s20 => DD x9 x59 | s21 => DD x9 x60 | s22 => DD x9 x61 | s23 => DD x9 x62 | s24 => DD x9 x63 | s25 => DD x10 x0 | s26 => DD x10 x1 | s27 => DD x10 x2 | s28 => DD x10 x3 | s29 => DD x10 x4 | s30 => DD x10 x5 | s31 => DD x10 x6 | s32 => DD x10 x7 | s33 => DD x10 x8 | s34 => DD x10 x9 | s35 => DD x10 x10 | s36 => DD x10 x11 | s37 => DD x10 x12 | s38 => DD x10 x13 | s39 => DD x10 x14 | s40 => DD x10 x15 | s41 => DD x10 x16 | s42 => DD x10 x17 | s43 => DD x10 x18 | s44 => DD x10 x19 | s45 => DD x10 x20 | s46 => DD x10 x21 | s47 => DD x10 x22 | s48 => DD x10 x23 | s49 => DD x10 x24 | s50 => DD x10 x25 | s51 => DD x10 x26 | s52 => DD x10 x27 | s53 => DD x10 x28 | s54 => DD x10 x29 | s55 => DD x10 x30 | s56 => DD x10 x31 | s57 => DD x10 x32 | s58 => DD x10 x33 | s59 => DD x10 x34 | s60 => DD x10 x35 | s61 => DD x10 x36 | s62 => DD x10 x37 | s63 => DD x10 x38 | s64 => DD x10 x39 | s65 => DD x10 x40 | s66 => DD x10 x41 | s67 => DD x10 x42 | s68 => DD x10 x43 | s69 => DD x10 x44 | s70 => DD x10 x45 | s71 => DD x10 x46 | s72 => DD x10 x47 | s73 => DD x10 x48 | s74 => DD x10 x49 | s75 => DD x10 x50 | s76 => DD x10 x51 | s77 => DD x10 x52 | s78 => DD x10 x53 | s79 => DD x10 x54 | s80 => DD x10 x55 | s81 => DD x10 x56 | s82 => DD x10 x57 | s83 => DD x10 x58 | s84 => DD x10 x59 | s85 => DD x10 x60 | s86 => DD x10 x61 | s87 => DD x10 x62 | s88 => DD x10 x63 | s89 => DD x11 x0 | s90 => DD x11 x1 | s91 => DD x11 x2 | s92 => DD x11 x3 | s93 => DD x11 x4 | s94 => DD x11 x5 | s95 => DD x11 x6 | s96 => DD x11 x7 | s97 => DD x11 x8 | s98 => DD x11 x9 | s99 => DD x11 x10 | s100 => DD x11 x11 | s101 => DD x11 x12 | s102 => DD x11 x13 | s103 => DD x11 x14 | s104 => DD x11 x15 | s105 => DD x11 x16 | s106 => DD x11 x17 | s107 => DD x11 x18 | s108 => DD x11 x19 | s109 => DD x11 x20 | s110 => DD x11 x21 | s111 => DD x11 x22 | s112 => DD x11 x23 | s113 => DD x11 x24 | s114 => DD x11 x25 | s115 => DD x11 x26 | s116 => DD x11 x27 | s117 => DD x11 x28 | s118 => DD x11 x29 | s119 => DD x11 x30 | s120 => DD x11 x31 | s121 => DD x11 x32 | s122 => DD x11 x33 | s123 => DD x11 x34 | s124 => DD x11 x35 | s125 => DD x11 x36 | s126 => DD x11 x37 end.
Definition m616 (c : sum2) : dd := match c with s0 => DD x9 x40 | s1 => DD x9 x41 | s2 => DD x9 x42 | s3 => DD x9 x43 | s4 => DD x9 x44 | s5 => DD x9 x45 | s6 => DD x9 x46 | s7 => DD x9 x47 | s8 => DD x9 x48 | s9 => DD x9 x49 | s10 => DD x9 x50 | s11 => DD x9 x51 | s12 => DD x9 x52 | s13 => DD x9 x53 | s14 => DD x9 x54 | s15 => DD x9 x55 | s16 => DD x9 x56 | s17 => DD x9 x57 | s18 => DD x9 x58 | s19 => DD x9 x59 | s20 => DD x9 x60 | s21 => DD x9 x61 | s22 => DD x9 x62 | s23 => DD x9 x63 | s24 => DD x10 x0 | s25 => DD x10 x1 | s26 => DD x10 x2 | s27 => DD x10 x3 | s28 => DD x10 x4 | s29 => DD x10 x5 | s30 => DD x10 x6 | s31 => DD x10 x7 | s32 => DD x10 x8 | s33 => DD x10 x9 | s34 => DD x10 x10 | s35 => DD x10 x11 | s36 => DD x10 x12 | s37 => DD x10 x13 | s38 => DD x10 x14 | s39 => DD x10 x15 | s40 => DD x10 x16 | s41 => DD x10 x17 | s42 => DD x10 x18 | s43 => DD x10 x19 | s44 => DD x10 x20 | s45 => DD x10 x21 | s46 => DD x10 x22 | s47 => DD x10 x23 | s48 => DD x10 x24 | s49 => DD x10 x25 | s50 => DD x10 x26 | s51 => DD x10 x27 | s52 => DD x10 x28 | s53 => DD x10 x29 | s54 => DD x10 x30 | s55 => DD x10 x31 | s56 => DD x10 x32 | s57 => DD x10 x33 | s58 => DD x10 x34 | s59 => DD x10 x35 | s60 => DD x10 x36 | s61 => DD x10 x37 | s62 => DD x10 x38 | s63 => DD x10 x39 | s64 => DD x10 x40 | s65 => DD x10 x41 | s66 => DD x10 x42 | s67 => DD x10 x43 | s68 => DD x10 x44 | s69 => DD x10 x45 | s70 => DD x10 x46 | s71 => DD x10 x47 | s72 => DD x10 x48 | s73 => DD x10 x49 | s74 => DD x10 x50 | s75 => DD x10 x51 | s76 => DD x10 x52 | s77 => DD x10 x53 | s78 => DD x10 x54 | s79 => DD x10 x55 | s80 => DD x10 x56 | s81 => DD x10 x57 | s82 => DD x10 x58 | s83 => DD x10 x59 | s84 => DD x10 x60 | s85 => DD x10 x61 | s86 => DD x10 x62 | s87 => DD x10 x63 | s88 => DD x11 x0 | s89 => DD x11 x1 | s90 => DD x11 x2 | s91 => DD x11 x3 | s92 => DD x11 x4 | s93 => DD x11 x5 | s94 => DD x11 x6 | s95 => DD x11 x7 | s96 => DD x11 x8 | s97 => DD x11 x9 | s98 => DD x11 x10 | s99 => DD x11 x11 | s100 => DD x11 x12 | s101 => DD x11 x13 | s102 => DD x11 x14 | s103 => DD x11 x15 | s104 => DD x11 x16 | s105 => DD x11 x17 | s106 => DD x11 x18 | s107 => DD x11 x19 | s108 => DD x11 x20 | s109 => DD x11 x21 | s110 => DD x11 x22 | s111 => DD x11 x23 | s112 => DD x11 x24 | s113 => DD x11 x25 | s114 => DD x11 x26 | s115 => DD x11 x27 | s116 => DD x11 x28 | s117 => DD x11 x29 | s118 => DD x11 x30 | s119 => DD x11 x31 | s120 => DD x11 x32 | s121 => DD x11 x33 | s122 => DD x11 x34 | s123 => DD x11 x35 | s124 => DD x11 x36 | s125 => DD x11 x37 | s126 => DD x11 x38 end.
Definition m620 (c : sum2) : dd := match c with s0 => DD x9 x44 | s1 => DD x9 x45 | s2 => DD x9 x46 | s3 => DD x9 x47 | s4 => DD x9 x48 | s5 => DD x9 x49 | s6 => DD x9 x50 | s7 => DD x9 x51 | s8 => DD x9 x52 | s9 => DD x9 x53 | s10 => DD x9 x54 | s11 => DD x9 x55 | s12 => DD x9 x56 | s13 => DD x9 x57 | s14 => DD x9 x58 | s15 => DD x9 x59 | s16 => DD x9 x60 | s17 => DD x9 x61 | s18 => DD x9 x62 | s19 => DD x9 x63 | s20 => DD x10 x0 | s21 => DD x10 x1 | s22 => DD x10 x2 | s23 => DD x10 x3 | s24 => DD x10 x4 | s25 => DD x10 x5 | s26 => DD x10 x6 | s27 => DD x10 x7 | s28 => DD x10 x8 | s29 => DD x10 x9 | s30 => DD x10 x10 | s31 => DD x10 x11 | s32 => DD x10 x12 | s33 => DD x10 x13 | s34 => DD x10 x14 | s35 => DD x10 x15 | s36 => DD x10 x16 | s37 => DD x10 x17 | s38 => DD x10 x18 | s39 => DD x10 x19 | s40 => DD x10 x20 | s41 => DD x10 x21 | s42 => DD x10 x22 | s43 => DD x10 x23 | s44 => DD x10 x24 | s45 => DD x10 x25 | s46 => DD x10 x26 | s47 => DD x10 x27 | s48 => DD x10 x28 | s49 => DD x10 x29 | s50 => DD x10 x30 | s51 => DD x10 x31 | s52 => DD x10 x32 | s53 => DD x10 x33 | s54 => DD x10 x34 | s55 => DD x10 x35 | s56 => DD x10 x36 | s57 => DD x10 x37 | s58 => DD x10 x38 | s59 => DD x10 x39 | s60 => DD x10 x40 | s61 => DD x10 x41 | s62 => DD x10 x42 | s63 => DD x10 x43 | s64 => DD x10 x44 | s65 => DD x10 x45 | s66 => DD x10 x46 | s67 => DD x10 x47 | s68 => DD x10 x48 | s69 => DD x10 x49 | s70 => DD x10 x50 | s71 => DD x10 x51 | s72 => DD x10 x52 | s73 => DD x10 x53 | s74 => DD x10 x54 | s75 => DD x10 x55 | s76 => DD x10 x56 | s77 => DD x10 x57 | s78 => DD x10 x58 | s79 => DD x10 x59 | s80 => DD x10 x60 | s81 => DD x10 x61 | s82 => DD x10 x62 | s83 => DD x10 x63 | s84 => DD x11 x0 | s85 => DD x11 x1 | s86 => DD x11 x2 | s87 => DD x11 x3 | s88 => DD x11 x4 | s89 => DD x11 x5 | s90 => DD x11 x6 | s91 => DD x11 x7 | s92 => DD x11 x8 | s93 => DD x11 x9 | s94 => DD x11 x10 | s95 => DD x11 x11 | s96 => DD x11 x12 | s97 => DD x11 x13 | s98 => DD x11 x14 | s99 => DD x11 x15 | s100 => DD x11 x16 | s101 => DD x11 x17 | s102 => DD x11 x18 | s103 => DD x11 x19 | s104 => DD x11 x20 | s105 => DD x11 x21 | s106 => DD x11 x22 | s107 => DD x11 x23 | s108 => DD x11 x24 | s109 => DD x11 x25 | s110 => DD x11 x26 | s111 => DD x11 x27 | s112 => DD x11 x28 | s113 => DD x11 x29 | s114 => DD x11 x30 | s115 => DD x11 x31 | s116 => DD x11 x32 | s117 => DD x11 x33 | s118 => DD x11 x34 | s119 => DD x11 x35 | s120 => DD x11 x36 | s121 => DD x11 x37 | s122 => DD x11 x38 | s123 => DD x11 x39 | s124 => DD x11 x40 | s125 => DD x11 x41 | s126 => DD x11 x42 end.
Definition m621 (c : sum2) : dd := match c with s0 => DD x9 x45 | s1 => DD x9 x46 | s2 => DD x9 x47 | s3 => DD x9 x48 | s4 => DD x9 x49 | s5 => DD x9 x50 | s6 => DD x9 x51 | s7 => DD x9 x52 | s8 => DD x9 x53 | s9 => DD x9 x54 | s10 => DD x9 x55 | s11 => DD x9 x56 | s12 => DD x9 x57 | s13 => DD x9 x58 | s14 => DD x9 x59 | s15 => DD x9 x60 | s16 => DD x9 x61 | s17 => DD x9 x62 | s18 => DD x9 x63 | s19 => DD x10 x0 | s20 => DD x10 x1 | s21 => DD x10 x2 | s22 => DD x10 x3 | s23 => DD x10 x4 | s24 => DD x10 x5 | s25 => DD x10 x6 | s26 => DD x10 x7 | s27 => DD x10 x8 | s28 => DD x10 x9 | s29 => DD x10 x10 | s30 => DD x10 x11 | s31 => DD x10 x12 | s32 => DD x10 x13 | s33 => DD x10 x14 | s34 => DD x10 x15 | s35 => DD x10 x16 | s36 => DD x10 x17 | s37 => DD x10 x18 | s38 => DD x10 x19 | s39 => DD x10 x20 | s40 => DD x10 x21 | s41 => DD x10 x22 | s42 => DD x10 x23 | s43 => DD x10 x24 | s44 => DD x10 x25 | s45 => DD x10 x26 | s46 => DD x10 x27 | s47 => DD x10 x28 | s48 => DD x10 x29 | s49 => DD x10 x30 | s50 => DD x10 x31 | s51 => DD x10 x32 | s52 => DD x10 x33 | s53 => DD x10 x34 | s54 => DD x10 x35 | s55 => DD x10 x36 | s56 => DD x10 x37 | s57 => DD x10 x38 | s58 => DD x10 x39 | s59 => DD x10 x40 | s60 => DD x10 x41 | s61 => DD x10 x42 | s62 => DD x10 x43 | s63 => DD x10 x44 | s64 => DD x10 x45 | s65 => DD x10 x46 | s66 => DD x10 x47 | s67 => DD x10 x48 | s68 => DD x10 x49 | s69 => DD x10 x50 | s70 => DD x10 x51 | s71 => DD x10 x52 | s72 => DD x10 x53 | s73 => DD x10 x54 | s74 => DD x10 x55 | s75 => DD x10 x56 | s76 => DD x10 x57 | s77 => DD x10 x58 | s78 => DD x10 x59 | s79 => DD x10 x60 | s80 => DD x10 x61 | s81 => DD x10 x62 | s82 => DD x10 x63 | s83 => DD x11 x0 | s84 => DD x11 x1 | s85 => DD x11 x2 | s86 => DD x11 x3 | s87 => DD x11 x4 | s88 => DD x11 x5 | s89 => DD x11 x6 | s90 => DD x11 x7 | s91 => DD x11 x8 | s92 => DD x11 x9 | s93 => DD x11 x10 | s94 => DD x11 x11 | s95 => DD x11 x12 | s96 => DD x11 x13 | s97 => DD x11 x14 | s98 => DD x11 x15 | s99 => DD x11 x16 | s100 => DD x11 x17 | s101 => DD x11 x18 | s102 => DD x11 x19 | s103 => DD x11 x20 | s104 => DD x11 x21 | s105 => DD x11 x22 | s106 => DD x11 x23 | s107 => DD x11 x24 | s108 => DD x11 x25 | s109 => DD x11 x26 | s110 => DD x11 x27 | s111 => DD x11 x28 | s112 => DD x11 x29 | s113 => DD x11 x30 | s114 => DD x11 x31 | s115 => DD x11 x32 | s116 => DD x11 x33 | s117 => DD x11 x34 | s118 => DD x11 x35 | s119 => DD x11 x36 | s120 => DD x11 x37 | s121 => DD x11 x38 | s122 => DD x11 x39 | s123 => DD x11 x40 | s124 => DD x11 x41 | s125 => DD x11 x42 | s126 => DD x11 x43 end.
Definition m624 (c : sum2) : dd := match c with s0 => DD x9 x48 | s1 => DD x9 x49 | s2 => DD x9 x50 | s3 => DD x9 x51 | s4 => DD x9 x52 | s5 => DD x9 x53 | s6 => DD x9 x54 | s7 => DD x9 x55 | s8 => DD x9 x56 | s9 => DD x9 x57 | s10 => DD x9 x58 | s11 => DD x9 x59 | s12 => DD x9 x60 | s13 => DD x9 x61 | s14 => DD x9 x62 | s15 => DD x9 x63 | s16 => DD x10 x0 | s17 => DD x10 x1 | s18 => DD x10 x2 | s19 => DD x10 x3 | s20 => DD x10 x4 | s21 => DD x10 x5 | s22 => DD x10 x6 | s23 => DD x10 x7 | s24 => DD x10 x8 | s25 => DD x10 x9 | s26 => DD x10 x10 | s27 => DD x10 x11 | s28 => DD x10 x12 | s29 => DD x10 x13 | s30 => DD x10 x14 | s31 => DD x10 x15 | s32 => DD x10 x16 | s33 => DD x10 x17 | s34 => DD x10 x18 | s35 => DD x10 x19 | s36 => DD x10 x20 | s37 => DD x10 x21 | s38 => DD x10 x22 | s39 => DD x10 x23 | s40 => DD x10 x24 | s41 => DD x10 x25 | s42 => DD x10 x26 | s43 => DD x10 x27 | s44 => DD x10 x28 | s45 => DD x10 x29 | s46 => DD x10 x30 | s47 => DD x10 x31 | s48 => DD x10 x32 | s49 => DD x10 x33 | s50 => DD x10 x34 | s51 => DD x10 x35 | s52 => DD x10 x36 | s53 => DD x10 x37 | s54 => DD x10 x38 | s55 => DD x10 x39 | s56 => DD x10 x40 | s57 => DD x10 x41 | s58 => DD x10 x42 | s59 => DD x10 x43 | s60 => DD x10 x44 | s61 => DD x10 x45 | s62 => DD x10 x46 | s63 => DD x10 x47 | s64 => DD x10 x48 | s65 => DD x10 x49 | s66 => DD x10 x50 | s67 => DD x10 x51 | s68 => DD x10 x52 | s69 => DD x10 x53 | s70 => DD x10 x54 | s71 => DD x10 x55 | s72 => DD x10 x56 | s73 => DD x10 x57 | s74 => DD x10 x58 | s75 => DD x10 x59 | s76 => DD x10 x60 | s77 => DD x10 x61 | s78 => DD x10 x62 | s79 => DD x10 x63 | s80 => DD x11 x0 | s81 => DD x11 x1 | s82 => DD x11 x2 | s83 => DD x11 x3 | s84 => DD x11 x4 | s85 => DD x11 x5 | s86 => DD x11 x6 | s87 => DD x11 x7 | s88 => DD x11 x8 | s89 => DD x11 x9 | s90 => DD x11 x10 | s91 => DD x11 x11 | s92 => DD x11 x12 | s93 => DD x11 x13 | s94 => DD x11 x14 | s95 => DD x11 x15 | s96 => DD x11 x16 | s97 => DD x11 x17 | s98 => DD x11 x18 | s99 => DD x11 x19 | s100 => DD x11 x20 | s101 => DD x11 x21 | s102 => DD x11 x22 | s103 => DD x11 x23 | s104 => DD x11 x24 | s105 => DD x11 x25 | s106 => DD x11 x26 | s107 => DD x11 x27 | s108 => DD x11 x28 | s109 => DD x11 x29 | s110 => DD x11 x30 | s111 => DD x11 x31 | s112 => DD x11 x32 | s113 => DD x11 x33 | s114 => DD x11 x34 | s115 => DD x11 x35 | s116 => DD x11 x36 | s117 => DD x11 x37 | s118 => DD x11 x38 | s119 => DD x11 x39 | s120 => DD x11 x40 | s121 => DD x11 x41 | s122 => DD x11 x42 | s123 => DD x11 x43 | s124 => DD x11 x44 | s125 => DD x11 x45 | s126 => DD x11 x46 end.
Definition m625 (c : sum2) : dd := match c with s0 => DD x9 x49 | s1 => DD x9 x50 | s2 => DD x9 x51 | s3 => DD x9 x52 | s4 => DD x9 x53 | s5 => DD x9 x54 | s6 => DD x9 x55 | s7 => DD x9 x56 | s8 => DD x9 x57 | s9 => DD x9 x58 | s10 => DD x9 x59 | s11 => DD x9 x60 | s12 => DD x9 x61 | s13 => DD x9 x62 | s14 => DD x9 x63 | s15 => DD x10 x0 | s16 => DD x10 x1 | s17 => DD x10 x2 | s18 => DD x10 x3 | s19 => DD x10 x4 | s20 => DD x10 x5 | s21 => DD x10 x6 | s22 => DD x10 x7 | s23 => DD x10 x8 | s24 => DD x10 x9 | s25 => DD x10 x10 | s26 => DD x10 x11 | s27 => DD x10 x12 | s28 => DD x10 x13 | s29 => DD x10 x14 | s30 => DD x10 x15 | s31 => DD x10 x16 | s32 => DD x10 x17 | s33 => DD x10 x18 | s34 => DD x10 x19 | s35 => DD x10 x20 | s36 => DD x10 x21 | s37 => DD x10 x22 | s38 => DD x10 x23 | s39 => DD x10 x24 | s40 => DD x10 x25 | s41 => DD x10 x26 | s42 => DD x10 x27 | s43 => DD x10 x28 | s44 => DD x10 x29 | s45 => DD x10 x30 | s46 => DD x10 x31 | s47 => DD x10 x32 | s48 => DD x10 x33 | s49 => DD x10 x34 | s50 => DD x10 x35 | s51 => DD x10 x36 | s52 => DD x10 x37 | s53 => DD x10 x38 | s54 => DD x10 x39 | s55 => DD x10 x40 | s56 => DD x10 x41 | s57 => DD x10 x42 | s58 => DD x10 x43 | s59 => DD x10 x44 | s60 => DD x10 x45 | s61 => DD x10 x46 | s62 => DD x10 x47 | s63 => DD x10 x48 | s64 => DD x10 x49 | s65 => DD x10 x50 | s66 => DD x10 x51 | s67 => DD x10 x52 | s68 => DD x10 x53 | s69 => DD x10 x54 | s70 => DD x10 x55 | s71 => DD x10 x56 | s72 => DD x10 x57 | s73 => DD x10 x58 | s74 => DD x10 x59 | s75 => DD x10 x60 | s76 => DD x10 x61 | s77 => DD x10 x62 | s78 => DD x10 x63 | s79 => DD x11 x0 | s80 => DD x11 x1 | s81 => DD x11 x2 | s82 => DD x11 x3 | s83 => DD x11 x4 | s84 => DD x11 x5 | s85 => DD x11 x6 | s86 => DD x11 x7 | s87 => DD x11 x8 | s88 => DD x11 x9 | s89 => DD x11 x10 | s90 => DD x11 x11 | s91 => DD x11 x12 | s92 => DD x11 x13 | s93 => DD x11 x14 | s94 => DD x11 x15 | s95 => DD x11 x16 | s96 => DD x11 x17 | s97 => DD x11 x18 | s98 => DD x11 x19 | s99 => DD x11 x20 | s100 => DD x11 x21 | s101 => DD x11 x22 | s102 => DD x11 x23 | s103 => DD x11 x24 | s104 => DD x11 x25 | s105 => DD x11 x26 | s106 => DD x11 x27 | s107 => DD x11 x28 | s108 => DD x11 x29 | s109 => DD x11 x30 | s110 => DD x11 x31 | s111 => DD x11 x32 | s112 => DD x11 x33 | s113 => DD x11 x34 | s114 => DD x11 x35 | s115 => DD x11 x36 | s116 => DD x11 x37 | s117 => DD x11 x38 | s118 => DD x11 x39 | s119 => DD x11 x40 | s120 => DD x11 x41 | s121 => DD x11 x42 | s122 => DD x11 x43 | s123 => DD x11 x44 | s124 => DD x11 x45 | s125 => DD x11 x46 | s126 => DD x11 x47 end.
Definition m627 (c : sum2) : dd := match c with s0 => DD x9 x51 | s1 => DD x9 x52 | s2 => DD x9 x53 | s3 => DD x9 x54 | s4 => DD x9 x55 | s5 => DD x9 x56 | s6 => DD x9 x57 | s7 => DD x9 x58 | s8 => DD x9 x59 | s9 => DD x9 x60 | s10 => DD x9 x61 | s11 => DD x9 x62 | s12 => DD x9 x63 | s13 => DD x10 x0 | s14 => DD x10 x1 | s15 => DD x10 x2 | s16 => DD x10 x3 | s17 => DD x10 x4 | s18 => DD x10 x5 | s19 => DD x10 x6 | s20 => DD x10 x7 | s21 => DD x10 x8 | s22 => DD x10 x9 | s23 => DD x10 x10 | s24 => DD x10 x11 | s25 => DD x10 x12 | s26 => DD x10 x13 | s27 => DD x10 x14 | s28 => DD x10 x15 | s29 => DD x10 x16 | s30 => DD x10 x17 | s31 => DD x10 x18 | s32 => DD x10 x19 | s33 => DD x10 x20 | s34 => DD x10 x21 | s35 => DD x10 x22 | s36 => DD x10 x23 | s37 => DD x10 x24 | s38 => DD x10 x25 | s39 => DD x10 x26 | s40 => DD x10 x27 | s41 => DD x10 x28 | s42 => DD x10 x29 | s43 => DD x10 x30 | s44 => DD x10 x31 | s45 => DD x10 x32 | s46 => DD x10 x33 | s47 => DD x10 x34 | s48 => DD x10 x35 | s49 => DD x10 x36 | s50 => DD x10 x37 | s51 => DD x10 x38 | s52 => DD x10 x39 | s53 => DD x10 x40 | s54 => DD x10 x41 | s55 => DD x10 x42 | s56 => DD x10 x43 | s57 => DD x10 x44 | s58 => DD x10 x45 | s59 => DD x10 x46 | s60 => DD x10 x47 | s61 => DD x10 x48 | s62 => DD x10 x49 | s63 => DD x10 x50 | s64 => DD x10 x51 | s65 => DD x10 x52 | s66 => DD x10 x53 | s67 => DD x10 x54 | s68 => DD x10 x55 | s69 => DD x10 x56 | s70 => DD x10 x57 | s71 => DD x10 x58 | s72 => DD x10 x59 | s73 => DD x10 x60 | s74 => DD x10 x61 | s75 => DD x10 x62 | s76 => DD x10 x63 | s77 => DD x11 x0 | s78 => DD x11 x1 | s79 => DD x11 x2 | s80 => DD x11 x3 | s81 => DD x11 x4 | s82 => DD x11 x5 | s83 => DD x11 x6 | s84 => DD x11 x7 | s85 => DD x11 x8 | s86 => DD x11 x9 | s87 => DD x11 x10 | s88 => DD x11 x11 | s89 => DD x11 x12 | s90 => DD x11 x13 | s91 => DD x11 x14 | s92 => DD x11 x15 | s93 => DD x11 x16 | s94 => DD x11 x17 | s95 => DD x11 x18 | s96 => DD x11 x19 | s97 => DD x11 x20 | s98 => DD x11 x21 | s99 => DD x11 x22 | s100 => DD x11 x23 | s101 => DD x11 x24 | s102 => DD x11 x25 | s103 => DD x11 x26 | s104 => DD x11 x27 | s105 => DD x11 x28 | s106 => DD x11 x29 | s107 => DD x11 x30 | s108 => DD x11 x31 | s109 => DD x11 x32 | s110 => DD x11 x33 | s111 => DD x11 x34 | s112 => DD x11 x35 | s113 => DD x11 x36 | s114 => DD x11 x37 | s115 => DD x11 x38 | s116 => DD x11 x39 | s117 => DD x11 x40 | s118 => DD x11 x41 | s119 => DD x11 x42 | s120 => DD x11 x43 | s121 => DD x11 x44 | s122 => DD x11 x45 | s123 => DD x11 x46 | s124 => DD x11 x47 | s125 => DD x11 x48 | s126 => DD x11 x49 end.
Definition m629 (c : sum2) : dd := match c with s0 => DD x9 x53 | s1 => DD x9 x54 | s2 => DD x9 x55 | s3 => DD x9 x56 | s4 => DD x9 x57 | s5 => DD x9 x58 | s6 => DD x9 x59 | s7 => DD x9 x60 | s8 => DD x9 x61 | s9 => DD x9 x62 | s10 => DD x9 x63 | s11 => DD x10 x0 | s12 => DD x10 x1 | s13 => DD x10 x2 | s14 => DD x10 x3 | s15 => DD x10 x4 | s16 => DD x10 x5 | s17 => DD x10 x6 | s18 => DD x10 x7 | s19 => DD x10 x8 | s20 => DD x10 x9 | s21 => DD x10 x10 | s22 => DD x10 x11 | s23 => DD x10 x12 | s24 => DD x10 x13 | s25 => DD x10 x14 | s26 => DD x10 x15 | s27 => DD x10 x16 | s28 => DD x10 x17 | s29 => DD x10 x18 | s30 => DD x10 x19 | s31 => DD x10 x20 | s32 => DD x10 x21 | s33 => DD x10 x22 | s34 => DD x10 x23 | s35 => DD x10 x24 | s36 => DD x10 x25 | s37 => DD x10 x26 | s38 => DD x10 x27 | s39 => DD x10 x28 | s40 => DD x10 x29 | s41 => DD x10 x30 | s42 => DD x10 x31 | s43 => DD x10 x32 | s44 => DD x10 x33 | s45 => DD x10 x34 | s46 => DD x10 x35 | s47 => DD x10 x36 | s48 => DD x10 x37 | s49 => DD x10 x38 | s50 => DD x10 x39 | s51 => DD x10 x40 | s52 => DD x10 x41 | s53 => DD x10 x42 | s54 => DD x10 x43 | s55 => DD x10 x44 | s56 => DD x10 x45 | s57 => DD x10 x46 | s58 => DD x10 x47 | s59 => DD x10 x48 | s60 => DD x10 x49 | s61 => DD x10 x50 | s62 => DD x10 x51 | s63 => DD x10 x52 | s64 => DD x10 x53 | s65 => DD x10 x54 | s66 => DD x10 x55 | s67 => DD x10 x56 | s68 => DD x10 x57 | s69 => DD x10 x58 | s70 => DD x10 x59 | s71 => DD x10 x60 | s72 => DD x10 x61 | s73 => DD x10 x62 | s74 => DD x10 x63 | s75 => DD x11 x0 | s76 => DD x11 x1 | s77 => DD x11 x2 | s78 => DD x11 x3 | s79 => DD x11 x4 | s80 => DD x11 x5 | s81 => DD x11 x6 | s82 => DD x11 x7 | s83 => DD x11 x8 | s84 => DD x11 x9 | s85 => DD x11 x10 | s86 => DD x11 x11 | s87 => DD x11 x12 | s88 => DD x11 x13 | s89 => DD x11 x14 | s90 => DD x11 x15 | s91 => DD x11 x16 | s92 => DD x11 x17 | s93 => DD x11 x18 | s94 => DD x11 x19 | s95 => DD x11 x20 | s96 => DD x11 x21 | s97 => DD x11 x22 | s98 => DD x11 x23 | s99 => DD x11 x24 | s100 => DD x11 x25 | s101 => DD x11 x26 | s102 => DD x11 x27 | s103 => DD x11 x28 | s104 => DD x11 x29 | s105 => DD x11 x30 | s106 => DD x11 x31 | s107 => DD x11 x32 | s108 => DD x11 x33 | s109 => DD x11 x34 | s110 => DD x11 x35 | s111 => DD x11 x36 | s112 => DD x11 x37 | s113 => DD x11 x38 | s114 => DD x11 x39 | s115 => DD x11 x40 | s116 => DD x11 x41 | s117 => DD x11 x42 | s118 => DD x11 x43 | s119 => DD x11 x44 | s120 => DD x11 x45 | s121 => DD x11 x46 | s122 => DD x11 x47 | s123 => DD x11 x48 | s124 => DD x11 x49 | s125 => DD x11 x50 | s126 => DD x11 x51 end.
Definition m630 (c : sum2) : dd := match c with s0 => DD x9 x54 | s1 => DD x9 x55 | s2 => DD x9 x56 | s3 => DD x9 x57 | s4 => DD x9 x58 | s5 => DD x9 x59 | s6 => DD x9 x60 | s7 => DD x9 x61 | s8 => DD x9 x62 | s9 => DD x9 x63 | s10 => DD x10 x0 | s11 => DD x10 x1 | s12 => DD x10 x2 | s13 => DD x10 x3 | s14 => DD x10 x4 | s15 => DD x10 x5 | s16 => DD x10 x6 | s17 => DD x10 x7 | s18 => DD x10 x8 | s19 => DD x10 x9 | s20 => DD x10 x10 | s21 => DD x10 x11 | s22 => DD x10 x12 | s23 => DD x10 x13 | s24 => DD x10 x14 | s25 => DD x10 x15 | s26 => DD x10 x16 | s27 => DD x10 x17 | s28 => DD x10 x18 | s29 => DD x10 x19 | s30 => DD x10 x20 | s31 => DD x10 x21 | s32 => DD x10 x22 | s33 => DD x10 x23 | s34 => DD x10 x24 | s35 => DD x10 x25 | s36 => DD x10 x26 | s37 => DD x10 x27 | s38 => DD x10 x28 | s39 => DD x10 x29 | s40 => DD x10 x30 | s41 => DD x10 x31 | s42 => DD x10 x32 | s43 => DD x10 x33 | s44 => DD x10 x34 | s45 => DD x10 x35 | s46 => DD x10 x36 | s47 => DD x10 x37 | s48 => DD x10 x38 | s49 => DD x10 x39 | s50 => DD x10 x40 | s51 => DD x10 x41 | s52 => DD x10 x42 | s53 => DD x10 x43 | s54 => DD x10 x44 | s55 => DD x10 x45 | s56 => DD x10 x46 | s57 => DD x10 x47 | s58 => DD x10 x48 | s59 => DD x10 x49 | s60 => DD x10 x50 | s61 => DD x10 x51 | s62 => DD x10 x52 | s63 => DD x10 x53 | s64 => DD x10 x54 | s65 => DD x10 x55 | s66 => DD x10 x56 | s67 => DD x10 x57 | s68 => DD x10 x58 | s69 => DD x10 x59 | s70 => DD x10 x60 | s71 => DD x10 x61 | s72 => DD x10 x62 | s73 => DD x10 x63 | s74 => DD x11 x0 | s75 => DD x11 x1 | s76 => DD x11 x2 | s77 => DD x11 x3 | s78 => DD x11 x4 | s79 => DD x11 x5 | s80 => DD x11 x6 | s81 => DD x11 x7 | s82 => DD x11 x8 | s83 => DD x11 x9 | s84 => DD x11 x10 | s85 => DD x11 x11 | s86 => DD x11 x12 | s87 => DD x11 x13 | s88 => DD x11 x14 | s89 => DD x11 x15 | s90 => DD x11 x16 | s91 => DD x11 x17 | s92 => DD x11 x18 | s93 => DD x11 x19 | s94 => DD x11 x20 | s95 => DD x11 x21 | s96 => DD x11 x22 | s97 => DD x11 x23 | s98 => DD x11 x24 | s99 => DD x11 x25 | s100 => DD x11 x26 | s101 => DD x11 x27 | s102 => DD x11 x28 | s103 => DD x11 x29 | s104 => DD x11 x30 | s105 => DD x11 x31 | s106 => DD x11 x32 | s107 => DD x11 x33 | s108 => DD x11 x34 | s109 => DD x11 x35 | s110 => DD x11 x36 | s111 => DD x11 x37 | s112 => DD x11 x38 | s113 => DD x11 x39 | s114 => DD x11 x40 | s115 => DD x11 x41 | s116 => DD x11 x42 | s117 => DD x11 x43 | s118 => DD x11 x44 | s119 => DD x11 x45 | s120 => DD x11 x46 | s121 => DD x11 x47 | s122 => DD x11 x48 | s123 => DD x11 x49 | s124 => DD x11 x50 | s125 => DD x11 x51 | s126 => DD x11 x52 end.
Definition m636 (c : sum2) : dd := match c with s0 => DD x9 x60 | s1 => DD x9 x61 | s2 => DD x9 x62 | s3 => DD x9 x63 | s4 => DD x10 x0 | s5 => DD x10 x1 | s6 => DD x10 x2 | s7 => DD x10 x3 | s8 => DD x10 x4 | s9 => DD x10 x5 | s10 => DD x10 x6 | s11 => DD x10 x7 | s12 => DD x10 x8 | s13 => DD x10 x9 | s14 => DD x10 x10 | s15 => DD x10 x11 | s16 => DD x10 x12 | s17 => DD x10 x13 | s18 => DD x10 x14 | s19 => DD x10 x15 | s20 => DD x10 x16 | s21 => DD x10 x17 | s22 => DD x10 x18 | s23 => DD x10 x19 | s24 => DD x10 x20 | s25 => DD x10 x21 | s26 => DD x10 x22 | s27 => DD x10 x23 | s28 => DD x10 x24 | s29 => DD x10 x25 | s30 => DD x10 x26 | s31 => DD x10 x27 | s32 => DD x10 x28 | s33 => DD x10 x29 | s34 => DD x10 x30 | s35 => DD x10 x31 | s36 => DD x10 x32 | s37 => DD x10 x33 | s38 => DD x10 x34 | s39 => DD x10 x35 | s40 => DD x10 x36 | s41 => DD x10 x37 | s42 => DD x10 x38 | s43 => DD x10 x39 | s44 => DD x10 x40 | s45 => DD x10 x41 | s46 => DD x10 x42 | s47 => DD x10 x43 | s48 => DD x10 x44 | s49 => DD x10 x45 | s50 => DD x10 x46 | s51 => DD x10 x47 | s52 => DD x10 x48 | s53 => DD x10 x49 | s54 => DD x10 x50 | s55 => DD x10 x51 | s56 => DD x10 x52 | s57 => DD x10 x53 | s58 => DD x10 x54 | s59 => DD x10 x55 | s60 => DD x10 x56 | s61 => DD x10 x57 | s62 => DD x10 x58 | s63 => DD x10 x59 | s64 => DD x10 x60 | s65 => DD x10 x61 | s66 => DD x10 x62 | s67 => DD x10 x63 | s68 => DD x11 x0 | s69 => DD x11 x1 | s70 => DD x11 x2 | s71 => DD x11 x3 | s72 => DD x11 x4 | s73 => DD x11 x5 | s74 => DD x11 x6 | s75 => DD x11 x7 | s76 => DD x11 x8 | s77 => DD x11 x9 | s78 => DD x11 x10 | s79 => DD x11 x11 | s80 => DD x11 x12 | s81 => DD x11 x13 | s82 => DD x11 x14 | s83 => DD x11 x15 | s84 => DD x11 x16 | s85 => DD x11 x17 | s86 => DD x11 x18 | s87 => DD x11 x19 | s88 => DD x11 x20 | s89 => DD x11 x21 | s90 => DD x11 x22 | s91 => DD x11 x23 | s92 => DD x11 x24 | s93 => DD x11 x25 | s94 => DD x11 x26 | s95 => DD x11 x27 | s96 => DD x11 x28 | s97 => DD x11 x29 | s98 => DD x11 x30 | s99 => DD x11 x31 | s100 => DD x11 x32 | s101 => DD x11 x33 | s102 => DD x11 x34 | s103 => DD x11 x35 | s104 => DD x11 x36 | s105 => DD x11 x37 | s106 => DD x11 x38 | s107 => DD x11 x39 | s108 => DD x11 x40 | s109 => DD x11 x41 | s110 => DD x11 x42 | s111 => DD x11 x43 | s112 => DD x11 x44 | s113 => DD x11 x45 | s114 => DD x11 x46 | s115 => DD x11 x47 | s116 => DD x11 x48 | s117 => DD x11 x49 | s118 => DD x11 x50 | s119 => DD x11 x51 | s120 => DD x11 x52 | s121 => DD x11 x53 | s122 => DD x11 x54 | s123 => DD x11 x55 | s124 => DD x11 x56 | s125 => DD x11 x57 | s126 => DD x11 x58 end.
Definition m637 (c : sum2) : dd := match c with s0 => DD x9 x61 | s1 => DD x9 x62 | s2 => DD x9 x63 | s3 => DD x10 x0 | s4 => DD x10 x1 | s5 => DD x10 x2 | s6 => DD x10 x3 | s7 => DD x10 x4 | s8 => DD x10 x5 | s9 => DD x10 x6 | s10 => DD x10 x7 | s11 => DD x10 x8 | s12 => DD x10 x9 | s13 => DD x10 x10 | s14 => DD x10 x11 | s15 => DD x10 x12 | s16 => DD x10 x13 | s17 => DD x10 x14 | s18 => DD x10 x15 | s19 => DD x10 x16 | s20 => DD x10 x17 | s21 => DD x10 x18 | s22 => DD x10 x19 | s23 => DD x10 x20 | s24 => DD x10 x21 | s25 => DD x10 x22 | s26 => DD x10 x23 | s27 => DD x10 x24 | s28 => DD x10 x25 | s29 => DD x10 x26 | s30 => DD x10 x27 | s31 => DD x10 x28 | s32 => DD x10 x29 | s33 => DD x10 x30 | s34 => DD x10 x31 | s35 => DD x10 x32 | s36 => DD x10 x33 | s37 => DD x10 x34 | s38 => DD x10 x35 | s39 => DD x10 x36 | s40 => DD x10 x37 | s41 => DD x10 x38 | s42 => DD x10 x39 | s43 => DD x10 x40 | s44 => DD x10 x41 | s45 => DD x10 x42 | s46 => DD x10 x43 | s47 => DD x10 x44 | s48 => DD x10 x45 | s49 => DD x10 x46 | s50 => DD x10 x47 | s51 => DD x10 x48 | s52 => DD x10 x49 | s53 => DD x10 x50 | s54 => DD x10 x51 | s55 => DD x10 x52 | s56 => DD x10 x53 | s57 => DD x10 x54 | s58 => DD x10 x55 | s59 => DD x10 x56 | s60 => DD x10 x57 | s61 => DD x10 x58 | s62 => DD x10 x59 | s63 => DD x10 x60 | s64 => DD x10 x61 | s65 => DD x10 x62 | s66 => DD x10 x63 | s67 => DD x11 x0 | s68 => DD x11 x1 | s69 => DD x11 x2 | s70 => DD x11 x3 | s71 => DD x11 x4 | s72 => DD x11 x5 | s73 => DD x11 x6 | s74 => DD x11 x7 | s75 => DD x11 x8 | s76 => DD x11 x9 | s77 => DD x11 x10 | s78 => DD x11 x11 | s79 => DD x11 x12 | s80 => DD x11 x13 | s81 => DD x11 x14 | s82 => DD x11 x15 | s83 => DD x11 x16 | s84 => DD x11 x17 | s85 => DD x11 x18 | s86 => DD x11 x19 | s87 => DD x11 x20 | s88 => DD x11 x21 | s89 => DD x11 x22 | s90 => DD x11 x23 | s91 => DD x11 x24 | s92 => DD x11 x25 | s93 => DD x11 x26 | s94 => DD x11 x27 | s95 => DD x11 x28 | s96 => DD x11 x29 | s97 => DD x11 x30 | s98 => DD x11 x31 | s99 => DD x11 x32 | s100 => DD x11 x33 | s101 => DD x11 x34 | s102 => DD x11 x35 | s103 => DD x11 x36 | s104 => DD x11 x37 | s105 => DD x11 x38 | s106 => DD x11 x39 | s107 => DD x11 x40 | s108 => DD x11 x41 | s109 => DD x11 x42 | s110 => DD x11 x43 | s111 => DD x11 x44 | s112 => DD x11 x45 | s113 => DD x11 x46 | s114 => DD x11 x47 | s115 => DD x11 x48 | s116 => DD x11 x49 | s117 => DD x11 x50 | s118 => DD x11 x51 | s119 => DD x11 x52 | s120 => DD x11 x53 | s121 => DD x11 x54 | s122 => DD x11 x55 | s123 => DD x11 x56 | s124 => DD x11 x57 | s125 => DD x11 x58 | s126 => DD x11 x59 end.
Definition m638 (c : sum2) : dd := match c with s0 => DD x9 x62 | s1 => DD x9 x63 | s2 => DD x10 x0 | s3 => DD x10 x1 | s4 => DD x10 x2 | s5 => DD x10 x3 | s6 => DD x10 x4 | s7 => DD x10 x5 | s8 => DD x10 x6 | s9 => DD x10 x7 | s10 => DD x10 x8 | s11 => DD x10 x9 | s12 => DD x10 x10 | s13 => DD x10 x11 | s14 => DD x10 x12 | s15 => DD x10 x13 | s16 => DD x10 x14 | s17 => DD x10 x15 | s18 => DD x10 x16 | s19 => DD x10 x17 | s20 => DD x10 x18 | s21 => DD x10 x19 | s22 => DD x10 x20 | s23 => DD x10 x21 | s24 => DD x10 x22 | s25 => DD x10 x23 | s26 => DD x10 x24 | s27 => DD x10 x25 | s28 => DD x10 x26 | s29 => DD x10 x27 | s30 => DD x10 x28 | s31 => DD x10 x29 | s32 => DD x10 x30 | s33 => DD x10 x31 | s34 => DD x10 x32 | s35 => DD x10 x33 | s36 => DD x10 x34 | s37 => DD x10 x35 | s38 => DD x10 x36 | s39 => DD x10 x37 | s40 => DD x10 x38 | s41 => DD x10 x39 | s42 => DD x10 x40 | s43 => DD x10 x41 | s44 => DD x10 x42 | s45 => DD x10 x43 | s46 => DD x10 x44 | s47 => DD x10 x45 | s48 => DD x10 x46 | s49 => DD x10 x47 | s50 => DD x10 x48 | s51 => DD x10 x49 | s52 => DD x10 x50 | s53 => DD x10 x51 | s54 => DD x10 x52 | s55 => DD x10 x53 | s56 => DD x10 x54 | s57 => DD x10 x55 | s58 => DD x10 x56 | s59 => DD x10 x57 | s60 => DD x10 x58 | s61 => DD x10 x59 | s62 => DD x10 x60 | s63 => DD x10 x61 | s64 => DD x10 x62 | s65 => DD x10 x63 | s66 => DD x11 x0 | s67 => DD x11 x1 | s68 => DD x11 x2 | s69 => DD x11 x3 | s70 => DD x11 x4 | s71 => DD x11 x5 | s72 => DD x11 x6 | s73 => DD x11 x7 | s74 => DD x11 x8 | s75 => DD x11 x9 | s76 => DD x11 x10 | s77 => DD x11 x11 | s78 => DD x11 x12 | s79 => DD x11 x13 | s80 => DD x11 x14 | s81 => DD x11 x15 | s82 => DD x11 x16 | s83 => DD x11 x17 | s84 => DD x11 x18 | s85 => DD x11 x19 | s86 => DD x11 x20 | s87 => DD x11 x21 | s88 => DD x11 x22 | s89 => DD x11 x23 | s90 => DD x11 x24 | s91 => DD x11 x25 | s92 => DD x11 x26 | s93 => DD x11 x27 | s94 => DD x11 x28 | s95 => DD x11 x29 | s96 => DD x11 x30 | s97 => DD x11 x31 | s98 => DD x11 x32 | s99 => DD x11 x33 | s100 => DD x11 x34 | s101 => DD x11 x35 | s102 => DD x11 x36 | s103 => DD x11 x37 | s104 => DD x11 x38 | s105 => DD x11 x39 | s106 => DD x11 x40 | s107 => DD x11 x41 | s108 => DD x11 x42 | s109 => DD x11 x43 | s110 => DD x11 x44 | s111 => DD x11 x45 | s112 => DD x11 x46 | s113 => DD x11 x47 | s114 => DD x11 x48 | s115 => DD x11 x49 | s116 => DD x11 x50 | s117 => DD x11 x51 | s118 => DD x11 x52 | s119 => DD x11 x53 | s120 => DD x11 x54 | s121 => DD x11 x55 | s122 => DD x11 x56 | s123 => DD x11 x57 | s124 => DD x11 x58 | s125 => DD x11 x59 | s126 => DD x11 x60 end.
Definition m640 (c : sum2) : dd := match c with s0 => DD x10 x0 | s1 => DD x10 x1 | s2 => DD x10 x2 | s3 => DD x10 x3 | s4 => DD x10 x4 | s5 => DD x10 x5 | s6 => DD x10 x6 | s7 => DD x10 x7 | s8 => DD x10 x8 | s9 => DD x10 x9 | s10 => DD x10 x10 | s11 => DD x10 x11 | s12 => DD x10 x12 | s13 => DD x10 x13 | s14 => DD x10 x14 | s15 => DD x10 x15 | s16 => DD x10 x16 | s17 => DD x10 x17 | s18 => DD x10 x18 | s19 => DD x10 x19 | s20 => DD x10 x20 | s21 => DD x10 x21 | s22 => DD x10 x22 | s23 => DD x10 x23 | s24 => DD x10 x24 | s25 => DD x10 x25 | s26 => DD x10 x26 | s27 => DD x10 x27 | s28 => DD x10 x28 | s29 => DD x10 x29 | s30 => DD x10 x30 | s31 => DD x10 x31 | s32 => DD x10 x32 | s33 => DD x10 x33 | s34 => DD x10 x34 | s35 => DD x10 x35 | s36 => DD x10 x36 | s37 => DD x10 x37 | s38 => DD x10 x38 | s39 => DD x10 x39 | s40 => DD x10 x40 | s41 => DD x10 x41 | s42 => DD x10 x42 | s43 => DD x10 x43 | s44 => DD x10 x44 | s45 => DD x10 x45 | s46 => DD x10 x46 | s47 => DD x10 x47 | s48 => DD x10 x48 | s49 => DD x10 x49 | s50 => DD x10 x50 | s51 => DD x10 x51 | s52 => DD x10 x52 | s53 => DD x10 x53 | s54 => DD x10 x54 | s55 => DD x10 x55 | s56 => DD x10 x56 | s57 => DD x10 x57 | s58 => DD x10 x58 | s59 => DD x10 x59 | s60 => DD x10 x60 | s61 => DD x10 x61 | s62 => DD x10 x62 | s63 => DD x10 x63 | s64 => DD x11 x0 | s65 => DD x11 x1 | s66 => DD x11 x2 | s67 => DD x11 x3 | s68 => DD x11 x4 | s69 => DD x11 x5 | s70 => DD x11 x6 | s71 => DD x11 x7 | s72 => DD x11 x8 | s73 => DD x11 x9 | s74 => DD x11 x10 | s75 => DD x11 x11 | s76 => DD x11 x12 | s77 => DD x11 x13 | s78 => DD x11 x14 | s79 => DD x11 x15 | s80 => DD x11 x16 | s81 => DD x11 x17 | s82 => DD x11 x18 | s83 => DD x11 x19 | s84 => DD x11 x20 | s85 => DD x11 x21 | s86 => DD x11 x22 | s87 => DD x11 x23 | s88 => DD x11 x24 | s89 => DD x11 x25 | s90 => DD x11 x26 | s91 => DD x11 x27 | s92 => DD x11 x28 | s93 => DD x11 x29 | s94 => DD x11 x30 | s95 => DD x11 x31 | s96 => DD x11 x32 | s97 => DD x11 x33 | s98 => DD x11 x34 | s99 => DD x11 x35 | s100 => DD x11 x36 | s101 => DD x11 x37 | s102 => DD x11 x38 | s103 => DD x11 x39 | s104 => DD x11 x40 | s105 => DD x11 x41 | s106 => DD x11 x42 | s107 => DD x11 x43 | s108 => DD x11 x44 | s109 => DD x11 x45 | s110 => DD x11 x46 | s111 => DD x11 x47 | s112 => DD x11 x48 | s113 => DD x11 x49 | s114 => DD x11 x50 | s115 => DD x11 x51 | s116 => DD x11 x52 | s117 => DD x11 x53 | s118 => DD x11 x54 | s119 => DD x11 x55 | s120 => DD x11 x56 | s121 => DD x11 x57 | s122 => DD x11 x58 | s123 => DD x11 x59 | s124 => DD x11 x60 | s125 => DD x11 x61 | s126 => DD x11 x62 end.
Definition m644 (c : sum2) : dd := match c with s0 => DD x10 x4 | s1 => DD x10 x5 | s2 => DD x10 x6 | s3 => DD x10 x7 | s4 => DD x10 x8 | s5 => DD x10 x9 | s6 => DD x10 x10 | s7 => DD x10 x11 | s8 => DD x10 x12 | s9 => DD x10 x13 | s10 => DD x10 x14 | s11 => DD x10 x15 | s12 => DD x10 x16 | s13 => DD x10 x17 | s14 => DD x10 x18 | s15 => DD x10 x19 | s16 => DD x10 x20 | s17 => DD x10 x21 | s18 => DD x10 x22 | s19 => DD x10 x23 | s20 => DD x10 x24 | s21 => DD x10 x25 | s22 => DD x10 x26 | s23 => DD x10 x27 | s24 => DD x10 x28 | s25 => DD x10 x29 | s26 => DD x10 x30 | s27 => DD x10 x31 | s28 => DD x10 x32 | s29 => DD x10 x33 | s30 => DD x10 x34 | s31 => DD x10 x35 | s32 => DD x10 x36 | s33 => DD x10 x37 | s34 => DD x10 x38 | s35 => DD x10 x39 | s36 => DD x10 x40 | s37 => DD x10 x41 | s38 => DD x10 x42 | s39 => DD x10 x43 | s40 => DD x10 x44 | s41 => DD x10 x45 | s42 => DD x10 x46 | s43 => DD x10 x47 | s44 => DD x10 x48 | s45 => DD x10 x49 | s46 => DD x10 x50 | s47 => DD x10 x51 | s48 => DD x10 x52 | s49 => DD x10 x53 | s50 => DD x10 x54 | s51 => DD x10 x55 | s52 => DD x10 x56 | s53 => DD x10 x57 | s54 => DD x10 x58 | s55 => DD x10 x59 | s56 => DD x10 x60 | s57 => DD x10 x61 | s58 => DD x10 x62 | s59 => DD x10 x63 | s60 => DD x11 x0 | s61 => DD x11 x1 | s62 => DD x11 x2 | s63 => DD x11 x3 | s64 => DD x11 x4 | s65 => DD x11 x5 | s66 => DD x11 x6 | s67 => DD x11 x7 | s68 => DD x11 x8 | s69 => DD x11 x9 | s70 => DD x11 x10 | s71 => DD x11 x11 | s72 => DD x11 x12 | s73 => DD x11 x13 | s74 => DD x11 x14 | s75 => DD x11 x15 | s76 => DD x11 x16 | s77 => DD x11 x17 | s78 => DD x11 x18 | s79 => DD x11 x19 | s80 => DD x11 x20 | s81 => DD x11 x21 | s82 => DD x11 x22 | s83 => DD x11 x23 | s84 => DD x11 x24 | s85 => DD x11 x25 | s86 => DD x11 x26 | s87 => DD x11 x27 | s88 => DD x11 x28 | s89 => DD x11 x29 | s90 => DD x11 x30 | s91 => DD x11 x31 | s92 => DD x11 x32 | s93 => DD x11 x33 | s94 => DD x11 x34 | s95 => DD x11 x35 | s96 => DD x11 x36 | s97 => DD x11 x37 | s98 => DD x11 x38 | s99 => DD x11 x39 | s100 => DD x11 x40 | s101 => DD x11 x41 | s102 => DD x11 x42 | s103 => DD x11 x43 | s104 => DD x11 x44 | s105 => DD x11 x45 | s106 => DD x11 x46 | s107 => DD x11 x47 | s108 => DD x11 x48 | s109 => DD x11 x49 | s110 => DD x11 x50 | s111 => DD x11 x51 | s112 => DD x11 x52 | s113 => DD x11 x53 | s114 => DD x11 x54 | s115 => DD x11 x55 | s116 => DD x11 x56 | s117 => DD x11 x57 | s118 => DD x11 x58 | s119 => DD x11 x59 | s120 => DD x11 x60 | s121 => DD x11 x61 | s122 => DD x11 x62 | s123 => DD x11 x63 | s124 => DD x12 x0 | s125 => DD x12 x1 | s126 => DD x12 x2 end.
Definition m645 (c : sum2) : dd := match c with s0 => DD x10 x5 | s1 => DD x10 x6 | s2 => DD x10 x7 | s3 => DD x10 x8 | s4 => DD x10 x9 | s5 => DD x10 x10 | s6 => DD x10 x11 | s7 => DD x10 x12 | s8 => DD x10 x13 | s9 => DD x10 x14 | s10 => DD x10 x15 | s11 => DD x10 x16 | s12 => DD x10 x17 | s13 => DD x10 x18 | s14 => DD x10 x19 | s15 => DD x10 x20 | s16 => DD x10 x21 | s17 => DD x10 x22 | s18 => DD x10 x23 | s19 => DD x10 x24 | s20 => DD x10 x25 | s21 => DD x10 x26 | s22 => DD x10 x27 | s23 => DD x10 x28 | s24 => DD x10 x29 | s25 => DD x10 x30 | s26 => DD x10 x31 | s27 => DD x10 x32 | s28 => DD x10 x33 | s29 => DD x10 x34 | s30 => DD x10 x35 | s31 => DD x10 x36 | s32 => DD x10 x37 | s33 => DD x10 x38 | s34 => DD x10 x39 | s35 => DD x10 x40 | s36 => DD x10 x41 | s37 => DD x10 x42 | s38 => DD x10 x43 | s39 => DD x10 x44 | s40 => DD x10 x45 | s41 => DD x10 x46 | s42 => DD x10 x47 | s43 => DD x10 x48 | s44 => DD x10 x49 | s45 => DD x10 x50 | s46 => DD x10 x51 | s47 => DD x10 x52 | s48 => DD x10 x53 | s49 => DD x10 x54 | s50 => DD x10 x55 | s51 => DD x10 x56 | s52 => DD x10 x57 | s53 => DD x10 x58 | s54 => DD x10 x59 | s55 => DD x10 x60 | s56 => DD x10 x61 | s57 => DD x10 x62 | s58 => DD x10 x63 | s59 => DD x11 x0 | s60 => DD x11 x1 | s61 => DD x11 x2 | s62 => DD x11 x3 | s63 => DD x11 x4 | s64 => DD x11 x5 | s65 => DD x11 x6 | s66 => DD x11 x7 | s67 => DD x11 x8 | s68 => DD x11 x9 | s69 => DD x11 x10 | s70 => DD x11 x11 | s71 => DD x11 x12 | s72 => DD x11 x13 | s73 => DD x11 x14 | s74 => DD x11 x15 | s75 => DD x11 x16 | s76 => DD x11 x17 | s77 => DD x11 x18 | s78 => DD x11 x19 | s79 => DD x11 x20 | s80 => DD x11 x21 | s81 => DD x11 x22 | s82 => DD x11 x23 | s83 => DD x11 x24 | s84 => DD x11 x25 | s85 => DD x11 x26 | s86 => DD x11 x27 | s87 => DD x11 x28 | s88 => DD x11 x29 | s89 => DD x11 x30 | s90 => DD x11 x31 | s91 => DD x11 x32 | s92 => DD x11 x33 | s93 => DD x11 x34 | s94 => DD x11 x35 | s95 => DD x11 x36 | s96 => DD x11 x37 | s97 => DD x11 x38 | s98 => DD x11 x39 | s99 => DD x11 x40 | s100 => DD x11 x41 | s101 => DD x11 x42 | s102 => DD x11 x43 | s103 => DD x11 x44 | s104 => DD x11 x45 | s105 => DD x11 x46 | s106 => DD x11 x47 | s107 => DD x11 x48 | s108 => DD x11 x49 | s109 => DD x11 x50 | s110 => DD x11 x51 | s111 => DD x11 x52 | s112 => DD x11 x53 | s113 => DD x11 x54 | s114 => DD x11 x55 | s115 => DD x11 x56 | s116 => DD x11 x57 | s117 => DD x11 x58 | s118 => DD x11 x59 | s119 => DD x11 x60 | s120 => DD x11 x61 | s121 => DD x11 x62 | s122 => DD x11 x63 | s123 => DD x12 x0 | s124 => DD x12 x1 | s125 => DD x12 x2 | s126 => DD x12 x3 end.
Definition m646 (c : sum2) : dd := match c with s0 => DD x10 x6 | s1 => DD x10 x7 | s2 => DD x10 x8 | s3 => DD x10 x9 | s4 => DD x10 x10 | s5 => DD x10 x11 | s6 => DD x10 x12 | s7 => DD x10 x13 | s8 => DD x10 x14 | s9 => DD x10 x15 | s10 => DD x10 x16 | s11 => DD x10 x17 | s12 => DD x10 x18 | s13 => DD x10 x19 | s14 => DD x10 x20 | s15 => DD x10 x21 | s16 => DD x10 x22 | s17 => DD x10 x23 | s18 => DD x10 x24 | s19 => DD x10 x25 | s20 => DD x10 x26 | s21 => DD x10 x27 | s22 => DD x10 x28 | s23 => DD x10 x29 | s24 => DD x10 x30 | s25 => DD x10 x31 | s26 => DD x10 x32 | s27 => DD x10 x33 | s28 => DD x10 x34 | s29 => DD x10 x35 | s30 => DD x10 x36 | s31 => DD x10 x37 | s32 => DD x10 x38 | s33 => DD x10 x39 | s34 => DD x10 x40 | s35 => DD x10 x41 | s36 => DD x10 x42 | s37 => DD x10 x43 | s38 => DD x10 x44 | s39 => DD x10 x45 | s40 => DD x10 x46 | s41 => DD x10 x47 | s42 => DD x10 x48 | s43 => DD x10 x49 | s44 => DD x10 x50 | s45 => DD x10 x51 | s46 => DD x10 x52 | s47 => DD x10 x53 | s48 => DD x10 x54 | s49 => DD x10 x55 | s50 => DD x10 x56 | s51 => DD x10 x57 | s52 => DD x10 x58 | s53 => DD x10 x59 | s54 => DD x10 x60 | s55 => DD x10 x61 | s56 => DD x10 x62 | s57 => DD x10 x63 | s58 => DD x11 x0 | s59 => DD x11 x1 | s60 => DD x11 x2 | s61 => DD x11 x3 | s62 => DD x11 x4 | s63 => DD x11 x5 | s64 => DD x11 x6 | s65 => DD x11 x7 | s66 => DD x11 x8 | s67 => DD x11 x9 | s68 => DD x11 x10 | s69 => DD x11 x11 | s70 => DD x11 x12 | s71 => DD x11 x13 | s72 => DD x11 x14 | s73 => DD x11 x15 | s74 => DD x11 x16 | s75 => DD x11 x17 | s76 => DD x11 x18 | s77 => DD x11 x19 | s78 => DD x11 x20 | s79 => DD x11 x21 | s80 => DD x11 x22 | s81 => DD x11 x23 | s82 => DD x11 x24 | s83 => DD x11 x25 | s84 => DD x11 x26 | s85 => DD x11 x27 | s86 => DD x11 x28 | s87 => DD x11 x29 | s88 => DD x11 x30 | s89 => DD x11 x31 | s90 => DD x11 x32 | s91 => DD x11 x33 | s92 => DD x11 x34 | s93 => DD x11 x35 | s94 => DD x11 x36 | s95 => DD x11 x37 | s96 => DD x11 x38 | s97 => DD x11 x39 | s98 => DD x11 x40 | s99 => DD x11 x41 | s100 => DD x11 x42 | s101 => DD x11 x43 | s102 => DD x11 x44 | s103 => DD x11 x45 | s104 => DD x11 x46 | s105 => DD x11 x47 | s106 => DD x11 x48 | s107 => DD x11 x49 | s108 => DD x11 x50 | s109 => DD x11 x51 | s110 => DD x11 x52 | s111 => DD x11 x53 | s112 => DD x11 x54 | s113 => DD x11 x55 | s114 => DD x11 x56 | s115 => DD x11 x57 | s116 => DD x11 x58 | s117 => DD x11 x59 | s118 => DD x11 x60 | s119 => DD x11 x61 | s120 => DD x11 x62 | s121 => DD x11 x63 | s122 => DD x12 x0 | s123 => DD x12 x1 | s124 => DD x12 x2 | s125 => DD x12 x3 | s126 => DD x12 x4 end.
Definition m648 (c : sum2) : dd := match c with s0 => DD x10 x8 | s1 => DD x10 x9 | s2 => DD x10 x10 | s3 => DD x10 x11 | s4 => DD x10 x12 | s5 => DD x10 x13 | s6 => DD x10 x14 | s7 => DD x10 x15 | s8 => DD x10 x16 | s9 => DD x10 x17 | s10 => DD x10 x18 | s11 => DD x10 x19 | s12 => DD x10 x20 | s13 => DD x10 x21 | s14 => DD x10 x22 | s15 => DD x10 x23 | s16 => DD x10 x24 | s17 => DD x10 x25 | s18 => DD x10 x26 | s19 => DD x10 x27 | s20 => DD x10 x28 | s21 => DD x10 x29 | s22 => DD x10 x30 | s23 => DD x10 x31 | s24 => DD x10 x32 | s25 => DD x10 x33 | s26 => DD x10 x34 | s27 => DD x10 x35 | s28 => DD x10 x36 | s29 => DD x10 x37 | s30 => DD x10 x38 | s31 => DD x10 x39 | s32 => DD x10 x40 | s33 => DD x10 x41 | s34 => DD x10 x42 | s35 => DD x10 x43 | s36 => DD x10 x44 | s37 => DD x10 x45 | s38 => DD x10 x46 | s39 => DD x10 x47 | s40 => DD x10 x48 | s41 => DD x10 x49 | s42 => DD x10 x50 | s43 => DD x10 x51 | s44 => DD x10 x52 | s45 => DD x10 x53 | s46 => DD x10 x54 | s47 => DD x10 x55 | s48 => DD x10 x56 | s49 => DD x10 x57 | s50 => DD x10 x58 | s51 => DD x10 x59 | s52 => DD x10 x60 | s53 => DD x10 x61 | s54 => DD x10 x62 | s55 => DD x10 x63 | s56 => DD x11 x0 | s57 => DD x11 x1 | s58 => DD x11 x2 | s59 => DD x11 x3 | s60 => DD x11 x4 | s61 => DD x11 x5 | s62 => DD x11 x6 | s63 => DD x11 x7 | s64 => DD x11 x8 | s65 => DD x11 x9 | s66 => DD x11 x10 | s67 => DD x11 x11 | s68 => DD x11 x12 | s69 => DD x11 x13 | s70 => DD x11 x14 | s71 => DD x11 x15 | s72 => DD x11 x16 | s73 => DD x11 x17 | s74 => DD x11 x18 | s75 => DD x11 x19 | s76 => DD x11 x20 | s77 => DD x11 x21 | s78 => DD x11 x22 | s79 => DD x11 x23 | s80 => DD x11 x24 | s81 => DD x11 x25 | s82 => DD x11 x26 | s83 => DD x11 x27 | s84 => DD x11 x28 | s85 => DD x11 x29 | s86 => DD x11 x30 | s87 => DD x11 x31 | s88 => DD x11 x32 | s89 => DD x11 x33 | s90 => DD x11 x34 | s91 => DD x11 x35 | s92 => DD x11 x36 | s93 => DD x11 x37 | s94 => DD x11 x38 | s95 => DD x11 x39 | s96 => DD x11 x40 | s97 => DD x11 x41 | s98 => DD x11 x42 | s99 => DD x11 x43 | s100 => DD x11 x44 | s101 => DD x11 x45 | s102 => DD x11 x46 | s103 => DD x11 x47 | s104 => DD x11 x48 | s105 => DD x11 x49 | s106 => DD x11 x50 | s107 => DD x11 x51 | s108 => DD x11 x52 | s109 => DD x11 x53 | s110 => DD x11 x54 | s111 => DD x11 x55 | s112 => DD x11 x56 | s113 => DD x11 x57 | s114 => DD x11 x58 | s115 => DD x11 x59 | s116 => DD x11 x60 | s117 => DD x11 x61 | s118 => DD x11 x62 | s119 => DD x11 x63 | s120 => DD x12 x0 | s121 => DD x12 x1 | s122 => DD x12 x2 | s123 => DD x12 x3 | s124 => DD x12 x4 | s125 => DD x12 x5 | s126 => DD x12 x6 end.
Definition m649 (c : sum2) : dd := match c with s0 => DD x10 x9 | s1 => DD x10 x10 | s2 => DD x10 x11 | s3 => DD x10 x12 | s4 => DD x10 x13 | s5 => DD x10 x14 | s6 => DD x10 x15 | s7 => DD x10 x16 | s8 => DD x10 x17 | s9 => DD x10 x18 | s10 => DD x10 x19 | s11 => DD x10 x20 | s12 => DD x10 x21 | s13 => DD x10 x22 | s14 => DD x10 x23 | s15 => DD x10 x24 | s16 => DD x10 x25 | s17 => DD x10 x26 | s18 => DD x10 x27 | s19 => DD x10 x28 | s20 => DD x10 x29 | s21 => DD x10 x30 | s22 => DD x10 x31 | s23 => DD x10 x32 | s24 => DD x10 x33 | s25 => DD x10 x34 | s26 => DD x10 x35 | s27 => DD x10 x36 | s28 => DD x10 x37 | s29 => DD x10 x38 | s30 => DD x10 x39 | s31 => DD x10 x40 | s32 => DD x10 x41 | s33 => DD x10 x42 | s34 => DD x10 x43 | s35 => DD x10 x44 | s36 => DD x10 x45 | s37 => DD x10 x46 | s38 => DD x10 x47 | s39 => DD x10 x48 | s40 => DD x10 x49 | s41 => DD x10 x50 | s42 => DD x10 x51 | s43 => DD x10 x52 | s44 => DD x10 x53 | s45 => DD x10 x54 | s46 => DD x10 x55 | s47 => DD x10 x56 | s48 => DD x10 x57 | s49 => DD x10 x58 | s50 => DD x10 x59 | s51 => DD x10 x60 | s52 => DD x10 x61 | s53 => DD x10 x62 | s54 => DD x10 x63 | s55 => DD x11 x0 | s56 => DD x11 x1 | s57 => DD x11 x2 | s58 => DD x11 x3 | s59 => DD x11 x4 | s60 => DD x11 x5 | s61 => DD x11 x6 | s62 => DD x11 x7 | s63 => DD x11 x8 | s64 => DD x11 x9 | s65 => DD x11 x10 | s66 => DD x11 x11 | s67 => DD x11 x12 | s68 => DD x11 x13 | s69 => DD x11 x14 | s70 => DD x11 x15 | s71 => DD x11 x16 | s72 => DD x11 x17 | s73 => DD x11 x18 | s74 => DD x11 x19 | s75 => DD x11 x20 | s76 => DD x11 x21 | s77 => DD x11 x22 | s78 => DD x11 x23 | s79 => DD x11 x24 | s80 => DD x11 x25 | s81 => DD x11 x26 | s82 => DD x11 x27 | s83 => DD x11 x28 | s84 => DD x11 x29 | s85 => DD x11 x30 | s86 => DD x11 x31 | s87 => DD x11 x32 | s88 => DD x11 x33 | s89 => DD x11 x34 | s90 => DD x11 x35 | s91 => DD x11 x36 | s92 => DD x11 x37 | s93 => DD x11 x38 | s94 => DD x11 x39 | s95 => DD x11 x40 | s96 => DD x11 x41 | s97 => DD x11 x42 | s98 => DD x11 x43 | s99 => DD x11 x44 | s100 => DD x11 x45 | s101 => DD x11 x46 | s102 => DD x11 x47 | s103 => DD x11 x48 | s104 => DD x11 x49 | s105 => DD x11 x50 | s106 => DD x11 x51 | s107 => DD x11 x52 | s108 => DD x11 x53 | s109 => DD x11 x54 | s110 => DD x11 x55 | s111 => DD x11 x56 | s112 => DD x11 x57 | s113 => DD x11 x58 | s114 => DD x11 x59 | s115 => DD x11 x60 | s116 => DD x11 x61 | s117 => DD x11 x62 | s118 => DD x11 x63 | s119 => DD x12 x0 | s120 => DD x12 x1 | s121 => DD x12 x2 | s122 => DD x12 x3 | s123 => DD x12 x4 | s124 => DD x12 x5 | s125 => DD x12 x6 | s126 => DD x12 x7 end.
Definition m650 (c : sum2) : dd := match c with s0 => DD x10 x10 | s1 => DD x10 x11 | s2 => DD x10 x12 | s3 => DD x10 x13 | s4 => DD x10 x14 | s5 => DD x10 x15 | s6 => DD x10 x16 | s7 => DD x10 x17 | s8 => DD x10 x18 | s9 => DD x10 x19 | s10 => DD x10 x20 | s11 => DD x10 x21 | s12 => DD x10 x22 | s13 => DD x10 x23 | s14 => DD x10 x24 | s15 => DD x10 x25 | s16 => DD x10 x26 | s17 => DD x10 x27 | s18 => DD x10 x28 | s19 => DD x10 x29 | s20 => DD x10 x30 | s21 => DD x10 x31 | s22 => DD x10 x32 | s23 => DD x10 x33 | s24 => DD x10 x34 | s25 => DD x10 x35 | s26 => DD x10 x36 | s27 => DD x10 x37 | s28 => DD x10 x38 | s29 => DD x10 x39 | s30 => DD x10 x40 | s31 => DD x10 x41 | s32 => DD x10 x42 | s33 => DD x10 x43 | s34 => DD x10 x44 | s35 => DD x10 x45 | s36 => DD x10 x46 | s37 => DD x10 x47 | s38 => DD x10 x48 | s39 => DD x10 x49 | s40 => DD x10 x50 | s41 => DD x10 x51 | s42 => DD x10 x52 | s43 => DD x10 x53 | s44 => DD x10 x54 | s45 => DD x10 x55 | s46 => DD x10 x56 | s47 => DD x10 x57 | s48 => DD x10 x58 | s49 => DD x10 x59 | s50 => DD x10 x60 | s51 => DD x10 x61 | s52 => DD x10 x62 | s53 => DD x10 x63 | s54 => DD x11 x0 | s55 => DD x11 x1 | s56 => DD x11 x2 | s57 => DD x11 x3 | s58 => DD x11 x4 | s59 => DD x11 x5 | s60 => DD x11 x6 | s61 => DD x11 x7 | s62 => DD x11 x8 | s63 => DD x11 x9 | s64 => DD x11 x10 | s65 => DD x11 x11 | s66 => DD x11 x12 | s67 => DD x11 x13 | s68 => DD x11 x14 | s69 => DD x11 x15 | s70 => DD x11 x16 | s71 => DD x11 x17 | s72 => DD x11 x18 | s73 => DD x11 x19 | s74 => DD x11 x20 | s75 => DD x11 x21 | s76 => DD x11 x22 | s77 => DD x11 x23 | s78 => DD x11 x24 | s79 => DD x11 x25 | s80 => DD x11 x26 | s81 => DD x11 x27 | s82 => DD x11 x28 | s83 => DD x11 x29 | s84 => DD x11 x30 | s85 => DD x11 x31 | s86 => DD x11 x32 | s87 => DD x11 x33 | s88 => DD x11 x34 | s89 => DD x11 x35 | s90 => DD x11 x36 | s91 => DD x11 x37 | s92 => DD x11 x38 | s93 => DD x11 x39 | s94 => DD x11 x40 | s95 => DD x11 x41 | s96 => DD x11 x42 | s97 => DD x11 x43 | s98 => DD x11 x44 | s99 => DD x11 x45 | s100 => DD x11 x46 | s101 => DD x11 x47 | s102 => DD x11 x48 | s103 => DD x11 x49 | s104 => DD x11 x50 | s105 => DD x11 x51 | s106 => DD x11 x52 | s107 => DD x11 x53 | s108 => DD x11 x54 | s109 => DD x11 x55 | s110 => DD x11 x56 | s111 => DD x11 x57 | s112 => DD x11 x58 | s113 => DD x11 x59 | s114 => DD x11 x60 | s115 => DD x11 x61 | s116 => DD x11 x62 | s117 => DD x11 x63 | s118 => DD x12 x0 | s119 => DD x12 x1 | s120 => DD x12 x2 | s121 => DD x12 x3 | s122 => DD x12 x4 | s123 => DD x12 x5 | s124 => DD x12 x6 | s125 => DD x12 x7 | s126 => DD x12 x8 end.
Definition m651 (c : sum2) : dd := match c with s0 => DD x10 x11 | s1 => DD x10 x12 | s2 => DD x10 x13 | s3 => DD x10 x14 | s4 => DD x10 x15 | s5 => DD x10 x16 | s6 => DD x10 x17 | s7 => DD x10 x18 | s8 => DD x10 x19 | s9 => DD x10 x20 | s10 => DD x10 x21 | s11 => DD x10 x22 | s12 => DD x10 x23 | s13 => DD x10 x24 | s14 => DD x10 x25 | s15 => DD x10 x26 | s16 => DD x10 x27 | s17 => DD x10 x28 | s18 => DD x10 x29 | s19 => DD x10 x30 | s20 => DD x10 x31 | s21 => DD x10 x32 | s22 => DD x10 x33 | s23 => DD x10 x34 | s24 => DD x10 x35 | s25 => DD x10 x36 | s26 => DD x10 x37 | s27 => DD x10 x38 | s28 => DD x10 x39 | s29 => DD x10 x40 | s30 => DD x10 x41 | s31 => DD x10 x42 | s32 => DD x10 x43 | s33 => DD x10 x44 | s34 => DD x10 x45 | s35 => DD x10 x46 | s36 => DD x10 x47 | s37 => DD x10 x48 | s38 => DD x10 x49 | s39 => DD x10 x50 | s40 => DD x10 x51 | s41 => DD x10 x52 | s42 => DD x10 x53 | s43 => DD x10 x54 | s44 => DD x10 x55 | s45 => DD x10 x56 | s46 => DD x10 x57 | s47 => DD x10 x58 | s48 => DD x10 x59 | s49 => DD x10 x60 | s50 => DD x10 x61 | s51 => DD x10 x62 | s52 => DD x10 x63 | s53 => DD x11 x0 | s54 => DD x11 x1 | s55 => DD x11 x2 | s56 => DD x11 x3 | s57 => DD x11 x4 | s58 => DD x11 x5 | s59 => DD x11 x6 | s60 => DD x11 x7 | s61 => DD x11 x8 | s62 => DD x11 x9 | s63 => DD x11 x10 | s64 => DD x11 x11 | s65 => DD x11 x12 | s66 => DD x11 x13 | s67 => DD x11 x14 | s68 => DD x11 x15 | s69 => DD x11 x16 | s70 => DD x11 x17 | s71 => DD x11 x18 | s72 => DD x11 x19 | s73 => DD x11 x20 | s74 => DD x11 x21 | s75 => DD x11 x22 | s76 => DD x11 x23 | s77 => DD x11 x24 | s78 => DD x11 x25 | s79 => DD x11 x26 | s80 => DD x11 x27 | s81 => DD x11 x28 | s82 => DD x11 x29 | s83 => DD x11 x30 | s84 => DD x11 x31 | s85 => DD x11 x32 | s86 => DD x11 x33 | s87 => DD x11 x34 | s88 => DD x11 x35 | s89 => DD x11 x36 | s90 => DD x11 x37 | s91 => DD x11 x38 | s92 => DD x11 x39 | s93 => DD x11 x40 | s94 => DD x11 x41 | s95 => DD x11 x42 | s96 => DD x11 x43 | s97 => DD x11 x44 | s98 => DD x11 x45 | s99 => DD x11 x46 | s100 => DD x11 x47 | s101 => DD x11 x48 | s102 => DD x11 x49 | s103 => DD x11 x50 | s104 => DD x11 x51 | s105 => DD x11 x52 | s106 => DD x11 x53 | s107 => DD x11 x54 | s108 => DD x11 x55 | s109 => DD x11 x56 | s110 => DD x11 x57 | s111 => DD x11 x58 | s112 => DD x11 x59 | s113 => DD x11 x60 | s114 => DD x11 x61 | s115 => DD x11 x62 | s116 => DD x11 x63 | s117 => DD x12 x0 | s118 => DD x12 x1 | s119 => DD x12 x2 | s120 => DD x12 x3 | s121 => DD x12 x4 | s122 => DD x12 x5 | s123 => DD x12 x6 | s124 => DD x12 x7 | s125 => DD x12 x8 | s126 => DD x12 x9 end.
Definition m656 (c : sum2) : dd := match c with s0 => DD x10 x16 | s1 => DD x10 x17 | s2 => DD x10 x18 | s3 => DD x10 x19 | s4 => DD x10 x20 | s5 => DD x10 x21 | s6 => DD x10 x22 | s7 => DD x10 x23 | s8 => DD x10 x24 | s9 => DD x10 x25 | s10 => DD x10 x26 | s11 => DD x10 x27 | s12 => DD x10 x28 | s13 => DD x10 x29 | s14 => DD x10 x30 | s15 => DD x10 x31 | s16 => DD x10 x32 | s17 => DD x10 x33 | s18 => DD x10 x34 | s19 => DD x10 x35 | s20 => DD x10 x36 | s21 => DD x10 x37 | s22 => DD x10 x38 | s23 => DD x10 x39 | s24 => DD x10 x40 | s25 => DD x10 x41 | s26 => DD x10 x42 | s27 => DD x10 x43 | s28 => DD x10 x44 | s29 => DD x10 x45 | s30 => DD x10 x46 | s31 => DD x10 x47 | s32 => DD x10 x48 | s33 => DD x10 x49 | s34 => DD x10 x50 | s35 => DD x10 x51 | s36 => DD x10 x52 | s37 => DD x10 x53 | s38 => DD x10 x54 | s39 => DD x10 x55 | s40 => DD x10 x56 | s41 => DD x10 x57 | s42 => DD x10 x58 | s43 => DD x10 x59 | s44 => DD x10 x60 | s45 => DD x10 x61 | s46 => DD x10 x62 | s47 => DD x10 x63 | s48 => DD x11 x0 | s49 => DD x11 x1 | s50 => DD x11 x2 | s51 => DD x11 x3 | s52 => DD x11 x4 | s53 => DD x11 x5 | s54 => DD x11 x6 | s55 => DD x11 x7 | s56 => DD x11 x8 | s57 => DD x11 x9 | s58 => DD x11 x10 | s59 => DD x11 x11 | s60 => DD x11 x12 | s61 => DD x11 x13 | s62 => DD x11 x14 | s63 => DD x11 x15 | s64 => DD x11 x16 | s65 => DD x11 x17 | s66 => DD x11 x18 | s67 => DD x11 x19 | s68 => DD x11 x20 | s69 => DD x11 x21 | s70 => DD x11 x22 | s71 => DD x11 x23 | s72 => DD x11 x24 | s73 => DD x11 x25 | s74 => DD x11 x26 | s75 => DD x11 x27 | s76 => DD x11 x28 | s77 => DD x11 x29 | s78 => DD x11 x30 | s79 => DD x11 x31 | s80 => DD x11 x32 | s81 => DD x11 x33 | s82 => DD x11 x34 | s83 => DD x11 x35 | s84 => DD x11 x36 | s85 => DD x11 x37 | s86 => DD x11 x38 | s87 => DD x11 x39 | s88 => DD x11 x40 | s89 => DD x11 x41 | s90 => DD x11 x42 | s91 => DD x11 x43 | s92 => DD x11 x44 | s93 => DD x11 x45 | s94 => DD x11 x46 | s95 => DD x11 x47 | s96 => DD x11 x48 | s97 => DD x11 x49 | s98 => DD x11 x50 | s99 => DD x11 x51 | s100 => DD x11 x52 | s101 => DD x11 x53 | s102 => DD x11 x54 | s103 => DD x11 x55 | s104 => DD x11 x56 | s105 => DD x11 x57 | s106 => DD x11 x58 | s107 => DD x11 x59 | s108 => DD x11 x60 | s109 => DD x11 x61 | s110 => DD x11 x62 | s111 => DD x11 x63 | s112 => DD x12 x0 | s113 => DD x12 x1 | s114 => DD x12 x2 | s115 => DD x12 x3 | s116 => DD x12 x4 | s117 => DD x12 x5 | s118 => DD x12 x6 | s119 => DD x12 x7 | s120 => DD x12 x8 | s121 => DD x12 x9 | s122 => DD x12 x10 | s123 => DD x12 x11 | s124 => DD x12 x12 | s125 => DD x12 x13 | s126 => DD x12 x14 end.
Definition m658 (c : sum2) : dd := match c with s0 => DD x10 x18 | s1 => DD x10 x19 | s2 => DD x10 x20 | s3 => DD x10 x21 | s4 => DD x10 x22 | s5 => DD x10 x23 | s6 => DD x10 x24 | s7 => DD x10 x25 | s8 => DD x10 x26 | s9 => DD x10 x27 | s10 => DD x10 x28 | s11 => DD x10 x29 | s12 => DD x10 x30 | s13 => DD x10 x31 | s14 => DD x10 x32 | s15 => DD x10 x33 | s16 => DD x10 x34 | s17 => DD x10 x35 | s18 => DD x10 x36 | s19 => DD x10 x37 | s20 => DD x10 x38 | s21 => DD x10 x39 | s22 => DD x10 x40 | s23 => DD x10 x41 | s24 => DD x10 x42 | s25 => DD x10 x43 | s26 => DD x10 x44 | s27 => DD x10 x45 | s28 => DD x10 x46 | s29 => DD x10 x47 | s30 => DD x10 x48 | s31 => DD x10 x49 | s32 => DD x10 x50 | s33 => DD x10 x51 | s34 => DD x10 x52 | s35 => DD x10 x53 | s36 => DD x10 x54 | s37 => DD x10 x55 | s38 => DD x10 x56 | s39 => DD x10 x57 | s40 => DD x10 x58 | s41 => DD x10 x59 | s42 => DD x10 x60 | s43 => DD x10 x61 | s44 => DD x10 x62 | s45 => DD x10 x63 | s46 => DD x11 x0 | s47 => DD x11 x1 | s48 => DD x11 x2 | s49 => DD x11 x3 | s50 => DD x11 x4 | s51 => DD x11 x5 | s52 => DD x11 x6 | s53 => DD x11 x7 | s54 => DD x11 x8 | s55 => DD x11 x9 | s56 => DD x11 x10 | s57 => DD x11 x11 | s58 => DD x11 x12 | s59 => DD x11 x13 | s60 => DD x11 x14 | s61 => DD x11 x15 | s62 => DD x11 x16 | s63 => DD x11 x17 | s64 => DD x11 x18 | s65 => DD x11 x19 | s66 => DD x11 x20 | s67 => DD x11 x21 | s68 => DD x11 x22 | s69 => DD x11 x23 | s70 => DD x11 x24 | s71 => DD x11 x25 | s72 => DD x11 x26 | s73 => DD x11 x27 | s74 => DD x11 x28 | s75 => DD x11 x29 | s76 => DD x11 x30 | s77 => DD x11 x31 | s78 => DD x11 x32 | s79 => DD x11 x33 | s80 => DD x11 x34 | s81 => DD x11 x35 | s82 => DD x11 x36 | s83 => DD x11 x37 | s84 => DD x11 x38 | s85 => DD x11 x39 | s86 => DD x11 x40 | s87 => DD x11 x41 | s88 => DD x11 x42 | s89 => DD x11 x43 | s90 => DD x11 x44 | s91 => DD x11 x45 | s92 => DD x11 x46 | s93 => DD x11 x47 | s94 => DD x11 x48 | s95 => DD x11 x49 | s96 => DD x11 x50 | s97 => DD x11 x51 | s98 => DD x11 x52 | s99 => DD x11 x53 | s100 => DD x11 x54 | s101 => DD x11 x55 | s102 => DD x11 x56 | s103 => DD x11 x57 | s104 => DD x11 x58 | s105 => DD x11 x59 | s106 => DD x11 x60 | s107 => DD x11 x61 | s108 => DD x11 x62 | s109 => DD x11 x63 | s110 => DD x12 x0 | s111 => DD x12 x1 | s112 => DD x12 x2 | s113 => DD x12 x3 | s114 => DD x12 x4 | s115 => DD x12 x5 | s116 => DD x12 x6 | s117 => DD x12 x7 | s118 => DD x12 x8 | s119 => DD x12 x9 | s120 => DD x12 x10 | s121 => DD x12 x11 | s122 => DD x12 x12 | s123 => DD x12 x13 | s124 => DD x12 x14 | s125 => DD x12 x15 | s126 => DD x12 x16 end.
Definition m660 (c : sum2) : dd := match c with s0 => DD x10 x20 | s1 => DD x10 x21 | s2 => DD x10 x22 | s3 => DD x10 x23 | s4 => DD x10 x24 | s5 => DD x10 x25 | s6 => DD x10 x26 | s7 => DD x10 x27 | s8 => DD x10 x28 | s9 => DD x10 x29 | s10 => DD x10 x30 | s11 => DD x10 x31 | s12 => DD x10 x32 | s13 => DD x10 x33 | s14 => DD x10 x34 | s15 => DD x10 x35 | s16 => DD x10 x36 | s17 => DD x10 x37 | s18 => DD x10 x38 | s19 => DD x10 x39 | s20 => DD x10 x40 | s21 => DD x10 x41 | s22 => DD x10 x42 | s23 => DD x10 x43 | s24 => DD x10 x44 | s25 => DD x10 x45 | s26 => DD x10 x46 | s27 => DD x10 x47 | s28 => DD x10 x48 | s29 => DD x10 x49 | s30 => DD x10 x50 | s31 => DD x10 x51 | s32 => DD x10 x52 | s33 => DD x10 x53 | s34 => DD x10 x54 | s35 => DD x10 x55 | s36 => DD x10 x56 | s37 => DD x10 x57 | s38 => DD x10 x58 | s39 => DD x10 x59 | s40 => DD x10 x60 | s41 => DD x10 x61 | s42 => DD x10 x62 | s43 => DD x10 x63 | s44 => DD x11 x0 | s45 => DD x11 x1 | s46 => DD x11 x2 | s47 => DD x11 x3 | s48 => DD x11 x4 | s49 => DD x11 x5 | s50 => DD x11 x6 | s51 => DD x11 x7 | s52 => DD x11 x8 | s53 => DD x11 x9 | s54 => DD x11 x10 | s55 => DD x11 x11 | s56 => DD x11 x12 | s57 => DD x11 x13 | s58 => DD x11 x14 | s59 => DD x11 x15 | s60 => DD x11 x16 | s61 => DD x11 x17 | s62 => DD x11 x18 | s63 => DD x11 x19 | s64 => DD x11 x20 | s65 => DD x11 x21 | s66 => DD x11 x22 | s67 => DD x11 x23 | s68 => DD x11 x24 | s69 => DD x11 x25 | s70 => DD x11 x26 | s71 => DD x11 x27 | s72 => DD x11 x28 | s73 => DD x11 x29 | s74 => DD x11 x30 | s75 => DD x11 x31 | s76 => DD x11 x32 | s77 => DD x11 x33 | s78 => DD x11 x34 | s79 => DD x11 x35 | s80 => DD x11 x36 | s81 => DD x11 x37 | s82 => DD x11 x38 | s83 => DD x11 x39 | s84 => DD x11 x40 | s85 => DD x11 x41 | s86 => DD x11 x42 | s87 => DD x11 x43 | s88 => DD x11 x44 | s89 => DD x11 x45 | s90 => DD x11 x46 | s91 => DD x11 x47 | s92 => DD x11 x48 | s93 => DD x11 x49 | s94 => DD x11 x50 | s95 => DD x11 x51 | s96 => DD x11 x52 | s97 => DD x11 x53 | s98 => DD x11 x54 | s99 => DD x11 x55 | s100 => DD x11 x56 | s101 => DD x11 x57 | s102 => DD x11 x58 | s103 => DD x11 x59 | s104 => DD x11 x60 | s105 => DD x11 x61 | s106 => DD x11 x62 | s107 => DD x11 x63 | s108 => DD x12 x0 | s109 => DD x12 x1 | s110 => DD x12 x2 | s111 => DD x12 x3 | s112 => DD x12 x4 | s113 => DD x12 x5 | s114 => DD x12 x6 | s115 => DD x12 x7 | s116 => DD x12 x8 | s117 => DD x12 x9 | s118 => DD x12 x10 | s119 => DD x12 x11 | s120 => DD x12 x12 | s121 => DD x12 x13 | s122 => DD x12 x14 | s123 => DD x12 x15 | s124 => DD x12 x16 | s125 => DD x12 x17 | s126 => DD x12 x18 end.
Definition m663 (c : sum2) : dd := match c with s0 => DD x10 x23 | s1 => DD x10 x24 | s2 => DD x10 x25 | s3 => DD x10 x26 | s4 => DD x10 x27 | s5 => DD x10 x28 | s6 => DD x10 x29 | s7 => DD x10 x30 | s8 => DD x10 x31 | s9 => DD x10 x32 | s10 => DD x10 x33 | s11 => DD x10 x34 | s12 => DD x10 x35 | s13 => DD x10 x36 | s14 => DD x10 x37 | s15 => DD x10 x38 | s16 => DD x10 x39 | s17 => DD x10 x40 | s18 => DD x10 x41 | s19 => DD x10 x42 | s20 => DD x10 x43 | s21 => DD x10 x44 | s22 => DD x10 x45 | s23 => DD x10 x46 | s24 => DD x10 x47 | s25 => DD x10 x48 | s26 => DD x10 x49 | s27 => DD x10 x50 | s28 => DD x10 x51 | s29 => DD x10 x52 | s30 => DD x10 x53 | s31 => DD x10 x54 | s32 => DD x10 x55 | s33 => DD x10 x56 | s34 => DD x10 x57 | s35 => DD x10 x58 | s36 => DD x10 x59 | s37 => DD x10 x60 | s38 => DD x10 x61 | s39 => DD x10 x62 | s40 => DD x10 x63 | s41 => DD x11 x0 | s42 => DD x11 x1 | s43 => DD x11 x2 | s44 => DD x11 x3 | s45 => DD x11 x4 | s46 => DD x11 x5 | s47 => DD x11 x6 | s48 => DD x11 x7 | s49 => DD x11 x8 | s50 => DD x11 x9 | s51 => DD x11 x10 | s52 => DD x11 x11 | s53 => DD x11 x12 | s54 => DD x11 x13 | s55 => DD x11 x14 | s56 => DD x11 x15 | s57 => DD x11 x16 | s58 => DD x11 x17 | s59 => DD x11 x18 | s60 => DD x11 x19 | s61 => DD x11 x20 | s62 => DD x11 x21 | s63 => DD x11 x22 | s64 => DD x11 x23 | s65 => DD x11 x24 | s66 => DD x11 x25 | s67 => DD x11 x26 | s68 => DD x11 x27 | s69 => DD x11 x28 | s70 => DD x11 x29 | s71 => DD x11 x30 | s72 => DD x11 x31 | s73 => DD x11 x32 | s74 => DD x11 x33 | s75 => DD x11 x34 | s76 => DD x11 x35 | s77 => DD x11 x36 | s78 => DD x11 x37 | s79 => DD x11 x38 | s80 => DD x11 x39 | s81 => DD x11 x40 | s82 => DD x11 x41 | s83 => DD x11 x42 | s84 => DD x11 x43 | s85 => DD x11 x44 | s86 => DD x11 x45 | s87 => DD x11 x46 | s88 => DD x11 x47 | s89 => DD x11 x48 | s90 => DD x11 x49 | s91 => DD x11 x50 | s92 => DD x11 x51 | s93 => DD x11 x52 | s94 => DD x11 x53 | s95 => DD x11 x54 | s96 => DD x11 x55 | s97 => DD x11 x56 | s98 => DD x11 x57 | s99 => DD x11 x58 | s100 => DD x11 x59 | s101 => DD x11 x60 | s102 => DD x11 x61 | s103 => DD x11 x62 | s104 => DD x11 x63 | s105 => DD x12 x0 | s106 => DD x12 x1 | s107 => DD x12 x2 | s108 => DD x12 x3 | s109 => DD x12 x4 | s110 => DD x12 x5 | s111 => DD x12 x6 | s112 => DD x12 x7 | s113 => DD x12 x8 | s114 => DD x12 x9 | s115 => DD x12 x10 | s116 => DD x12 x11 | s117 => DD x12 x12 | s118 => DD x12 x13 | s119 => DD x12 x14 | s120 => DD x12 x15 | s121 => DD x12 x16 | s122 => DD x12 x17 | s123 => DD x12 x18 | s124 => DD x12 x19 | s125 => DD x12 x20 | s126 => DD x12 x21 end.
Definition m665 (c : sum2) : dd := match c with s0 => DD x10 x25 | s1 => DD x10 x26 | s2 => DD x10 x27 | s3 => DD x10 x28 | s4 => DD x10 x29 | s5 => DD x10 x30 | s6 => DD x10 x31 | s7 => DD x10 x32 | s8 => DD x10 x33 | s9 => DD x10 x34 | s10 => DD x10 x35 | s11 => DD x10 x36 | s12 => DD x10 x37 | s13 => DD x10 x38 | s14 => DD x10 x39 | s15 => DD x10 x40 | s16 => DD x10 x41 | s17 => DD x10 x42 | s18 => DD x10 x43 | s19 => DD x10 x44 | s20 => DD x10 x45 | s21 => DD x10 x46 | s22 => DD x10 x47 | s23 => DD x10 x48 | s24 => DD x10 x49 | s25 => DD x10 x50 | s26 => DD x10 x51 | s27 => DD x10 x52 | s28 => DD x10 x53 | s29 => DD x10 x54 | s30 => DD x10 x55 | s31 => DD x10 x56 | s32 => DD x10 x57 | s33 => DD x10 x58 | s34 => DD x10 x59 | s35 => DD x10 x60 | s36 => DD x10 x61 | s37 => DD x10 x62 | s38 => DD x10 x63 | s39 => DD x11 x0 | s40 => DD x11 x1 | s41 => DD x11 x2 | s42 => DD x11 x3 | s43 => DD x11 x4 | s44 => DD x11 x5 | s45 => DD x11 x6 | s46 => DD x11 x7 | s47 => DD x11 x8 | s48 => DD x11 x9 | s49 => DD x11 x10 | s50 => DD x11 x11 | s51 => DD x11 x12 | s52 => DD x11 x13 | s53 => DD x11 x14 | s54 => DD x11 x15 | s55 => DD x11 x16 | s56 => DD x11 x17 | s57 => DD x11 x18 | s58 => DD x11 x19 | s59 => DD x11 x20 | s60 => DD x11 x21 | s61 => DD x11 x22 | s62 => DD x11 x23 | s63 => DD x11 x24 | s64 => DD x11 x25 | s65 => DD x11 x26 | s66 => DD x11 x27 | s67 => DD x11 x28 | s68 => DD x11 x29 | s69 => DD x11 x30 | s70 => DD x11 x31 | s71 => DD x11 x32 | s72 => DD x11 x33 | s73 => DD x11 x34 | s74 => DD x11 x35 | s75 => DD x11 x36 | s76 => DD x11 x37 | s77 => DD x11 x38 | s78 => DD x11 x39 | s79 => DD x11 x40 | s80 => DD x11 x41 | s81 => DD x11 x42 | s82 => DD x11 x43 | s83 => DD x11 x44 | s84 => DD x11 x45 | s85 => DD x11 x46 | s86 => DD x11 x47 | s87 => DD x11 x48 | s88 => DD x11 x49 | s89 => DD x11 x50 | s90 => DD x11 x51 | s91 => DD x11 x52 | s92 => DD x11 x53 | s93 => DD x11 x54 | s94 => DD x11 x55 | s95 => DD x11 x56 | s96 => DD x11 x57 | s97 => DD x11 x58 | s98 => DD x11 x59 | s99 => DD x11 x60 | s100 => DD x11 x61 | s101 => DD x11 x62 | s102 => DD x11 x63 | s103 => DD x12 x0 | s104 => DD x12 x1 | s105 => DD x12 x2 | s106 => DD x12 x3 | s107 => DD x12 x4 | s108 => DD x12 x5 | s109 => DD x12 x6 | s110 => DD x12 x7 | s111 => DD x12 x8 | s112 => DD x12 x9 | s113 => DD x12 x10 | s114 => DD x12 x11 | s115 => DD x12 x12 | s116 => DD x12 x13 | s117 => DD x12 x14 | s118 => DD x12 x15 | s119 => DD x12 x16 | s120 => DD x12 x17 | s121 => DD x12 x18 | s122 => DD x12 x19 | s123 => DD x12 x20 | s124 => DD x12 x21 | s125 => DD x12 x22 | s126 => DD x12 x23 end.
Definition m666 (c : sum2) : dd := match c with s0 => DD x10 x26 | s1 => DD x10 x27 | s2 => DD x10 x28 | s3 => DD x10 x29 | s4 => DD x10 x30 | s5 => DD x10 x31 | s6 => DD x10 x32 | s7 => DD x10 x33 | s8 => DD x10 x34 | s9 => DD x10 x35 | s10 => DD x10 x36 | s11 => DD x10 x37 | s12 => DD x10 x38 | s13 => DD x10 x39 | s14 => DD x10 x40 | s15 => DD x10 x41 | s16 => DD x10 x42 | s17 => DD x10 x43 | s18 => DD x10 x44 | s19 => DD x10 x45 | s20 => DD x10 x46 | s21 => DD x10 x47 | s22 => DD x10 x48 | s23 => DD x10 x49 | s24 => DD x10 x50 | s25 => DD x10 x51 | s26 => DD x10 x52 | s27 => DD x10 x53 | s28 => DD x10 x54 | s29 => DD x10 x55 | s30 => DD x10 x56 | s31 => DD x10 x57 | s32 => DD x10 x58 | s33 => DD x10 x59 | s34 => DD x10 x60 | s35 => DD x10 x61 | s36 => DD x10 x62 | s37 => DD x10 x63 | s38 => DD x11 x0 | s39 => DD x11 x1 | s40 => DD x11 x2 | s41 => DD x11 x3 | s42 => DD x11 x4 | s43 => DD x11 x5 | s44 => DD x11 x6 | s45 => DD x11 x7 | s46 => DD x11 x8 | s47 => DD x11 x9 | s48 => DD x11 x10 | s49 => DD x11 x11 | s50 => DD x11 x12 | s51 => DD x11 x13 | s52 => DD x11 x14 | s53 => DD x11 x15 | s54 => DD x11 x16 | s55 => DD x11 x17 | s56 => DD x11 x18 | s57 => DD x11 x19 | s58 => DD x11 x20 | s59 => DD x11 x21 | s60 => DD x11 x22 | s61 => DD x11 x23 | s62 => DD x11 x24 | s63 => DD x11 x25 | s64 => DD x11 x26 | s65 => DD x11 x27 | s66 => DD x11 x28 | s67 => DD x11 x29 | s68 => DD x11 x30 | s69 => DD x11 x31 | s70 => DD x11 x32 | s71 => DD x11 x33 | s72 => DD x11 x34 | s73 => DD x11 x35 | s74 => DD x11 x36 | s75 => DD x11 x37 | s76 => DD x11 x38 | s77 => DD x11 x39 | s78 => DD x11 x40 | s79 => DD x11 x41 | s80 => DD x11 x42 | s81 => DD x11 x43 | s82 => DD x11 x44 | s83 => DD x11 x45 | s84 => DD x11 x46 | s85 => DD x11 x47 | s86 => DD x11 x48 | s87 => DD x11 x49 | s88 => DD x11 x50 | s89 => DD x11 x51 | s90 => DD x11 x52 | s91 => DD x11 x53 | s92 => DD x11 x54 | s93 => DD x11 x55 | s94 => DD x11 x56 | s95 => DD x11 x57 | s96 => DD x11 x58 | s97 => DD x11 x59 | s98 => DD x11 x60 | s99 => DD x11 x61 | s100 => DD x11 x62 | s101 => DD x11 x63 | s102 => DD x12 x0 | s103 => DD x12 x1 | s104 => DD x12 x2 | s105 => DD x12 x3 | s106 => DD x12 x4 | s107 => DD x12 x5 | s108 => DD x12 x6 | s109 => DD x12 x7 | s110 => DD x12 x8 | s111 => DD x12 x9 | s112 => DD x12 x10 | s113 => DD x12 x11 | s114 => DD x12 x12 | s115 => DD x12 x13 | s116 => DD x12 x14 | s117 => DD x12 x15 | s118 => DD x12 x16 | s119 => DD x12 x17 | s120 => DD x12 x18 | s121 => DD x12 x19 | s122 => DD x12 x20 | s123 => DD x12 x21 | s124 => DD x12 x22 | s125 => DD x12 x23 | s126 => DD x12 x24 end.
Definition m667 (c : sum2) : dd := match c with s0 => DD x10 x27 | s1 => DD x10 x28 | s2 => DD x10 x29 | s3 => DD x10 x30 | s4 => DD x10 x31 | s5 => DD x10 x32 | s6 => DD x10 x33 | s7 => DD x10 x34 | s8 => DD x10 x35 | s9 => DD x10 x36 | s10 => DD x10 x37 | s11 => DD x10 x38 | s12 => DD x10 x39 | s13 => DD x10 x40 | s14 => DD x10 x41 | s15 => DD x10 x42 | s16 => DD x10 x43 | s17 => DD x10 x44 | s18 => DD x10 x45 | s19 => DD x10 x46 | s20 => DD x10 x47 | s21 => DD x10 x48 | s22 => DD x10 x49 | s23 => DD x10 x50 | s24 => DD x10 x51 | s25 => DD x10 x52 | s26 => DD x10 x53 | s27 => DD x10 x54 | s28 => DD x10 x55 | s29 => DD x10 x56 | s30 => DD x10 x57 | s31 => DD x10 x58 | s32 => DD x10 x59 | s33 => DD x10 x60 | s34 => DD x10 x61 | s35 => DD x10 x62 | s36 => DD x10 x63 | s37 => DD x11 x0 | s38 => DD x11 x1 | s39 => DD x11 x2 | s40 => DD x11 x3 | s41 => DD x11 x4 | s42 => DD x11 x5 | s43 => DD x11 x6 | s44 => DD x11 x7 | s45 => DD x11 x8 | s46 => DD x11 x9 | s47 => DD x11 x10 | s48 => DD x11 x11 | s49 => DD x11 x12 | s50 => DD x11 x13 | s51 => DD x11 x14 | s52 => DD x11 x15 | s53 => DD x11 x16 | s54 => DD x11 x17 | s55 => DD x11 x18 | s56 => DD x11 x19 | s57 => DD x11 x20 | s58 => DD x11 x21 | s59 => DD x11 x22 | s60 => DD x11 x23 | s61 => DD x11 x24 | s62 => DD x11 x25 | s63 => DD x11 x26 | s64 => DD x11 x27 | s65 => DD x11 x28 | s66 => DD x11 x29 | s67 => DD x11 x30 | s68 => DD x11 x31 | s69 => DD x11 x32 | s70 => DD x11 x33 | s71 => DD x11 x34 | s72 => DD x11 x35 | s73 => DD x11 x36 | s74 => DD x11 x37 | s75 => DD x11 x38 | s76 => DD x11 x39 | s77 => DD x11 x40 | s78 => DD x11 x41 | s79 => DD x11 x42 | s80 => DD x11 x43 | s81 => DD x11 x44 | s82 => DD x11 x45 | s83 => DD x11 x46 | s84 => DD x11 x47 | s85 => DD x11 x48 | s86 => DD x11 x49 | s87 => DD x11 x50 | s88 => DD x11 x51 | s89 => DD x11 x52 | s90 => DD x11 x53 | s91 => DD x11 x54 | s92 => DD x11 x55 | s93 => DD x11 x56 | s94 => DD x11 x57 | s95 => DD x11 x58 | s96 => DD x11 x59 | s97 => DD x11 x60 | s98 => DD x11 x61 | s99 => DD x11 x62 | s100 => DD x11 x63 | s101 => DD x12 x0 | s102 => DD x12 x1 | s103 => DD x12 x2 | s104 => DD x12 x3 | s105 => DD x12 x4 | s106 => DD x12 x5 | s107 => DD x12 x6 | s108 => DD x12 x7 | s109 => DD x12 x8 | s110 => DD x12 x9 | s111 => DD x12 x10 | s112 => DD x12 x11 | s113 => DD x12 x12 | s114 => DD x12 x13 | s115 => DD x12 x14 | s116 => DD x12 x15 | s117 => DD x12 x16 | s118 => DD x12 x17 | s119 => DD x12 x18 | s120 => DD x12 x19 | s121 => DD x12 x20 | s122 => DD x12 x21 | s123 => DD x12 x22 | s124 => DD x12 x23 | s125 => DD x12 x24 | s126 => DD x12 x25 end.
Definition m671 (c : sum2) : dd := match c with s0 => DD x10 x31 | s1 => DD x10 x32 | s2 => DD x10 x33 | s3 => DD x10 x34 | s4 => DD x10 x35 | s5 => DD x10 x36 | s6 => DD x10 x37 | s7 => DD x10 x38 | s8 => DD x10 x39 | s9 => DD x10 x40 | s10 => DD x10 x41 | s11 => DD x10 x42 | s12 => DD x10 x43 | s13 => DD x10 x44 | s14 => DD x10 x45 | s15 => DD x10 x46 | s16 => DD x10 x47 | s17 => DD x10 x48 | s18 => DD x10 x49 | s19 => DD x10 x50 | s20 => DD x10 x51 | s21 => DD x10 x52 | s22 => DD x10 x53 | s23 => DD x10 x54 | s24 => DD x10 x55 | s25 => DD x10 x56 | s26 => DD x10 x57 | s27 => DD x10 x58 | s28 => DD x10 x59 | s29 => DD x10 x60 | s30 => DD x10 x61 | s31 => DD x10 x62 | s32 => DD x10 x63 | s33 => DD x11 x0 | s34 => DD x11 x1 | s35 => DD x11 x2 | s36 => DD x11 x3 | s37 => DD x11 x4 | s38 => DD x11 x5 | s39 => DD x11 x6 | s40 => DD x11 x7 | s41 => DD x11 x8 | s42 => DD x11 x9 | s43 => DD x11 x10 | s44 => DD x11 x11 | s45 => DD x11 x12 | s46 => DD x11 x13 | s47 => DD x11 x14 | s48 => DD x11 x15 | s49 => DD x11 x16 | s50 => DD x11 x17 | s51 => DD x11 x18 | s52 => DD x11 x19 | s53 => DD x11 x20 | s54 => DD x11 x21 | s55 => DD x11 x22 | s56 => DD x11 x23 | s57 => DD x11 x24 | s58 => DD x11 x25 | s59 => DD x11 x26 | s60 => DD x11 x27 | s61 => DD x11 x28 | s62 => DD x11 x29 | s63 => DD x11 x30 | s64 => DD x11 x31 | s65 => DD x11 x32 | s66 => DD x11 x33 | s67 => DD x11 x34 | s68 => DD x11 x35 | s69 => DD x11 x36 | s70 => DD x11 x37 | s71 => DD x11 x38 | s72 => DD x11 x39 | s73 => DD x11 x40 | s74 => DD x11 x41 | s75 => DD x11 x42 | s76 => DD x11 x43 | s77 => DD x11 x44 | s78 => DD x11 x45 | s79 => DD x11 x46 | s80 => DD x11 x47 | s81 => DD x11 x48 | s82 => DD x11 x49 | s83 => DD x11 x50 | s84 => DD x11 x51 | s85 => DD x11 x52 | s86 => DD x11 x53 | s87 => DD x11 x54 | s88 => DD x11 x55 | s89 => DD x11 x56 | s90 => DD x11 x57 | s91 => DD x11 x58 | s92 => DD x11 x59 | s93 => DD x11 x60 | s94 => DD x11 x61 | s95 => DD x11 x62 | s96 => DD x11 x63 | s97 => DD x12 x0 | s98 => DD x12 x1 | s99 => DD x12 x2 | s100 => DD x12 x3 | s101 => DD x12 x4 | s102 => DD x12 x5 | s103 => DD x12 x6 | s104 => DD x12 x7 | s105 => DD x12 x8 | s106 => DD x12 x9 | s107 => DD x12 x10 | s108 => DD x12 x11 | s109 => DD x12 x12 | s110 => DD x12 x13 | s111 => DD x12 x14 | s112 => DD x12 x15 | s113 => DD x12 x16 | s114 => DD x12 x17 | s115 => DD x12 x18 | s116 => DD x12 x19 | s117 => DD x12 x20 | s118 => DD x12 x21 | s119 => DD x12 x22 | s120 => DD x12 x23 | s121 => DD x12 x24 | s122 => DD x12 x25 | s123 => DD x12 x26 | s124 => DD x12 x27 | s125 => DD x12 x28 | s126 => DD x12 x29 end.
Definition m672 (c : sum2) : dd := match c with s0 => DD x10 x32 | s1 => DD x10 x33 | s2 => DD x10 x34 | s3 => DD x10 x35 | s4 => DD x10 x36 | s5 => DD x10 x37 | s6 => DD x10 x38 | s7 => DD x10 x39 | s8 => DD x10 x40 | s9 => DD x10 x41 | s10 => DD x10 x42 | s11 => DD x10 x43 | s12 => DD x10 x44 | s13 => DD x10 x45 | s14 => DD x10 x46 | s15 => DD x10 x47 | s16 => DD x10 x48 | s17 => DD x10 x49 | s18 => DD x10 x50 | s19 => DD x10 x51 | s20 => DD x10 x52 | s21 => DD x10 x53 | s22 => DD x10 x54 | s23 => DD x10 x55 | s24 => DD x10 x56 | s25 => DD x10 x57 | s26 => DD x10 x58 | s27 => DD x10 x59 | s28 => DD x10 x60 | s29 => DD x10 x61 | s30 => DD x10 x62 | s31 => DD x10 x63 | s32 => DD x11 x0 | s33 => DD x11 x1 | s34 => DD x11 x2 | s35 => DD x11 x3 | s36 => DD x11 x4 | s37 => DD x11 x5 | s38 => DD x11 x6 | s39 => DD x11 x7 | s40 => DD x11 x8 | s41 => DD x11 x9 | s42 => DD x11 x10 | s43 => DD x11 x11 | s44 => DD x11 x12 | s45 => DD x11 x13 | s46 => DD x11 x14 | s47 => DD x11 x15 | s48 => DD x11 x16 | s49 => DD x11 x17 | s50 => DD x11 x18 | s51 => DD x11 x19 | s52 => DD x11 x20 | s53 => DD x11 x21 | s54 => DD x11 x22 | s55 => DD x11 x23 | s56 => DD x11 x24 | s57 => DD x11 x25 | s58 => DD x11 x26 | s59 => DD x11 x27 | s60 => DD x11 x28 | s61 => DD x11 x29 | s62 => DD x11 x30 | s63 => DD x11 x31 | s64 => DD x11 x32 | s65 => DD x11 x33 | s66 => DD x11 x34 | s67 => DD x11 x35 | s68 => DD x11 x36 | s69 => DD x11 x37 | s70 => DD x11 x38 | s71 => DD x11 x39 | s72 => DD x11 x40 | s73 => DD x11 x41 | s74 => DD x11 x42 | s75 => DD x11 x43 | s76 => DD x11 x44 | s77 => DD x11 x45 | s78 => DD x11 x46 | s79 => DD x11 x47 | s80 => DD x11 x48 | s81 => DD x11 x49 | s82 => DD x11 x50 | s83 => DD x11 x51 | s84 => DD x11 x52 | s85 => DD x11 x53 | s86 => DD x11 x54 | s87 => DD x11 x55 | s88 => DD x11 x56 | s89 => DD x11 x57 | s90 => DD x11 x58 | s91 => DD x11 x59 | s92 => DD x11 x60 | s93 => DD x11 x61 | s94 => DD x11 x62 | s95 => DD x11 x63 | s96 => DD x12 x0 | s97 => DD x12 x1 | s98 => DD x12 x2 | s99 => DD x12 x3 | s100 => DD x12 x4 | s101 => DD x12 x5 | s102 => DD x12 x6 | s103 => DD x12 x7 | s104 => DD x12 x8 | s105 => DD x12 x9 | s106 => DD x12 x10 | s107 => DD x12 x11 | s108 => DD x12 x12 | s109 => DD x12 x13 | s110 => DD x12 x14 | s111 => DD x12 x15 | s112 => DD x12 x16 | s113 => DD x12 x17 | s114 => DD x12 x18 | s115 => DD x12 x19 | s116 => DD x12 x20 | s117 => DD x12 x21 | s118 => DD x12 x22 | s119 => DD x12 x23 | s120 => DD x12 x24 | s121 => DD x12 x25 | s122 => DD x12 x26 | s123 => DD x12 x27 | s124 => DD x12 x28 | s125 => DD x12 x29 | s126 => DD x12 x30 end.
Definition m675 (c : sum2) : dd := match c with s0 => DD x10 x35 | s1 => DD x10 x36 | s2 => DD x10 x37 | s3 => DD x10 x38 | s4 => DD x10 x39 | s5 => DD x10 x40 | s6 => DD x10 x41 | s7 => DD x10 x42 | s8 => DD x10 x43 | s9 => DD x10 x44 | s10 => DD x10 x45 | s11 => DD x10 x46 | s12 => DD x10 x47 | s13 => DD x10 x48 | s14 => DD x10 x49 | s15 => DD x10 x50 | s16 => DD x10 x51 | s17 => DD x10 x52 | s18 => DD x10 x53 | s19 => DD x10 x54 | s20 => DD x10 x55 | s21 => DD x10 x56 | s22 => DD x10 x57 | s23 => DD x10 x58 | s24 => DD x10 x59 | s25 => DD x10 x60 | s26 => DD x10 x61 | s27 => DD x10 x62 | s28 => DD x10 x63 | s29 => DD x11 x0 | s30 => DD x11 x1 | s31 => DD x11 x2 | s32 => DD x11 x3 | s33 => DD x11 x4 | s34 => DD x11 x5 | s35 => DD x11 x6 | s36 => DD x11 x7 | s37 => DD x11 x8 | s38 => DD x11 x9 | s39 => DD x11 x10 | s40 => DD x11 x11 | s41 => DD x11 x12 | s42 => DD x11 x13 | s43 => DD x11 x14 | s44 => DD x11 x15 | s45 => DD x11 x16 | s46 => DD x11 x17 | s47 => DD x11 x18 | s48 => DD x11 x19 | s49 => DD x11 x20 | s50 => DD x11 x21 | s51 => DD x11 x22 | s52 => DD x11 x23 | s53 => DD x11 x24 | s54 => DD x11 x25 | s55 => DD x11 x26 | s56 => DD x11 x27 | s57 => DD x11 x28 | s58 => DD x11 x29 | s59 => DD x11 x30 | s60 => DD x11 x31 | s61 => DD x11 x32 | s62 => DD x11 x33 | s63 => DD x11 x34 | s64 => DD x11 x35 | s65 => DD x11 x36 | s66 => DD x11 x37 | s67 => DD x11 x38 | s68 => DD x11 x39 | s69 => DD x11 x40 | s70 => DD x11 x41 | s71 => DD x11 x42 | s72 => DD x11 x43 | s73 => DD x11 x44 | s74 => DD x11 x45 | s75 => DD x11 x46 | s76 => DD x11 x47 | s77 => DD x11 x48 | s78 => DD x11 x49 | s79 => DD x11 x50 | s80 => DD x11 x51 | s81 => DD x11 x52 | s82 => DD x11 x53 | s83 => DD x11 x54 | s84 => DD x11 x55 | s85 => DD x11 x56 | s86 => DD x11 x57 | s87 => DD x11 x58 | s88 => DD x11 x59 | s89 => DD x11 x60 | s90 => DD x11 x61 | s91 => DD x11 x62 | s92 => DD x11 x63 | s93 => DD x12 x0 | s94 => DD x12 x1 | s95 => DD x12 x2 | s96 => DD x12 x3 | s97 => DD x12 x4 | s98 => DD x12 x5 | s99 => DD x12 x6 | s100 => DD x12 x7 | s101 => DD x12 x8 | s102 => DD x12 x9 | s103 => DD x12 x10 | s104 => DD x12 x11 | s105 => DD x12 x12 | s106 => DD x12 x13 | s107 => DD x12 x14 | s108 => DD x12 x15 | s109 => DD x12 x16 | s110 => DD x12 x17 | s111 => DD x12 x18 | s112 => DD x12 x19 | s113 => DD x12 x20 | s114 => DD x12 x21 | s115 => DD x12 x22 | s116 => DD x12 x23 | s117 => DD x12 x24 | s118 => DD x12 x25 | s119 => DD x12 x26 | s120 => DD x12 x27 | s121 => DD x12 x28 | s122 => DD x12 x29 | s123 => DD x12 x30 | s124 => DD x12 x31 | s125 => DD x12 x32 | s126 => DD x12 x33 end.
Definition m676 (c : sum2) : dd := match c with s0 => DD x10 x36 | s1 => DD x10 x37 | s2 => DD x10 x38 | s3 => DD x10 x39 | s4 => DD x10 x40 | s5 => DD x10 x41 | s6 => DD x10 x42 | s7 => DD x10 x43 | s8 => DD x10 x44 | s9 => DD x10 x45 | s10 => DD x10 x46 | s11 => DD x10 x47 | s12 => DD x10 x48 | s13 => DD x10 x49 | s14 => DD x10 x50 | s15 => DD x10 x51 | s16 => DD x10 x52 | s17 => DD x10 x53 | s18 => DD x10 x54 | s19 => DD x10 x55 | s20 => DD x10 x56 | s21 => DD x10 x57 | s22 => DD x10 x58 | s23 => DD x10 x59 | s24 => DD x10 x60 | s25 => DD x10 x61 | s26 => DD x10 x62 | s27 => DD x10 x63 | s28 => DD x11 x0 | s29 => DD x11 x1 | s30 => DD x11 x2 | s31 => DD x11 x3 | s32 => DD x11 x4 | s33 => DD x11 x5 | s34 => DD x11 x6 | s35 => DD x11 x7 | s36 => DD x11 x8 | s37 => DD x11 x9 | s38 => DD x11 x10 | s39 => DD x11 x11 | s40 => DD x11 x12 | s41 => DD x11 x13 | s42 => DD x11 x14 | s43 => DD x11 x15 | s44 => DD x11 x16 | s45 => DD x11 x17 | s46 => DD x11 x18 | s47 => DD x11 x19 | s48 => DD x11 x20 | s49 => DD x11 x21 | s50 => DD x11 x22 | s51 => DD x11 x23 | s52 => DD x11 x24 | s53 => DD x11 x25 | s54 => DD x11 x26 | s55 => DD x11 x27 | s56 => DD x11 x28 | s57 => DD x11 x29 | s58 => DD x11 x30 | s59 => DD x11 x31 | s60 => DD x11 x32 | s61 => DD x11 x33 | s62 => DD x11 x34 | s63 => DD x11 x35 | s64 => DD x11 x36 | s65 => DD x11 x37 | s66 => DD x11 x38 | s67 => DD x11 x39 | s68 => DD x11 x40 | s69 => DD x11 x41 | s70 => DD x11 x42 | s71 => DD x11 x43 | s72 => DD x11 x44 | s73 => DD x11 x45 | s74 => DD x11 x46 | s75 => DD x11 x47 | s76 => DD x11 x48 | s77 => DD x11 x49 | s78 => DD x11 x50 | s79 => DD x11 x51 | s80 => DD x11 x52 | s81 => DD x11 x53 | s82 => DD x11 x54 | s83 => DD x11 x55 | s84 => DD x11 x56 | s85 => DD x11 x57 | s86 => DD x11 x58 | s87 => DD x11 x59 | s88 => DD x11 x60 | s89 => DD x11 x61 | s90 => DD x11 x62 | s91 => DD x11 x63 | s92 => DD x12 x0 | s93 => DD x12 x1 | s94 => DD x12 x2 | s95 => DD x12 x3 | s96 => DD x12 x4 | s97 => DD x12 x5 | s98 => DD x12 x6 | s99 => DD x12 x7 | s100 => DD x12 x8 | s101 => DD x12 x9 | s102 => DD x12 x10 | s103 => DD x12 x11 | s104 => DD x12 x12 | s105 => DD x12 x13 | s106 => DD x12 x14 | s107 => DD x12 x15 | s108 => DD x12 x16 | s109 => DD x12 x17 | s110 => DD x12 x18 | s111 => DD x12 x19 | s112 => DD x12 x20 | s113 => DD x12 x21 | s114 => DD x12 x22 | s115 => DD x12 x23 | s116 => DD x12 x24 | s117 => DD x12 x25 | s118 => DD x12 x26 | s119 => DD x12 x27 | s120 => DD x12 x28 | s121 => DD x12 x29 | s122 => DD x12 x30 | s123 => DD x12 x31 | s124 => DD x12 x32 | s125 => DD x12 x33 | s126 => DD x12 x34 end.
Definition m680 (c : sum2) : dd := match c with s0 => DD x10 x40 | s1 => DD x10 x41 | s2 => DD x10 x42 | s3 => DD x10 x43 | s4 => DD x10 x44 | s5 => DD x10 x45 | s6 => DD x10 x46 | s7 => DD x10 x47 | s8 => DD x10 x48 | s9 => DD x10 x49 | s10 => DD x10 x50 | s11 => DD x10 x51 | s12 => DD x10 x52 | s13 => DD x10 x53 | s14 => DD x10 x54 | s15 => DD x10 x55 | s16 => DD x10 x56 | s17 => DD x10 x57 | s18 => DD x10 x58 | s19 => DD x10 x59 | s20 => DD x10 x60 | s21 => DD x10 x61 | s22 => DD x10 x62 | s23 => DD x10 x63 | s24 => DD x11 x0 | s25 => DD x11 x1 | s26 => DD x11 x2 | s27 => DD x11 x3 | s28 => DD x11 x4 | s29 => DD x11 x5 | s30 => DD x11 x6 | s31 => DD x11 x7 | s32 => DD x11 x8 | s33 => DD x11 x9 | s34 => DD x11 x10 | s35 => DD x11 x11 | s36 => DD x11 x12 | s37 => DD x11 x13 | s38 => DD x11 x14 | s39 => DD x11 x15 | s40 => DD x11 x16 | s41 => DD x11 x17 | s42 => DD x11 x18 | s43 => DD x11 x19 | s44 => DD x11 x20 | s45 => DD x11 x21 | s46 => DD x11 x22 | s47 => DD x11 x23 | s48 => DD x11 x24 | s49 => DD x11 x25 | s50 => DD x11 x26 | s51 => DD x11 x27 | s52 => DD x11 x28 | s53 => DD x11 x29 | s54 => DD x11 x30 | s55 => DD x11 x31 | s56 => DD x11 x32 | s57 => DD x11 x33 | s58 => DD x11 x34 | s59 => DD x11 x35 | s60 => DD x11 x36 | s61 => DD x11 x37 | s62 => DD x11 x38 | s63 => DD x11 x39 | s64 => DD x11 x40 | s65 => DD x11 x41 | s66 => DD x11 x42 | s67 => DD x11 x43 | s68 => DD x11 x44 | s69 => DD x11 x45 | s70 => DD x11 x46 | s71 => DD x11 x47 | s72 => DD x11 x48 | s73 => DD x11 x49 | s74 => DD x11 x50 | s75 => DD x11 x51 | s76 => DD x11 x52 | s77 => DD x11 x53 | s78 => DD x11 x54 | s79 => DD x11 x55 | s80 => DD x11 x56 | s81 => DD x11 x57 | s82 => DD x11 x58 | s83 => DD x11 x59 | s84 => DD x11 x60 | s85 => DD x11 x61 | s86 => DD x11 x62 | s87 => DD x11 x63 | s88 => DD x12 x0 | s89 => DD x12 x1 | s90 => DD x12 x2 | s91 => DD x12 x3 | s92 => DD x12 x4 | s93 => DD x12 x5 | s94 => DD x12 x6 | s95 => DD x12 x7 | s96 => DD x12 x8 | s97 => DD x12 x9 | s98 => DD x12 x10 | s99 => DD x12 x11 | s100 => DD x12 x12 | s101 => DD x12 x13 | s102 => DD x12 x14 | s103 => DD x12 x15 | s104 => DD x12 x16 | s105 => DD x12 x17 | s106 => DD x12 x18 | s107 => DD x12 x19 | s108 => DD x12 x20 | s109 => DD x12 x21 | s110 => DD x12 x22 | s111 => DD x12 x23 | s112 => DD x12 x24 | s113 => DD x12 x25 | s114 => DD x12 x26 | s115 => DD x12 x27 | s116 => DD x12 x28 | s117 => DD x12 x29 | s118 => DD x12 x30 | s119 => DD x12 x31 | s120 => DD x12 x32 | s121 => DD x12 x33 | s122 => DD x12 x34 | s123 => DD x12 x35 | s124 => DD x12 x36 | s125 => DD x12 x37 | s126 => DD x12 x38 end.
Definition m682 (c : sum2) : dd := match c with s0 => DD x10 x42 | s1 => DD x10 x43 | s2 => DD x10 x44 | s3 => DD x10 x45 | s4 => DD x10 x46 | s5 => DD x10 x47 | s6 => DD x10 x48 | s7 => DD x10 x49 | s8 => DD x10 x50 | s9 => DD x10 x51 | s10 => DD x10 x52 | s11 => DD x10 x53 | s12 => DD x10 x54 | s13 => DD x10 x55 | s14 => DD x10 x56 | s15 => DD x10 x57 | s16 => DD x10 x58 | s17 => DD x10 x59 | s18 => DD x10 x60 | s19 => DD x10 x61 | s20 => DD x10 x62 | s21 => DD x10 x63 | s22 => DD x11 x0 | s23 => DD x11 x1 | s24 => DD x11 x2 | s25 => DD x11 x3 | s26 => DD x11 x4 | s27 => DD x11 x5 | s28 => DD x11 x6 | s29 => DD x11 x7 | s30 => DD x11 x8 | s31 => DD x11 x9 | s32 => DD x11 x10 | s33 => DD x11 x11 | s34 => DD x11 x12 | s35 => DD x11 x13 | s36 => DD x11 x14 | s37 => DD x11 x15 | s38 => DD x11 x16 | s39 => DD x11 x17 | s40 => DD x11 x18 | s41 => DD x11 x19 | s42 => DD x11 x20 | s43 => DD x11 x21 | s44 => DD x11 x22 | s45 => DD x11 x23 | s46 => DD x11 x24 | s47 => DD x11 x25 | s48 => DD x11 x26 | s49 => DD x11 x27 | s50 => DD x11 x28 | s51 => DD x11 x29 | s52 => DD x11 x30 | s53 => DD x11 x31 | s54 => DD x11 x32 | s55 => DD x11 x33 | s56 => DD x11 x34 | s57 => DD x11 x35 | s58 => DD x11 x36 | s59 => DD x11 x37 | s60 => DD x11 x38 | s61 => DD x11 x39 | s62 => DD x11 x40 | s63 => DD x11 x41 | s64 => DD x11 x42 | s65 => DD x11 x43 | s66 => DD x11 x44 | s67 => DD x11 x45 | s68 => DD x11 x46 | s69 => DD x11 x47 | s70 => DD x11 x48 | s71 => DD x11 x49 | s72 => DD x11 x50 | s73 => DD x11 x51 | s74 => DD x11 x52 | s75 => DD x11 x53 | s76 => DD x11 x54 | s77 => DD x11 x55 | s78 => DD x11 x56 | s79 => DD x11 x57 | s80 => DD x11 x58 | s81 => DD x11 x59 | s82 => DD x11 x60 | s83 => DD x11 x61 | s84 => DD x11 x62 | s85 => DD x11 x63 | s86 => DD x12 x0 | s87 => DD x12 x1 | s88 => DD x12 x2 | s89 => DD x12 x3 | s90 => DD x12 x4 | s91 => DD x12 x5 | s92 => DD x12 x6 | s93 => DD x12 x7 | s94 => DD x12 x8 | s95 => DD x12 x9 | s96 => DD x12 x10 | s97 => DD x12 x11 | s98 => DD x12 x12 | s99 => DD x12 x13 | s100 => DD x12 x14 | s101 => DD x12 x15 | s102 => DD x12 x16 | s103 => DD x12 x17 | s104 => DD x12 x18 | s105 => DD x12 x19 | s106 => DD x12 x20 | s107 => DD x12 x21 | s108 => DD x12 x22 | s109 => DD x12 x23 | s110 => DD x12 x24 | s111 => DD x12 x25 | s112 => DD x12 x26 | s113 => DD x12 x27 | s114 => DD x12 x28 | s115 => DD x12 x29 | s116 => DD x12 x30 | s117 => DD x12 x31 | s118 => DD x12 x32 | s119 => DD x12 x33 | s120 => DD x12 x34 | s121 => DD x12 x35 | s122 => DD x12 x36 | s123 => DD x12 x37 | s124 => DD x12 x38 | s125 => DD x12 x39 | s126 => DD x12 x40 end.
Definition m684 (c : sum2) : dd := match c with s0 => DD x10 x44 | s1 => DD x10 x45 | s2 => DD x10 x46 | s3 => DD x10 x47 | s4 => DD x10 x48 | s5 => DD x10 x49 | s6 => DD x10 x50 | s7 => DD x10 x51 | s8 => DD x10 x52 | s9 => DD x10 x53 | s10 => DD x10 x54 | s11 => DD x10 x55 | s12 => DD x10 x56 | s13 => DD x10 x57 | s14 => DD x10 x58 | s15 => DD x10 x59 | s16 => DD x10 x60 | s17 => DD x10 x61 | s18 => DD x10 x62 | s19 => DD x10 x63 | s20 => DD x11 x0 | s21 => DD x11 x1 | s22 => DD x11 x2 | s23 => DD x11 x3 | s24 => DD x11 x4 | s25 => DD x11 x5 | s26 => DD x11 x6 | s27 => DD x11 x7 | s28 => DD x11 x8 | s29 => DD x11 x9 | s30 => DD x11 x10 | s31 => DD x11 x11 | s32 => DD x11 x12 | s33 => DD x11 x13 | s34 => DD x11 x14 | s35 => DD x11 x15 | s36 => DD x11 x16 | s37 => DD x11 x17 | s38 => DD x11 x18 | s39 => DD x11 x19 | s40 => DD x11 x20 | s41 => DD x11 x21 | s42 => DD x11 x22 | s43 => DD x11 x23 | s44 => DD x11 x24 | s45 => DD x11 x25 | s46 => DD x11 x26 | s47 => DD x11 x27 | s48 => DD x11 x28 | s49 => DD x11 x29 | s50 => DD x11 x30 | s51 => DD x11 x31 | s52 => DD x11 x32 | s53 => DD x11 x33 | s54 => DD x11 x34 | s55 => DD x11 x35 | s56 => DD x11 x36 | s57 => DD x11 x37 | s58 => DD x11 x38 | s59 => DD x11 x39 | s60 => DD x11 x40 | s61 => DD x11 x41 | s62 => DD x11 x42 | s63 => DD x11 x43 | s64 => DD x11 x44 | s65 => DD x11 x45 | s66 => DD x11 x46 | s67 => DD x11 x47 | s68 => DD x11 x48 | s69 => DD x11 x49 | s70 => DD x11 x50 | s71 => DD x11 x51 | s72 => DD x11 x52 | s73 => DD x11 x53 | s74 => DD x11 x54 | s75 => DD x11 x55 | s76 => DD x11 x56 | s77 => DD x11 x57 | s78 => DD x11 x58 | s79 => DD x11 x59 | s80 => DD x11 x60 | s81 => DD x11 x61 | s82 => DD x11 x62 | s83 => DD x11 x63 | s84 => DD x12 x0 | s85 => DD x12 x1 | s86 => DD x12 x2 | s87 => DD x12 x3 | s88 => DD x12 x4 | s89 => DD x12 x5 | s90 => DD x12 x6 | s91 => DD x12 x7 | s92 => DD x12 x8 | s93 => DD x12 x9 | s94 => DD x12 x10 | s95 => DD x12 x11 | s96 => DD x12 x12 | s97 => DD x12 x13 | s98 => DD x12 x14 | s99 => DD x12 x15 | s100 => DD x12 x16 | s101 => DD x12 x17 | s102 => DD x12 x18 | s103 => DD x12 x19 | s104 => DD x12 x20 | s105 => DD x12 x21 | s106 => DD x12 x22 | s107 => DD x12 x23 | s108 => DD x12 x24 | s109 => DD x12 x25 | s110 => DD x12 x26 | s111 => DD x12 x27 | s112 => DD x12 x28 | s113 => DD x12 x29 | s114 => DD x12 x30 | s115 => DD x12 x31 | s116 => DD x12 x32 | s117 => DD x12 x33 | s118 => DD x12 x34 | s119 => DD x12 x35 | s120 => DD x12 x36 | s121 => DD x12 x37 | s122 => DD x12 x38 | s123 => DD x12 x39 | s124 => DD x12 x40 | s125 => DD x12 x41 | s126 => DD x12 x42 end.
Definition m686 (c : sum2) : dd := match c with s0 => DD x10 x46 | s1 => DD x10 x47 | s2 => DD x10 x48 | s3 => DD x10 x49 | s4 => DD x10 x50 | s5 => DD x10 x51 | s6 => DD x10 x52 | s7 => DD x10 x53 | s8 => DD x10 x54 | s9 => DD x10 x55 | s10 => DD x10 x56 | s11 => DD x10 x57 | s12 => DD x10 x58 | s13 => DD x10 x59 | s14 => DD x10 x60 | s15 => DD x10 x61 | s16 => DD x10 x62 | s17 => DD x10 x63 | s18 => DD x11 x0 | s19 => DD x11 x1 | s20 => DD x11 x2 | s21 => DD x11 x3 | s22 => DD x11 x4 | s23 => DD x11 x5 | s24 => DD x11 x6 | s25 => DD x11 x7 | s26 => DD x11 x8 | s27 => DD x11 x9 | s28 => DD x11 x10 | s29 => DD x11 x11 | s30 => DD x11 x12 | s31 => DD x11 x13 | s32 => DD x11 x14 | s33 => DD x11 x15 | s34 => DD x11 x16 | s35 => DD x11 x17 | s36 => DD x11 x18 | s37 => DD x11 x19 | s38 => DD x11 x20 | s39 => DD x11 x21 | s40 => DD x11 x22 | s41 => DD x11 x23 | s42 => DD x11 x24 | s43 => DD x11 x25 | s44 => DD x11 x26 | s45 => DD x11 x27 | s46 => DD x11 x28 | s47 => DD x11 x29 | s48 => DD x11 x30 | s49 => DD x11 x31 | s50 => DD x11 x32 | s51 => DD x11 x33 | s52 => DD x11 x34 | s53 => DD x11 x35 | s54 => DD x11 x36 | s55 => DD x11 x37 | s56 => DD x11 x38 | s57 => DD x11 x39 | s58 => DD x11 x40 | s59 => DD x11 x41 | s60 => DD x11 x42 | s61 => DD x11 x43 | s62 => DD x11 x44 | s63 => DD x11 x45 | s64 => DD x11 x46 | s65 => DD x11 x47 | s66 => DD x11 x48 | s67 => DD x11 x49 | s68 => DD x11 x50 | s69 => DD x11 x51 | s70 => DD x11 x52 | s71 => DD x11 x53 | s72 => DD x11 x54 | s73 => DD x11 x55 | s74 => DD x11 x56 | s75 => DD x11 x57 | s76 => DD x11 x58 | s77 => DD x11 x59 | s78 => DD x11 x60 | s79 => DD x11 x61 | s80 => DD x11 x62 | s81 => DD x11 x63 | s82 => DD x12 x0 | s83 => DD x12 x1 | s84 => DD x12 x2 | s85 => DD x12 x3 | s86 => DD x12 x4 | s87 => DD x12 x5 | s88 => DD x12 x6 | s89 => DD x12 x7 | s90 => DD x12 x8 | s91 => DD x12 x9 | s92 => DD x12 x10 | s93 => DD x12 x11 | s94 => DD x12 x12 | s95 => DD x12 x13 | s96 => DD x12 x14 | s97 => DD x12 x15 | s98 => DD x12 x16 | s99 => DD x12 x17 | s100 => DD x12 x18 | s101 => DD x12 x19 | s102 => DD x12 x20 | s103 => DD x12 x21 | s104 => DD x12 x22 | s105 => DD x12 x23 | s106 => DD x12 x24 | s107 => DD x12 x25 | s108 => DD x12 x26 | s109 => DD x12 x27 | s110 => DD x12 x28 | s111 => DD x12 x29 | s112 => DD x12 x30 | s113 => DD x12 x31 | s114 => DD x12 x32 | s115 => DD x12 x33 | s116 => DD x12 x34 | s117 => DD x12 x35 | s118 => DD x12 x36 | s119 => DD x12 x37 | s120 => DD x12 x38 | s121 => DD x12 x39 | s122 => DD x12 x40 | s123 => DD x12 x41 | s124 => DD x12 x42 | s125 => DD x12 x43 | s126 => DD x12 x44 end.
Definition m688 (c : sum2) : dd := match c with s0 => DD x10 x48 | s1 => DD x10 x49 | s2 => DD x10 x50 | s3 => DD x10 x51 | s4 => DD x10 x52 | s5 => DD x10 x53 | s6 => DD x10 x54 | s7 => DD x10 x55 | s8 => DD x10 x56 | s9 => DD x10 x57 | s10 => DD x10 x58 | s11 => DD x10 x59 | s12 => DD x10 x60 | s13 => DD x10 x61 | s14 => DD x10 x62 | s15 => DD x10 x63 | s16 => DD x11 x0 | s17 => DD x11 x1 | s18 => DD x11 x2 | s19 => DD x11 x3 | s20 => DD x11 x4 | s21 => DD x11 x5 | s22 => DD x11 x6 | s23 => DD x11 x7 | s24 => DD x11 x8 | s25 => DD x11 x9 | s26 => DD x11 x10 | s27 => DD x11 x11 | s28 => DD x11 x12 | s29 => DD x11 x13 | s30 => DD x11 x14 | s31 => DD x11 x15 | s32 => DD x11 x16 | s33 => DD x11 x17 | s34 => DD x11 x18 | s35 => DD x11 x19 | s36 => DD x11 x20 | s37 => DD x11 x21 | s38 => DD x11 x22 | s39 => DD x11 x23 | s40 => DD x11 x24 | s41 => DD x11 x25 | s42 => DD x11 x26 | s43 => DD x11 x27 | s44 => DD x11 x28 | s45 => DD x11 x29 | s46 => DD x11 x30 | s47 => DD x11 x31 | s48 => DD x11 x32 | s49 => DD x11 x33 | s50 => DD x11 x34 | s51 => DD x11 x35 | s52 => DD x11 x36 | s53 => DD x11 x37 | s54 => DD x11 x38 | s55 => DD x11 x39 | s56 => DD x11 x40 | s57 => DD x11 x41 | s58 => DD x11 x42 | s59 => DD x11 x43 | s60 => DD x11 x44 | s61 => DD x11 x45 | s62 => DD x11 x46 | s63 => DD x11 x47 | s64 => DD x11 x48 | s65 => DD x11 x49 | s66 => DD x11 x50 | s67 => DD x11 x51 | s68 => DD x11 x52 | s69 => DD x11 x53 | s70 => DD x11 x54 | s71 => DD x11 x55 | s72 => DD x11 x56 | s73 => DD x11 x57 | s74 => DD x11 x58 | s75 => DD x11 x59 | s76 => DD x11 x60 | s77 => DD x11 x61 | s78 => DD x11 x62 | s79 => DD x11 x63 | s80 => DD x12 x0 | s81 => DD x12 x1 | s82 => DD x12 x2 | s83 => DD x12 x3 | s84 => DD x12 x4 | s85 => DD x12 x5 | s86 => DD x12 x6 | s87 => DD x12 x7 | s88 => DD x12 x8 | s89 => DD x12 x9 | s90 => DD x12 x10 | s91 => DD x12 x11 | s92 => DD x12 x12 | s93 => DD x12 x13 | s94 => DD x12 x14 | s95 => DD x12 x15 | s96 => DD x12 x16 | s97 => DD x12 x17 | s98 => DD x12 x18 | s99 => DD x12 x19 | s100 => DD x12 x20 | s101 => DD x12 x21 | s102 => DD x12 x22 | s103 => DD x12 x23 | s104 => DD x12 x24 | s105 => DD x12 x25 | s106 => DD x12 x26 | s107 => DD x12 x27 | s108 => DD x12 x28 | s109 => DD x12 x29 | s110 => DD x12 x30 | s111 => DD x12 x31 | s112 => DD x12 x32 | s113 => DD x12 x33 | s114 => DD x12 x34 | s115 => DD x12 x35 | s116 => DD x12 x36 | s117 => DD x12 x37 | s118 => DD x12 x38 | s119 => DD x12 x39 | s120 => DD x12 x40 | s121 => DD x12 x41 | s122 => DD x12 x42 | s123 => DD x12 x43 | s124 => DD x12 x44 | s125 => DD x12 x45 | s126 => DD x12 x46 end.
Definition m689 (c : sum2) : dd := match c with s0 => DD x10 x49 | s1 => DD x10 x50 | s2 => DD x10 x51 | s3 => DD x10 x52 | s4 => DD x10 x53 | s5 => DD x10 x54 | s6 => DD x10 x55 | s7 => DD x10 x56 | s8 => DD x10 x57 | s9 => DD x10 x58 | s10 => DD x10 x59 | s11 => DD x10 x60 | s12 => DD x10 x61 | s13 => DD x10 x62 | s14 => DD x10 x63 | s15 => DD x11 x0 | s16 => DD x11 x1 | s17 => DD x11 x2 | s18 => DD x11 x3 | s19 => DD x11 x4 | s20 => DD x11 x5 | s21 => DD x11 x6 | s22 => DD x11 x7 | s23 => DD x11 x8 | s24 => DD x11 x9 | s25 => DD x11 x10 | s26 => DD x11 x11 | s27 => DD x11 x12 | s28 => DD x11 x13 | s29 => DD x11 x14 | s30 => DD x11 x15 | s31 => DD x11 x16 | s32 => DD x11 x17 | s33 => DD x11 x18 | s34 => DD x11 x19 | s35 => DD x11 x20 | s36 => DD x11 x21 | s37 => DD x11 x22 | s38 => DD x11 x23 | s39 => DD x11 x24 | s40 => DD x11 x25 | s41 => DD x11 x26 | s42 => DD x11 x27 | s43 => DD x11 x28 | s44 => DD x11 x29 | s45 => DD x11 x30 | s46 => DD x11 x31 | s47 => DD x11 x32 | s48 => DD x11 x33 | s49 => DD x11 x34 | s50 => DD x11 x35 | s51 => DD x11 x36 | s52 => DD x11 x37 | s53 => DD x11 x38 | s54 => DD x11 x39 | s55 => DD x11 x40 | s56 => DD x11 x41 | s57 => DD x11 x42 | s58 => DD x11 x43 | s59 => DD x11 x44 | s60 => DD x11 x45 | s61 => DD x11 x46 | s62 => DD x11 x47 | s63 => DD x11 x48 | s64 => DD x11 x49 | s65 => DD x11 x50 | s66 => DD x11 x51 | s67 => DD x11 x52 | s68 => DD x11 x53 | s69 => DD x11 x54 | s70 => DD x11 x55 | s71 => DD x11 x56 | s72 => DD x11 x57 | s73 => DD x11 x58 | s74 => DD x11 x59 | s75 => DD x11 x60 | s76 => DD x11 x61 | s77 => DD x11 x62 | s78 => DD x11 x63 | s79 => DD x12 x0 | s80 => DD x12 x1 | s81 => DD x12 x2 | s82 => DD x12 x3 | s83 => DD x12 x4 | s84 => DD x12 x5 | s85 => DD x12 x6 | s86 => DD x12 x7 | s87 => DD x12 x8 | s88 => DD x12 x9 | s89 => DD x12 x10 | s90 => DD x12 x11 | s91 => DD x12 x12 | s92 => DD x12 x13 | s93 => DD x12 x14 | s94 => DD x12 x15 | s95 => DD x12 x16 | s96 => DD x12 x17 | s97 => DD x12 x18 | s98 => DD x12 x19 | s99 => DD x12 x20 | s100 => DD x12 x21 | s101 => DD x12 x22 | s102 => DD x12 x23 | s103 => DD x12 x24 | s104 => DD x12 x25 | s105 => DD x12 x26 | s106 => DD x12 x27 | s107 => DD x12 x28 | s108 => DD x12 x29 | s109 => DD x12 x30 | s110 => DD x12 x31 | s111 => DD x12 x32 | s112 => DD x12 x33 | s113 => DD x12 x34 | s114 => DD x12 x35 | s115 => DD x12 x36 | s116 => DD x12 x37 | s117 => DD x12 x38 | s118 => DD x12 x39 | s119 => DD x12 x40 | s120 => DD x12 x41 | s121 => DD x12 x42 | s122 => DD x12 x43 | s123 => DD x12 x44 | s124 => DD x12 x45 | s125 => DD x12 x46 | s126 => DD x12 x47 end.
Definition m690 (c : sum2) : dd := match c with s0 => DD x10 x50 | s1 => DD x10 x51 | s2 => DD x10 x52 | s3 => DD x10 x53 | s4 => DD x10 x54 | s5 => DD x10 x55 | s6 => DD x10 x56 | s7 => DD x10 x57 | s8 => DD x10 x58 | s9 => DD x10 x59 | s10 => DD x10 x60 | s11 => DD x10 x61 | s12 => DD x10 x62 | s13 => DD x10 x63 | s14 => DD x11 x0 | s15 => DD x11 x1 | s16 => DD x11 x2 | s17 => DD x11 x3 | s18 => DD x11 x4 | s19 => DD x11 x5 | s20 => DD x11 x6 | s21 => DD x11 x7 | s22 => DD x11 x8 | s23 => DD x11 x9 | s24 => DD x11 x10 | s25 => DD x11 x11 | s26 => DD x11 x12 | s27 => DD x11 x13 | s28 => DD x11 x14 | s29 => DD x11 x15 | s30 => DD x11 x16 | s31 => DD x11 x17 | s32 => DD x11 x18 | s33 => DD x11 x19 | s34 => DD x11 x20 | s35 => DD x11 x21 | s36 => DD x11 x22 | s37 => DD x11 x23 | s38 => DD x11 x24 | s39 => DD x11 x25 | s40 => DD x11 x26 | s41 => DD x11 x27 | s42 => DD x11 x28 | s43 => DD x11 x29 | s44 => DD x11 x30 | s45 => DD x11 x31 | s46 => DD x11 x32 | s47 => DD x11 x33 | s48 => DD x11 x34 | s49 => DD x11 x35 | s50 => DD x11 x36 | s51 => DD x11 x37 | s52 => DD x11 x38 | s53 => DD x11 x39 | s54 => DD x11 x40 | s55 => DD x11 x41 | s56 => DD x11 x42 | s57 => DD x11 x43 | s58 => DD x11 x44 | s59 => DD x11 x45 | s60 => DD x11 x46 | s61 => DD x11 x47 | s62 => DD x11 x48 | s63 => DD x11 x49 | s64 => DD x11 x50 | s65 => DD x11 x51 | s66 => DD x11 x52 | s67 => DD x11 x53 | s68 => DD x11 x54 | s69 => DD x11 x55 | s70 => DD x11 x56 | s71 => DD x11 x57 | s72 => DD x11 x58 | s73 => DD x11 x59 | s74 => DD x11 x60 | s75 => DD x11 x61 | s76 => DD x11 x62 | s77 => DD x11 x63 | s78 => DD x12 x0 | s79 => DD x12 x1 | s80 => DD x12 x2 | s81 => DD x12 x3 | s82 => DD x12 x4 | s83 => DD x12 x5 | s84 => DD x12 x6 | s85 => DD x12 x7 | s86 => DD x12 x8 | s87 => DD x12 x9 | s88 => DD x12 x10 | s89 => DD x12 x11 | s90 => DD x12 x12 | s91 => DD x12 x13 | s92 => DD x12 x14 | s93 => DD x12 x15 | s94 => DD x12 x16 | s95 => DD x12 x17 | s96 => DD x12 x18 | s97 => DD x12 x19 | s98 => DD x12 x20 | s99 => DD x12 x21 | s100 => DD x12 x22 | s101 => DD x12 x23 | s102 => DD x12 x24 | s103 => DD x12 x25 | s104 => DD x12 x26 | s105 => DD x12 x27 | s106 => DD x12 x28 | s107 => DD x12 x29 | s108 => DD x12 x30 | s109 => DD x12 x31 | s110 => DD x12 x32 | s111 => DD x12 x33 | s112 => DD x12 x34 | s113 => DD x12 x35 | s114 => DD x12 x36 | s115 => DD x12 x37 | s116 => DD x12 x38 | s117 => DD x12 x39 | s118 => DD x12 x40 | s119 => DD x12 x41 | s120 => DD x12 x42 | s121 => DD x12 x43 | s122 => DD x12 x44 | s123 => DD x12 x45 | s124 => DD x12 x46 | s125 => DD x12 x47 | s126 => DD x12 x48 end.
Definition m693 (c : sum2) : dd := match c with s0 => DD x10 x53 | s1 => DD x10 x54 | s2 => DD x10 x55 | s3 => DD x10 x56 | s4 => DD x10 x57 | s5 => DD x10 x58 | s6 => DD x10 x59 | s7 => DD x10 x60 | s8 => DD x10 x61 | s9 => DD x10 x62 | s10 => DD x10 x63 | s11 => DD x11 x0 | s12 => DD x11 x1 | s13 => DD x11 x2 | s14 => DD x11 x3 | s15 => DD x11 x4 | s16 => DD x11 x5 | s17 => DD x11 x6 | s18 => DD x11 x7 | s19 => DD x11 x8 | s20 => DD x11 x9 | s21 => DD x11 x10 | s22 => DD x11 x11 | s23 => DD x11 x12 | s24 => DD x11 x13 | s25 => DD x11 x14 | s26 => DD x11 x15 | s27 => DD x11 x16 | s28 => DD x11 x17 | s29 => DD x11 x18 | s30 => DD x11 x19 | s31 => DD x11 x20 | s32 => DD x11 x21 | s33 => DD x11 x22 | s34 => DD x11 x23 | s35 => DD x11 x24 | s36 => DD x11 x25 | s37 => DD x11 x26 | s38 => DD x11 x27 | s39 => DD x11 x28 | s40 => DD x11 x29 | s41 => DD x11 x30 | s42 => DD x11 x31 | s43 => DD x11 x32 | s44 => DD x11 x33 | s45 => DD x11 x34 | s46 => DD x11 x35 | s47 => DD x11 x36 | s48 => DD x11 x37 | s49 => DD x11 x38 | s50 => DD x11 x39 | s51 => DD x11 x40 | s52 => DD x11 x41 | s53 => DD x11 x42 | s54 => DD x11 x43 | s55 => DD x11 x44 | s56 => DD x11 x45 | s57 => DD x11 x46 | s58 => DD x11 x47 | s59 => DD x11 x48 | s60 => DD x11 x49 | s61 => DD x11 x50 | s62 => DD x11 x51 | s63 => DD x11 x52 | s64 => DD x11 x53 | s65 => DD x11 x54 | s66 => DD x11 x55 | s67 => DD x11 x56 | s68 => DD x11 x57 | s69 => DD x11 x58 | s70 => DD x11 x59 | s71 => DD x11 x60 | s72 => DD x11 x61 | s73 => DD x11 x62 | s74 => DD x11 x63 | s75 => DD x12 x0 | s76 => DD x12 x1 | s77 => DD x12 x2 | s78 => DD x12 x3 | s79 => DD x12 x4 | s80 => DD x12 x5 | s81 => DD x12 x6 | s82 => DD x12 x7 | s83 => DD x12 x8 | s84 => DD x12 x9 | s85 => DD x12 x10 | s86 => DD x12 x11 | s87 => DD x12 x12 | s88 => DD x12 x13 | s89 => DD x12 x14 | s90 => DD x12 x15 | s91 => DD x12 x16 | s92 => DD x12 x17 | s93 => DD x12 x18 | s94 => DD x12 x19 | s95 => DD x12 x20 | s96 => DD x12 x21 | s97 => DD x12 x22 | s98 => DD x12 x23 | s99 => DD x12 x24 | s100 => DD x12 x25 | s101 => DD x12 x26 | s102 => DD x12 x27 | s103 => DD x12 x28 | s104 => DD x12 x29 | s105 => DD x12 x30 | s106 => DD x12 x31 | s107 => DD x12 x32 | s108 => DD x12 x33 | s109 => DD x12 x34 | s110 => DD x12 x35 | s111 => DD x12 x36 | s112 => DD x12 x37 | s113 => DD x12 x38 | s114 => DD x12 x39 | s115 => DD x12 x40 | s116 => DD x12 x41 | s117 => DD x12 x42 | s118 => DD x12 x43 | s119 => DD x12 x44 | s120 => DD x12 x45 | s121 => DD x12 x46 | s122 => DD x12 x47 | s123 => DD x12 x48 | s124 => DD x12 x49 | s125 => DD x12 x50 | s126 => DD x12 x51 end.
Definition m696 (c : sum2) : dd := match c with s0 => DD x10 x56 | s1 => DD x10 x57 | s2 => DD x10 x58 | s3 => DD x10 x59 | s4 => DD x10 x60 | s5 => DD x10 x61 | s6 => DD x10 x62 | s7 => DD x10 x63 | s8 => DD x11 x0 | s9 => DD x11 x1 | s10 => DD x11 x2 | s11 => DD x11 x3 | s12 => DD x11 x4 | s13 => DD x11 x5 | s14 => DD x11 x6 | s15 => DD x11 x7 | s16 => DD x11 x8 | s17 => DD x11 x9 | s18 => DD x11 x10 | s19 => DD x11 x11 | s20 => DD x11 x12 | s21 => DD x11 x13 | s22 => DD x11 x14 | s23 => DD x11 x15 | s24 => DD x11 x16 | s25 => DD x11 x17 | s26 => DD x11 x18 | s27 => DD x11 x19 | s28 => DD x11 x20 | s29 => DD x11 x21 | s30 => DD x11 x22 | s31 => DD x11 x23 | s32 => DD x11 x24 | s33 => DD x11 x25 | s34 => DD x11 x26 | s35 => DD x11 x27 | s36 => DD x11 x28 | s37 => DD x11 x29 | s38 => DD x11 x30 | s39 => DD x11 x31 | s40 => DD x11 x32 | s41 => DD x11 x33 | s42 => DD x11 x34 | s43 => DD x11 x35 | s44 => DD x11 x36 | s45 => DD x11 x37 | s46 => DD x11 x38 | s47 => DD x11 x39 | s48 => DD x11 x40 | s49 => DD x11 x41 | s50 => DD x11 x42 | s51 => DD x11 x43 | s52 => DD x11 x44 | s53 => DD x11 x45 | s54 => DD x11 x46 | s55 => DD x11 x47 | s56 => DD x11 x48 | s57 => DD x11 x49 | s58 => DD x11 x50 | s59 => DD x11 x51 | s60 => DD x11 x52 | s61 => DD x11 x53 | s62 => DD x11 x54 | s63 => DD x11 x55 | s64 => DD x11 x56 | s65 => DD x11 x57 | s66 => DD x11 x58 | s67 => DD x11 x59 | s68 => DD x11 x60 | s69 => DD x11 x61 | s70 => DD x11 x62 | s71 => DD x11 x63 | s72 => DD x12 x0 | s73 => DD x12 x1 | s74 => DD x12 x2 | s75 => DD x12 x3 | s76 => DD x12 x4 | s77 => DD x12 x5 | s78 => DD x12 x6 | s79 => DD x12 x7 | s80 => DD x12 x8 | s81 => DD x12 x9 | s82 => DD x12 x10 | s83 => DD x12 x11 | s84 => DD x12 x12 | s85 => DD x12 x13 | s86 => DD x12 x14 | s87 => DD x12 x15 | s88 => DD x12 x16 | s89 => DD x12 x17 | s90 => DD x12 x18 | s91 => DD x12 x19 | s92 => DD x12 x20 | s93 => DD x12 x21 | s94 => DD x12 x22 | s95 => DD x12 x23 | s96 => DD x12 x24 | s97 => DD x12 x25 | s98 => DD x12 x26 | s99 => DD x12 x27 | s100 => DD x12 x28 | s101 => DD x12 x29 | s102 => DD x12 x30 | s103 => DD x12 x31 | s104 => DD x12 x32 | s105 => DD x12 x33 | s106 => DD x12 x34 | s107 => DD x12 x35 | s108 => DD x12 x36 | s109 => DD x12 x37 | s110 => DD x12 x38 | s111 => DD x12 x39 | s112 => DD x12 x40 | s113 => DD x12 x41 | s114 => DD x12 x42 | s115 => DD x12 x43 | s116 => DD x12 x44 | s117 => DD x12 x45 | s118 => DD x12 x46 | s119 => DD x12 x47 | s120 => DD x12 x48 | s121 => DD x12 x49 | s122 => DD x12 x50 | s123 => DD x12 x51 | s124 => DD x12 x52 | s125 => DD x12 x53 | s126 => DD x12 x54 end.
Definition m697 (c : sum2) : dd := match c with s0 => DD x10 x57 | s1 => DD x10 x58 | s2 => DD x10 x59 | s3 => DD x10 x60 | s4 => DD x10 x61 | s5 => DD x10 x62 | s6 => DD x10 x63 | s7 => DD x11 x0 | s8 => DD x11 x1 | s9 => DD x11 x2 | s10 => DD x11 x3 | s11 => DD x11 x4 | s12 => DD x11 x5 | s13 => DD x11 x6 | s14 => DD x11 x7 | s15 => DD x11 x8 | s16 => DD x11 x9 | s17 => DD x11 x10 | s18 => DD x11 x11 | s19 => DD x11 x12 | s20 => DD x11 x13 | s21 => DD x11 x14 | s22 => DD x11 x15 | s23 => DD x11 x16 | s24 => DD x11 x17 | s25 => DD x11 x18 | s26 => DD x11 x19 | s27 => DD x11 x20 | s28 => DD x11 x21 | s29 => DD x11 x22 | s30 => DD x11 x23 | s31 => DD x11 x24 | s32 => DD x11 x25 | s33 => DD x11 x26 | s34 => DD x11 x27 | s35 => DD x11 x28 | s36 => DD x11 x29 | s37 => DD x11 x30 | s38 => DD x11 x31 | s39 => DD x11 x32 | s40 => DD x11 x33 | s41 => DD x11 x34 | s42 => DD x11 x35 | s43 => DD x11 x36 | s44 => DD x11 x37 | s45 => DD x11 x38 | s46 => DD x11 x39 | s47 => DD x11 x40 | s48 => DD x11 x41 | s49 => DD x11 x42 | s50 => DD x11 x43 | s51 => DD x11 x44 | s52 => DD x11 x45 | s53 => DD x11 x46 | s54 => DD x11 x47 | s55 => DD x11 x48 | s56 => DD x11 x49 | s57 => DD x11 x50 | s58 => DD x11 x51 | s59 => DD x11 x52 | s60 => DD x11 x53 | s61 => DD x11 x54 | s62 => DD x11 x55 | s63 => DD x11 x56 | s64 => DD x11 x57 | s65 => DD x11 x58 | s66 => DD x11 x59 | s67 => DD x11 x60 | s68 => DD x11 x61 | s69 => DD x11 x62 | s70 => DD x11 x63 | s71 => DD x12 x0 | s72 => DD x12 x1 | s73 => DD x12 x2 | s74 => DD x12 x3 | s75 => DD x12 x4 | s76 => DD x12 x5 | s77 => DD x12 x6 | s78 => DD x12 x7 | s79 => DD x12 x8 | s80 => DD x12 x9 | s81 => DD x12 x10 | s82 => DD x12 x11 | s83 => DD x12 x12 | s84 => DD x12 x13 | s85 => DD x12 x14 | s86 => DD x12 x15 | s87 => DD x12 x16 | s88 => DD x12 x17 | s89 => DD x12 x18 | s90 => DD x12 x19 | s91 => DD x12 x20 | s92 => DD x12 x21 | s93 => DD x12 x22 | s94 => DD x12 x23 | s95 => DD x12 x24 | s96 => DD x12 x25 | s97 => DD x12 x26 | s98 => DD x12 x27 | s99 => DD x12 x28 | s100 => DD x12 x29 | s101 => DD x12 x30 | s102 => DD x12 x31 | s103 => DD x12 x32 | s104 => DD x12 x33 | s105 => DD x12 x34 | s106 => DD x12 x35 | s107 => DD x12 x36 | s108 => DD x12 x37 | s109 => DD x12 x38 | s110 => DD x12 x39 | s111 => DD x12 x40 | s112 => DD x12 x41 | s113 => DD x12 x42 | s114 => DD x12 x43 | s115 => DD x12 x44 | s116 => DD x12 x45 | s117 => DD x12 x46 | s118 => DD x12 x47 | s119 => DD x12 x48 | s120 => DD x12 x49 | s121 => DD x12 x50 | s122 => DD x12 x51 | s123 => DD x12 x52 | s124 => DD x12 x53 | s125 => DD x12 x54 | s126 => DD x12 x55 end.
Definition m700 (c : sum2) : dd := match c with s0 => DD x10 x60 | s1 => DD x10 x61 | s2 => DD x10 x62 | s3 => DD x10 x63 | s4 => DD x11 x0 | s5 => DD x11 x1 | s6 => DD x11 x2 | s7 => DD x11 x3 | s8 => DD x11 x4 | s9 => DD x11 x5 | s10 => DD x11 x6 | s11 => DD x11 x7 | s12 => DD x11 x8 | s13 => DD x11 x9 | s14 => DD x11 x10 | s15 => DD x11 x11 | s16 => DD x11 x12 | s17 => DD x11 x13 | s18 => DD x11 x14 | s19 => DD x11 x15 | s20 => DD x11 x16 | s21 => DD x11 x17 | s22 => DD x11 x18 | s23 => DD x11 x19 | s24 => DD x11 x20 | s25 => DD x11 x21 | s26 => DD x11 x22 | s27 => DD x11 x23 | s28 => DD x11 x24 | s29 => DD x11 x25 | s30 => DD x11 x26 | s31 => DD x11 x27 | s32 => DD x11 x28 | s33 => DD x11 x29 | s34 => DD x11 x30 | s35 => DD x11 x31 | s36 => DD x11 x32 | s37 => DD x11 x33 | s38 => DD x11 x34 | s39 => DD x11 x35 | s40 => DD x11 x36 | s41 => DD x11 x37 | s42 => DD x11 x38 | s43 => DD x11 x39 | s44 => DD x11 x40 | s45 => DD x11 x41 | s46 => DD x11 x42 | s47 => DD x11 x43 | s48 => DD x11 x44 | s49 => DD x11 x45 | s50 => DD x11 x46 | s51 => DD x11 x47 | s52 => DD x11 x48 | s53 => DD x11 x49 | s54 => DD x11 x50 | s55 => DD x11 x51 | s56 => DD x11 x52 | s57 => DD x11 x53 | s58 => DD x11 x54 | s59 => DD x11 x55 | s60 => DD x11 x56 | s61 => DD x11 x57 | s62 => DD x11 x58 | s63 => DD x11 x59 | s64 => DD x11 x60 | s65 => DD x11 x61 | s66 => DD x11 x62 | s67 => DD x11 x63 | s68 => DD x12 x0 | s69 => DD x12 x1 | s70 => DD x12 x2 | s71 => DD x12 x3 | s72 => DD x12 x4 | s73 => DD x12 x5 | s74 => DD x12 x6 | s75 => DD x12 x7 | s76 => DD x12 x8 | s77 => DD x12 x9 | s78 => DD x12 x10 | s79 => DD x12 x11 | s80 => DD x12 x12 | s81 => DD x12 x13 | s82 => DD x12 x14 | s83 => DD x12 x15 | s84 => DD x12 x16 | s85 => DD x12 x17 | s86 => DD x12 x18 | s87 => DD x12 x19 | s88 => DD x12 x20 | s89 => DD x12 x21 | s90 => DD x12 x22 | s91 => DD x12 x23 | s92 => DD x12 x24 | s93 => DD x12 x25 | s94 => DD x12 x26 | s95 => DD x12 x27 | s96 => DD x12 x28 | s97 => DD x12 x29 | s98 => DD x12 x30 | s99 => DD x12 x31 | s100 => DD x12 x32 | s101 => DD x12 x33 | s102 => DD x12 x34 | s103 => DD x12 x35 | s104 => DD x12 x36 | s105 => DD x12 x37 | s106 => DD x12 x38 | s107 => DD x12 x39 | s108 => DD x12 x40 | s109 => DD x12 x41 | s110 => DD x12 x42 | s111 => DD x12 x43 | s112 => DD x12 x44 | s113 => DD x12 x45 | s114 => DD x12 x46 | s115 => DD x12 x47 | s116 => DD x12 x48 | s117 => DD x12 x49 | s118 => DD x12 x50 | s119 => DD x12 x51 | s120 => DD x12 x52 | s121 => DD x12 x53 | s122 => DD x12 x54 | s123 => DD x12 x55 | s124 => DD x12 x56 | s125 => DD x12 x57 | s126 => DD x12 x58 end.
Definition m702 (c : sum2) : dd := match c with s0 => DD x10 x62 | s1 => DD x10 x63 | s2 => DD x11 x0 | s3 => DD x11 x1 | s4 => DD x11 x2 | s5 => DD x11 x3 | s6 => DD x11 x4 | s7 => DD x11 x5 | s8 => DD x11 x6 | s9 => DD x11 x7 | s10 => DD x11 x8 | s11 => DD x11 x9 | s12 => DD x11 x10 | s13 => DD x11 x11 | s14 => DD x11 x12 | s15 => DD x11 x13 | s16 => DD x11 x14 | s17 => DD x11 x15 | s18 => DD x11 x16 | s19 => DD x11 x17 | s20 => DD x11 x18 | s21 => DD x11 x19 | s22 => DD x11 x20 | s23 => DD x11 x21 | s24 => DD x11 x22 | s25 => DD x11 x23 | s26 => DD x11 x24 | s27 => DD x11 x25 | s28 => DD x11 x26 | s29 => DD x11 x27 | s30 => DD x11 x28 | s31 => DD x11 x29 | s32 => DD x11 x30 | s33 => DD x11 x31 | s34 => DD x11 x32 | s35 => DD x11 x33 | s36 => DD x11 x34 | s37 => DD x11 x35 | s38 => DD x11 x36 | s39 => DD x11 x37 | s40 => DD x11 x38 | s41 => DD x11 x39 | s42 => DD x11 x40 | s43 => DD x11 x41 | s44 => DD x11 x42 | s45 => DD x11 x43 | s46 => DD x11 x44 | s47 => DD x11 x45 | s48 => DD x11 x46 | s49 => DD x11 x47 | s50 => DD x11 x48 | s51 => DD x11 x49 | s52 => DD x11 x50 | s53 => DD x11 x51 | s54 => DD x11 x52 | s55 => DD x11 x53 | s56 => DD x11 x54 | s57 => DD x11 x55 | s58 => DD x11 x56 | s59 => DD x11 x57 | s60 => DD x11 x58 | s61 => DD x11 x59 | s62 => DD x11 x60 | s63 => DD x11 x61 | s64 => DD x11 x62 | s65 => DD x11 x63 | s66 => DD x12 x0 | s67 => DD x12 x1 | s68 => DD x12 x2 | s69 => DD x12 x3 | s70 => DD x12 x4 | s71 => DD x12 x5 | s72 => DD x12 x6 | s73 => DD x12 x7 | s74 => DD x12 x8 | s75 => DD x12 x9 | s76 => DD x12 x10 | s77 => DD x12 x11 | s78 => DD x12 x12 | s79 => DD x12 x13 | s80 => DD x12 x14 | s81 => DD x12 x15 | s82 => DD x12 x16 | s83 => DD x12 x17 | s84 => DD x12 x18 | s85 => DD x12 x19 | s86 => DD x12 x20 | s87 => DD x12 x21 | s88 => DD x12 x22 | s89 => DD x12 x23 | s90 => DD x12 x24 | s91 => DD x12 x25 | s92 => DD x12 x26 | s93 => DD x12 x27 | s94 => DD x12 x28 | s95 => DD x12 x29 | s96 => DD x12 x30 | s97 => DD x12 x31 | s98 => DD x12 x32 | s99 => DD x12 x33 | s100 => DD x12 x34 | s101 => DD x12 x35 | s102 => DD x12 x36 | s103 => DD x12 x37 | s104 => DD x12 x38 | s105 => DD x12 x39 | s106 => DD x12 x40 | s107 => DD x12 x41 | s108 => DD x12 x42 | s109 => DD x12 x43 | s110 => DD x12 x44 | s111 => DD x12 x45 | s112 => DD x12 x46 | s113 => DD x12 x47 | s114 => DD x12 x48 | s115 => DD x12 x49 | s116 => DD x12 x50 | s117 => DD x12 x51 | s118 => DD x12 x52 | s119 => DD x12 x53 | s120 => DD x12 x54 | s121 => DD x12 x55 | s122 => DD x12 x56 | s123 => DD x12 x57 | s124 => DD x12 x58 | s125 => DD x12 x59 | s126 => DD x12 x60 end.
Definition m703 (c : sum2) : dd := match c with s0 => DD x10 x63 | s1 => DD x11 x0 | s2 => DD x11 x1 | s3 => DD x11 x2 | s4 => DD x11 x3 | s5 => DD x11 x4 | s6 => DD x11 x5 | s7 => DD x11 x6 | s8 => DD x11 x7 | s9 => DD x11 x8 | s10 => DD x11 x9 | s11 => DD x11 x10 | s12 => DD x11 x11 | s13 => DD x11 x12 | s14 => DD x11 x13 | s15 => DD x11 x14 | s16 => DD x11 x15 | s17 => DD x11 x16 | s18 => DD x11 x17 | s19 => DD x11 x18 | s20 => DD x11 x19 | s21 => DD x11 x20 | s22 => DD x11 x21 | s23 => DD x11 x22 | s24 => DD x11 x23 | s25 => DD x11 x24 | s26 => DD x11 x25 | s27 => DD x11 x26 | s28 => DD x11 x27 | s29 => DD x11 x28 | s30 => DD x11 x29 | s31 => DD x11 x30 | s32 => DD x11 x31 | s33 => DD x11 x32 | s34 => DD x11 x33 | s35 => DD x11 x34 | s36 => DD x11 x35 | s37 => DD x11 x36 | s38 => DD x11 x37 | s39 => DD x11 x38 | s40 => DD x11 x39 | s41 => DD x11 x40 | s42 => DD x11 x41 | s43 => DD x11 x42 | s44 => DD x11 x43 | s45 => DD x11 x44 | s46 => DD x11 x45 | s47 => DD x11 x46 | s48 => DD x11 x47 | s49 => DD x11 x48 | s50 => DD x11 x49 | s51 => DD x11 x50 | s52 => DD x11 x51 | s53 => DD x11 x52 | s54 => DD x11 x53 | s55 => DD x11 x54 | s56 => DD x11 x55 | s57 => DD x11 x56 | s58 => DD x11 x57 | s59 => DD x11 x58 | s60 => DD x11 x59 | s61 => DD x11 x60 | s62 => DD x11 x61 | s63 => DD x11 x62 | s64 => DD x11 x63 | s65 => DD x12 x0 | s66 => DD x12 x1 | s67 => DD x12 x2 | s68 => DD x12 x3 | s69 => DD x12 x4 | s70 => DD x12 x5 | s71 => DD x12 x6 | s72 => DD x12 x7 | s73 => DD x12 x8 | s74 => DD x12 x9 | s75 => DD x12 x10 | s76 => DD x12 x11 | s77 => DD x12 x12 | s78 => DD x12 x13 | s79 => DD x12 x14 | s80 => DD x12 x15 | s81 => DD x12 x16 | s82 => DD x12 x17 | s83 => DD x12 x18 | s84 => DD x12 x19 | s85 => DD x12 x20 | s86 => DD x12 x21 | s87 => DD x12 x22 | s88 => DD x12 x23 | s89 => DD x12 x24 | s90 => DD x12 x25 | s91 => DD x12 x26 | s92 => DD x12 x27 | s93 => DD x12 x28 | s94 => DD x12 x29 | s95 => DD x12 x30 | s96 => DD x12 x31 | s97 => DD x12 x32 | s98 => DD x12 x33 | s99 => DD x12 x34 | s100 => DD x12 x35 | s101 => DD x12 x36 | s102 => DD x12 x37 | s103 => DD x12 x38 | s104 => DD x12 x39 | s105 => DD x12 x40 | s106 => DD x12 x41 | s107 => DD x12 x42 | s108 => DD x12 x43 | s109 => DD x12 x44 | s110 => DD x12 x45 | s111 => DD x12 x46 | s112 => DD x12 x47 | s113 => DD x12 x48 | s114 => DD x12 x49 | s115 => DD x12 x50 | s116 => DD x12 x51 | s117 => DD x12 x52 | s118 => DD x12 x53 | s119 => DD x12 x54 | s120 => DD x12 x55 | s121 => DD x12 x56 | s122 => DD x12 x57 | s123 => DD x12 x58 | s124 => DD x12 x59 | s125 => DD x12 x60 | s126 => DD x12 x61 end.
Definition m704 (c : sum2) : dd := match c with s0 => DD x11 x0 | s1 => DD x11 x1 | s2 => DD x11 x2 | s3 => DD x11 x3 | s4 => DD x11 x4 | s5 => DD x11 x5 | s6 => DD x11 x6 | s7 => DD x11 x7 | s8 => DD x11 x8 | s9 => DD x11 x9 | s10 => DD x11 x10 | s11 => DD x11 x11 | s12 => DD x11 x12 | s13 => DD x11 x13 | s14 => DD x11 x14 | s15 => DD x11 x15 | s16 => DD x11 x16 | s17 => DD x11 x17 | s18 => DD x11 x18 | s19 => DD x11 x19 | s20 => DD x11 x20 | s21 => DD x11 x21 | s22 => DD x11 x22 | s23 => DD x11 x23 | s24 => DD x11 x24 | s25 => DD x11 x25 | s26 => DD x11 x26 | s27 => DD x11 x27 | s28 => DD x11 x28 | s29 => DD x11 x29 | s30 => DD x11 x30 | s31 => DD x11 x31 | s32 => DD x11 x32 | s33 => DD x11 x33 | s34 => DD x11 x34 | s35 => DD x11 x35 | s36 => DD x11 x36 | s37 => DD x11 x37 | s38 => DD x11 x38 | s39 => DD x11 x39 | s40 => DD x11 x40 | s41 => DD x11 x41 | s42 => DD x11 x42 | s43 => DD x11 x43 | s44 => DD x11 x44 | s45 => DD x11 x45 | s46 => DD x11 x46 | s47 => DD x11 x47 | s48 => DD x11 x48 | s49 => DD x11 x49 | s50 => DD x11 x50 | s51 => DD x11 x51 | s52 => DD x11 x52 | s53 => DD x11 x53 | s54 => DD x11 x54 | s55 => DD x11 x55 | s56 => DD x11 x56 | s57 => DD x11 x57 | s58 => DD x11 x58 | s59 => DD x11 x59 | s60 => DD x11 x60 | s61 => DD x11 x61 | s62 => DD x11 x62 | s63 => DD x11 x63 | s64 => DD x12 x0 | s65 => DD x12 x1 | s66 => DD x12 x2 | s67 => DD x12 x3 | s68 => DD x12 x4 | s69 => DD x12 x5 | s70 => DD x12 x6 | s71 => DD x12 x7 | s72 => DD x12 x8 | s73 => DD x12 x9 | s74 => DD x12 x10 | s75 => DD x12 x11 | s76 => DD x12 x12 | s77 => DD x12 x13 | s78 => DD x12 x14 | s79 => DD x12 x15 | s80 => DD x12 x16 | s81 => DD x12 x17 | s82 => DD x12 x18 | s83 => DD x12 x19 | s84 => DD x12 x20 | s85 => DD x12 x21 | s86 => DD x12 x22 | s87 => DD x12 x23 | s88 => DD x12 x24 | s89 => DD x12 x25 | s90 => DD x12 x26 | s91 => DD x12 x27 | s92 => DD x12 x28 | s93 => DD x12 x29 | s94 => DD x12 x30 | s95 => DD x12 x31 | s96 => DD x12 x32 | s97 => DD x12 x33 | s98 => DD x12 x34 | s99 => DD x12 x35 | s100 => DD x12 x36 | s101 => DD x12 x37 | s102 => DD x12 x38 | s103 => DD x12 x39 | s104 => DD x12 x40 | s105 => DD x12 x41 | s106 => DD x12 x42 | s107 => DD x12 x43 | s108 => DD x12 x44 | s109 => DD x12 x45 | s110 => DD x12 x46 | s111 => DD x12 x47 | s112 => DD x12 x48 | s113 => DD x12 x49 | s114 => DD x12 x50 | s115 => DD x12 x51 | s116 => DD x12 x52 | s117 => DD x12 x53 | s118 => DD x12 x54 | s119 => DD x12 x55 | s120 => DD x12 x56 | s121 => DD x12 x57 | s122 => DD x12 x58 | s123 => DD x12 x59 | s124 => DD x12 x60 | s125 => DD x12 x61 | s126 => DD x12 x62 end.
Definition m705 (c : sum2) : dd := match c with s0 => DD x11 x1 | s1 => DD x11 x2 | s2 => DD x11 x3 | s3 => DD x11 x4 | s4 => DD x11 x5 | s5 => DD x11 x6 | s6 => DD x11 x7 | s7 => DD x11 x8 | s8 => DD x11 x9 | s9 => DD x11 x10 | s10 => DD x11 x11 | s11 => DD x11 x12 | s12 => DD x11 x13 | s13 => DD x11 x14 | s14 => DD x11 x15 | s15 => DD x11 x16 | s16 => DD x11 x17 | s17 => DD x11 x18 | s18 => DD x11 x19 | s19 => DD x11 x20 | s20 => DD x11 x21 | s21 => DD x11 x22 | s22 => DD x11 x23 | s23 => DD x11 x24 | s24 => DD x11 x25 | s25 => DD x11 x26 | s26 => DD x11 x27 | s27 => DD x11 x28 | s28 => DD x11 x29 | s29 => DD x11 x30 | s30 => DD x11 x31 | s31 => DD x11 x32 | s32 => DD x11 x33 | s33 => DD x11 x34 | s34 => DD x11 x35 | s35 => DD x11 x36 | s36 => DD x11 x37 | s37 => DD x11 x38 | s38 => DD x11 x39 | s39 => DD x11 x40 | s40 => DD x11 x41 | s41 => DD x11 x42 | s42 => DD x11 x43 | s43 => DD x11 x44 | s44 => DD x11 x45 | s45 => DD x11 x46 | s46 => DD x11 x47 | s47 => DD x11 x48 | s48 => DD x11 x49 | s49 => DD x11 x50 | s50 => DD x11 x51 | s51 => DD x11 x52 | s52 => DD x11 x53 | s53 => DD x11 x54 | s54 => DD x11 x55 | s55 => DD x11 x56 | s56 => DD x11 x57 | s57 => DD x11 x58 | s58 => DD x11 x59 | s59 => DD x11 x60 | s60 => DD x11 x61 | s61 => DD x11 x62 | s62 => DD x11 x63 | s63 => DD x12 x0 | s64 => DD x12 x1 | s65 => DD x12 x2 | s66 => DD x12 x3 | s67 => DD x12 x4 | s68 => DD x12 x5 | s69 => DD x12 x6 | s70 => DD x12 x7 | s71 => DD x12 x8 | s72 => DD x12 x9 | s73 => DD x12 x10 | s74 => DD x12 x11 | s75 => DD x12 x12 | s76 => DD x12 x13 | s77 => DD x12 x14 | s78 => DD x12 x15 | s79 => DD x12 x16 | s80 => DD x12 x17 | s81 => DD x12 x18 | s82 => DD x12 x19 | s83 => DD x12 x20 | s84 => DD x12 x21 | s85 => DD x12 x22 | s86 => DD x12 x23 | s87 => DD x12 x24 | s88 => DD x12 x25 | s89 => DD x12 x26 | s90 => DD x12 x27 | s91 => DD x12 x28 | s92 => DD x12 x29 | s93 => DD x12 x30 | s94 => DD x12 x31 | s95 => DD x12 x32 | s96 => DD x12 x33 | s97 => DD x12 x34 | s98 => DD x12 x35 | s99 => DD x12 x36 | s100 => DD x12 x37 | s101 => DD x12 x38 | s102 => DD x12 x39 | s103 => DD x12 x40 | s104 => DD x12 x41 | s105 => DD x12 x42 | s106 => DD x12 x43 | s107 => DD x12 x44 | s108 => DD x12 x45 | s109 => DD x12 x46 | s110 => DD x12 x47 | s111 => DD x12 x48 | s112 => DD x12 x49 | s113 => DD x12 x50 | s114 => DD x12 x51 | s115 => DD x12 x52 | s116 => DD x12 x53 | s117 => DD x12 x54 | s118 => DD x12 x55 | s119 => DD x12 x56 | s120 => DD x12 x57 | s121 => DD x12 x58 | s122 => DD x12 x59 | s123 => DD x12 x60 | s124 => DD x12 x61 | s125 => DD x12 x62 | s126 => DD x12 x63 end.
Definition m708 (c : sum2) : dd := match c with s0 => DD x11 x4 | s1 => DD x11 x5 | s2 => DD x11 x6 | s3 => DD x11 x7 | s4 => DD x11 x8 | s5 => DD x11 x9 | s6 => DD x11 x10 | s7 => DD x11 x11 | s8 => DD x11 x12 | s9 => DD x11 x13 | s10 => DD x11 x14 | s11 => DD x11 x15 | s12 => DD x11 x16 | s13 => DD x11 x17 | s14 => DD x11 x18 | s15 => DD x11 x19 | s16 => DD x11 x20 | s17 => DD x11 x21 | s18 => DD x11 x22 | s19 => DD x11 x23 | s20 => DD x11 x24 | s21 => DD x11 x25 | s22 => DD x11 x26 | s23 => DD x11 x27 | s24 => DD x11 x28 | s25 => DD x11 x29 | s26 => DD x11 x30 | s27 => DD x11 x31 | s28 => DD x11 x32 | s29 => DD x11 x33 | s30 => DD x11 x34 | s31 => DD x11 x35 | s32 => DD x11 x36 | s33 => DD x11 x37 | s34 => DD x11 x38 | s35 => DD x11 x39 | s36 => DD x11 x40 | s37 => DD x11 x41 | s38 => DD x11 x42 | s39 => DD x11 x43 | s40 => DD x11 x44 | s41 => DD x11 x45 | s42 => DD x11 x46 | s43 => DD x11 x47 | s44 => DD x11 x48 | s45 => DD x11 x49 | s46 => DD x11 x50 | s47 => DD x11 x51 | s48 => DD x11 x52 | s49 => DD x11 x53 | s50 => DD x11 x54 | s51 => DD x11 x55 | s52 => DD x11 x56 | s53 => DD x11 x57 | s54 => DD x11 x58 | s55 => DD x11 x59 | s56 => DD x11 x60 | s57 => DD x11 x61 | s58 => DD x11 x62 | s59 => DD x11 x63 | s60 => DD x12 x0 | s61 => DD x12 x1 | s62 => DD x12 x2 | s63 => DD x12 x3 | s64 => DD x12 x4 | s65 => DD x12 x5 | s66 => DD x12 x6 | s67 => DD x12 x7 | s68 => DD x12 x8 | s69 => DD x12 x9 | s70 => DD x12 x10 | s71 => DD x12 x11 | s72 => DD x12 x12 | s73 => DD x12 x13 | s74 => DD x12 x14 | s75 => DD x12 x15 | s76 => DD x12 x16 | s77 => DD x12 x17 | s78 => DD x12 x18 | s79 => DD x12 x19 | s80 => DD x12 x20 | s81 => DD x12 x21 | s82 => DD x12 x22 | s83 => DD x12 x23 | s84 => DD x12 x24 | s85 => DD x12 x25 | s86 => DD x12 x26 | s87 => DD x12 x27 | s88 => DD x12 x28 | s89 => DD x12 x29 | s90 => DD x12 x30 | s91 => DD x12 x31 | s92 => DD x12 x32 | s93 => DD x12 x33 | s94 => DD x12 x34 | s95 => DD x12 x35 | s96 => DD x12 x36 | s97 => DD x12 x37 | s98 => DD x12 x38 | s99 => DD x12 x39 | s100 => DD x12 x40 | s101 => DD x12 x41 | s102 => DD x12 x42 | s103 => DD x12 x43 | s104 => DD x12 x44 | s105 => DD x12 x45 | s106 => DD x12 x46 | s107 => DD x12 x47 | s108 => DD x12 x48 | s109 => DD x12 x49 | s110 => DD x12 x50 | s111 => DD x12 x51 | s112 => DD x12 x52 | s113 => DD x12 x53 | s114 => DD x12 x54 | s115 => DD x12 x55 | s116 => DD x12 x56 | s117 => DD x12 x57 | s118 => DD x12 x58 | s119 => DD x12 x59 | s120 => DD x12 x60 | s121 => DD x12 x61 | s122 => DD x12 x62 | s123 => DD x12 x63 | s124 => DD x13 x0 | s125 => DD x13 x1 | s126 => DD x13 x2 end.
Definition m713 (c : sum2) : dd := match c with s0 => DD x11 x9 | s1 => DD x11 x10 | s2 => DD x11 x11 | s3 => DD x11 x12 | s4 => DD x11 x13 | s5 => DD x11 x14 | s6 => DD x11 x15 | s7 => DD x11 x16 | s8 => DD x11 x17 | s9 => DD x11 x18 | s10 => DD x11 x19 | s11 => DD x11 x20 | s12 => DD x11 x21 | s13 => DD x11 x22 | s14 => DD x11 x23 | s15 => DD x11 x24 | s16 => DD x11 x25 | s17 => DD x11 x26 | s18 => DD x11 x27 | s19 => DD x11 x28 | s20 => DD x11 x29 | s21 => DD x11 x30 | s22 => DD x11 x31 | s23 => DD x11 x32 | s24 => DD x11 x33 | s25 => DD x11 x34 | s26 => DD x11 x35 | s27 => DD x11 x36 | s28 => DD x11 x37 | s29 => DD x11 x38 | s30 => DD x11 x39 | s31 => DD x11 x40 | s32 => DD x11 x41 | s33 => DD x11 x42 | s34 => DD x11 x43 | s35 => DD x11 x44 | s36 => DD x11 x45 | s37 => DD x11 x46 | s38 => DD x11 x47 | s39 => DD x11 x48 | s40 => DD x11 x49 | s41 => DD x11 x50 | s42 => DD x11 x51 | s43 => DD x11 x52 | s44 => DD x11 x53 | s45 => DD x11 x54 | s46 => DD x11 x55 | s47 => DD x11 x56 | s48 => DD x11 x57 | s49 => DD x11 x58 | s50 => DD x11 x59 | s51 => DD x11 x60 | s52 => DD x11 x61 | s53 => DD x11 x62 | s54 => DD x11 x63 | s55 => DD x12 x0 | s56 => DD x12 x1 | s57 => DD x12 x2 | s58 => DD x12 x3 | s59 => DD x12 x4 | s60 => DD x12 x5 | s61 => DD x12 x6 | s62 => DD x12 x7 | s63 => DD x12 x8 | s64 => DD x12 x9 | s65 => DD x12 x10 | s66 => DD x12 x11 | s67 => DD x12 x12 | s68 => DD x12 x13 | s69 => DD x12 x14 | s70 => DD x12 x15 | s71 => DD x12 x16 | s72 => DD x12 x17 | s73 => DD x12 x18 | s74 => DD x12 x19 | s75 => DD x12 x20 | s76 => DD x12 x21 | s77 => DD x12 x22 | s78 => DD x12 x23 | s79 => DD x12 x24 | s80 => DD x12 x25 | s81 => DD x12 x26 | s82 => DD x12 x27 | s83 => DD x12 x28 | s84 => DD x12 x29 | s85 => DD x12 x30 | s86 => DD x12 x31 | s87 => DD x12 x32 | s88 => DD x12 x33 | s89 => DD x12 x34 | s90 => DD x12 x35 | s91 => DD x12 x36 | s92 => DD x12 x37 | s93 => DD x12 x38 | s94 => DD x12 x39 | s95 => DD x12 x40 | s96 => DD x12 x41 | s97 => DD x12 x42 | s98 => DD x12 x43 | s99 => DD x12 x44 | s100 => DD x12 x45 | s101 => DD x12 x46 | s102 => DD x12 x47 | s103 => DD x12 x48 | s104 => DD x12 x49 | s105 => DD x12 x50 | s106 => DD x12 x51 | s107 => DD x12 x52 | s108 => DD x12 x53 | s109 => DD x12 x54 | s110 => DD x12 x55 | s111 => DD x12 x56 | s112 => DD x12 x57 | s113 => DD x12 x58 | s114 => DD x12 x59 | s115 => DD x12 x60 | s116 => DD x12 x61 | s117 => DD x12 x62 | s118 => DD x12 x63 | s119 => DD x13 x0 | s120 => DD x13 x1 | s121 => DD x13 x2 | s122 => DD x13 x3 | s123 => DD x13 x4 | s124 => DD x13 x5 | s125 => DD x13 x6 | s126 => DD x13 x7 end.
Definition m714 (c : sum2) : dd := match c with s0 => DD x11 x10 | s1 => DD x11 x11 | s2 => DD x11 x12 | s3 => DD x11 x13 | s4 => DD x11 x14 | s5 => DD x11 x15 | s6 => DD x11 x16 | s7 => DD x11 x17 | s8 => DD x11 x18 | s9 => DD x11 x19 | s10 => DD x11 x20 | s11 => DD x11 x21 | s12 => DD x11 x22 | s13 => DD x11 x23 | s14 => DD x11 x24 | s15 => DD x11 x25 | s16 => DD x11 x26 | s17 => DD x11 x27 | s18 => DD x11 x28 | s19 => DD x11 x29 | s20 => DD x11 x30 | s21 => DD x11 x31 | s22 => DD x11 x32 | s23 => DD x11 x33 | s24 => DD x11 x34 | s25 => DD x11 x35 | s26 => DD x11 x36 | s27 => DD x11 x37 | s28 => DD x11 x38 | s29 => DD x11 x39 | s30 => DD x11 x40 | s31 => DD x11 x41 | s32 => DD x11 x42 | s33 => DD x11 x43 | s34 => DD x11 x44 | s35 => DD x11 x45 | s36 => DD x11 x46 | s37 => DD x11 x47 | s38 => DD x11 x48 | s39 => DD x11 x49 | s40 => DD x11 x50 | s41 => DD x11 x51 | s42 => DD x11 x52 | s43 => DD x11 x53 | s44 => DD x11 x54 | s45 => DD x11 x55 | s46 => DD x11 x56 | s47 => DD x11 x57 | s48 => DD x11 x58 | s49 => DD x11 x59 | s50 => DD x11 x60 | s51 => DD x11 x61 | s52 => DD x11 x62 | s53 => DD x11 x63 | s54 => DD x12 x0 | s55 => DD x12 x1 | s56 => DD x12 x2 | s57 => DD x12 x3 | s58 => DD x12 x4 | s59 => DD x12 x5 | s60 => DD x12 x6 | s61 => DD x12 x7 | s62 => DD x12 x8 | s63 => DD x12 x9 | s64 => DD x12 x10 | s65 => DD x12 x11 | s66 => DD x12 x12 | s67 => DD x12 x13 | s68 => DD x12 x14 | s69 => DD x12 x15 | s70 => DD x12 x16 | s71 => DD x12 x17 | s72 => DD x12 x18 | s73 => DD x12 x19 | s74 => DD x12 x20 | s75 => DD x12 x21 | s76 => DD x12 x22 | s77 => DD x12 x23 | s78 => DD x12 x24 | s79 => DD x12 x25 | s80 => DD x12 x26 | s81 => DD x12 x27 | s82 => DD x12 x28 | s83 => DD x12 x29 | s84 => DD x12 x30 | s85 => DD x12 x31 | s86 => DD x12 x32 | s87 => DD x12 x33 | s88 => DD x12 x34 | s89 => DD x12 x35 | s90 => DD x12 x36 | s91 => DD x12 x37 | s92 => DD x12 x38 | s93 => DD x12 x39 | s94 => DD x12 x40 | s95 => DD x12 x41 | s96 => DD x12 x42 | s97 => DD x12 x43 | s98 => DD x12 x44 | s99 => DD x12 x45 | s100 => DD x12 x46 | s101 => DD x12 x47 | s102 => DD x12 x48 | s103 => DD x12 x49 | s104 => DD x12 x50 | s105 => DD x12 x51 | s106 => DD x12 x52 | s107 => DD x12 x53 | s108 => DD x12 x54 | s109 => DD x12 x55 | s110 => DD x12 x56 | s111 => DD x12 x57 | s112 => DD x12 x58 | s113 => DD x12 x59 | s114 => DD x12 x60 | s115 => DD x12 x61 | s116 => DD x12 x62 | s117 => DD x12 x63 | s118 => DD x13 x0 | s119 => DD x13 x1 | s120 => DD x13 x2 | s121 => DD x13 x3 | s122 => DD x13 x4 | s123 => DD x13 x5 | s124 => DD x13 x6 | s125 => DD x13 x7 | s126 => DD x13 x8 end.
Definition m715 (c : sum2) : dd := match c with s0 => DD x11 x11 | s1 => DD x11 x12 | s2 => DD x11 x13 | s3 => DD x11 x14 | s4 => DD x11 x15 | s5 => DD x11 x16 | s6 => DD x11 x17 | s7 => DD x11 x18 | s8 => DD x11 x19 | s9 => DD x11 x20 | s10 => DD x11 x21 | s11 => DD x11 x22 | s12 => DD x11 x23 | s13 => DD x11 x24 | s14 => DD x11 x25 | s15 => DD x11 x26 | s16 => DD x11 x27 | s17 => DD x11 x28 | s18 => DD x11 x29 | s19 => DD x11 x30 | s20 => DD x11 x31 | s21 => DD x11 x32 | s22 => DD x11 x33 | s23 => DD x11 x34 | s24 => DD x11 x35 | s25 => DD x11 x36 | s26 => DD x11 x37 | s27 => DD x11 x38 | s28 => DD x11 x39 | s29 => DD x11 x40 | s30 => DD x11 x41 | s31 => DD x11 x42 | s32 => DD x11 x43 | s33 => DD x11 x44 | s34 => DD x11 x45 | s35 => DD x11 x46 | s36 => DD x11 x47 | s37 => DD x11 x48 | s38 => DD x11 x49 | s39 => DD x11 x50 | s40 => DD x11 x51 | s41 => DD x11 x52 | s42 => DD x11 x53 | s43 => DD x11 x54 | s44 => DD x11 x55 | s45 => DD x11 x56 | s46 => DD x11 x57 | s47 => DD x11 x58 | s48 => DD x11 x59 | s49 => DD x11 x60 | s50 => DD x11 x61 | s51 => DD x11 x62 | s52 => DD x11 x63 | s53 => DD x12 x0 | s54 => DD x12 x1 | s55 => DD x12 x2 | s56 => DD x12 x3 | s57 => DD x12 x4 | s58 => DD x12 x5 | s59 => DD x12 x6 | s60 => DD x12 x7 | s61 => DD x12 x8 | s62 => DD x12 x9 | s63 => DD x12 x10 | s64 => DD x12 x11 | s65 => DD x12 x12 | s66 => DD x12 x13 | s67 => DD x12 x14 | s68 => DD x12 x15 | s69 => DD x12 x16 | s70 => DD x12 x17 | s71 => DD x12 x18 | s72 => DD x12 x19 | s73 => DD x12 x20 | s74 => DD x12 x21 | s75 => DD x12 x22 | s76 => DD x12 x23 | s77 => DD x12 x24 | s78 => DD x12 x25 | s79 => DD x12 x26 | s80 => DD x12 x27 | s81 => DD x12 x28 | s82 => DD x12 x29 | s83 => DD x12 x30 | s84 => DD x12 x31 | s85 => DD x12 x32 | s86 => DD x12 x33 | s87 => DD x12 x34 | s88 => DD x12 x35 | s89 => DD x12 x36 | s90 => DD x12 x37 | s91 => DD x12 x38 | s92 => DD x12 x39 | s93 => DD x12 x40 | s94 => DD x12 x41 | s95 => DD x12 x42 | s96 => DD x12 x43 | s97 => DD x12 x44 | s98 => DD x12 x45 | s99 => DD x12 x46 | s100 => DD x12 x47 | s101 => DD x12 x48 | s102 => DD x12 x49 | s103 => DD x12 x50 | s104 => DD x12 x51 | s105 => DD x12 x52 | s106 => DD x12 x53 | s107 => DD x12 x54 | s108 => DD x12 x55 | s109 => DD x12 x56 | s110 => DD x12 x57 | s111 => DD x12 x58 | s112 => DD x12 x59 | s113 => DD x12 x60 | s114 => DD x12 x61 | s115 => DD x12 x62 | s116 => DD x12 x63 | s117 => DD x13 x0 | s118 => DD x13 x1 | s119 => DD x13 x2 | s120 => DD x13 x3 | s121 => DD x13 x4 | s122 => DD x13 x5 | s123 => DD x13 x6 | s124 => DD x13 x7 | s125 => DD x13 x8 | s126 => DD x13 x9 end.
Definition m720 (c : sum2) : dd := match c with s0 => DD x11 x16 | s1 => DD x11 x17 | s2 => DD x11 x18 | s3 => DD x11 x19 | s4 => DD x11 x20 | s5 => DD x11 x21 | s6 => DD x11 x22 | s7 => DD x11 x23 | s8 => DD x11 x24 | s9 => DD x11 x25 | s10 => DD x11 x26 | s11 => DD x11 x27 | s12 => DD x11 x28 | s13 => DD x11 x29 | s14 => DD x11 x30 | s15 => DD x11 x31 | s16 => DD x11 x32 | s17 => DD x11 x33 | s18 => DD x11 x34 | s19 => DD x11 x35 | s20 => DD x11 x36 | s21 => DD x11 x37 | s22 => DD x11 x38 | s23 => DD x11 x39 | s24 => DD x11 x40 | s25 => DD x11 x41 | s26 => DD x11 x42 | s27 => DD x11 x43 | s28 => DD x11 x44 | s29 => DD x11 x45 | s30 => DD x11 x46 | s31 => DD x11 x47 | s32 => DD x11 x48 | s33 => DD x11 x49 | s34 => DD x11 x50 | s35 => DD x11 x51 | s36 => DD x11 x52 | s37 => DD x11 x53 | s38 => DD x11 x54 | s39 => DD x11 x55 | s40 => DD x11 x56 | s41 => DD x11 x57 | s42 => DD x11 x58 | s43 => DD x11 x59 | s44 => DD x11 x60 | s45 => DD x11 x61 | s46 => DD x11 x62 | s47 => DD x11 x63 | s48 => DD x12 x0 | s49 => DD x12 x1 | s50 => DD x12 x2 | s51 => DD x12 x3 | s52 => DD x12 x4 | s53 => DD x12 x5 | s54 => DD x12 x6 | s55 => DD x12 x7 | s56 => DD x12 x8 | s57 => DD x12 x9 | s58 => DD x12 x10 | s59 => DD x12 x11 | s60 => DD x12 x12 | s61 => DD x12 x13 | s62 => DD x12 x14 | s63 => DD x12 x15 | s64 => DD x12 x16 | s65 => DD x12 x17 | s66 => DD x12 x18 | s67 => DD x12 x19 | s68 => DD x12 x20 | s69 => DD x12 x21 | s70 => DD x12 x22 | s71 => DD x12 x23 | s72 => DD x12 x24 | s73 => DD x12 x25 | s74 => DD x12 x26 | s75 => DD x12 x27 | s76 => DD x12 x28 | s77 => DD x12 x29 | s78 => DD x12 x30 | s79 => DD x12 x31 | s80 => DD x12 x32 | s81 => DD x12 x33 | s82 => DD x12 x34 | s83 => DD x12 x35 | s84 => DD x12 x36 | s85 => DD x12 x37 | s86 => DD x12 x38 | s87 => DD x12 x39 | s88 => DD x12 x40 | s89 => DD x12 x41 | s90 => DD x12 x42 | s91 => DD x12 x43 | s92 => DD x12 x44 | s93 => DD x12 x45 | s94 => DD x12 x46 | s95 => DD x12 x47 | s96 => DD x12 x48 | s97 => DD x12 x49 | s98 => DD x12 x50 | s99 => DD x12 x51 | s100 => DD x12 x52 | s101 => DD x12 x53 | s102 => DD x12 x54 | s103 => DD x12 x55 | s104 => DD x12 x56 | s105 => DD x12 x57 | s106 => DD x12 x58 | s107 => DD x12 x59 | s108 => DD x12 x60 | s109 => DD x12 x61 | s110 => DD x12 x62 | s111 => DD x12 x63 | s112 => DD x13 x0 | s113 => DD x13 x1 | s114 => DD x13 x2 | s115 => DD x13 x3 | s116 => DD x13 x4 | s117 => DD x13 x5 | s118 => DD x13 x6 | s119 => DD x13 x7 | s120 => DD x13 x8 | s121 => DD x13 x9 | s122 => DD x13 x10 | s123 => DD x13 x11 | s124 => DD x13 x12 | s125 => DD x13 x13 | s126 => DD x13 x14 end.
Definition m722 (c : sum2) : dd := match c with s0 => DD x11 x18 | s1 => DD x11 x19 | s2 => DD x11 x20 | s3 => DD x11 x21 | s4 => DD x11 x22 | s5 => DD x11 x23 | s6 => DD x11 x24 | s7 => DD x11 x25 | s8 => DD x11 x26 | s9 => DD x11 x27 | s10 => DD x11 x28 | s11 => DD x11 x29 | s12 => DD x11 x30 | s13 => DD x11 x31 | s14 => DD x11 x32 | s15 => DD x11 x33 | s16 => DD x11 x34 | s17 => DD x11 x35 | s18 => DD x11 x36 | s19 => DD x11 x37 | s20 => DD x11 x38 | s21 => DD x11 x39 | s22 => DD x11 x40 | s23 => DD x11 x41 | s24 => DD x11 x42 | s25 => DD x11 x43 | s26 => DD x11 x44 | s27 => DD x11 x45 | s28 => DD x11 x46 | s29 => DD x11 x47 | s30 => DD x11 x48 | s31 => DD x11 x49 | s32 => DD x11 x50 | s33 => DD x11 x51 | s34 => DD x11 x52 | s35 => DD x11 x53 | s36 => DD x11 x54 | s37 => DD x11 x55 | s38 => DD x11 x56 | s39 => DD x11 x57 | s40 => DD x11 x58 | s41 => DD x11 x59 | s42 => DD x11 x60 | s43 => DD x11 x61 | s44 => DD x11 x62 | s45 => DD x11 x63 | s46 => DD x12 x0 | s47 => DD x12 x1 | s48 => DD x12 x2 | s49 => DD x12 x3 | s50 => DD x12 x4 | s51 => DD x12 x5 | s52 => DD x12 x6 | s53 => DD x12 x7 | s54 => DD x12 x8 | s55 => DD x12 x9 | s56 => DD x12 x10 | s57 => DD x12 x11 | s58 => DD x12 x12 | s59 => DD x12 x13 | s60 => DD x12 x14 | s61 => DD x12 x15 | s62 => DD x12 x16 | s63 => DD x12 x17 | s64 => DD x12 x18 | s65 => DD x12 x19 | s66 => DD x12 x20 | s67 => DD x12 x21 | s68 => DD x12 x22 | s69 => DD x12 x23 | s70 => DD x12 x24 | s71 => DD x12 x25 | s72 => DD x12 x26 | s73 => DD x12 x27 | s74 => DD x12 x28 | s75 => DD x12 x29 | s76 => DD x12 x30 | s77 => DD x12 x31 | s78 => DD x12 x32 | s79 => DD x12 x33 | s80 => DD x12 x34 | s81 => DD x12 x35 | s82 => DD x12 x36 | s83 => DD x12 x37 | s84 => DD x12 x38 | s85 => DD x12 x39 | s86 => DD x12 x40 | s87 => DD x12 x41 | s88 => DD x12 x42 | s89 => DD x12 x43 | s90 => DD x12 x44 | s91 => DD x12 x45 | s92 => DD x12 x46 | s93 => DD x12 x47 | s94 => DD x12 x48 | s95 => DD x12 x49 | s96 => DD x12 x50 | s97 => DD x12 x51 | s98 => DD x12 x52 | s99 => DD x12 x53 | s100 => DD x12 x54 | s101 => DD x12 x55 | s102 => DD x12 x56 | s103 => DD x12 x57 | s104 => DD x12 x58 | s105 => DD x12 x59 | s106 => DD x12 x60 | s107 => DD x12 x61 | s108 => DD x12 x62 | s109 => DD x12 x63 | s110 => DD x13 x0 | s111 => DD x13 x1 | s112 => DD x13 x2 | s113 => DD x13 x3 | s114 => DD x13 x4 | s115 => DD x13 x5 | s116 => DD x13 x6 | s117 => DD x13 x7 | s118 => DD x13 x8 | s119 => DD x13 x9 | s120 => DD x13 x10 | s121 => DD x13 x11 | s122 => DD x13 x12 | s123 => DD x13 x13 | s124 => DD x13 x14 | s125 => DD x13 x15 | s126 => DD x13 x16 end.
Definition m725 (c : sum2) : dd := match c with s0 => DD x11 x21 | s1 => DD x11 x22 | s2 => DD x11 x23 | s3 => DD x11 x24 | s4 => DD x11 x25 | s5 => DD x11 x26 | s6 => DD x11 x27 | s7 => DD x11 x28 | s8 => DD x11 x29 | s9 => DD x11 x30 | s10 => DD x11 x31 | s11 => DD x11 x32 | s12 => DD x11 x33 | s13 => DD x11 x34 | s14 => DD x11 x35 | s15 => DD x11 x36 | s16 => DD x11 x37 | s17 => DD x11 x38 | s18 => DD x11 x39 | s19 => DD x11 x40 | s20 => DD x11 x41 | s21 => DD x11 x42 | s22 => DD x11 x43 | s23 => DD x11 x44 | s24 => DD x11 x45 | s25 => DD x11 x46 | s26 => DD x11 x47 | s27 => DD x11 x48 | s28 => DD x11 x49 | s29 => DD x11 x50 | s30 => DD x11 x51 | s31 => DD x11 x52 | s32 => DD x11 x53 | s33 => DD x11 x54 | s34 => DD x11 x55 | s35 => DD x11 x56 | s36 => DD x11 x57 | s37 => DD x11 x58 | s38 => DD x11 x59 | s39 => DD x11 x60 | s40 => DD x11 x61 | s41 => DD x11 x62 | s42 => DD x11 x63 | s43 => DD x12 x0 | s44 => DD x12 x1 | s45 => DD x12 x2 | s46 => DD x12 x3 | s47 => DD x12 x4 | s48 => DD x12 x5 | s49 => DD x12 x6 | s50 => DD x12 x7 | s51 => DD x12 x8 | s52 => DD x12 x9 | s53 => DD x12 x10 | s54 => DD x12 x11 | s55 => DD x12 x12 | s56 => DD x12 x13 | s57 => DD x12 x14 | s58 => DD x12 x15 | s59 => DD x12 x16 | s60 => DD x12 x17 | s61 => DD x12 x18 | s62 => DD x12 x19 | s63 => DD x12 x20 | s64 => DD x12 x21 | s65 => DD x12 x22 | s66 => DD x12 x23 | s67 => DD x12 x24 | s68 => DD x12 x25 | s69 => DD x12 x26 | s70 => DD x12 x27 | s71 => DD x12 x28 | s72 => DD x12 x29 | s73 => DD x12 x30 | s74 => DD x12 x31 | s75 => DD x12 x32 | s76 => DD x12 x33 | s77 => DD x12 x34 | s78 => DD x12 x35 | s79 => DD x12 x36 | s80 => DD x12 x37 | s81 => DD x12 x38 | s82 => DD x12 x39 | s83 => DD x12 x40 | s84 => DD x12 x41 | s85 => DD x12 x42 | s86 => DD x12 x43 | s87 => DD x12 x44 | s88 => DD x12 x45 | s89 => DD x12 x46 | s90 => DD x12 x47 | s91 => DD x12 x48 | s92 => DD x12 x49 | s93 => DD x12 x50 | s94 => DD x12 x51 | s95 => DD x12 x52 | s96 => DD x12 x53 | s97 => DD x12 x54 | s98 => DD x12 x55 | s99 => DD x12 x56 | s100 => DD x12 x57 | s101 => DD x12 x58 | s102 => DD x12 x59 | s103 => DD x12 x60 | s104 => DD x12 x61 | s105 => DD x12 x62 | s106 => DD x12 x63 | s107 => DD x13 x0 | s108 => DD x13 x1 | s109 => DD x13 x2 | s110 => DD x13 x3 | s111 => DD x13 x4 | s112 => DD x13 x5 | s113 => DD x13 x6 | s114 => DD x13 x7 | s115 => DD x13 x8 | s116 => DD x13 x9 | s117 => DD x13 x10 | s118 => DD x13 x11 | s119 => DD x13 x12 | s120 => DD x13 x13 | s121 => DD x13 x14 | s122 => DD x13 x15 | s123 => DD x13 x16 | s124 => DD x13 x17 | s125 => DD x13 x18 | s126 => DD x13 x19 end.
Definition m726 (c : sum2) : dd := match c with s0 => DD x11 x22 | s1 => DD x11 x23 | s2 => DD x11 x24 | s3 => DD x11 x25 | s4 => DD x11 x26 | s5 => DD x11 x27 | s6 => DD x11 x28 | s7 => DD x11 x29 | s8 => DD x11 x30 | s9 => DD x11 x31 | s10 => DD x11 x32 | s11 => DD x11 x33 | s12 => DD x11 x34 | s13 => DD x11 x35 | s14 => DD x11 x36 | s15 => DD x11 x37 | s16 => DD x11 x38 | s17 => DD x11 x39 | s18 => DD x11 x40 | s19 => DD x11 x41 | s20 => DD x11 x42 | s21 => DD x11 x43 | s22 => DD x11 x44 | s23 => DD x11 x45 | s24 => DD x11 x46 | s25 => DD x11 x47 | s26 => DD x11 x48 | s27 => DD x11 x49 | s28 => DD x11 x50 | s29 => DD x11 x51 | s30 => DD x11 x52 | s31 => DD x11 x53 | s32 => DD x11 x54 | s33 => DD x11 x55 | s34 => DD x11 x56 | s35 => DD x11 x57 | s36 => DD x11 x58 | s37 => DD x11 x59 | s38 => DD x11 x60 | s39 => DD x11 x61 | s40 => DD x11 x62 | s41 => DD x11 x63 | s42 => DD x12 x0 | s43 => DD x12 x1 | s44 => DD x12 x2 | s45 => DD x12 x3 | s46 => DD x12 x4 | s47 => DD x12 x5 | s48 => DD x12 x6 | s49 => DD x12 x7 | s50 => DD x12 x8 | s51 => DD x12 x9 | s52 => DD x12 x10 | s53 => DD x12 x11 | s54 => DD x12 x12 | s55 => DD x12 x13 | s56 => DD x12 x14 | s57 => DD x12 x15 | s58 => DD x12 x16 | s59 => DD x12 x17 | s60 => DD x12 x18 | s61 => DD x12 x19 | s62 => DD x12 x20 | s63 => DD x12 x21 | s64 => DD x12 x22 | s65 => DD x12 x23 | s66 => DD x12 x24 | s67 => DD x12 x25 | s68 => DD x12 x26 | s69 => DD x12 x27 | s70 => DD x12 x28 | s71 => DD x12 x29 | s72 => DD x12 x30 | s73 => DD x12 x31 | s74 => DD x12 x32 | s75 => DD x12 x33 | s76 => DD x12 x34 | s77 => DD x12 x35 | s78 => DD x12 x36 | s79 => DD x12 x37 | s80 => DD x12 x38 | s81 => DD x12 x39 | s82 => DD x12 x40 | s83 => DD x12 x41 | s84 => DD x12 x42 | s85 => DD x12 x43 | s86 => DD x12 x44 | s87 => DD x12 x45 | s88 => DD x12 x46 | s89 => DD x12 x47 | s90 => DD x12 x48 | s91 => DD x12 x49 | s92 => DD x12 x50 | s93 => DD x12 x51 | s94 => DD x12 x52 | s95 => DD x12 x53 | s96 => DD x12 x54 | s97 => DD x12 x55 | s98 => DD x12 x56 | s99 => DD x12 x57 | s100 => DD x12 x58 | s101 => DD x12 x59 | s102 => DD x12 x60 | s103 => DD x12 x61 | s104 => DD x12 x62 | s105 => DD x12 x63 | s106 => DD x13 x0 | s107 => DD x13 x1 | s108 => DD x13 x2 | s109 => DD x13 x3 | s110 => DD x13 x4 | s111 => DD x13 x5 | s112 => DD x13 x6 | s113 => DD x13 x7 | s114 => DD x13 x8 | s115 => DD x13 x9 | s116 => DD x13 x10 | s117 => DD x13 x11 | s118 => DD x13 x12 | s119 => DD x13 x13 | s120 => DD x13 x14 | s121 => DD x13 x15 | s122 => DD x13 x16 | s123 => DD x13 x17 | s124 => DD x13 x18 | s125 => DD x13 x19 | s126 => DD x13 x20 end.
Definition m728 (c : sum2) : dd := match c with s0 => DD x11 x24 | s1 => DD x11 x25 | s2 => DD x11 x26 | s3 => DD x11 x27 | s4 => DD x11 x28 | s5 => DD x11 x29 | s6 => DD x11 x30 | s7 => DD x11 x31 | s8 => DD x11 x32 | s9 => DD x11 x33 | s10 => DD x11 x34 | s11 => DD x11 x35 | s12 => DD x11 x36 | s13 => DD x11 x37 | s14 => DD x11 x38 | s15 => DD x11 x39 | s16 => DD x11 x40 | s17 => DD x11 x41 | s18 => DD x11 x42 | s19 => DD x11 x43 | s20 => DD x11 x44 | s21 => DD x11 x45 | s22 => DD x11 x46 | s23 => DD x11 x47 | s24 => DD x11 x48 | s25 => DD x11 x49 | s26 => DD x11 x50 | s27 => DD x11 x51 | s28 => DD x11 x52 | s29 => DD x11 x53 | s30 => DD x11 x54 | s31 => DD x11 x55 | s32 => DD x11 x56 | s33 => DD x11 x57 | s34 => DD x11 x58 | s35 => DD x11 x59 | s36 => DD x11 x60 | s37 => DD x11 x61 | s38 => DD x11 x62 | s39 => DD x11 x63 | s40 => DD x12 x0 | s41 => DD x12 x1 | s42 => DD x12 x2 | s43 => DD x12 x3 | s44 => DD x12 x4 | s45 => DD x12 x5 | s46 => DD x12 x6 | s47 => DD x12 x7 | s48 => DD x12 x8 | s49 => DD x12 x9 | s50 => DD x12 x10 | s51 => DD x12 x11 | s52 => DD x12 x12 | s53 => DD x12 x13 | s54 => DD x12 x14 | s55 => DD x12 x15 | s56 => DD x12 x16 | s57 => DD x12 x17 | s58 => DD x12 x18 | s59 => DD x12 x19 | s60 => DD x12 x20 | s61 => DD x12 x21 | s62 => DD x12 x22 | s63 => DD x12 x23 | s64 => DD x12 x24 | s65 => DD x12 x25 | s66 => DD x12 x26 | s67 => DD x12 x27 | s68 => DD x12 x28 | s69 => DD x12 x29 | s70 => DD x12 x30 | s71 => DD x12 x31 | s72 => DD x12 x32 | s73 => DD x12 x33 | s74 => DD x12 x34 | s75 => DD x12 x35 | s76 => DD x12 x36 | s77 => DD x12 x37 | s78 => DD x12 x38 | s79 => DD x12 x39 | s80 => DD x12 x40 | s81 => DD x12 x41 | s82 => DD x12 x42 | s83 => DD x12 x43 | s84 => DD x12 x44 | s85 => DD x12 x45 | s86 => DD x12 x46 | s87 => DD x12 x47 | s88 => DD x12 x48 | s89 => DD x12 x49 | s90 => DD x12 x50 | s91 => DD x12 x51 | s92 => DD x12 x52 | s93 => DD x12 x53 | s94 => DD x12 x54 | s95 => DD x12 x55 | s96 => DD x12 x56 | s97 => DD x12 x57 | s98 => DD x12 x58 | s99 => DD x12 x59 | s100 => DD x12 x60 | s101 => DD x12 x61 | s102 => DD x12 x62 | s103 => DD x12 x63 | s104 => DD x13 x0 | s105 => DD x13 x1 | s106 => DD x13 x2 | s107 => DD x13 x3 | s108 => DD x13 x4 | s109 => DD x13 x5 | s110 => DD x13 x6 | s111 => DD x13 x7 | s112 => DD x13 x8 | s113 => DD x13 x9 | s114 => DD x13 x10 | s115 => DD x13 x11 | s116 => DD x13 x12 | s117 => DD x13 x13 | s118 => DD x13 x14 | s119 => DD x13 x15 | s120 => DD x13 x16 | s121 => DD x13 x17 | s122 => DD x13 x18 | s123 => DD x13 x19 | s124 => DD x13 x20 | s125 => DD x13 x21 | s126 => DD x13 x22 end.
Definition m729 (c : sum2) : dd := match c with s0 => DD x11 x25 | s1 => DD x11 x26 | s2 => DD x11 x27 | s3 => DD x11 x28 | s4 => DD x11 x29 | s5 => DD x11 x30 | s6 => DD x11 x31 | s7 => DD x11 x32 | s8 => DD x11 x33 | s9 => DD x11 x34 | s10 => DD x11 x35 | s11 => DD x11 x36 | s12 => DD x11 x37 | s13 => DD x11 x38 | s14 => DD x11 x39 | s15 => DD x11 x40 | s16 => DD x11 x41 | s17 => DD x11 x42 | s18 => DD x11 x43 | s19 => DD x11 x44 | s20 => DD x11 x45 | s21 => DD x11 x46 | s22 => DD x11 x47 | s23 => DD x11 x48 | s24 => DD x11 x49 | s25 => DD x11 x50 | s26 => DD x11 x51 | s27 => DD x11 x52 | s28 => DD x11 x53 | s29 => DD x11 x54 | s30 => DD x11 x55 | s31 => DD x11 x56 | s32 => DD x11 x57 | s33 => DD x11 x58 | s34 => DD x11 x59 | s35 => DD x11 x60 | s36 => DD x11 x61 | s37 => DD x11 x62 | s38 => DD x11 x63 | s39 => DD x12 x0 | s40 => DD x12 x1 | s41 => DD x12 x2 | s42 => DD x12 x3 | s43 => DD x12 x4 | s44 => DD x12 x5 | s45 => DD x12 x6 | s46 => DD x12 x7 | s47 => DD x12 x8 | s48 => DD x12 x9 | s49 => DD x12 x10 | s50 => DD x12 x11 | s51 => DD x12 x12 | s52 => DD x12 x13 | s53 => DD x12 x14 | s54 => DD x12 x15 | s55 => DD x12 x16 | s56 => DD x12 x17 | s57 => DD x12 x18 | s58 => DD x12 x19 | s59 => DD x12 x20 | s60 => DD x12 x21 | s61 => DD x12 x22 | s62 => DD x12 x23 | s63 => DD x12 x24 | s64 => DD x12 x25 | s65 => DD x12 x26 | s66 => DD x12 x27 | s67 => DD x12 x28 | s68 => DD x12 x29 | s69 => DD x12 x30 | s70 => DD x12 x31 | s71 => DD x12 x32 | s72 => DD x12 x33 | s73 => DD x12 x34 | s74 => DD x12 x35 | s75 => DD x12 x36 | s76 => DD x12 x37 | s77 => DD x12 x38 | s78 => DD x12 x39 | s79 => DD x12 x40 | s80 => DD x12 x41 | s81 => DD x12 x42 | s82 => DD x12 x43 | s83 => DD x12 x44 | s84 => DD x12 x45 | s85 => DD x12 x46 | s86 => DD x12 x47 | s87 => DD x12 x48 | s88 => DD x12 x49 | s89 => DD x12 x50 | s90 => DD x12 x51 | s91 => DD x12 x52 | s92 => DD x12 x53 | s93 => DD x12 x54 | s94 => DD x12 x55 | s95 => DD x12 x56 | s96 => DD x12 x57 | s97 => DD x12 x58 | s98 => DD x12 x59 | s99 => DD x12 x60 | s100 => DD x12 x61 | s101 => DD x12 x62 | s102 => DD x12 x63 | s103 => DD x13 x0 | s104 => DD x13 x1 | s105 => DD x13 x2 | s106 => DD x13 x3 | s107 => DD x13 x4 | s108 => DD x13 x5 | s109 => DD x13 x6 | s110 => DD x13 x7 | s111 => DD x13 x8 | s112 => DD x13 x9 | s113 => DD x13 x10 | s114 => DD x13 x11 | s115 => DD x13 x12 | s116 => DD x13 x13 | s117 => DD x13 x14 | s118 => DD x13 x15 | s119 => DD x13 x16 | s120 => DD x13 x17 | s121 => DD x13 x18 | s122 => DD x13 x19 | s123 => DD x13 x20 | s124 => DD x13 x21 | s125 => DD x13 x22 | s126 => DD x13 x23 end.
Definition m731 (c : sum2) : dd := match c with s0 => DD x11 x27 | s1 => DD x11 x28 | s2 => DD x11 x29 | s3 => DD x11 x30 | s4 => DD x11 x31 | s5 => DD x11 x32 | s6 => DD x11 x33 | s7 => DD x11 x34 | s8 => DD x11 x35 | s9 => DD x11 x36 | s10 => DD x11 x37 | s11 => DD x11 x38 | s12 => DD x11 x39 | s13 => DD x11 x40 | s14 => DD x11 x41 | s15 => DD x11 x42 | s16 => DD x11 x43 | s17 => DD x11 x44 | s18 => DD x11 x45 | s19 => DD x11 x46 | s20 => DD x11 x47 | s21 => DD x11 x48 | s22 => DD x11 x49 | s23 => DD x11 x50 | s24 => DD x11 x51 | s25 => DD x11 x52 | s26 => DD x11 x53 | s27 => DD x11 x54 | s28 => DD x11 x55 | s29 => DD x11 x56 | s30 => DD x11 x57 | s31 => DD x11 x58 | s32 => DD x11 x59 | s33 => DD x11 x60 | s34 => DD x11 x61 | s35 => DD x11 x62 | s36 => DD x11 x63 | s37 => DD x12 x0 | s38 => DD x12 x1 | s39 => DD x12 x2 | s40 => DD x12 x3 | s41 => DD x12 x4 | s42 => DD x12 x5 | s43 => DD x12 x6 | s44 => DD x12 x7 | s45 => DD x12 x8 | s46 => DD x12 x9 | s47 => DD x12 x10 | s48 => DD x12 x11 | s49 => DD x12 x12 | s50 => DD x12 x13 | s51 => DD x12 x14 | s52 => DD x12 x15 | s53 => DD x12 x16 | s54 => DD x12 x17 | s55 => DD x12 x18 | s56 => DD x12 x19 | s57 => DD x12 x20 | s58 => DD x12 x21 | s59 => DD x12 x22 | s60 => DD x12 x23 | s61 => DD x12 x24 | s62 => DD x12 x25 | s63 => DD x12 x26 | s64 => DD x12 x27 | s65 => DD x12 x28 | s66 => DD x12 x29 | s67 => DD x12 x30 | s68 => DD x12 x31 | s69 => DD x12 x32 | s70 => DD x12 x33 | s71 => DD x12 x34 | s72 => DD x12 x35 | s73 => DD x12 x36 | s74 => DD x12 x37 | s75 => DD x12 x38 | s76 => DD x12 x39 | s77 => DD x12 x40 | s78 => DD x12 x41 | s79 => DD x12 x42 | s80 => DD x12 x43 | s81 => DD x12 x44 | s82 => DD x12 x45 | s83 => DD x12 x46 | s84 => DD x12 x47 | s85 => DD x12 x48 | s86 => DD x12 x49 | s87 => DD x12 x50 | s88 => DD x12 x51 | s89 => DD x12 x52 | s90 => DD x12 x53 | s91 => DD x12 x54 | s92 => DD x12 x55 | s93 => DD x12 x56 | s94 => DD x12 x57 | s95 => DD x12 x58 | s96 => DD x12 x59 | s97 => DD x12 x60 | s98 => DD x12 x61 | s99 => DD x12 x62 | s100 => DD x12 x63 | s101 => DD x13 x0 | s102 => DD x13 x1 | s103 => DD x13 x2 | s104 => DD x13 x3 | s105 => DD x13 x4 | s106 => DD x13 x5 | s107 => DD x13 x6 | s108 => DD x13 x7 | s109 => DD x13 x8 | s110 => DD x13 x9 | s111 => DD x13 x10 | s112 => DD x13 x11 | s113 => DD x13 x12 | s114 => DD x13 x13 | s115 => DD x13 x14 | s116 => DD x13 x15 | s117 => DD x13 x16 | s118 => DD x13 x17 | s119 => DD x13 x18 | s120 => DD x13 x19 | s121 => DD x13 x20 | s122 => DD x13 x21 | s123 => DD x13 x22 | s124 => DD x13 x23 | s125 => DD x13 x24 | s126 => DD x13 x25 end.
Definition m732 (c : sum2) : dd := match c with s0 => DD x11 x28 | s1 => DD x11 x29 | s2 => DD x11 x30 | s3 => DD x11 x31 | s4 => DD x11 x32 | s5 => DD x11 x33 | s6 => DD x11 x34 | s7 => DD x11 x35 | s8 => DD x11 x36 | s9 => DD x11 x37 | s10 => DD x11 x38 | s11 => DD x11 x39 | s12 => DD x11 x40 | s13 => DD x11 x41 | s14 => DD x11 x42 | s15 => DD x11 x43 | s16 => DD x11 x44 | s17 => DD x11 x45 | s18 => DD x11 x46 | s19 => DD x11 x47 | s20 => DD x11 x48 | s21 => DD x11 x49 | s22 => DD x11 x50 | s23 => DD x11 x51 | s24 => DD x11 x52 | s25 => DD x11 x53 | s26 => DD x11 x54 | s27 => DD x11 x55 | s28 => DD x11 x56 | s29 => DD x11 x57 | s30 => DD x11 x58 | s31 => DD x11 x59 | s32 => DD x11 x60 | s33 => DD x11 x61 | s34 => DD x11 x62 | s35 => DD x11 x63 | s36 => DD x12 x0 | s37 => DD x12 x1 | s38 => DD x12 x2 | s39 => DD x12 x3 | s40 => DD x12 x4 | s41 => DD x12 x5 | s42 => DD x12 x6 | s43 => DD x12 x7 | s44 => DD x12 x8 | s45 => DD x12 x9 | s46 => DD x12 x10 | s47 => DD x12 x11 | s48 => DD x12 x12 | s49 => DD x12 x13 | s50 => DD x12 x14 | s51 => DD x12 x15 | s52 => DD x12 x16 | s53 => DD x12 x17 | s54 => DD x12 x18 | s55 => DD x12 x19 | s56 => DD x12 x20 | s57 => DD x12 x21 | s58 => DD x12 x22 | s59 => DD x12 x23 | s60 => DD x12 x24 | s61 => DD x12 x25 | s62 => DD x12 x26 | s63 => DD x12 x27 | s64 => DD x12 x28 | s65 => DD x12 x29 | s66 => DD x12 x30 | s67 => DD x12 x31 | s68 => DD x12 x32 | s69 => DD x12 x33 | s70 => DD x12 x34 | s71 => DD x12 x35 | s72 => DD x12 x36 | s73 => DD x12 x37 | s74 => DD x12 x38 | s75 => DD x12 x39 | s76 => DD x12 x40 | s77 => DD x12 x41 | s78 => DD x12 x42 | s79 => DD x12 x43 | s80 => DD x12 x44 | s81 => DD x12 x45 | s82 => DD x12 x46 | s83 => DD x12 x47 | s84 => DD x12 x48 | s85 => DD x12 x49 | s86 => DD x12 x50 | s87 => DD x12 x51 | s88 => DD x12 x52 | s89 => DD x12 x53 | s90 => DD x12 x54 | s91 => DD x12 x55 | s92 => DD x12 x56 | s93 => DD x12 x57 | s94 => DD x12 x58 | s95 => DD x12 x59 | s96 => DD x12 x60 | s97 => DD x12 x61 | s98 => DD x12 x62 | s99 => DD x12 x63 | s100 => DD x13 x0 | s101 => DD x13 x1 | s102 => DD x13 x2 | s103 => DD x13 x3 | s104 => DD x13 x4 | s105 => DD x13 x5 | s106 => DD x13 x6 | s107 => DD x13 x7 | s108 => DD x13 x8 | s109 => DD x13 x9 | s110 => DD x13 x10 | s111 => DD x13 x11 | s112 => DD x13 x12 | s113 => DD x13 x13 | s114 => DD x13 x14 | s115 => DD x13 x15 | s116 => DD x13 x16 | s117 => DD x13 x17 | s118 => DD x13 x18 | s119 => DD x13 x19 | s120 => DD x13 x20 | s121 => DD x13 x21 | s122 => DD x13 x22 | s123 => DD x13 x23 | s124 => DD x13 x24 | s125 => DD x13 x25 | s126 => DD x13 x26 end.
Definition m735 (c : sum2) : dd := match c with s0 => DD x11 x31 | s1 => DD x11 x32 | s2 => DD x11 x33 | s3 => DD x11 x34 | s4 => DD x11 x35 | s5 => DD x11 x36 | s6 => DD x11 x37 | s7 => DD x11 x38 | s8 => DD x11 x39 | s9 => DD x11 x40 | s10 => DD x11 x41 | s11 => DD x11 x42 | s12 => DD x11 x43 | s13 => DD x11 x44 | s14 => DD x11 x45 | s15 => DD x11 x46 | s16 => DD x11 x47 | s17 => DD x11 x48 | s18 => DD x11 x49 | s19 => DD x11 x50 | s20 => DD x11 x51 | s21 => DD x11 x52 | s22 => DD x11 x53 | s23 => DD x11 x54 | s24 => DD x11 x55 | s25 => DD x11 x56 | s26 => DD x11 x57 | s27 => DD x11 x58 | s28 => DD x11 x59 | s29 => DD x11 x60 | s30 => DD x11 x61 | s31 => DD x11 x62 | s32 => DD x11 x63 | s33 => DD x12 x0 | s34 => DD x12 x1 | s35 => DD x12 x2 | s36 => DD x12 x3 | s37 => DD x12 x4 | s38 => DD x12 x5 | s39 => DD x12 x6 | s40 => DD x12 x7 | s41 => DD x12 x8 | s42 => DD x12 x9 | s43 => DD x12 x10 | s44 => DD x12 x11 | s45 => DD x12 x12 | s46 => DD x12 x13 | s47 => DD x12 x14 | s48 => DD x12 x15 | s49 => DD x12 x16 | s50 => DD x12 x17 | s51 => DD x12 x18 | s52 => DD x12 x19 | s53 => DD x12 x20 | s54 => DD x12 x21 | s55 => DD x12 x22 | s56 => DD x12 x23 | s57 => DD x12 x24 | s58 => DD x12 x25 | s59 => DD x12 x26 | s60 => DD x12 x27 | s61 => DD x12 x28 | s62 => DD x12 x29 | s63 => DD x12 x30 | s64 => DD x12 x31 | s65 => DD x12 x32 | s66 => DD x12 x33 | s67 => DD x12 x34 | s68 => DD x12 x35 | s69 => DD x12 x36 | s70 => DD x12 x37 | s71 => DD x12 x38 | s72 => DD x12 x39 | s73 => DD x12 x40 | s74 => DD x12 x41 | s75 => DD x12 x42 | s76 => DD x12 x43 | s77 => DD x12 x44 | s78 => DD x12 x45 | s79 => DD x12 x46 | s80 => DD x12 x47 | s81 => DD x12 x48 | s82 => DD x12 x49 | s83 => DD x12 x50 | s84 => DD x12 x51 | s85 => DD x12 x52 | s86 => DD x12 x53 | s87 => DD x12 x54 | s88 => DD x12 x55 | s89 => DD x12 x56 | s90 => DD x12 x57 | s91 => DD x12 x58 | s92 => DD x12 x59 | s93 => DD x12 x60 | s94 => DD x12 x61 | s95 => DD x12 x62 | s96 => DD x12 x63 | s97 => DD x13 x0 | s98 => DD x13 x1 | s99 => DD x13 x2 | s100 => DD x13 x3 | s101 => DD x13 x4 | s102 => DD x13 x5 | s103 => DD x13 x6 | s104 => DD x13 x7 | s105 => DD x13 x8 | s106 => DD x13 x9 | s107 => DD x13 x10 | s108 => DD x13 x11 | s109 => DD x13 x12 | s110 => DD x13 x13 | s111 => DD x13 x14 | s112 => DD x13 x15 | s113 => DD x13 x16 | s114 => DD x13 x17 | s115 => DD x13 x18 | s116 => DD x13 x19 | s117 => DD x13 x20 | s118 => DD x13 x21 | s119 => DD x13 x22 | s120 => DD x13 x23 | s121 => DD x13 x24 | s122 => DD x13 x25 | s123 => DD x13 x26 | s124 => DD x13 x27 | s125 => DD x13 x28 | s126 => DD x13 x29 end.
Definition m736 (c : sum2) : dd := match c with s0 => DD x11 x32 | s1 => DD x11 x33 | s2 => DD x11 x34 | s3 => DD x11 x35 | s4 => DD x11 x36 | s5 => DD x11 x37 | s6 => DD x11 x38 | s7 => DD x11 x39 | s8 => DD x11 x40 | s9 => DD x11 x41 | s10 => DD x11 x42 | s11 => DD x11 x43 | s12 => DD x11 x44 | s13 => DD x11 x45 | s14 => DD x11 x46 | s15 => DD x11 x47 | s16 => DD x11 x48 | s17 => DD x11 x49 | s18 => DD x11 x50 | s19 => DD x11 x51 | s20 => DD x11 x52 | s21 => DD x11 x53 | s22 => DD x11 x54 | s23 => DD x11 x55 | s24 => DD x11 x56 | s25 => DD x11 x57 | s26 => DD x11 x58 | s27 => DD x11 x59 | s28 => DD x11 x60 | s29 => DD x11 x61 | s30 => DD x11 x62 | s31 => DD x11 x63 | s32 => DD x12 x0 | s33 => DD x12 x1 | s34 => DD x12 x2 | s35 => DD x12 x3 | s36 => DD x12 x4 | s37 => DD x12 x5 | s38 => DD x12 x6 | s39 => DD x12 x7 | s40 => DD x12 x8 | s41 => DD x12 x9 | s42 => DD x12 x10 | s43 => DD x12 x11 | s44 => DD x12 x12 | s45 => DD x12 x13 | s46 => DD x12 x14 | s47 => DD x12 x15 | s48 => DD x12 x16 | s49 => DD x12 x17 | s50 => DD x12 x18 | s51 => DD x12 x19 | s52 => DD x12 x20 | s53 => DD x12 x21 | s54 => DD x12 x22 | s55 => DD x12 x23 | s56 => DD x12 x24 | s57 => DD x12 x25 | s58 => DD x12 x26 | s59 => DD x12 x27 | s60 => DD x12 x28 | s61 => DD x12 x29 | s62 => DD x12 x30 | s63 => DD x12 x31 | s64 => DD x12 x32 | s65 => DD x12 x33 | s66 => DD x12 x34 | s67 => DD x12 x35 | s68 => DD x12 x36 | s69 => DD x12 x37 | s70 => DD x12 x38 | s71 => DD x12 x39 | s72 => DD x12 x40 | s73 => DD x12 x41 | s74 => DD x12 x42 | s75 => DD x12 x43 | s76 => DD x12 x44 | s77 => DD x12 x45 | s78 => DD x12 x46 | s79 => DD x12 x47 | s80 => DD x12 x48 | s81 => DD x12 x49 | s82 => DD x12 x50 | s83 => DD x12 x51 | s84 => DD x12 x52 | s85 => DD x12 x53 | s86 => DD x12 x54 | s87 => DD x12 x55 | s88 => DD x12 x56 | s89 => DD x12 x57 | s90 => DD x12 x58 | s91 => DD x12 x59 | s92 => DD x12 x60 | s93 => DD x12 x61 | s94 => DD x12 x62 | s95 => DD x12 x63 | s96 => DD x13 x0 | s97 => DD x13 x1 | s98 => DD x13 x2 | s99 => DD x13 x3 | s100 => DD x13 x4 | s101 => DD x13 x5 | s102 => DD x13 x6 | s103 => DD x13 x7 | s104 => DD x13 x8 | s105 => DD x13 x9 | s106 => DD x13 x10 | s107 => DD x13 x11 | s108 => DD x13 x12 | s109 => DD x13 x13 | s110 => DD x13 x14 | s111 => DD x13 x15 | s112 => DD x13 x16 | s113 => DD x13 x17 | s114 => DD x13 x18 | s115 => DD x13 x19 | s116 => DD x13 x20 | s117 => DD x13 x21 | s118 => DD x13 x22 | s119 => DD x13 x23 | s120 => DD x13 x24 | s121 => DD x13 x25 | s122 => DD x13 x26 | s123 => DD x13 x27 | s124 => DD x13 x28 | s125 => DD x13 x29 | s126 => DD x13 x30 end.
Definition m738 (c : sum2) : dd := match c with s0 => DD x11 x34 | s1 => DD x11 x35 | s2 => DD x11 x36 | s3 => DD x11 x37 | s4 => DD x11 x38 | s5 => DD x11 x39 | s6 => DD x11 x40 | s7 => DD x11 x41 | s8 => DD x11 x42 | s9 => DD x11 x43 | s10 => DD x11 x44 | s11 => DD x11 x45 | s12 => DD x11 x46 | s13 => DD x11 x47 | s14 => DD x11 x48 | s15 => DD x11 x49 | s16 => DD x11 x50 | s17 => DD x11 x51 | s18 => DD x11 x52 | s19 => DD x11 x53 | s20 => DD x11 x54 | s21 => DD x11 x55 | s22 => DD x11 x56 | s23 => DD x11 x57 | s24 => DD x11 x58 | s25 => DD x11 x59 | s26 => DD x11 x60 | s27 => DD x11 x61 | s28 => DD x11 x62 | s29 => DD x11 x63 | s30 => DD x12 x0 | s31 => DD x12 x1 | s32 => DD x12 x2 | s33 => DD x12 x3 | s34 => DD x12 x4 | s35 => DD x12 x5 | s36 => DD x12 x6 | s37 => DD x12 x7 | s38 => DD x12 x8 | s39 => DD x12 x9 | s40 => DD x12 x10 | s41 => DD x12 x11 | s42 => DD x12 x12 | s43 => DD x12 x13 | s44 => DD x12 x14 | s45 => DD x12 x15 | s46 => DD x12 x16 | s47 => DD x12 x17 | s48 => DD x12 x18 | s49 => DD x12 x19 | s50 => DD x12 x20 | s51 => DD x12 x21 | s52 => DD x12 x22 | s53 => DD x12 x23 | s54 => DD x12 x24 | s55 => DD x12 x25 | s56 => DD x12 x26 | s57 => DD x12 x27 | s58 => DD x12 x28 | s59 => DD x12 x29 | s60 => DD x12 x30 | s61 => DD x12 x31 | s62 => DD x12 x32 | s63 => DD x12 x33 | s64 => DD x12 x34 | s65 => DD x12 x35 | s66 => DD x12 x36 | s67 => DD x12 x37 | s68 => DD x12 x38 | s69 => DD x12 x39 | s70 => DD x12 x40 | s71 => DD x12 x41 | s72 => DD x12 x42 | s73 => DD x12 x43 | s74 => DD x12 x44 | s75 => DD x12 x45 | s76 => DD x12 x46 | s77 => DD x12 x47 | s78 => DD x12 x48 | s79 => DD x12 x49 | s80 => DD x12 x50 | s81 => DD x12 x51 | s82 => DD x12 x52 | s83 => DD x12 x53 | s84 => DD x12 x54 | s85 => DD x12 x55 | s86 => DD x12 x56 | s87 => DD x12 x57 | s88 => DD x12 x58 | s89 => DD x12 x59 | s90 => DD x12 x60 | s91 => DD x12 x61 | s92 => DD x12 x62 | s93 => DD x12 x63 | s94 => DD x13 x0 | s95 => DD x13 x1 | s96 => DD x13 x2 | s97 => DD x13 x3 | s98 => DD x13 x4 | s99 => DD x13 x5 | s100 => DD x13 x6 | s101 => DD x13 x7 | s102 => DD x13 x8 | s103 => DD x13 x9 | s104 => DD x13 x10 | s105 => DD x13 x11 | s106 => DD x13 x12 | s107 => DD x13 x13 | s108 => DD x13 x14 | s109 => DD x13 x15 | s110 => DD x13 x16 | s111 => DD x13 x17 | s112 => DD x13 x18 | s113 => DD x13 x19 | s114 => DD x13 x20 | s115 => DD x13 x21 | s116 => DD x13 x22 | s117 => DD x13 x23 | s118 => DD x13 x24 | s119 => DD x13 x25 | s120 => DD x13 x26 | s121 => DD x13 x27 | s122 => DD x13 x28 | s123 => DD x13 x29 | s124 => DD x13 x30 | s125 => DD x13 x31 | s126 => DD x13 x32 end.
Definition m740 (c : sum2) : dd := match c with s0 => DD x11 x36 | s1 => DD x11 x37 | s2 => DD x11 x38 | s3 => DD x11 x39 | s4 => DD x11 x40 | s5 => DD x11 x41 | s6 => DD x11 x42 | s7 => DD x11 x43 | s8 => DD x11 x44 | s9 => DD x11 x45 | s10 => DD x11 x46 | s11 => DD x11 x47 | s12 => DD x11 x48 | s13 => DD x11 x49 | s14 => DD x11 x50 | s15 => DD x11 x51 | s16 => DD x11 x52 | s17 => DD x11 x53 | s18 => DD x11 x54 | s19 => DD x11 x55 | s20 => DD x11 x56 | s21 => DD x11 x57 | s22 => DD x11 x58 | s23 => DD x11 x59 | s24 => DD x11 x60 | s25 => DD x11 x61 | s26 => DD x11 x62 | s27 => DD x11 x63 | s28 => DD x12 x0 | s29 => DD x12 x1 | s30 => DD x12 x2 | s31 => DD x12 x3 | s32 => DD x12 x4 | s33 => DD x12 x5 | s34 => DD x12 x6 | s35 => DD x12 x7 | s36 => DD x12 x8 | s37 => DD x12 x9 | s38 => DD x12 x10 | s39 => DD x12 x11 | s40 => DD x12 x12 | s41 => DD x12 x13 | s42 => DD x12 x14 | s43 => DD x12 x15 | s44 => DD x12 x16 | s45 => DD x12 x17 | s46 => DD x12 x18 | s47 => DD x12 x19 | s48 => DD x12 x20 | s49 => DD x12 x21 | s50 => DD x12 x22 | s51 => DD x12 x23 | s52 => DD x12 x24 | s53 => DD x12 x25 | s54 => DD x12 x26 | s55 => DD x12 x27 | s56 => DD x12 x28 | s57 => DD x12 x29 | s58 => DD x12 x30 | s59 => DD x12 x31 | s60 => DD x12 x32 | s61 => DD x12 x33 | s62 => DD x12 x34 | s63 => DD x12 x35 | s64 => DD x12 x36 | s65 => DD x12 x37 | s66 => DD x12 x38 | s67 => DD x12 x39 | s68 => DD x12 x40 | s69 => DD x12 x41 | s70 => DD x12 x42 | s71 => DD x12 x43 | s72 => DD x12 x44 | s73 => DD x12 x45 | s74 => DD x12 x46 | s75 => DD x12 x47 | s76 => DD x12 x48 | s77 => DD x12 x49 | s78 => DD x12 x50 | s79 => DD x12 x51 | s80 => DD x12 x52 | s81 => DD x12 x53 | s82 => DD x12 x54 | s83 => DD x12 x55 | s84 => DD x12 x56 | s85 => DD x12 x57 | s86 => DD x12 x58 | s87 => DD x12 x59 | s88 => DD x12 x60 | s89 => DD x12 x61 | s90 => DD x12 x62 | s91 => DD x12 x63 | s92 => DD x13 x0 | s93 => DD x13 x1 | s94 => DD x13 x2 | s95 => DD x13 x3 | s96 => DD x13 x4 | s97 => DD x13 x5 | s98 => DD x13 x6 | s99 => DD x13 x7 | s100 => DD x13 x8 | s101 => DD x13 x9 | s102 => DD x13 x10 | s103 => DD x13 x11 | s104 => DD x13 x12 | s105 => DD x13 x13 | s106 => DD x13 x14 | s107 => DD x13 x15 | s108 => DD x13 x16 | s109 => DD x13 x17 | s110 => DD x13 x18 | s111 => DD x13 x19 | s112 => DD x13 x20 | s113 => DD x13 x21 | s114 => DD x13 x22 | s115 => DD x13 x23 | s116 => DD x13 x24 | s117 => DD x13 x25 | s118 => DD x13 x26 | s119 => DD x13 x27 | s120 => DD x13 x28 | s121 => DD x13 x29 | s122 => DD x13 x30 | s123 => DD x13 x31 | s124 => DD x13 x32 | s125 => DD x13 x33 | s126 => DD x13 x34 end.
Definition m741 (c : sum2) : dd := match c with s0 => DD x11 x37 | s1 => DD x11 x38 | s2 => DD x11 x39 | s3 => DD x11 x40 | s4 => DD x11 x41 | s5 => DD x11 x42 | s6 => DD x11 x43 | s7 => DD x11 x44 | s8 => DD x11 x45 | s9 => DD x11 x46 | s10 => DD x11 x47 | s11 => DD x11 x48 | s12 => DD x11 x49 | s13 => DD x11 x50 | s14 => DD x11 x51 | s15 => DD x11 x52 | s16 => DD x11 x53 | s17 => DD x11 x54 | s18 => DD x11 x55 | s19 => DD x11 x56 | s20 => DD x11 x57 | s21 => DD x11 x58 | s22 => DD x11 x59 | s23 => DD x11 x60 | s24 => DD x11 x61 | s25 => DD x11 x62 | s26 => DD x11 x63 | s27 => DD x12 x0 | s28 => DD x12 x1 | s29 => DD x12 x2 | s30 => DD x12 x3 | s31 => DD x12 x4 | s32 => DD x12 x5 | s33 => DD x12 x6 | s34 => DD x12 x7 | s35 => DD x12 x8 | s36 => DD x12 x9 | s37 => DD x12 x10 | s38 => DD x12 x11 | s39 => DD x12 x12 | s40 => DD x12 x13 | s41 => DD x12 x14 | s42 => DD x12 x15 | s43 => DD x12 x16 | s44 => DD x12 x17 | s45 => DD x12 x18 | s46 => DD x12 x19 | s47 => DD x12 x20 | s48 => DD x12 x21 | s49 => DD x12 x22 | s50 => DD x12 x23 | s51 => DD x12 x24 | s52 => DD x12 x25 | s53 => DD x12 x26 | s54 => DD x12 x27 | s55 => DD x12 x28 | s56 => DD x12 x29 | s57 => DD x12 x30 | s58 => DD x12 x31 | s59 => DD x12 x32 | s60 => DD x12 x33 | s61 => DD x12 x34 | s62 => DD x12 x35 | s63 => DD x12 x36 | s64 => DD x12 x37 | s65 => DD x12 x38 | s66 => DD x12 x39 | s67 => DD x12 x40 | s68 => DD x12 x41 | s69 => DD x12 x42 | s70 => DD x12 x43 | s71 => DD x12 x44 | s72 => DD x12 x45 | s73 => DD x12 x46 | s74 => DD x12 x47 | s75 => DD x12 x48 | s76 => DD x12 x49 | s77 => DD x12 x50 | s78 => DD x12 x51 | s79 => DD x12 x52 | s80 => DD x12 x53 | s81 => DD x12 x54 | s82 => DD x12 x55 | s83 => DD x12 x56 | s84 => DD x12 x57 | s85 => DD x12 x58 | s86 => DD x12 x59 | s87 => DD x12 x60 | s88 => DD x12 x61 | s89 => DD x12 x62 | s90 => DD x12 x63 | s91 => DD x13 x0 | s92 => DD x13 x1 | s93 => DD x13 x2 | s94 => DD x13 x3 | s95 => DD x13 x4 | s96 => DD x13 x5 | s97 => DD x13 x6 | s98 => DD x13 x7 | s99 => DD x13 x8 | s100 => DD x13 x9 | s101 => DD x13 x10 | s102 => DD x13 x11 | s103 => DD x13 x12 | s104 => DD x13 x13 | s105 => DD x13 x14 | s106 => DD x13 x15 | s107 => DD x13 x16 | s108 => DD x13 x17 | s109 => DD x13 x18 | s110 => DD x13 x19 | s111 => DD x13 x20 | s112 => DD x13 x21 | s113 => DD x13 x22 | s114 => DD x13 x23 | s115 => DD x13 x24 | s116 => DD x13 x25 | s117 => DD x13 x26 | s118 => DD x13 x27 | s119 => DD x13 x28 | s120 => DD x13 x29 | s121 => DD x13 x30 | s122 => DD x13 x31 | s123 => DD x13 x32 | s124 => DD x13 x33 | s125 => DD x13 x34 | s126 => DD x13 x35 end.
Definition m742 (c : sum2) : dd := match c with s0 => DD x11 x38 | s1 => DD x11 x39 | s2 => DD x11 x40 | s3 => DD x11 x41 | s4 => DD x11 x42 | s5 => DD x11 x43 | s6 => DD x11 x44 | s7 => DD x11 x45 | s8 => DD x11 x46 | s9 => DD x11 x47 | s10 => DD x11 x48 | s11 => DD x11 x49 | s12 => DD x11 x50 | s13 => DD x11 x51 | s14 => DD x11 x52 | s15 => DD x11 x53 | s16 => DD x11 x54 | s17 => DD x11 x55 | s18 => DD x11 x56 | s19 => DD x11 x57 | s20 => DD x11 x58 | s21 => DD x11 x59 | s22 => DD x11 x60 | s23 => DD x11 x61 | s24 => DD x11 x62 | s25 => DD x11 x63 | s26 => DD x12 x0 | s27 => DD x12 x1 | s28 => DD x12 x2 | s29 => DD x12 x3 | s30 => DD x12 x4 | s31 => DD x12 x5 | s32 => DD x12 x6 | s33 => DD x12 x7 | s34 => DD x12 x8 | s35 => DD x12 x9 | s36 => DD x12 x10 | s37 => DD x12 x11 | s38 => DD x12 x12 | s39 => DD x12 x13 | s40 => DD x12 x14 | s41 => DD x12 x15 | s42 => DD x12 x16 | s43 => DD x12 x17 | s44 => DD x12 x18 | s45 => DD x12 x19 | s46 => DD x12 x20 | s47 => DD x12 x21 | s48 => DD x12 x22 | s49 => DD x12 x23 | s50 => DD x12 x24 | s51 => DD x12 x25 | s52 => DD x12 x26 | s53 => DD x12 x27 | s54 => DD x12 x28 | s55 => DD x12 x29 | s56 => DD x12 x30 | s57 => DD x12 x31 | s58 => DD x12 x32 | s59 => DD x12 x33 | s60 => DD x12 x34 | s61 => DD x12 x35 | s62 => DD x12 x36 | s63 => DD x12 x37 | s64 => DD x12 x38 | s65 => DD x12 x39 | s66 => DD x12 x40 | s67 => DD x12 x41 | s68 => DD x12 x42 | s69 => DD x12 x43 | s70 => DD x12 x44 | s71 => DD x12 x45 | s72 => DD x12 x46 | s73 => DD x12 x47 | s74 => DD x12 x48 | s75 => DD x12 x49 | s76 => DD x12 x50 | s77 => DD x12 x51 | s78 => DD x12 x52 | s79 => DD x12 x53 | s80 => DD x12 x54 | s81 => DD x12 x55 | s82 => DD x12 x56 | s83 => DD x12 x57 | s84 => DD x12 x58 | s85 => DD x12 x59 | s86 => DD x12 x60 | s87 => DD x12 x61 | s88 => DD x12 x62 | s89 => DD x12 x63 | s90 => DD x13 x0 | s91 => DD x13 x1 | s92 => DD x13 x2 | s93 => DD x13 x3 | s94 => DD x13 x4 | s95 => DD x13 x5 | s96 => DD x13 x6 | s97 => DD x13 x7 | s98 => DD x13 x8 | s99 => DD x13 x9 | s100 => DD x13 x10 | s101 => DD x13 x11 | s102 => DD x13 x12 | s103 => DD x13 x13 | s104 => DD x13 x14 | s105 => DD x13 x15 | s106 => DD x13 x16 | s107 => DD x13 x17 | s108 => DD x13 x18 | s109 => DD x13 x19 | s110 => DD x13 x20 | s111 => DD x13 x21 | s112 => DD x13 x22 | s113 => DD x13 x23 | s114 => DD x13 x24 | s115 => DD x13 x25 | s116 => DD x13 x26 | s117 => DD x13 x27 | s118 => DD x13 x28 | s119 => DD x13 x29 | s120 => DD x13 x30 | s121 => DD x13 x31 | s122 => DD x13 x32 | s123 => DD x13 x33 | s124 => DD x13 x34 | s125 => DD x13 x35 | s126 => DD x13 x36 end.
Definition m744 (c : sum2) : dd := match c with s0 => DD x11 x40 | s1 => DD x11 x41 | s2 => DD x11 x42 | s3 => DD x11 x43 | s4 => DD x11 x44 | s5 => DD x11 x45 | s6 => DD x11 x46 | s7 => DD x11 x47 | s8 => DD x11 x48 | s9 => DD x11 x49 | s10 => DD x11 x50 | s11 => DD x11 x51 | s12 => DD x11 x52 | s13 => DD x11 x53 | s14 => DD x11 x54 | s15 => DD x11 x55 | s16 => DD x11 x56 | s17 => DD x11 x57 | s18 => DD x11 x58 | s19 => DD x11 x59 | s20 => DD x11 x60 | s21 => DD x11 x61 | s22 => DD x11 x62 | s23 => DD x11 x63 | s24 => DD x12 x0 | s25 => DD x12 x1 | s26 => DD x12 x2 | s27 => DD x12 x3 | s28 => DD x12 x4 | s29 => DD x12 x5 | s30 => DD x12 x6 | s31 => DD x12 x7 | s32 => DD x12 x8 | s33 => DD x12 x9 | s34 => DD x12 x10 | s35 => DD x12 x11 | s36 => DD x12 x12 | s37 => DD x12 x13 | s38 => DD x12 x14 | s39 => DD x12 x15 | s40 => DD x12 x16 | s41 => DD x12 x17 | s42 => DD x12 x18 | s43 => DD x12 x19 | s44 => DD x12 x20 | s45 => DD x12 x21 | s46 => DD x12 x22 | s47 => DD x12 x23 | s48 => DD x12 x24 | s49 => DD x12 x25 | s50 => DD x12 x26 | s51 => DD x12 x27 | s52 => DD x12 x28 | s53 => DD x12 x29 | s54 => DD x12 x30 | s55 => DD x12 x31 | s56 => DD x12 x32 | s57 => DD x12 x33 | s58 => DD x12 x34 | s59 => DD x12 x35 | s60 => DD x12 x36 | s61 => DD x12 x37 | s62 => DD x12 x38 | s63 => DD x12 x39 | s64 => DD x12 x40 | s65 => DD x12 x41 | s66 => DD x12 x42 | s67 => DD x12 x43 | s68 => DD x12 x44 | s69 => DD x12 x45 | s70 => DD x12 x46 | s71 => DD x12 x47 | s72 => DD x12 x48 | s73 => DD x12 x49 | s74 => DD x12 x50 | s75 => DD x12 x51 | s76 => DD x12 x52 | s77 => DD x12 x53 | s78 => DD x12 x54 | s79 => DD x12 x55 | s80 => DD x12 x56 | s81 => DD x12 x57 | s82 => DD x12 x58 | s83 => DD x12 x59 | s84 => DD x12 x60 | s85 => DD x12 x61 | s86 => DD x12 x62 | s87 => DD x12 x63 | s88 => DD x13 x0 | s89 => DD x13 x1 | s90 => DD x13 x2 | s91 => DD x13 x3 | s92 => DD x13 x4 | s93 => DD x13 x5 | s94 => DD x13 x6 | s95 => DD x13 x7 | s96 => DD x13 x8 | s97 => DD x13 x9 | s98 => DD x13 x10 | s99 => DD x13 x11 | s100 => DD x13 x12 | s101 => DD x13 x13 | s102 => DD x13 x14 | s103 => DD x13 x15 | s104 => DD x13 x16 | s105 => DD x13 x17 | s106 => DD x13 x18 | s107 => DD x13 x19 | s108 => DD x13 x20 | s109 => DD x13 x21 | s110 => DD x13 x22 | s111 => DD x13 x23 | s112 => DD x13 x24 | s113 => DD x13 x25 | s114 => DD x13 x26 | s115 => DD x13 x27 | s116 => DD x13 x28 | s117 => DD x13 x29 | s118 => DD x13 x30 | s119 => DD x13 x31 | s120 => DD x13 x32 | s121 => DD x13 x33 | s122 => DD x13 x34 | s123 => DD x13 x35 | s124 => DD x13 x36 | s125 => DD x13 x37 | s126 => DD x13 x38 end.
Definition m748 (c : sum2) : dd := match c with s0 => DD x11 x44 | s1 => DD x11 x45 | s2 => DD x11 x46 | s3 => DD x11 x47 | s4 => DD x11 x48 | s5 => DD x11 x49 | s6 => DD x11 x50 | s7 => DD x11 x51 | s8 => DD x11 x52 | s9 => DD x11 x53 | s10 => DD x11 x54 | s11 => DD x11 x55 | s12 => DD x11 x56 | s13 => DD x11 x57 | s14 => DD x11 x58 | s15 => DD x11 x59 | s16 => DD x11 x60 | s17 => DD x11 x61 | s18 => DD x11 x62 | s19 => DD x11 x63 | s20 => DD x12 x0 | s21 => DD x12 x1 | s22 => DD x12 x2 | s23 => DD x12 x3 | s24 => DD x12 x4 | s25 => DD x12 x5 | s26 => DD x12 x6 | s27 => DD x12 x7 | s28 => DD x12 x8 | s29 => DD x12 x9 | s30 => DD x12 x10 | s31 => DD x12 x11 | s32 => DD x12 x12 | s33 => DD x12 x13 | s34 => DD x12 x14 | s35 => DD x12 x15 | s36 => DD x12 x16 | s37 => DD x12 x17 | s38 => DD x12 x18 | s39 => DD x12 x19 | s40 => DD x12 x20 | s41 => DD x12 x21 | s42 => DD x12 x22 | s43 => DD x12 x23 | s44 => DD x12 x24 | s45 => DD x12 x25 | s46 => DD x12 x26 | s47 => DD x12 x27 | s48 => DD x12 x28 | s49 => DD x12 x29 | s50 => DD x12 x30 | s51 => DD x12 x31 | s52 => DD x12 x32 | s53 => DD x12 x33 | s54 => DD x12 x34 | s55 => DD x12 x35 | s56 => DD x12 x36 | s57 => DD x12 x37 | s58 => DD x12 x38 | s59 => DD x12 x39 | s60 => DD x12 x40 | s61 => DD x12 x41 | s62 => DD x12 x42 | s63 => DD x12 x43 | s64 => DD x12 x44 | s65 => DD x12 x45 | s66 => DD x12 x46 | s67 => DD x12 x47 | s68 => DD x12 x48 | s69 => DD x12 x49 | s70 => DD x12 x50 | s71 => DD x12 x51 | s72 => DD x12 x52 | s73 => DD x12 x53 | s74 => DD x12 x54 | s75 => DD x12 x55 | s76 => DD x12 x56 | s77 => DD x12 x57 | s78 => DD x12 x58 | s79 => DD x12 x59 | s80 => DD x12 x60 | s81 => DD x12 x61 | s82 => DD x12 x62 | s83 => DD x12 x63 | s84 => DD x13 x0 | s85 => DD x13 x1 | s86 => DD x13 x2 | s87 => DD x13 x3 | s88 => DD x13 x4 | s89 => DD x13 x5 | s90 => DD x13 x6 | s91 => DD x13 x7 | s92 => DD x13 x8 | s93 => DD x13 x9 | s94 => DD x13 x10 | s95 => DD x13 x11 | s96 => DD x13 x12 | s97 => DD x13 x13 | s98 => DD x13 x14 | s99 => DD x13 x15 | s100 => DD x13 x16 | s101 => DD x13 x17 | s102 => DD x13 x18 | s103 => DD x13 x19 | s104 => DD x13 x20 | s105 => DD x13 x21 | s106 => DD x13 x22 | s107 => DD x13 x23 | s108 => DD x13 x24 | s109 => DD x13 x25 | s110 => DD x13 x26 | s111 => DD x13 x27 | s112 => DD x13 x28 | s113 => DD x13 x29 | s114 => DD x13 x30 | s115 => DD x13 x31 | s116 => DD x13 x32 | s117 => DD x13 x33 | s118 => DD x13 x34 | s119 => DD x13 x35 | s120 => DD x13 x36 | s121 => DD x13 x37 | s122 => DD x13 x38 | s123 => DD x13 x39 | s124 => DD x13 x40 | s125 => DD x13 x41 | s126 => DD x13 x42 end.
Definition m750 (c : sum2) : dd := match c with s0 => DD x11 x46 | s1 => DD x11 x47 | s2 => DD x11 x48 | s3 => DD x11 x49 | s4 => DD x11 x50 | s5 => DD x11 x51 | s6 => DD x11 x52 | s7 => DD x11 x53 | s8 => DD x11 x54 | s9 => DD x11 x55 | s10 => DD x11 x56 | s11 => DD x11 x57 | s12 => DD x11 x58 | s13 => DD x11 x59 | s14 => DD x11 x60 | s15 => DD x11 x61 | s16 => DD x11 x62 | s17 => DD x11 x63 | s18 => DD x12 x0 | s19 => DD x12 x1 | s20 => DD x12 x2 | s21 => DD x12 x3 | s22 => DD x12 x4 | s23 => DD x12 x5 | s24 => DD x12 x6 | s25 => DD x12 x7 | s26 => DD x12 x8 | s27 => DD x12 x9 | s28 => DD x12 x10 | s29 => DD x12 x11 | s30 => DD x12 x12 | s31 => DD x12 x13 | s32 => DD x12 x14 | s33 => DD x12 x15 | s34 => DD x12 x16 | s35 => DD x12 x17 | s36 => DD x12 x18 | s37 => DD x12 x19 | s38 => DD x12 x20 | s39 => DD x12 x21 | s40 => DD x12 x22 | s41 => DD x12 x23 | s42 => DD x12 x24 | s43 => DD x12 x25 | s44 => DD x12 x26 | s45 => DD x12 x27 | s46 => DD x12 x28 | s47 => DD x12 x29 | s48 => DD x12 x30 | s49 => DD x12 x31 | s50 => DD x12 x32 | s51 => DD x12 x33 | s52 => DD x12 x34 | s53 => DD x12 x35 | s54 => DD x12 x36 | s55 => DD x12 x37 | s56 => DD x12 x38 | s57 => DD x12 x39 | s58 => DD x12 x40 | s59 => DD x12 x41 | s60 => DD x12 x42 | s61 => DD x12 x43 | s62 => DD x12 x44 | s63 => DD x12 x45 | s64 => DD x12 x46 | s65 => DD x12 x47 | s66 => DD x12 x48 | s67 => DD x12 x49 | s68 => DD x12 x50 | s69 => DD x12 x51 | s70 => DD x12 x52 | s71 => DD x12 x53 | s72 => DD x12 x54 | s73 => DD x12 x55 | s74 => DD x12 x56 | s75 => DD x12 x57 | s76 => DD x12 x58 | s77 => DD x12 x59 | s78 => DD x12 x60 | s79 => DD x12 x61 | s80 => DD x12 x62 | s81 => DD x12 x63 | s82 => DD x13 x0 | s83 => DD x13 x1 | s84 => DD x13 x2 | s85 => DD x13 x3 | s86 => DD x13 x4 | s87 => DD x13 x5 | s88 => DD x13 x6 | s89 => DD x13 x7 | s90 => DD x13 x8 | s91 => DD x13 x9 | s92 => DD x13 x10 | s93 => DD x13 x11 | s94 => DD x13 x12 | s95 => DD x13 x13 | s96 => DD x13 x14 | s97 => DD x13 x15 | s98 => DD x13 x16 | s99 => DD x13 x17 | s100 => DD x13 x18 | s101 => DD x13 x19 | s102 => DD x13 x20 | s103 => DD x13 x21 | s104 => DD x13 x22 | s105 => DD x13 x23 | s106 => DD x13 x24 | s107 => DD x13 x25 | s108 => DD x13 x26 | s109 => DD x13 x27 | s110 => DD x13 x28 | s111 => DD x13 x29 | s112 => DD x13 x30 | s113 => DD x13 x31 | s114 => DD x13 x32 | s115 => DD x13 x33 | s116 => DD x13 x34 | s117 => DD x13 x35 | s118 => DD x13 x36 | s119 => DD x13 x37 | s120 => DD x13 x38 | s121 => DD x13 x39 | s122 => DD x13 x40 | s123 => DD x13 x41 | s124 => DD x13 x42 | s125 => DD x13 x43 | s126 => DD x13 x44 end.
Definition m752 (c : sum2) : dd := match c with s0 => DD x11 x48 | s1 => DD x11 x49 | s2 => DD x11 x50 | s3 => DD x11 x51 | s4 => DD x11 x52 | s5 => DD x11 x53 | s6 => DD x11 x54 | s7 => DD x11 x55 | s8 => DD x11 x56 | s9 => DD x11 x57 | s10 => DD x11 x58 | s11 => DD x11 x59 | s12 => DD x11 x60 | s13 => DD x11 x61 | s14 => DD x11 x62 | s15 => DD x11 x63 | s16 => DD x12 x0 | s17 => DD x12 x1 | s18 => DD x12 x2 | s19 => DD x12 x3 | s20 => DD x12 x4 | s21 => DD x12 x5 | s22 => DD x12 x6 | s23 => DD x12 x7 | s24 => DD x12 x8 | s25 => DD x12 x9 | s26 => DD x12 x10 | s27 => DD x12 x11 | s28 => DD x12 x12 | s29 => DD x12 x13 | s30 => DD x12 x14 | s31 => DD x12 x15 | s32 => DD x12 x16 | s33 => DD x12 x17 | s34 => DD x12 x18 | s35 => DD x12 x19 | s36 => DD x12 x20 | s37 => DD x12 x21 | s38 => DD x12 x22 | s39 => DD x12 x23 | s40 => DD x12 x24 | s41 => DD x12 x25 | s42 => DD x12 x26 | s43 => DD x12 x27 | s44 => DD x12 x28 | s45 => DD x12 x29 | s46 => DD x12 x30 | s47 => DD x12 x31 | s48 => DD x12 x32 | s49 => DD x12 x33 | s50 => DD x12 x34 | s51 => DD x12 x35 | s52 => DD x12 x36 | s53 => DD x12 x37 | s54 => DD x12 x38 | s55 => DD x12 x39 | s56 => DD x12 x40 | s57 => DD x12 x41 | s58 => DD x12 x42 | s59 => DD x12 x43 | s60 => DD x12 x44 | s61 => DD x12 x45 | s62 => DD x12 x46 | s63 => DD x12 x47 | s64 => DD x12 x48 | s65 => DD x12 x49 | s66 => DD x12 x50 | s67 => DD x12 x51 | s68 => DD x12 x52 | s69 => DD x12 x53 | s70 => DD x12 x54 | s71 => DD x12 x55 | s72 => DD x12 x56 | s73 => DD x12 x57 | s74 => DD x12 x58 | s75 => DD x12 x59 | s76 => DD x12 x60 | s77 => DD x12 x61 | s78 => DD x12 x62 | s79 => DD x12 x63 | s80 => DD x13 x0 | s81 => DD x13 x1 | s82 => DD x13 x2 | s83 => DD x13 x3 | s84 => DD x13 x4 | s85 => DD x13 x5 | s86 => DD x13 x6 | s87 => DD x13 x7 | s88 => DD x13 x8 | s89 => DD x13 x9 | s90 => DD x13 x10 | s91 => DD x13 x11 | s92 => DD x13 x12 | s93 => DD x13 x13 | s94 => DD x13 x14 | s95 => DD x13 x15 | s96 => DD x13 x16 | s97 => DD x13 x17 | s98 => DD x13 x18 | s99 => DD x13 x19 | s100 => DD x13 x20 | s101 => DD x13 x21 | s102 => DD x13 x22 | s103 => DD x13 x23 | s104 => DD x13 x24 | s105 => DD x13 x25 | s106 => DD x13 x26 | s107 => DD x13 x27 | s108 => DD x13 x28 | s109 => DD x13 x29 | s110 => DD x13 x30 | s111 => DD x13 x31 | s112 => DD x13 x32 | s113 => DD x13 x33 | s114 => DD x13 x34 | s115 => DD x13 x35 | s116 => DD x13 x36 | s117 => DD x13 x37 | s118 => DD x13 x38 | s119 => DD x13 x39 | s120 => DD x13 x40 | s121 => DD x13 x41 | s122 => DD x13 x42 | s123 => DD x13 x43 | s124 => DD x13 x44 | s125 => DD x13 x45 | s126 => DD x13 x46 end.
Definition m754 (c : sum2) : dd := match c with s0 => DD x11 x50 | s1 => DD x11 x51 | s2 => DD x11 x52 | s3 => DD x11 x53 | s4 => DD x11 x54 | s5 => DD x11 x55 | s6 => DD x11 x56 | s7 => DD x11 x57 | s8 => DD x11 x58 | s9 => DD x11 x59 | s10 => DD x11 x60 | s11 => DD x11 x61 | s12 => DD x11 x62 | s13 => DD x11 x63 | s14 => DD x12 x0 | s15 => DD x12 x1 | s16 => DD x12 x2 | s17 => DD x12 x3 | s18 => DD x12 x4 | s19 => DD x12 x5 | s20 => DD x12 x6 | s21 => DD x12 x7 | s22 => DD x12 x8 | s23 => DD x12 x9 | s24 => DD x12 x10 | s25 => DD x12 x11 | s26 => DD x12 x12 | s27 => DD x12 x13 | s28 => DD x12 x14 | s29 => DD x12 x15 | s30 => DD x12 x16 | s31 => DD x12 x17 | s32 => DD x12 x18 | s33 => DD x12 x19 | s34 => DD x12 x20 | s35 => DD x12 x21 | s36 => DD x12 x22 | s37 => DD x12 x23 | s38 => DD x12 x24 | s39 => DD x12 x25 | s40 => DD x12 x26 | s41 => DD x12 x27 | s42 => DD x12 x28 | s43 => DD x12 x29 | s44 => DD x12 x30 | s45 => DD x12 x31 | s46 => DD x12 x32 | s47 => DD x12 x33 | s48 => DD x12 x34 | s49 => DD x12 x35 | s50 => DD x12 x36 | s51 => DD x12 x37 | s52 => DD x12 x38 | s53 => DD x12 x39 | s54 => DD x12 x40 | s55 => DD x12 x41 | s56 => DD x12 x42 | s57 => DD x12 x43 | s58 => DD x12 x44 | s59 => DD x12 x45 | s60 => DD x12 x46 | s61 => DD x12 x47 | s62 => DD x12 x48 | s63 => DD x12 x49 | s64 => DD x12 x50 | s65 => DD x12 x51 | s66 => DD x12 x52 | s67 => DD x12 x53 | s68 => DD x12 x54 | s69 => DD x12 x55 | s70 => DD x12 x56 | s71 => DD x12 x57 | s72 => DD x12 x58 | s73 => DD x12 x59 | s74 => DD x12 x60 | s75 => DD x12 x61 | s76 => DD x12 x62 | s77 => DD x12 x63 | s78 => DD x13 x0 | s79 => DD x13 x1 | s80 => DD x13 x2 | s81 => DD x13 x3 | s82 => DD x13 x4 | s83 => DD x13 x5 | s84 => DD x13 x6 | s85 => DD x13 x7 | s86 => DD x13 x8 | s87 => DD x13 x9 | s88 => DD x13 x10 | s89 => DD x13 x11 | s90 => DD x13 x12 | s91 => DD x13 x13 | s92 => DD x13 x14 | s93 => DD x13 x15 | s94 => DD x13 x16 | s95 => DD x13 x17 | s96 => DD x13 x18 | s97 => DD x13 x19 | s98 => DD x13 x20 | s99 => DD x13 x21 | s100 => DD x13 x22 | s101 => DD x13 x23 | s102 => DD x13 x24 | s103 => DD x13 x25 | s104 => DD x13 x26 | s105 => DD x13 x27 | s106 => DD x13 x28 | s107 => DD x13 x29 | s108 => DD x13 x30 | s109 => DD x13 x31 | s110 => DD x13 x32 | s111 => DD x13 x33 | s112 => DD x13 x34 | s113 => DD x13 x35 | s114 => DD x13 x36 | s115 => DD x13 x37 | s116 => DD x13 x38 | s117 => DD x13 x39 | s118 => DD x13 x40 | s119 => DD x13 x41 | s120 => DD x13 x42 | s121 => DD x13 x43 | s122 => DD x13 x44 | s123 => DD x13 x45 | s124 => DD x13 x46 | s125 => DD x13 x47 | s126 => DD x13 x48 end.
Definition m756 (c : sum2) : dd := match c with s0 => DD x11 x52 | s1 => DD x11 x53 | s2 => DD x11 x54 | s3 => DD x11 x55 | s4 => DD x11 x56 | s5 => DD x11 x57 | s6 => DD x11 x58 | s7 => DD x11 x59 | s8 => DD x11 x60 | s9 => DD x11 x61 | s10 => DD x11 x62 | s11 => DD x11 x63 | s12 => DD x12 x0 | s13 => DD x12 x1 | s14 => DD x12 x2 | s15 => DD x12 x3 | s16 => DD x12 x4 | s17 => DD x12 x5 | s18 => DD x12 x6 | s19 => DD x12 x7 | s20 => DD x12 x8 | s21 => DD x12 x9 | s22 => DD x12 x10 | s23 => DD x12 x11 | s24 => DD x12 x12 | s25 => DD x12 x13 | s26 => DD x12 x14 | s27 => DD x12 x15 | s28 => DD x12 x16 | s29 => DD x12 x17 | s30 => DD x12 x18 | s31 => DD x12 x19 | s32 => DD x12 x20 | s33 => DD x12 x21 | s34 => DD x12 x22 | s35 => DD x12 x23 | s36 => DD x12 x24 | s37 => DD x12 x25 | s38 => DD x12 x26 | s39 => DD x12 x27 | s40 => DD x12 x28 | s41 => DD x12 x29 | s42 => DD x12 x30 | s43 => DD x12 x31 | s44 => DD x12 x32 | s45 => DD x12 x33 | s46 => DD x12 x34 | s47 => DD x12 x35 | s48 => DD x12 x36 | s49 => DD x12 x37 | s50 => DD x12 x38 | s51 => DD x12 x39 | s52 => DD x12 x40 | s53 => DD x12 x41 | s54 => DD x12 x42 | s55 => DD x12 x43 | s56 => DD x12 x44 | s57 => DD x12 x45 | s58 => DD x12 x46 | s59 => DD x12 x47 | s60 => DD x12 x48 | s61 => DD x12 x49 | s62 => DD x12 x50 | s63 => DD x12 x51 | s64 => DD x12 x52 | s65 => DD x12 x53 | s66 => DD x12 x54 | s67 => DD x12 x55 | s68 => DD x12 x56 | s69 => DD x12 x57 | s70 => DD x12 x58 | s71 => DD x12 x59 | s72 => DD x12 x60 | s73 => DD x12 x61 | s74 => DD x12 x62 | s75 => DD x12 x63 | s76 => DD x13 x0 | s77 => DD x13 x1 | s78 => DD x13 x2 | s79 => DD x13 x3 | s80 => DD x13 x4 | s81 => DD x13 x5 | s82 => DD x13 x6 | s83 => DD x13 x7 | s84 => DD x13 x8 | s85 => DD x13 x9 | s86 => DD x13 x10 | s87 => DD x13 x11 | s88 => DD x13 x12 | s89 => DD x13 x13 | s90 => DD x13 x14 | s91 => DD x13 x15 | s92 => DD x13 x16 | s93 => DD x13 x17 | s94 => DD x13 x18 | s95 => DD x13 x19 | s96 => DD x13 x20 | s97 => DD x13 x21 | s98 => DD x13 x22 | s99 => DD x13 x23 | s100 => DD x13 x24 | s101 => DD x13 x25 | s102 => DD x13 x26 | s103 => DD x13 x27 | s104 => DD x13 x28 | s105 => DD x13 x29 | s106 => DD x13 x30 | s107 => DD x13 x31 | s108 => DD x13 x32 | s109 => DD x13 x33 | s110 => DD x13 x34 | s111 => DD x13 x35 | s112 => DD x13 x36 | s113 => DD x13 x37 | s114 => DD x13 x38 | s115 => DD x13 x39 | s116 => DD x13 x40 | s117 => DD x13 x41 | s118 => DD x13 x42 | s119 => DD x13 x43 | s120 => DD x13 x44 | s121 => DD x13 x45 | s122 => DD x13 x46 | s123 => DD x13 x47 | s124 => DD x13 x48 | s125 => DD x13 x49 | s126 => DD x13 x50 end.
Definition m759 (c : sum2) : dd := match c with s0 => DD x11 x55 | s1 => DD x11 x56 | s2 => DD x11 x57 | s3 => DD x11 x58 | s4 => DD x11 x59 | s5 => DD x11 x60 | s6 => DD x11 x61 | s7 => DD x11 x62 | s8 => DD x11 x63 | s9 => DD x12 x0 | s10 => DD x12 x1 | s11 => DD x12 x2 | s12 => DD x12 x3 | s13 => DD x12 x4 | s14 => DD x12 x5 | s15 => DD x12 x6 | s16 => DD x12 x7 | s17 => DD x12 x8 | s18 => DD x12 x9 | s19 => DD x12 x10 | s20 => DD x12 x11 | s21 => DD x12 x12 | s22 => DD x12 x13 | s23 => DD x12 x14 | s24 => DD x12 x15 | s25 => DD x12 x16 | s26 => DD x12 x17 | s27 => DD x12 x18 | s28 => DD x12 x19 | s29 => DD x12 x20 | s30 => DD x12 x21 | s31 => DD x12 x22 | s32 => DD x12 x23 | s33 => DD x12 x24 | s34 => DD x12 x25 | s35 => DD x12 x26 | s36 => DD x12 x27 | s37 => DD x12 x28 | s38 => DD x12 x29 | s39 => DD x12 x30 | s40 => DD x12 x31 | s41 => DD x12 x32 | s42 => DD x12 x33 | s43 => DD x12 x34 | s44 => DD x12 x35 | s45 => DD x12 x36 | s46 => DD x12 x37 | s47 => DD x12 x38 | s48 => DD x12 x39 | s49 => DD x12 x40 | s50 => DD x12 x41 | s51 => DD x12 x42 | s52 => DD x12 x43 | s53 => DD x12 x44 | s54 => DD x12 x45 | s55 => DD x12 x46 | s56 => DD x12 x47 | s57 => DD x12 x48 | s58 => DD x12 x49 | s59 => DD x12 x50 | s60 => DD x12 x51 | s61 => DD x12 x52 | s62 => DD x12 x53 | s63 => DD x12 x54 | s64 => DD x12 x55 | s65 => DD x12 x56 | s66 => DD x12 x57 | s67 => DD x12 x58 | s68 => DD x12 x59 | s69 => DD x12 x60 | s70 => DD x12 x61 | s71 => DD x12 x62 | s72 => DD x12 x63 | s73 => DD x13 x0 | s74 => DD x13 x1 | s75 => DD x13 x2 | s76 => DD x13 x3 | s77 => DD x13 x4 | s78 => DD x13 x5 | s79 => DD x13 x6 | s80 => DD x13 x7 | s81 => DD x13 x8 | s82 => DD x13 x9 | s83 => DD x13 x10 | s84 => DD x13 x11 | s85 => DD x13 x12 | s86 => DD x13 x13 | s87 => DD x13 x14 | s88 => DD x13 x15 | s89 => DD x13 x16 | s90 => DD x13 x17 | s91 => DD x13 x18 | s92 => DD x13 x19 | s93 => DD x13 x20 | s94 => DD x13 x21 | s95 => DD x13 x22 | s96 => DD x13 x23 | s97 => DD x13 x24 | s98 => DD x13 x25 | s99 => DD x13 x26 | s100 => DD x13 x27 | s101 => DD x13 x28 | s102 => DD x13 x29 | s103 => DD x13 x30 | s104 => DD x13 x31 | s105 => DD x13 x32 | s106 => DD x13 x33 | s107 => DD x13 x34 | s108 => DD x13 x35 | s109 => DD x13 x36 | s110 => DD x13 x37 | s111 => DD x13 x38 | s112 => DD x13 x39 | s113 => DD x13 x40 | s114 => DD x13 x41 | s115 => DD x13 x42 | s116 => DD x13 x43 | s117 => DD x13 x44 | s118 => DD x13 x45 | s119 => DD x13 x46 | s120 => DD x13 x47 | s121 => DD x13 x48 | s122 => DD x13 x49 | s123 => DD x13 x50 | s124 => DD x13 x51 | s125 => DD x13 x52 | s126 => DD x13 x53 end.
Definition m760 (c : sum2) : dd := match c with s0 => DD x11 x56 | s1 => DD x11 x57 | s2 => DD x11 x58 | s3 => DD x11 x59 | s4 => DD x11 x60 | s5 => DD x11 x61 | s6 => DD x11 x62 | s7 => DD x11 x63 | s8 => DD x12 x0 | s9 => DD x12 x1 | s10 => DD x12 x2 | s11 => DD x12 x3 | s12 => DD x12 x4 | s13 => DD x12 x5 | s14 => DD x12 x6 | s15 => DD x12 x7 | s16 => DD x12 x8 | s17 => DD x12 x9 | s18 => DD x12 x10 | s19 => DD x12 x11 | s20 => DD x12 x12 | s21 => DD x12 x13 | s22 => DD x12 x14 | s23 => DD x12 x15 | s24 => DD x12 x16 | s25 => DD x12 x17 | s26 => DD x12 x18 | s27 => DD x12 x19 | s28 => DD x12 x20 | s29 => DD x12 x21 | s30 => DD x12 x22 | s31 => DD x12 x23 | s32 => DD x12 x24 | s33 => DD x12 x25 | s34 => DD x12 x26 | s35 => DD x12 x27 | s36 => DD x12 x28 | s37 => DD x12 x29 | s38 => DD x12 x30 | s39 => DD x12 x31 | s40 => DD x12 x32 | s41 => DD x12 x33 | s42 => DD x12 x34 | s43 => DD x12 x35 | s44 => DD x12 x36 | s45 => DD x12 x37 | s46 => DD x12 x38 | s47 => DD x12 x39 | s48 => DD x12 x40 | s49 => DD x12 x41 | s50 => DD x12 x42 | s51 => DD x12 x43 | s52 => DD x12 x44 | s53 => DD x12 x45 | s54 => DD x12 x46 | s55 => DD x12 x47 | s56 => DD x12 x48 | s57 => DD x12 x49 | s58 => DD x12 x50 | s59 => DD x12 x51 | s60 => DD x12 x52 | s61 => DD x12 x53 | s62 => DD x12 x54 | s63 => DD x12 x55 | s64 => DD x12 x56 | s65 => DD x12 x57 | s66 => DD x12 x58 | s67 => DD x12 x59 | s68 => DD x12 x60 | s69 => DD x12 x61 | s70 => DD x12 x62 | s71 => DD x12 x63 | s72 => DD x13 x0 | s73 => DD x13 x1 | s74 => DD x13 x2 | s75 => DD x13 x3 | s76 => DD x13 x4 | s77 => DD x13 x5 | s78 => DD x13 x6 | s79 => DD x13 x7 | s80 => DD x13 x8 | s81 => DD x13 x9 | s82 => DD x13 x10 | s83 => DD x13 x11 | s84 => DD x13 x12 | s85 => DD x13 x13 | s86 => DD x13 x14 | s87 => DD x13 x15 | s88 => DD x13 x16 | s89 => DD x13 x17 | s90 => DD x13 x18 | s91 => DD x13 x19 | s92 => DD x13 x20 | s93 => DD x13 x21 | s94 => DD x13 x22 | s95 => DD x13 x23 | s96 => DD x13 x24 | s97 => DD x13 x25 | s98 => DD x13 x26 | s99 => DD x13 x27 | s100 => DD x13 x28 | s101 => DD x13 x29 | s102 => DD x13 x30 | s103 => DD x13 x31 | s104 => DD x13 x32 | s105 => DD x13 x33 | s106 => DD x13 x34 | s107 => DD x13 x35 | s108 => DD x13 x36 | s109 => DD x13 x37 | s110 => DD x13 x38 | s111 => DD x13 x39 | s112 => DD x13 x40 | s113 => DD x13 x41 | s114 => DD x13 x42 | s115 => DD x13 x43 | s116 => DD x13 x44 | s117 => DD x13 x45 | s118 => DD x13 x46 | s119 => DD x13 x47 | s120 => DD x13 x48 | s121 => DD x13 x49 | s122 => DD x13 x50 | s123 => DD x13 x51 | s124 => DD x13 x52 | s125 => DD x13 x53 | s126 => DD x13 x54 end.
Definition m765 (c : sum2) : dd := match c with s0 => DD x11 x61 | s1 => DD x11 x62 | s2 => DD x11 x63 | s3 => DD x12 x0 | s4 => DD x12 x1 | s5 => DD x12 x2 | s6 => DD x12 x3 | s7 => DD x12 x4 | s8 => DD x12 x5 | s9 => DD x12 x6 | s10 => DD x12 x7 | s11 => DD x12 x8 | s12 => DD x12 x9 | s13 => DD x12 x10 | s14 => DD x12 x11 | s15 => DD x12 x12 | s16 => DD x12 x13 | s17 => DD x12 x14 | s18 => DD x12 x15 | s19 => DD x12 x16 | s20 => DD x12 x17 | s21 => DD x12 x18 | s22 => DD x12 x19 | s23 => DD x12 x20 | s24 => DD x12 x21 | s25 => DD x12 x22 | s26 => DD x12 x23 | s27 => DD x12 x24 | s28 => DD x12 x25 | s29 => DD x12 x26 | s30 => DD x12 x27 | s31 => DD x12 x28 | s32 => DD x12 x29 | s33 => DD x12 x30 | s34 => DD x12 x31 | s35 => DD x12 x32 | s36 => DD x12 x33 | s37 => DD x12 x34 | s38 => DD x12 x35 | s39 => DD x12 x36 | s40 => DD x12 x37 | s41 => DD x12 x38 | s42 => DD x12 x39 | s43 => DD x12 x40 | s44 => DD x12 x41 | s45 => DD x12 x42 | s46 => DD x12 x43 | s47 => DD x12 x44 | s48 => DD x12 x45 | s49 => DD x12 x46 | s50 => DD x12 x47 | s51 => DD x12 x48 | s52 => DD x12 x49 | s53 => DD x12 x50 | s54 => DD x12 x51 | s55 => DD x12 x52 | s56 => DD x12 x53 | s57 => DD x12 x54 | s58 => DD x12 x55 | s59 => DD x12 x56 | s60 => DD x12 x57 | s61 => DD x12 x58 | s62 => DD x12 x59 | s63 => DD x12 x60 | s64 => DD x12 x61 | s65 => DD x12 x62 | s66 => DD x12 x63 | s67 => DD x13 x0 | s68 => DD x13 x1 | s69 => DD x13 x2 | s70 => DD x13 x3 | s71 => DD x13 x4 | s72 => DD x13 x5 | s73 => DD x13 x6 | s74 => DD x13 x7 | s75 => DD x13 x8 | s76 => DD x13 x9 | s77 => DD x13 x10 | s78 => DD x13 x11 | s79 => DD x13 x12 | s80 => DD x13 x13 | s81 => DD x13 x14 | s82 => DD x13 x15 | s83 => DD x13 x16 | s84 => DD x13 x17 | s85 => DD x13 x18 | s86 => DD x13 x19 | s87 => DD x13 x20 | s88 => DD x13 x21 | s89 => DD x13 x22 | s90 => DD x13 x23 | s91 => DD x13 x24 | s92 => DD x13 x25 | s93 => DD x13 x26 | s94 => DD x13 x27 | s95 => DD x13 x28 | s96 => DD x13 x29 | s97 => DD x13 x30 | s98 => DD x13 x31 | s99 => DD x13 x32 | s100 => DD x13 x33 | s101 => DD x13 x34 | s102 => DD x13 x35 | s103 => DD x13 x36 | s104 => DD x13 x37 | s105 => DD x13 x38 | s106 => DD x13 x39 | s107 => DD x13 x40 | s108 => DD x13 x41 | s109 => DD x13 x42 | s110 => DD x13 x43 | s111 => DD x13 x44 | s112 => DD x13 x45 | s113 => DD x13 x46 | s114 => DD x13 x47 | s115 => DD x13 x48 | s116 => DD x13 x49 | s117 => DD x13 x50 | s118 => DD x13 x51 | s119 => DD x13 x52 | s120 => DD x13 x53 | s121 => DD x13 x54 | s122 => DD x13 x55 | s123 => DD x13 x56 | s124 => DD x13 x57 | s125 => DD x13 x58 | s126 => DD x13 x59 end.
Definition m767 (c : sum2) : dd := match c with s0 => DD x11 x63 | s1 => DD x12 x0 | s2 => DD x12 x1 | s3 => DD x12 x2 | s4 => DD x12 x3 | s5 => DD x12 x4 | s6 => DD x12 x5 | s7 => DD x12 x6 | s8 => DD x12 x7 | s9 => DD x12 x8 | s10 => DD x12 x9 | s11 => DD x12 x10 | s12 => DD x12 x11 | s13 => DD x12 x12 | s14 => DD x12 x13 | s15 => DD x12 x14 | s16 => DD x12 x15 | s17 => DD x12 x16 | s18 => DD x12 x17 | s19 => DD x12 x18 | s20 => DD x12 x19 | s21 => DD x12 x20 | s22 => DD x12 x21 | s23 => DD x12 x22 | s24 => DD x12 x23 | s25 => DD x12 x24 | s26 => DD x12 x25 | s27 => DD x12 x26 | s28 => DD x12 x27 | s29 => DD x12 x28 | s30 => DD x12 x29 | s31 => DD x12 x30 | s32 => DD x12 x31 | s33 => DD x12 x32 | s34 => DD x12 x33 | s35 => DD x12 x34 | s36 => DD x12 x35 | s37 => DD x12 x36 | s38 => DD x12 x37 | s39 => DD x12 x38 | s40 => DD x12 x39 | s41 => DD x12 x40 | s42 => DD x12 x41 | s43 => DD x12 x42 | s44 => DD x12 x43 | s45 => DD x12 x44 | s46 => DD x12 x45 | s47 => DD x12 x46 | s48 => DD x12 x47 | s49 => DD x12 x48 | s50 => DD x12 x49 | s51 => DD x12 x50 | s52 => DD x12 x51 | s53 => DD x12 x52 | s54 => DD x12 x53 | s55 => DD x12 x54 | s56 => DD x12 x55 | s57 => DD x12 x56 | s58 => DD x12 x57 | s59 => DD x12 x58 | s60 => DD x12 x59 | s61 => DD x12 x60 | s62 => DD x12 x61 | s63 => DD x12 x62 | s64 => DD x12 x63 | s65 => DD x13 x0 | s66 => DD x13 x1 | s67 => DD x13 x2 | s68 => DD x13 x3 | s69 => DD x13 x4 | s70 => DD x13 x5 | s71 => DD x13 x6 | s72 => DD x13 x7 | s73 => DD x13 x8 | s74 => DD x13 x9 | s75 => DD x13 x10 | s76 => DD x13 x11 | s77 => DD x13 x12 | s78 => DD x13 x13 | s79 => DD x13 x14 | s80 => DD x13 x15 | s81 => DD x13 x16 | s82 => DD x13 x17 | s83 => DD x13 x18 | s84 => DD x13 x19 | s85 => DD x13 x20 | s86 => DD x13 x21 | s87 => DD x13 x22 | s88 => DD x13 x23 | s89 => DD x13 x24 | s90 => DD x13 x25 | s91 => DD x13 x26 | s92 => DD x13 x27 | s93 => DD x13 x28 | s94 => DD x13 x29 | s95 => DD x13 x30 | s96 => DD x13 x31 | s97 => DD x13 x32 | s98 => DD x13 x33 | s99 => DD x13 x34 | s100 => DD x13 x35 | s101 => DD x13 x36 | s102 => DD x13 x37 | s103 => DD x13 x38 | s104 => DD x13 x39 | s105 => DD x13 x40 | s106 => DD x13 x41 | s107 => DD x13 x42 | s108 => DD x13 x43 | s109 => DD x13 x44 | s110 => DD x13 x45 | s111 => DD x13 x46 | s112 => DD x13 x47 | s113 => DD x13 x48 | s114 => DD x13 x49 | s115 => DD x13 x50 | s116 => DD x13 x51 | s117 => DD x13 x52 | s118 => DD x13 x53 | s119 => DD x13 x54 | s120 => DD x13 x55 | s121 => DD x13 x56 | s122 => DD x13 x57 | s123 => DD x13 x58 | s124 => DD x13 x59 | s125 => DD x13 x60 | s126 => DD x13 x61 end.
Definition m768 (c : sum2) : dd := match c with s0 => DD x12 x0 | s1 => DD x12 x1 | s2 => DD x12 x2 | s3 => DD x12 x3 | s4 => DD x12 x4 | s5 => DD x12 x5 | s6 => DD x12 x6 | s7 => DD x12 x7 | s8 => DD x12 x8 | s9 => DD x12 x9 | s10 => DD x12 x10 | s11 => DD x12 x11 | s12 => DD x12 x12 | s13 => DD x12 x13 | s14 => DD x12 x14 | s15 => DD x12 x15 | s16 => DD x12 x16 | s17 => DD x12 x17 | s18 => DD x12 x18 | s19 => DD x12 x19 | s20 => DD x12 x20 | s21 => DD x12 x21 | s22 => DD x12 x22 | s23 => DD x12 x23 | s24 => DD x12 x24 | s25 => DD x12 x25 | s26 => DD x12 x26 | s27 => DD x12 x27 | s28 => DD x12 x28 | s29 => DD x12 x29 | s30 => DD x12 x30 | s31 => DD x12 x31 | s32 => DD x12 x32 | s33 => DD x12 x33 | s34 => DD x12 x34 | s35 => DD x12 x35 | s36 => DD x12 x36 | s37 => DD x12 x37 | s38 => DD x12 x38 | s39 => DD x12 x39 | s40 => DD x12 x40 | s41 => DD x12 x41 | s42 => DD x12 x42 | s43 => DD x12 x43 | s44 => DD x12 x44 | s45 => DD x12 x45 | s46 => DD x12 x46 | s47 => DD x12 x47 | s48 => DD x12 x48 | s49 => DD x12 x49 | s50 => DD x12 x50 | s51 => DD x12 x51 | s52 => DD x12 x52 | s53 => DD x12 x53 | s54 => DD x12 x54 | s55 => DD x12 x55 | s56 => DD x12 x56 | s57 => DD x12 x57 | s58 => DD x12 x58 | s59 => DD x12 x59 | s60 => DD x12 x60 | s61 => DD x12 x61 | s62 => DD x12 x62 | s63 => DD x12 x63 | s64 => DD x13 x0 | s65 => DD x13 x1 | s66 => DD x13 x2 | s67 => DD x13 x3 | s68 => DD x13 x4 | s69 => DD x13 x5 | s70 => DD x13 x6 | s71 => DD x13 x7 | s72 => DD x13 x8 | s73 => DD x13 x9 | s74 => DD x13 x10 | s75 => DD x13 x11 | s76 => DD x13 x12 | s77 => DD x13 x13 | s78 => DD x13 x14 | s79 => DD x13 x15 | s80 => DD x13 x16 | s81 => DD x13 x17 | s82 => DD x13 x18 | s83 => DD x13 x19 | s84 => DD x13 x20 | s85 => DD x13 x21 | s86 => DD x13 x22 | s87 => DD x13 x23 | s88 => DD x13 x24 | s89 => DD x13 x25 | s90 => DD x13 x26 | s91 => DD x13 x27 | s92 => DD x13 x28 | s93 => DD x13 x29 | s94 => DD x13 x30 | s95 => DD x13 x31 | s96 => DD x13 x32 | s97 => DD x13 x33 | s98 => DD x13 x34 | s99 => DD x13 x35 | s100 => DD x13 x36 | s101 => DD x13 x37 | s102 => DD x13 x38 | s103 => DD x13 x39 | s104 => DD x13 x40 | s105 => DD x13 x41 | s106 => DD x13 x42 | s107 => DD x13 x43 | s108 => DD x13 x44 | s109 => DD x13 x45 | s110 => DD x13 x46 | s111 => DD x13 x47 | s112 => DD x13 x48 | s113 => DD x13 x49 | s114 => DD x13 x50 | s115 => DD x13 x51 | s116 => DD x13 x52 | s117 => DD x13 x53 | s118 => DD x13 x54 | s119 => DD x13 x55 | s120 => DD x13 x56 | s121 => DD x13 x57 | s122 => DD x13 x58 | s123 => DD x13 x59 | s124 => DD x13 x60 | s125 => DD x13 x61 | s126 => DD x13 x62 end.
Definition m770 (c : sum2) : dd := match c with s0 => DD x12 x2 | s1 => DD x12 x3 | s2 => DD x12 x4 | s3 => DD x12 x5 | s4 => DD x12 x6 | s5 => DD x12 x7 | s6 => DD x12 x8 | s7 => DD x12 x9 | s8 => DD x12 x10 | s9 => DD x12 x11 | s10 => DD x12 x12 | s11 => DD x12 x13 | s12 => DD x12 x14 | s13 => DD x12 x15 | s14 => DD x12 x16 | s15 => DD x12 x17 | s16 => DD x12 x18 | s17 => DD x12 x19 | s18 => DD x12 x20 | s19 => DD x12 x21 | s20 => DD x12 x22 | s21 => DD x12 x23 | s22 => DD x12 x24 | s23 => DD x12 x25 | s24 => DD x12 x26 | s25 => DD x12 x27 | s26 => DD x12 x28 | s27 => DD x12 x29 | s28 => DD x12 x30 | s29 => DD x12 x31 | s30 => DD x12 x32 | s31 => DD x12 x33 | s32 => DD x12 x34 | s33 => DD x12 x35 | s34 => DD x12 x36 | s35 => DD x12 x37 | s36 => DD x12 x38 | s37 => DD x12 x39 | s38 => DD x12 x40 | s39 => DD x12 x41 | s40 => DD x12 x42 | s41 => DD x12 x43 | s42 => DD x12 x44 | s43 => DD x12 x45 | s44 => DD x12 x46 | s45 => DD x12 x47 | s46 => DD x12 x48 | s47 => DD x12 x49 | s48 => DD x12 x50 | s49 => DD x12 x51 | s50 => DD x12 x52 | s51 => DD x12 x53 | s52 => DD x12 x54 | s53 => DD x12 x55 | s54 => DD x12 x56 | s55 => DD x12 x57 | s56 => DD x12 x58 | s57 => DD x12 x59 | s58 => DD x12 x60 | s59 => DD x12 x61 | s60 => DD x12 x62 | s61 => DD x12 x63 | s62 => DD x13 x0 | s63 => DD x13 x1 | s64 => DD x13 x2 | s65 => DD x13 x3 | s66 => DD x13 x4 | s67 => DD x13 x5 | s68 => DD x13 x6 | s69 => DD x13 x7 | s70 => DD x13 x8 | s71 => DD x13 x9 | s72 => DD x13 x10 | s73 => DD x13 x11 | s74 => DD x13 x12 | s75 => DD x13 x13 | s76 => DD x13 x14 | s77 => DD x13 x15 | s78 => DD x13 x16 | s79 => DD x13 x17 | s80 => DD x13 x18 | s81 => DD x13 x19 | s82 => DD x13 x20 | s83 => DD x13 x21 | s84 => DD x13 x22 | s85 => DD x13 x23 | s86 => DD x13 x24 | s87 => DD x13 x25 | s88 => DD x13 x26 | s89 => DD x13 x27 | s90 => DD x13 x28 | s91 => DD x13 x29 | s92 => DD x13 x30 | s93 => DD x13 x31 | s94 => DD x13 x32 | s95 => DD x13 x33 | s96 => DD x13 x34 | s97 => DD x13 x35 | s98 => DD x13 x36 | s99 => DD x13 x37 | s100 => DD x13 x38 | s101 => DD x13 x39 | s102 => DD x13 x40 | s103 => DD x13 x41 | s104 => DD x13 x42 | s105 => DD x13 x43 | s106 => DD x13 x44 | s107 => DD x13 x45 | s108 => DD x13 x46 | s109 => DD x13 x47 | s110 => DD x13 x48 | s111 => DD x13 x49 | s112 => DD x13 x50 | s113 => DD x13 x51 | s114 => DD x13 x52 | s115 => DD x13 x53 | s116 => DD x13 x54 | s117 => DD x13 x55 | s118 => DD x13 x56 | s119 => DD x13 x57 | s120 => DD x13 x58 | s121 => DD x13 x59 | s122 => DD x13 x60 | s123 => DD x13 x61 | s124 => DD x13 x62 | s125 => DD x13 x63 | s126 => DD x14 x0 end.
Definition m774 (c : sum2) : dd := match c with s0 => DD x12 x6 | s1 => DD x12 x7 | s2 => DD x12 x8 | s3 => DD x12 x9 | s4 => DD x12 x10 | s5 => DD x12 x11 | s6 => DD x12 x12 | s7 => DD x12 x13 | s8 => DD x12 x14 | s9 => DD x12 x15 | s10 => DD x12 x16 | s11 => DD x12 x17 | s12 => DD x12 x18 | s13 => DD x12 x19 | s14 => DD x12 x20 | s15 => DD x12 x21 | s16 => DD x12 x22 | s17 => DD x12 x23 | s18 => DD x12 x24 | s19 => DD x12 x25 | s20 => DD x12 x26 | s21 => DD x12 x27 | s22 => DD x12 x28 | s23 => DD x12 x29 | s24 => DD x12 x30 | s25 => DD x12 x31 | s26 => DD x12 x32 | s27 => DD x12 x33 | s28 => DD x12 x34 | s29 => DD x12 x35 | s30 => DD x12 x36 | s31 => DD x12 x37 | s32 => DD x12 x38 | s33 => DD x12 x39 | s34 => DD x12 x40 | s35 => DD x12 x41 | s36 => DD x12 x42 | s37 => DD x12 x43 | s38 => DD x12 x44 | s39 => DD x12 x45 | s40 => DD x12 x46 | s41 => DD x12 x47 | s42 => DD x12 x48 | s43 => DD x12 x49 | s44 => DD x12 x50 | s45 => DD x12 x51 | s46 => DD x12 x52 | s47 => DD x12 x53 | s48 => DD x12 x54 | s49 => DD x12 x55 | s50 => DD x12 x56 | s51 => DD x12 x57 | s52 => DD x12 x58 | s53 => DD x12 x59 | s54 => DD x12 x60 | s55 => DD x12 x61 | s56 => DD x12 x62 | s57 => DD x12 x63 | s58 => DD x13 x0 | s59 => DD x13 x1 | s60 => DD x13 x2 | s61 => DD x13 x3 | s62 => DD x13 x4 | s63 => DD x13 x5 | s64 => DD x13 x6 | s65 => DD x13 x7 | s66 => DD x13 x8 | s67 => DD x13 x9 | s68 => DD x13 x10 | s69 => DD x13 x11 | s70 => DD x13 x12 | s71 => DD x13 x13 | s72 => DD x13 x14 | s73 => DD x13 x15 | s74 => DD x13 x16 | s75 => DD x13 x17 | s76 => DD x13 x18 | s77 => DD x13 x19 | s78 => DD x13 x20 | s79 => DD x13 x21 | s80 => DD x13 x22 | s81 => DD x13 x23 | s82 => DD x13 x24 | s83 => DD x13 x25 | s84 => DD x13 x26 | s85 => DD x13 x27 | s86 => DD x13 x28 | s87 => DD x13 x29 | s88 => DD x13 x30 | s89 => DD x13 x31 | s90 => DD x13 x32 | s91 => DD x13 x33 | s92 => DD x13 x34 | s93 => DD x13 x35 | s94 => DD x13 x36 | s95 => DD x13 x37 | s96 => DD x13 x38 | s97 => DD x13 x39 | s98 => DD x13 x40 | s99 => DD x13 x41 | s100 => DD x13 x42 | s101 => DD x13 x43 | s102 => DD x13 x44 | s103 => DD x13 x45 | s104 => DD x13 x46 | s105 => DD x13 x47 | s106 => DD x13 x48 | s107 => DD x13 x49 | s108 => DD x13 x50 | s109 => DD x13 x51 | s110 => DD x13 x52 | s111 => DD x13 x53 | s112 => DD x13 x54 | s113 => DD x13 x55 | s114 => DD x13 x56 | s115 => DD x13 x57 | s116 => DD x13 x58 | s117 => DD x13 x59 | s118 => DD x13 x60 | s119 => DD x13 x61 | s120 => DD x13 x62 | s121 => DD x13 x63 | s122 => DD x14 x0 | s123 => DD x14 x1 | s124 => DD x14 x2 | s125 => DD x14 x3 | s126 => DD x14 x4 end.
Definition m775 (c : sum2) : dd := match c with s0 => DD x12 x7 | s1 => DD x12 x8 | s2 => DD x12 x9 | s3 => DD x12 x10 | s4 => DD x12 x11 | s5 => DD x12 x12 | s6 => DD x12 x13 | s7 => DD x12 x14 | s8 => DD x12 x15 | s9 => DD x12 x16 | s10 => DD x12 x17 | s11 => DD x12 x18 | s12 => DD x12 x19 | s13 => DD x12 x20 | s14 => DD x12 x21 | s15 => DD x12 x22 | s16 => DD x12 x23 | s17 => DD x12 x24 | s18 => DD x12 x25 | s19 => DD x12 x26 | s20 => DD x12 x27 | s21 => DD x12 x28 | s22 => DD x12 x29 | s23 => DD x12 x30 | s24 => DD x12 x31 | s25 => DD x12 x32 | s26 => DD x12 x33 | s27 => DD x12 x34 | s28 => DD x12 x35 | s29 => DD x12 x36 | s30 => DD x12 x37 | s31 => DD x12 x38 | s32 => DD x12 x39 | s33 => DD x12 x40 | s34 => DD x12 x41 | s35 => DD x12 x42 | s36 => DD x12 x43 | s37 => DD x12 x44 | s38 => DD x12 x45 | s39 => DD x12 x46 | s40 => DD x12 x47 | s41 => DD x12 x48 | s42 => DD x12 x49 | s43 => DD x12 x50 | s44 => DD x12 x51 | s45 => DD x12 x52 | s46 => DD x12 x53 | s47 => DD x12 x54 | s48 => DD x12 x55 | s49 => DD x12 x56 | s50 => DD x12 x57 | s51 => DD x12 x58 | s52 => DD x12 x59 | s53 => DD x12 x60 | s54 => DD x12 x61 | s55 => DD x12 x62 | s56 => DD x12 x63 | s57 => DD x13 x0 | s58 => DD x13 x1 | s59 => DD x13 x2 | s60 => DD x13 x3 | s61 => DD x13 x4 | s62 => DD x13 x5 | s63 => DD x13 x6 | s64 => DD x13 x7 | s65 => DD x13 x8 | s66 => DD x13 x9 | s67 => DD x13 x10 | s68 => DD x13 x11 | s69 => DD x13 x12 | s70 => DD x13 x13 | s71 => DD x13 x14 | s72 => DD x13 x15 | s73 => DD x13 x16 | s74 => DD x13 x17 | s75 => DD x13 x18 | s76 => DD x13 x19 | s77 => DD x13 x20 | s78 => DD x13 x21 | s79 => DD x13 x22 | s80 => DD x13 x23 | s81 => DD x13 x24 | s82 => DD x13 x25 | s83 => DD x13 x26 | s84 => DD x13 x27 | s85 => DD x13 x28 | s86 => DD x13 x29 | s87 => DD x13 x30 | s88 => DD x13 x31 | s89 => DD x13 x32 | s90 => DD x13 x33 | s91 => DD x13 x34 | s92 => DD x13 x35 | s93 => DD x13 x36 | s94 => DD x13 x37 | s95 => DD x13 x38 | s96 => DD x13 x39 | s97 => DD x13 x40 | s98 => DD x13 x41 | s99 => DD x13 x42 | s100 => DD x13 x43 | s101 => DD x13 x44 | s102 => DD x13 x45 | s103 => DD x13 x46 | s104 => DD x13 x47 | s105 => DD x13 x48 | s106 => DD x13 x49 | s107 => DD x13 x50 | s108 => DD x13 x51 | s109 => DD x13 x52 | s110 => DD x13 x53 | s111 => DD x13 x54 | s112 => DD x13 x55 | s113 => DD x13 x56 | s114 => DD x13 x57 | s115 => DD x13 x58 | s116 => DD x13 x59 | s117 => DD x13 x60 | s118 => DD x13 x61 | s119 => DD x13 x62 | s120 => DD x13 x63 | s121 => DD x14 x0 | s122 => DD x14 x1 | s123 => DD x14 x2 | s124 => DD x14 x3 | s125 => DD x14 x4 | s126 => DD x14 x5 end.
Definition m777 (c : sum2) : dd := match c with s0 => DD x12 x9 | s1 => DD x12 x10 | s2 => DD x12 x11 | s3 => DD x12 x12 | s4 => DD x12 x13 | s5 => DD x12 x14 | s6 => DD x12 x15 | s7 => DD x12 x16 | s8 => DD x12 x17 | s9 => DD x12 x18 | s10 => DD x12 x19 | s11 => DD x12 x20 | s12 => DD x12 x21 | s13 => DD x12 x22 | s14 => DD x12 x23 | s15 => DD x12 x24 | s16 => DD x12 x25 | s17 => DD x12 x26 | s18 => DD x12 x27 | s19 => DD x12 x28 | s20 => DD x12 x29 | s21 => DD x12 x30 | s22 => DD x12 x31 | s23 => DD x12 x32 | s24 => DD x12 x33 | s25 => DD x12 x34 | s26 => DD x12 x35 | s27 => DD x12 x36 | s28 => DD x12 x37 | s29 => DD x12 x38 | s30 => DD x12 x39 | s31 => DD x12 x40 | s32 => DD x12 x41 | s33 => DD x12 x42 | s34 => DD x12 x43 | s35 => DD x12 x44 | s36 => DD x12 x45 | s37 => DD x12 x46 | s38 => DD x12 x47 | s39 => DD x12 x48 | s40 => DD x12 x49 | s41 => DD x12 x50 | s42 => DD x12 x51 | s43 => DD x12 x52 | s44 => DD x12 x53 | s45 => DD x12 x54 | s46 => DD x12 x55 | s47 => DD x12 x56 | s48 => DD x12 x57 | s49 => DD x12 x58 | s50 => DD x12 x59 | s51 => DD x12 x60 | s52 => DD x12 x61 | s53 => DD x12 x62 | s54 => DD x12 x63 | s55 => DD x13 x0 | s56 => DD x13 x1 | s57 => DD x13 x2 | s58 => DD x13 x3 | s59 => DD x13 x4 | s60 => DD x13 x5 | s61 => DD x13 x6 | s62 => DD x13 x7 | s63 => DD x13 x8 | s64 => DD x13 x9 | s65 => DD x13 x10 | s66 => DD x13 x11 | s67 => DD x13 x12 | s68 => DD x13 x13 | s69 => DD x13 x14 | s70 => DD x13 x15 | s71 => DD x13 x16 | s72 => DD x13 x17 | s73 => DD x13 x18 | s74 => DD x13 x19 | s75 => DD x13 x20 | s76 => DD x13 x21 | s77 => DD x13 x22 | s78 => DD x13 x23 | s79 => DD x13 x24 | s80 => DD x13 x25 | s81 => DD x13 x26 | s82 => DD x13 x27 | s83 => DD x13 x28 | s84 => DD x13 x29 | s85 => DD x13 x30 | s86 => DD x13 x31 | s87 => DD x13 x32 | s88 => DD x13 x33 | s89 => DD x13 x34 | s90 => DD x13 x35 | s91 => DD x13 x36 | s92 => DD x13 x37 | s93 => DD x13 x38 | s94 => DD x13 x39 | s95 => DD x13 x40 | s96 => DD x13 x41 | s97 => DD x13 x42 | s98 => DD x13 x43 | s99 => DD x13 x44 | s100 => DD x13 x45 | s101 => DD x13 x46 | s102 => DD x13 x47 | s103 => DD x13 x48 | s104 => DD x13 x49 | s105 => DD x13 x50 | s106 => DD x13 x51 | s107 => DD x13 x52 | s108 => DD x13 x53 | s109 => DD x13 x54 | s110 => DD x13 x55 | s111 => DD x13 x56 | s112 => DD x13 x57 | s113 => DD x13 x58 | s114 => DD x13 x59 | s115 => DD x13 x60 | s116 => DD x13 x61 | s117 => DD x13 x62 | s118 => DD x13 x63 | s119 => DD x14 x0 | s120 => DD x14 x1 | s121 => DD x14 x2 | s122 => DD x14 x3 | s123 => DD x14 x4 | s124 => DD x14 x5 | s125 => DD x14 x6 | s126 => DD x14 x7 end.
Definition m779 (c : sum2) : dd := match c with s0 => DD x12 x11 | s1 => DD x12 x12 | s2 => DD x12 x13 | s3 => DD x12 x14 | s4 => DD x12 x15 | s5 => DD x12 x16 | s6 => DD x12 x17 | s7 => DD x12 x18 | s8 => DD x12 x19 | s9 => DD x12 x20 | s10 => DD x12 x21 | s11 => DD x12 x22 | s12 => DD x12 x23 | s13 => DD x12 x24 | s14 => DD x12 x25 | s15 => DD x12 x26 | s16 => DD x12 x27 | s17 => DD x12 x28 | s18 => DD x12 x29 | s19 => DD x12 x30 | s20 => DD x12 x31 | s21 => DD x12 x32 | s22 => DD x12 x33 | s23 => DD x12 x34 | s24 => DD x12 x35 | s25 => DD x12 x36 | s26 => DD x12 x37 | s27 => DD x12 x38 | s28 => DD x12 x39 | s29 => DD x12 x40 | s30 => DD x12 x41 | s31 => DD x12 x42 | s32 => DD x12 x43 | s33 => DD x12 x44 | s34 => DD x12 x45 | s35 => DD x12 x46 | s36 => DD x12 x47 | s37 => DD x12 x48 | s38 => DD x12 x49 | s39 => DD x12 x50 | s40 => DD x12 x51 | s41 => DD x12 x52 | s42 => DD x12 x53 | s43 => DD x12 x54 | s44 => DD x12 x55 | s45 => DD x12 x56 | s46 => DD x12 x57 | s47 => DD x12 x58 | s48 => DD x12 x59 | s49 => DD x12 x60 | s50 => DD x12 x61 | s51 => DD x12 x62 | s52 => DD x12 x63 | s53 => DD x13 x0 | s54 => DD x13 x1 | s55 => DD x13 x2 | s56 => DD x13 x3 | s57 => DD x13 x4 | s58 => DD x13 x5 | s59 => DD x13 x6 | s60 => DD x13 x7 | s61 => DD x13 x8 | s62 => DD x13 x9 | s63 => DD x13 x10 | s64 => DD x13 x11 | s65 => DD x13 x12 | s66 => DD x13 x13 | s67 => DD x13 x14 | s68 => DD x13 x15 | s69 => DD x13 x16 | s70 => DD x13 x17 | s71 => DD x13 x18 | s72 => DD x13 x19 | s73 => DD x13 x20 | s74 => DD x13 x21 | s75 => DD x13 x22 | s76 => DD x13 x23 | s77 => DD x13 x24 | s78 => DD x13 x25 | s79 => DD x13 x26 | s80 => DD x13 x27 | s81 => DD x13 x28 | s82 => DD x13 x29 | s83 => DD x13 x30 | s84 => DD x13 x31 | s85 => DD x13 x32 | s86 => DD x13 x33 | s87 => DD x13 x34 | s88 => DD x13 x35 | s89 => DD x13 x36 | s90 => DD x13 x37 | s91 => DD x13 x38 | s92 => DD x13 x39 | s93 => DD x13 x40 | s94 => DD x13 x41 | s95 => DD x13 x42 | s96 => DD x13 x43 | s97 => DD x13 x44 | s98 => DD x13 x45 | s99 => DD x13 x46 | s100 => DD x13 x47 | s101 => DD x13 x48 | s102 => DD x13 x49 | s103 => DD x13 x50 | s104 => DD x13 x51 | s105 => DD x13 x52 | s106 => DD x13 x53 | s107 => DD x13 x54 | s108 => DD x13 x55 | s109 => DD x13 x56 | s110 => DD x13 x57 | s111 => DD x13 x58 | s112 => DD x13 x59 | s113 => DD x13 x60 | s114 => DD x13 x61 | s115 => DD x13 x62 | s116 => DD x13 x63 | s117 => DD x14 x0 | s118 => DD x14 x1 | s119 => DD x14 x2 | s120 => DD x14 x3 | s121 => DD x14 x4 | s122 => DD x14 x5 | s123 => DD x14 x6 | s124 => DD x14 x7 | s125 => DD x14 x8 | s126 => DD x14 x9 end.
Definition m780 (c : sum2) : dd := match c with s0 => DD x12 x12 | s1 => DD x12 x13 | s2 => DD x12 x14 | s3 => DD x12 x15 | s4 => DD x12 x16 | s5 => DD x12 x17 | s6 => DD x12 x18 | s7 => DD x12 x19 | s8 => DD x12 x20 | s9 => DD x12 x21 | s10 => DD x12 x22 | s11 => DD x12 x23 | s12 => DD x12 x24 | s13 => DD x12 x25 | s14 => DD x12 x26 | s15 => DD x12 x27 | s16 => DD x12 x28 | s17 => DD x12 x29 | s18 => DD x12 x30 | s19 => DD x12 x31 | s20 => DD x12 x32 | s21 => DD x12 x33 | s22 => DD x12 x34 | s23 => DD x12 x35 | s24 => DD x12 x36 | s25 => DD x12 x37 | s26 => DD x12 x38 | s27 => DD x12 x39 | s28 => DD x12 x40 | s29 => DD x12 x41 | s30 => DD x12 x42 | s31 => DD x12 x43 | s32 => DD x12 x44 | s33 => DD x12 x45 | s34 => DD x12 x46 | s35 => DD x12 x47 | s36 => DD x12 x48 | s37 => DD x12 x49 | s38 => DD x12 x50 | s39 => DD x12 x51 | s40 => DD x12 x52 | s41 => DD x12 x53 | s42 => DD x12 x54 | s43 => DD x12 x55 | s44 => DD x12 x56 | s45 => DD x12 x57 | s46 => DD x12 x58 | s47 => DD x12 x59 | s48 => DD x12 x60 | s49 => DD x12 x61 | s50 => DD x12 x62 | s51 => DD x12 x63 | s52 => DD x13 x0 | s53 => DD x13 x1 | s54 => DD x13 x2 | s55 => DD x13 x3 | s56 => DD x13 x4 | s57 => DD x13 x5 | s58 => DD x13 x6 | s59 => DD x13 x7 | s60 => DD x13 x8 | s61 => DD x13 x9 | s62 => DD x13 x10 | s63 => DD x13 x11 | s64 => DD x13 x12 | s65 => DD x13 x13 | s66 => DD x13 x14 | s67 => DD x13 x15 | s68 => DD x13 x16 | s69 => DD x13 x17 | s70 => DD x13 x18 | s71 => DD x13 x19 | s72 => DD x13 x20 | s73 => DD x13 x21 | s74 => DD x13 x22 | s75 => DD x13 x23 | s76 => DD x13 x24 | s77 => DD x13 x25 | s78 => DD x13 x26 | s79 => DD x13 x27 | s80 => DD x13 x28 | s81 => DD x13 x29 | s82 => DD x13 x30 | s83 => DD x13 x31 | s84 => DD x13 x32 | s85 => DD x13 x33 | s86 => DD x13 x34 | s87 => DD x13 x35 | s88 => DD x13 x36 | s89 => DD x13 x37 | s90 => DD x13 x38 | s91 => DD x13 x39 | s92 => DD x13 x40 | s93 => DD x13 x41 | s94 => DD x13 x42 | s95 => DD x13 x43 | s96 => DD x13 x44 | s97 => DD x13 x45 | s98 => DD x13 x46 | s99 => DD x13 x47 | s100 => DD x13 x48 | s101 => DD x13 x49 | s102 => DD x13 x50 | s103 => DD x13 x51 | s104 => DD x13 x52 | s105 => DD x13 x53 | s106 => DD x13 x54 | s107 => DD x13 x55 | s108 => DD x13 x56 | s109 => DD x13 x57 | s110 => DD x13 x58 | s111 => DD x13 x59 | s112 => DD x13 x60 | s113 => DD x13 x61 | s114 => DD x13 x62 | s115 => DD x13 x63 | s116 => DD x14 x0 | s117 => DD x14 x1 | s118 => DD x14 x2 | s119 => DD x14 x3 | s120 => DD x14 x4 | s121 => DD x14 x5 | s122 => DD x14 x6 | s123 => DD x14 x7 | s124 => DD x14 x8 | s125 => DD x14 x9 | s126 => DD x14 x10 end.
Definition m782 (c : sum2) : dd := match c with s0 => DD x12 x14 | s1 => DD x12 x15 | s2 => DD x12 x16 | s3 => DD x12 x17 | s4 => DD x12 x18 | s5 => DD x12 x19 | s6 => DD x12 x20 | s7 => DD x12 x21 | s8 => DD x12 x22 | s9 => DD x12 x23 | s10 => DD x12 x24 | s11 => DD x12 x25 | s12 => DD x12 x26 | s13 => DD x12 x27 | s14 => DD x12 x28 | s15 => DD x12 x29 | s16 => DD x12 x30 | s17 => DD x12 x31 | s18 => DD x12 x32 | s19 => DD x12 x33 | s20 => DD x12 x34 | s21 => DD x12 x35 | s22 => DD x12 x36 | s23 => DD x12 x37 | s24 => DD x12 x38 | s25 => DD x12 x39 | s26 => DD x12 x40 | s27 => DD x12 x41 | s28 => DD x12 x42 | s29 => DD x12 x43 | s30 => DD x12 x44 | s31 => DD x12 x45 | s32 => DD x12 x46 | s33 => DD x12 x47 | s34 => DD x12 x48 | s35 => DD x12 x49 | s36 => DD x12 x50 | s37 => DD x12 x51 | s38 => DD x12 x52 | s39 => DD x12 x53 | s40 => DD x12 x54 | s41 => DD x12 x55 | s42 => DD x12 x56 | s43 => DD x12 x57 | s44 => DD x12 x58 | s45 => DD x12 x59 | s46 => DD x12 x60 | s47 => DD x12 x61 | s48 => DD x12 x62 | s49 => DD x12 x63 | s50 => DD x13 x0 | s51 => DD x13 x1 | s52 => DD x13 x2 | s53 => DD x13 x3 | s54 => DD x13 x4 | s55 => DD x13 x5 | s56 => DD x13 x6 | s57 => DD x13 x7 | s58 => DD x13 x8 | s59 => DD x13 x9 | s60 => DD x13 x10 | s61 => DD x13 x11 | s62 => DD x13 x12 | s63 => DD x13 x13 | s64 => DD x13 x14 | s65 => DD x13 x15 | s66 => DD x13 x16 | s67 => DD x13 x17 | s68 => DD x13 x18 | s69 => DD x13 x19 | s70 => DD x13 x20 | s71 => DD x13 x21 | s72 => DD x13 x22 | s73 => DD x13 x23 | s74 => DD x13 x24 | s75 => DD x13 x25 | s76 => DD x13 x26 | s77 => DD x13 x27 | s78 => DD x13 x28 | s79 => DD x13 x29 | s80 => DD x13 x30 | s81 => DD x13 x31 | s82 => DD x13 x32 | s83 => DD x13 x33 | s84 => DD x13 x34 | s85 => DD x13 x35 | s86 => DD x13 x36 | s87 => DD x13 x37 | s88 => DD x13 x38 | s89 => DD x13 x39 | s90 => DD x13 x40 | s91 => DD x13 x41 | s92 => DD x13 x42 | s93 => DD x13 x43 | s94 => DD x13 x44 | s95 => DD x13 x45 | s96 => DD x13 x46 | s97 => DD x13 x47 | s98 => DD x13 x48 | s99 => DD x13 x49 | s100 => DD x13 x50 | s101 => DD x13 x51 | s102 => DD x13 x52 | s103 => DD x13 x53 | s104 => DD x13 x54 | s105 => DD x13 x55 | s106 => DD x13 x56 | s107 => DD x13 x57 | s108 => DD x13 x58 | s109 => DD x13 x59 | s110 => DD x13 x60 | s111 => DD x13 x61 | s112 => DD x13 x62 | s113 => DD x13 x63 | s114 => DD x14 x0 | s115 => DD x14 x1 | s116 => DD x14 x2 | s117 => DD x14 x3 | s118 => DD x14 x4 | s119 => DD x14 x5 | s120 => DD x14 x6 | s121 => DD x14 x7 | s122 => DD x14 x8 | s123 => DD x14 x9 | s124 => DD x14 x10 | s125 => DD x14 x11 | s126 => DD x14 x12 end.
Definition m783 (c : sum2) : dd := match c with s0 => DD x12 x15 | s1 => DD x12 x16 | s2 => DD x12 x17 | s3 => DD x12 x18 | s4 => DD x12 x19 | s5 => DD x12 x20 | s6 => DD x12 x21 | s7 => DD x12 x22 | s8 => DD x12 x23 | s9 => DD x12 x24 | s10 => DD x12 x25 | s11 => DD x12 x26 | s12 => DD x12 x27 | s13 => DD x12 x28 | s14 => DD x12 x29 | s15 => DD x12 x30 | s16 => DD x12 x31 | s17 => DD x12 x32 | s18 => DD x12 x33 | s19 => DD x12 x34 | s20 => DD x12 x35 | s21 => DD x12 x36 | s22 => DD x12 x37 | s23 => DD x12 x38 | s24 => DD x12 x39 | s25 => DD x12 x40 | s26 => DD x12 x41 | s27 => DD x12 x42 | s28 => DD x12 x43 | s29 => DD x12 x44 | s30 => DD x12 x45 | s31 => DD x12 x46 | s32 => DD x12 x47 | s33 => DD x12 x48 | s34 => DD x12 x49 | s35 => DD x12 x50 | s36 => DD x12 x51 | s37 => DD x12 x52 | s38 => DD x12 x53 | s39 => DD x12 x54 | s40 => DD x12 x55 | s41 => DD x12 x56 | s42 => DD x12 x57 | s43 => DD x12 x58 | s44 => DD x12 x59 | s45 => DD x12 x60 | s46 => DD x12 x61 | s47 => DD x12 x62 | s48 => DD x12 x63 | s49 => DD x13 x0 | s50 => DD x13 x1 | s51 => DD x13 x2 | s52 => DD x13 x3 | s53 => DD x13 x4 | s54 => DD x13 x5 | s55 => DD x13 x6 | s56 => DD x13 x7 | s57 => DD x13 x8 | s58 => DD x13 x9 | s59 => DD x13 x10 | s60 => DD x13 x11 | s61 => DD x13 x12 | s62 => DD x13 x13 | s63 => DD x13 x14 | s64 => DD x13 x15 | s65 => DD x13 x16 | s66 => DD x13 x17 | s67 => DD x13 x18 | s68 => DD x13 x19 | s69 => DD x13 x20 | s70 => DD x13 x21 | s71 => DD x13 x22 | s72 => DD x13 x23 | s73 => DD x13 x24 | s74 => DD x13 x25 | s75 => DD x13 x26 | s76 => DD x13 x27 | s77 => DD x13 x28 | s78 => DD x13 x29 | s79 => DD x13 x30 | s80 => DD x13 x31 | s81 => DD x13 x32 | s82 => DD x13 x33 | s83 => DD x13 x34 | s84 => DD x13 x35 | s85 => DD x13 x36 | s86 => DD x13 x37 | s87 => DD x13 x38 | s88 => DD x13 x39 | s89 => DD x13 x40 | s90 => DD x13 x41 | s91 => DD x13 x42 | s92 => DD x13 x43 | s93 => DD x13 x44 | s94 => DD x13 x45 | s95 => DD x13 x46 | s96 => DD x13 x47 | s97 => DD x13 x48 | s98 => DD x13 x49 | s99 => DD x13 x50 | s100 => DD x13 x51 | s101 => DD x13 x52 | s102 => DD x13 x53 | s103 => DD x13 x54 | s104 => DD x13 x55 | s105 => DD x13 x56 | s106 => DD x13 x57 | s107 => DD x13 x58 | s108 => DD x13 x59 | s109 => DD x13 x60 | s110 => DD x13 x61 | s111 => DD x13 x62 | s112 => DD x13 x63 | s113 => DD x14 x0 | s114 => DD x14 x1 | s115 => DD x14 x2 | s116 => DD x14 x3 | s117 => DD x14 x4 | s118 => DD x14 x5 | s119 => DD x14 x6 | s120 => DD x14 x7 | s121 => DD x14 x8 | s122 => DD x14 x9 | s123 => DD x14 x10 | s124 => DD x14 x11 | s125 => DD x14 x12 | s126 => DD x14 x13 end.
Definition m784 (c : sum2) : dd := match c with s0 => DD x12 x16 | s1 => DD x12 x17 | s2 => DD x12 x18 | s3 => DD x12 x19 | s4 => DD x12 x20 | s5 => DD x12 x21 | s6 => DD x12 x22 | s7 => DD x12 x23 | s8 => DD x12 x24 | s9 => DD x12 x25 | s10 => DD x12 x26 | s11 => DD x12 x27 | s12 => DD x12 x28 | s13 => DD x12 x29 | s14 => DD x12 x30 | s15 => DD x12 x31 | s16 => DD x12 x32 | s17 => DD x12 x33 | s18 => DD x12 x34 | s19 => DD x12 x35 | s20 => DD x12 x36 | s21 => DD x12 x37 | s22 => DD x12 x38 | s23 => DD x12 x39 | s24 => DD x12 x40 | s25 => DD x12 x41 | s26 => DD x12 x42 | s27 => DD x12 x43 | s28 => DD x12 x44 | s29 => DD x12 x45 | s30 => DD x12 x46 | s31 => DD x12 x47 | s32 => DD x12 x48 | s33 => DD x12 x49 | s34 => DD x12 x50 | s35 => DD x12 x51 | s36 => DD x12 x52 | s37 => DD x12 x53 | s38 => DD x12 x54 | s39 => DD x12 x55 | s40 => DD x12 x56 | s41 => DD x12 x57 | s42 => DD x12 x58 | s43 => DD x12 x59 | s44 => DD x12 x60 | s45 => DD x12 x61 | s46 => DD x12 x62 | s47 => DD x12 x63 | s48 => DD x13 x0 | s49 => DD x13 x1 | s50 => DD x13 x2 | s51 => DD x13 x3 | s52 => DD x13 x4 | s53 => DD x13 x5 | s54 => DD x13 x6 | s55 => DD x13 x7 | s56 => DD x13 x8 | s57 => DD x13 x9 | s58 => DD x13 x10 | s59 => DD x13 x11 | s60 => DD x13 x12 | s61 => DD x13 x13 | s62 => DD x13 x14 | s63 => DD x13 x15 | s64 => DD x13 x16 | s65 => DD x13 x17 | s66 => DD x13 x18 | s67 => DD x13 x19 | s68 => DD x13 x20 | s69 => DD x13 x21 | s70 => DD x13 x22 | s71 => DD x13 x23 | s72 => DD x13 x24 | s73 => DD x13 x25 | s74 => DD x13 x26 | s75 => DD x13 x27 | s76 => DD x13 x28 | s77 => DD x13 x29 | s78 => DD x13 x30 | s79 => DD x13 x31 | s80 => DD x13 x32 | s81 => DD x13 x33 | s82 => DD x13 x34 | s83 => DD x13 x35 | s84 => DD x13 x36 | s85 => DD x13 x37 | s86 => DD x13 x38 | s87 => DD x13 x39 | s88 => DD x13 x40 | s89 => DD x13 x41 | s90 => DD x13 x42 | s91 => DD x13 x43 | s92 => DD x13 x44 | s93 => DD x13 x45 | s94 => DD x13 x46 | s95 => DD x13 x47 | s96 => DD x13 x48 | s97 => DD x13 x49 | s98 => DD x13 x50 | s99 => DD x13 x51 | s100 => DD x13 x52 | s101 => DD x13 x53 | s102 => DD x13 x54 | s103 => DD x13 x55 | s104 => DD x13 x56 | s105 => DD x13 x57 | s106 => DD x13 x58 | s107 => DD x13 x59 | s108 => DD x13 x60 | s109 => DD x13 x61 | s110 => DD x13 x62 | s111 => DD x13 x63 | s112 => DD x14 x0 | s113 => DD x14 x1 | s114 => DD x14 x2 | s115 => DD x14 x3 | s116 => DD x14 x4 | s117 => DD x14 x5 | s118 => DD x14 x6 | s119 => DD x14 x7 | s120 => DD x14 x8 | s121 => DD x14 x9 | s122 => DD x14 x10 | s123 => DD x14 x11 | s124 => DD x14 x12 | s125 => DD x14 x13 | s126 => DD x14 x14 end.
Definition m792 (c : sum2) : dd := match c with s0 => DD x12 x24 | s1 => DD x12 x25 | s2 => DD x12 x26 | s3 => DD x12 x27 | s4 => DD x12 x28 | s5 => DD x12 x29 | s6 => DD x12 x30 | s7 => DD x12 x31 | s8 => DD x12 x32 | s9 => DD x12 x33 | s10 => DD x12 x34 | s11 => DD x12 x35 | s12 => DD x12 x36 | s13 => DD x12 x37 | s14 => DD x12 x38 | s15 => DD x12 x39 | s16 => DD x12 x40 | s17 => DD x12 x41 | s18 => DD x12 x42 | s19 => DD x12 x43 | s20 => DD x12 x44 | s21 => DD x12 x45 | s22 => DD x12 x46 | s23 => DD x12 x47 | s24 => DD x12 x48 | s25 => DD x12 x49 | s26 => DD x12 x50 | s27 => DD x12 x51 | s28 => DD x12 x52 | s29 => DD x12 x53 | s30 => DD x12 x54 | s31 => DD x12 x55 | s32 => DD x12 x56 | s33 => DD x12 x57 | s34 => DD x12 x58 | s35 => DD x12 x59 | s36 => DD x12 x60 | s37 => DD x12 x61 | s38 => DD x12 x62 | s39 => DD x12 x63 | s40 => DD x13 x0 | s41 => DD x13 x1 | s42 => DD x13 x2 | s43 => DD x13 x3 | s44 => DD x13 x4 | s45 => DD x13 x5 | s46 => DD x13 x6 | s47 => DD x13 x7 | s48 => DD x13 x8 | s49 => DD x13 x9 | s50 => DD x13 x10 | s51 => DD x13 x11 | s52 => DD x13 x12 | s53 => DD x13 x13 | s54 => DD x13 x14 | s55 => DD x13 x15 | s56 => DD x13 x16 | s57 => DD x13 x17 | s58 => DD x13 x18 | s59 => DD x13 x19 | s60 => DD x13 x20 | s61 => DD x13 x21 | s62 => DD x13 x22 | s63 => DD x13 x23 | s64 => DD x13 x24 | s65 => DD x13 x25 | s66 => DD x13 x26 | s67 => DD x13 x27 | s68 => DD x13 x28 | s69 => DD x13 x29 | s70 => DD x13 x30 | s71 => DD x13 x31 | s72 => DD x13 x32 | s73 => DD x13 x33 | s74 => DD x13 x34 | s75 => DD x13 x35 | s76 => DD x13 x36 | s77 => DD x13 x37 | s78 => DD x13 x38 | s79 => DD x13 x39 | s80 => DD x13 x40 | s81 => DD x13 x41 | s82 => DD x13 x42 | s83 => DD x13 x43 | s84 => DD x13 x44 | s85 => DD x13 x45 | s86 => DD x13 x46 | s87 => DD x13 x47 | s88 => DD x13 x48 | s89 => DD x13 x49 | s90 => DD x13 x50 | s91 => DD x13 x51 | s92 => DD x13 x52 | s93 => DD x13 x53 | s94 => DD x13 x54 | s95 => DD x13 x55 | s96 => DD x13 x56 | s97 => DD x13 x57 | s98 => DD x13 x58 | s99 => DD x13 x59 | s100 => DD x13 x60 | s101 => DD x13 x61 | s102 => DD x13 x62 | s103 => DD x13 x63 | s104 => DD x14 x0 | s105 => DD x14 x1 | s106 => DD x14 x2 | s107 => DD x14 x3 | s108 => DD x14 x4 | s109 => DD x14 x5 | s110 => DD x14 x6 | s111 => DD x14 x7 | s112 => DD x14 x8 | s113 => DD x14 x9 | s114 => DD x14 x10 | s115 => DD x14 x11 | s116 => DD x14 x12 | s117 => DD x14 x13 | s118 => DD x14 x14 | s119 => DD x14 x15 | s120 => DD x14 x16 | s121 => DD x14 x17 | s122 => DD x14 x18 | s123 => DD x14 x19 | s124 => DD x14 x20 | s125 => DD x14 x21 | s126 => DD x14 x22 end.
Definition m793 (c : sum2) : dd := match c with s0 => DD x12 x25 | s1 => DD x12 x26 | s2 => DD x12 x27 | s3 => DD x12 x28 | s4 => DD x12 x29 | s5 => DD x12 x30 | s6 => DD x12 x31 | s7 => DD x12 x32 | s8 => DD x12 x33 | s9 => DD x12 x34 | s10 => DD x12 x35 | s11 => DD x12 x36 | s12 => DD x12 x37 | s13 => DD x12 x38 | s14 => DD x12 x39 | s15 => DD x12 x40 | s16 => DD x12 x41 | s17 => DD x12 x42 | s18 => DD x12 x43 | s19 => DD x12 x44 | s20 => DD x12 x45 | s21 => DD x12 x46 | s22 => DD x12 x47 | s23 => DD x12 x48 | s24 => DD x12 x49 | s25 => DD x12 x50 | s26 => DD x12 x51 | s27 => DD x12 x52 | s28 => DD x12 x53 | s29 => DD x12 x54 | s30 => DD x12 x55 | s31 => DD x12 x56 | s32 => DD x12 x57 | s33 => DD x12 x58 | s34 => DD x12 x59 | s35 => DD x12 x60 | s36 => DD x12 x61 | s37 => DD x12 x62 | s38 => DD x12 x63 | s39 => DD x13 x0 | s40 => DD x13 x1 | s41 => DD x13 x2 | s42 => DD x13 x3 | s43 => DD x13 x4 | s44 => DD x13 x5 | s45 => DD x13 x6 | s46 => DD x13 x7 | s47 => DD x13 x8 | s48 => DD x13 x9 | s49 => DD x13 x10 | s50 => DD x13 x11 | s51 => DD x13 x12 | s52 => DD x13 x13 | s53 => DD x13 x14 | s54 => DD x13 x15 | s55 => DD x13 x16 | s56 => DD x13 x17 | s57 => DD x13 x18 | s58 => DD x13 x19 | s59 => DD x13 x20 | s60 => DD x13 x21 | s61 => DD x13 x22 | s62 => DD x13 x23 | s63 => DD x13 x24 | s64 => DD x13 x25 | s65 => DD x13 x26 | s66 => DD x13 x27 | s67 => DD x13 x28 | s68 => DD x13 x29 | s69 => DD x13 x30 | s70 => DD x13 x31 | s71 => DD x13 x32 | s72 => DD x13 x33 | s73 => DD x13 x34 | s74 => DD x13 x35 | s75 => DD x13 x36 | s76 => DD x13 x37 | s77 => DD x13 x38 | s78 => DD x13 x39 | s79 => DD x13 x40 | s80 => DD x13 x41 | s81 => DD x13 x42 | s82 => DD x13 x43 | s83 => DD x13 x44 | s84 => DD x13 x45 | s85 => DD x13 x46 | s86 => DD x13 x47 | s87 => DD x13 x48 | s88 => DD x13 x49 | s89 => DD x13 x50 | s90 => DD x13 x51 | s91 => DD x13 x52 | s92 => DD x13 x53 | s93 => DD x13 x54 | s94 => DD x13 x55 | s95 => DD x13 x56 | s96 => DD x13 x57 | s97 => DD x13 x58 | s98 => DD x13 x59 | s99 => DD x13 x60 | s100 => DD x13 x61 | s101 => DD x13 x62 | s102 => DD x13 x63 | s103 => DD x14 x0 | s104 => DD x14 x1 | s105 => DD x14 x2 | s106 => DD x14 x3 | s107 => DD x14 x4 | s108 => DD x14 x5 | s109 => DD x14 x6 | s110 => DD x14 x7 | s111 => DD x14 x8 | s112 => DD x14 x9 | s113 => DD x14 x10 | s114 => DD x14 x11 | s115 => DD x14 x12 | s116 => DD x14 x13 | s117 => DD x14 x14 | s118 => DD x14 x15 | s119 => DD x14 x16 | s120 => DD x14 x17 | s121 => DD x14 x18 | s122 => DD x14 x19 | s123 => DD x14 x20 | s124 => DD x14 x21 | s125 => DD x14 x22 | s126 => DD x14 x23 end.
Definition m795 (c : sum2) : dd := match c with s0 => DD x12 x27 | s1 => DD x12 x28 | s2 => DD x12 x29 | s3 => DD x12 x30 | s4 => DD x12 x31 | s5 => DD x12 x32 | s6 => DD x12 x33 | s7 => DD x12 x34 | s8 => DD x12 x35 | s9 => DD x12 x36 | s10 => DD x12 x37 | s11 => DD x12 x38 | s12 => DD x12 x39 | s13 => DD x12 x40 | s14 => DD x12 x41 | s15 => DD x12 x42 | s16 => DD x12 x43 | s17 => DD x12 x44 | s18 => DD x12 x45 | s19 => DD x12 x46 | s20 => DD x12 x47 | s21 => DD x12 x48 | s22 => DD x12 x49 | s23 => DD x12 x50 | s24 => DD x12 x51 | s25 => DD x12 x52 | s26 => DD x12 x53 | s27 => DD x12 x54 | s28 => DD x12 x55 | s29 => DD x12 x56 | s30 => DD x12 x57 | s31 => DD x12 x58 | s32 => DD x12 x59 | s33 => DD x12 x60 | s34 => DD x12 x61 | s35 => DD x12 x62 | s36 => DD x12 x63 | s37 => DD x13 x0 | s38 => DD x13 x1 | s39 => DD x13 x2 | s40 => DD x13 x3 | s41 => DD x13 x4 | s42 => DD x13 x5 | s43 => DD x13 x6 | s44 => DD x13 x7 | s45 => DD x13 x8 | s46 => DD x13 x9 | s47 => DD x13 x10 | s48 => DD x13 x11 | s49 => DD x13 x12 | s50 => DD x13 x13 | s51 => DD x13 x14 | s52 => DD x13 x15 | s53 => DD x13 x16 | s54 => DD x13 x17 | s55 => DD x13 x18 | s56 => DD x13 x19 | s57 => DD x13 x20 | s58 => DD x13 x21 | s59 => DD x13 x22 | s60 => DD x13 x23 | s61 => DD x13 x24 | s62 => DD x13 x25 | s63 => DD x13 x26 | s64 => DD x13 x27 | s65 => DD x13 x28 | s66 => DD x13 x29 | s67 => DD x13 x30 | s68 => DD x13 x31 | s69 => DD x13 x32 | s70 => DD x13 x33 | s71 => DD x13 x34 | s72 => DD x13 x35 | s73 => DD x13 x36 | s74 => DD x13 x37 | s75 => DD x13 x38 | s76 => DD x13 x39 | s77 => DD x13 x40 | s78 => DD x13 x41 | s79 => DD x13 x42 | s80 => DD x13 x43 | s81 => DD x13 x44 | s82 => DD x13 x45 | s83 => DD x13 x46 | s84 => DD x13 x47 | s85 => DD x13 x48 | s86 => DD x13 x49 | s87 => DD x13 x50 | s88 => DD x13 x51 | s89 => DD x13 x52 | s90 => DD x13 x53 | s91 => DD x13 x54 | s92 => DD x13 x55 | s93 => DD x13 x56 | s94 => DD x13 x57 | s95 => DD x13 x58 | s96 => DD x13 x59 | s97 => DD x13 x60 | s98 => DD x13 x61 | s99 => DD x13 x62 | s100 => DD x13 x63 | s101 => DD x14 x0 | s102 => DD x14 x1 | s103 => DD x14 x2 | s104 => DD x14 x3 | s105 => DD x14 x4 | s106 => DD x14 x5 | s107 => DD x14 x6 | s108 => DD x14 x7 | s109 => DD x14 x8 | s110 => DD x14 x9 | s111 => DD x14 x10 | s112 => DD x14 x11 | s113 => DD x14 x12 | s114 => DD x14 x13 | s115 => DD x14 x14 | s116 => DD x14 x15 | s117 => DD x14 x16 | s118 => DD x14 x17 | s119 => DD x14 x18 | s120 => DD x14 x19 | s121 => DD x14 x20 | s122 => DD x14 x21 | s123 => DD x14 x22 | s124 => DD x14 x23 | s125 => DD x14 x24 | s126 => DD x14 x25 end.
Definition m798 (c : sum2) : dd := match c with s0 => DD x12 x30 | s1 => DD x12 x31 | s2 => DD x12 x32 | s3 => DD x12 x33 | s4 => DD x12 x34 | s5 => DD x12 x35 | s6 => DD x12 x36 | s7 => DD x12 x37 | s8 => DD x12 x38 | s9 => DD x12 x39 | s10 => DD x12 x40 | s11 => DD x12 x41 | s12 => DD x12 x42 | s13 => DD x12 x43 | s14 => DD x12 x44 | s15 => DD x12 x45 | s16 => DD x12 x46 | s17 => DD x12 x47 | s18 => DD x12 x48 | s19 => DD x12 x49 | s20 => DD x12 x50 | s21 => DD x12 x51 | s22 => DD x12 x52 | s23 => DD x12 x53 | s24 => DD x12 x54 | s25 => DD x12 x55 | s26 => DD x12 x56 | s27 => DD x12 x57 | s28 => DD x12 x58 | s29 => DD x12 x59 | s30 => DD x12 x60 | s31 => DD x12 x61 | s32 => DD x12 x62 | s33 => DD x12 x63 | s34 => DD x13 x0 | s35 => DD x13 x1 | s36 => DD x13 x2 | s37 => DD x13 x3 | s38 => DD x13 x4 | s39 => DD x13 x5 | s40 => DD x13 x6 | s41 => DD x13 x7 | s42 => DD x13 x8 | s43 => DD x13 x9 | s44 => DD x13 x10 | s45 => DD x13 x11 | s46 => DD x13 x12 | s47 => DD x13 x13 | s48 => DD x13 x14 | s49 => DD x13 x15 | s50 => DD x13 x16 | s51 => DD x13 x17 | s52 => DD x13 x18 | s53 => DD x13 x19 | s54 => DD x13 x20 | s55 => DD x13 x21 | s56 => DD x13 x22 | s57 => DD x13 x23 | s58 => DD x13 x24 | s59 => DD x13 x25 | s60 => DD x13 x26 | s61 => DD x13 x27 | s62 => DD x13 x28 | s63 => DD x13 x29 | s64 => DD x13 x30 | s65 => DD x13 x31 | s66 => DD x13 x32 | s67 => DD x13 x33 | s68 => DD x13 x34 | s69 => DD x13 x35 | s70 => DD x13 x36 | s71 => DD x13 x37 | s72 => DD x13 x38 | s73 => DD x13 x39 | s74 => DD x13 x40 | s75 => DD x13 x41 | s76 => DD x13 x42 | s77 => DD x13 x43 | s78 => DD x13 x44 | s79 => DD x13 x45 | s80 => DD x13 x46 | s81 => DD x13 x47 | s82 => DD x13 x48 | s83 => DD x13 x49 | s84 => DD x13 x50 | s85 => DD x13 x51 | s86 => DD x13 x52 | s87 => DD x13 x53 | s88 => DD x13 x54 | s89 => DD x13 x55 | s90 => DD x13 x56 | s91 => DD x13 x57 | s92 => DD x13 x58 | s93 => DD x13 x59 | s94 => DD x13 x60 | s95 => DD x13 x61 | s96 => DD x13 x62 | s97 => DD x13 x63 | s98 => DD x14 x0 | s99 => DD x14 x1 | s100 => DD x14 x2 | s101 => DD x14 x3 | s102 => DD x14 x4 | s103 => DD x14 x5 | s104 => DD x14 x6 | s105 => DD x14 x7 | s106 => DD x14 x8 | s107 => DD x14 x9 | s108 => DD x14 x10 | s109 => DD x14 x11 | s110 => DD x14 x12 | s111 => DD x14 x13 | s112 => DD x14 x14 | s113 => DD x14 x15 | s114 => DD x14 x16 | s115 => DD x14 x17 | s116 => DD x14 x18 | s117 => DD x14 x19 | s118 => DD x14 x20 | s119 => DD x14 x21 | s120 => DD x14 x22 | s121 => DD x14 x23 | s122 => DD x14 x24 | s123 => DD x14 x25 | s124 => DD x14 x26 | s125 => DD x14 x27 | s126 => DD x14 x28 end.
Definition m799 (c : sum2) : dd := match c with s0 => DD x12 x31 | s1 => DD x12 x32 | s2 => DD x12 x33 | s3 => DD x12 x34 | s4 => DD x12 x35 | s5 => DD x12 x36 | s6 => DD x12 x37 | s7 => DD x12 x38 | s8 => DD x12 x39 | s9 => DD x12 x40 | s10 => DD x12 x41 | s11 => DD x12 x42 | s12 => DD x12 x43 | s13 => DD x12 x44 | s14 => DD x12 x45 | s15 => DD x12 x46 | s16 => DD x12 x47 | s17 => DD x12 x48 | s18 => DD x12 x49 | s19 => DD x12 x50 | s20 => DD x12 x51 | s21 => DD x12 x52 | s22 => DD x12 x53 | s23 => DD x12 x54 | s24 => DD x12 x55 | s25 => DD x12 x56 | s26 => DD x12 x57 | s27 => DD x12 x58 | s28 => DD x12 x59 | s29 => DD x12 x60 | s30 => DD x12 x61 | s31 => DD x12 x62 | s32 => DD x12 x63 | s33 => DD x13 x0 | s34 => DD x13 x1 | s35 => DD x13 x2 | s36 => DD x13 x3 | s37 => DD x13 x4 | s38 => DD x13 x5 | s39 => DD x13 x6 | s40 => DD x13 x7 | s41 => DD x13 x8 | s42 => DD x13 x9 | s43 => DD x13 x10 | s44 => DD x13 x11 | s45 => DD x13 x12 | s46 => DD x13 x13 | s47 => DD x13 x14 | s48 => DD x13 x15 | s49 => DD x13 x16 | s50 => DD x13 x17 | s51 => DD x13 x18 | s52 => DD x13 x19 | s53 => DD x13 x20 | s54 => DD x13 x21 | s55 => DD x13 x22 | s56 => DD x13 x23 | s57 => DD x13 x24 | s58 => DD x13 x25 | s59 => DD x13 x26 | s60 => DD x13 x27 | s61 => DD x13 x28 | s62 => DD x13 x29 | s63 => DD x13 x30 | s64 => DD x13 x31 | s65 => DD x13 x32 | s66 => DD x13 x33 | s67 => DD x13 x34 | s68 => DD x13 x35 | s69 => DD x13 x36 | s70 => DD x13 x37 | s71 => DD x13 x38 | s72 => DD x13 x39 | s73 => DD x13 x40 | s74 => DD x13 x41 | s75 => DD x13 x42 | s76 => DD x13 x43 | s77 => DD x13 x44 | s78 => DD x13 x45 | s79 => DD x13 x46 | s80 => DD x13 x47 | s81 => DD x13 x48 | s82 => DD x13 x49 | s83 => DD x13 x50 | s84 => DD x13 x51 | s85 => DD x13 x52 | s86 => DD x13 x53 | s87 => DD x13 x54 | s88 => DD x13 x55 | s89 => DD x13 x56 | s90 => DD x13 x57 | s91 => DD x13 x58 | s92 => DD x13 x59 | s93 => DD x13 x60 | s94 => DD x13 x61 | s95 => DD x13 x62 | s96 => DD x13 x63 | s97 => DD x14 x0 | s98 => DD x14 x1 | s99 => DD x14 x2 | s100 => DD x14 x3 | s101 => DD x14 x4 | s102 => DD x14 x5 | s103 => DD x14 x6 | s104 => DD x14 x7 | s105 => DD x14 x8 | s106 => DD x14 x9 | s107 => DD x14 x10 | s108 => DD x14 x11 | s109 => DD x14 x12 | s110 => DD x14 x13 | s111 => DD x14 x14 | s112 => DD x14 x15 | s113 => DD x14 x16 | s114 => DD x14 x17 | s115 => DD x14 x18 | s116 => DD x14 x19 | s117 => DD x14 x20 | s118 => DD x14 x21 | s119 => DD x14 x22 | s120 => DD x14 x23 | s121 => DD x14 x24 | s122 => DD x14 x25 | s123 => DD x14 x26 | s124 => DD x14 x27 | s125 => DD x14 x28 | s126 => DD x14 x29 end.
Definition m800 (c : sum2) : dd := match c with s0 => DD x12 x32 | s1 => DD x12 x33 | s2 => DD x12 x34 | s3 => DD x12 x35 | s4 => DD x12 x36 | s5 => DD x12 x37 | s6 => DD x12 x38 | s7 => DD x12 x39 | s8 => DD x12 x40 | s9 => DD x12 x41 | s10 => DD x12 x42 | s11 => DD x12 x43 | s12 => DD x12 x44 | s13 => DD x12 x45 | s14 => DD x12 x46 | s15 => DD x12 x47 | s16 => DD x12 x48 | s17 => DD x12 x49 | s18 => DD x12 x50 | s19 => DD x12 x51 | s20 => DD x12 x52 | s21 => DD x12 x53 | s22 => DD x12 x54 | s23 => DD x12 x55 | s24 => DD x12 x56 | s25 => DD x12 x57 | s26 => DD x12 x58 | s27 => DD x12 x59 | s28 => DD x12 x60 | s29 => DD x12 x61 | s30 => DD x12 x62 | s31 => DD x12 x63 | s32 => DD x13 x0 | s33 => DD x13 x1 | s34 => DD x13 x2 | s35 => DD x13 x3 | s36 => DD x13 x4 | s37 => DD x13 x5 | s38 => DD x13 x6 | s39 => DD x13 x7 | s40 => DD x13 x8 | s41 => DD x13 x9 | s42 => DD x13 x10 | s43 => DD x13 x11 | s44 => DD x13 x12 | s45 => DD x13 x13 | s46 => DD x13 x14 | s47 => DD x13 x15 | s48 => DD x13 x16 | s49 => DD x13 x17 | s50 => DD x13 x18 | s51 => DD x13 x19 | s52 => DD x13 x20 | s53 => DD x13 x21 | s54 => DD x13 x22 | s55 => DD x13 x23 | s56 => DD x13 x24 | s57 => DD x13 x25 | s58 => DD x13 x26 | s59 => DD x13 x27 | s60 => DD x13 x28 | s61 => DD x13 x29 | s62 => DD x13 x30 | s63 => DD x13 x31 | s64 => DD x13 x32 | s65 => DD x13 x33 | s66 => DD x13 x34 | s67 => DD x13 x35 | s68 => DD x13 x36 | s69 => DD x13 x37 | s70 => DD x13 x38 | s71 => DD x13 x39 | s72 => DD x13 x40 | s73 => DD x13 x41 | s74 => DD x13 x42 | s75 => DD x13 x43 | s76 => DD x13 x44 | s77 => DD x13 x45 | s78 => DD x13 x46 | s79 => DD x13 x47 | s80 => DD x13 x48 | s81 => DD x13 x49 | s82 => DD x13 x50 | s83 => DD x13 x51 | s84 => DD x13 x52 | s85 => DD x13 x53 | s86 => DD x13 x54 | s87 => DD x13 x55 | s88 => DD x13 x56 | s89 => DD x13 x57 | s90 => DD x13 x58 | s91 => DD x13 x59 | s92 => DD x13 x60 | s93 => DD x13 x61 | s94 => DD x13 x62 | s95 => DD x13 x63 | s96 => DD x14 x0 | s97 => DD x14 x1 | s98 => DD x14 x2 | s99 => DD x14 x3 | s100 => DD x14 x4 | s101 => DD x14 x5 | s102 => DD x14 x6 | s103 => DD x14 x7 | s104 => DD x14 x8 | s105 => DD x14 x9 | s106 => DD x14 x10 | s107 => DD x14 x11 | s108 => DD x14 x12 | s109 => DD x14 x13 | s110 => DD x14 x14 | s111 => DD x14 x15 | s112 => DD x14 x16 | s113 => DD x14 x17 | s114 => DD x14 x18 | s115 => DD x14 x19 | s116 => DD x14 x20 | s117 => DD x14 x21 | s118 => DD x14 x22 | s119 => DD x14 x23 | s120 => DD x14 x24 | s121 => DD x14 x25 | s122 => DD x14 x26 | s123 => DD x14 x27 | s124 => DD x14 x28 | s125 => DD x14 x29 | s126 => DD x14 x30 end.
Definition m805 (c : sum2) : dd := match c with s0 => DD x12 x37 | s1 => DD x12 x38 | s2 => DD x12 x39 | s3 => DD x12 x40 | s4 => DD x12 x41 | s5 => DD x12 x42 | s6 => DD x12 x43 | s7 => DD x12 x44 | s8 => DD x12 x45 | s9 => DD x12 x46 | s10 => DD x12 x47 | s11 => DD x12 x48 | s12 => DD x12 x49 | s13 => DD x12 x50 | s14 => DD x12 x51 | s15 => DD x12 x52 | s16 => DD x12 x53 | s17 => DD x12 x54 | s18 => DD x12 x55 | s19 => DD x12 x56 | s20 => DD x12 x57 | s21 => DD x12 x58 | s22 => DD x12 x59 | s23 => DD x12 x60 | s24 => DD x12 x61 | s25 => DD x12 x62 | s26 => DD x12 x63 | s27 => DD x13 x0 | s28 => DD x13 x1 | s29 => DD x13 x2 | s30 => DD x13 x3 | s31 => DD x13 x4 | s32 => DD x13 x5 | s33 => DD x13 x6 | s34 => DD x13 x7 | s35 => DD x13 x8 | s36 => DD x13 x9 | s37 => DD x13 x10 | s38 => DD x13 x11 | s39 => DD x13 x12 | s40 => DD x13 x13 | s41 => DD x13 x14 | s42 => DD x13 x15 | s43 => DD x13 x16 | s44 => DD x13 x17 | s45 => DD x13 x18 | s46 => DD x13 x19 | s47 => DD x13 x20 | s48 => DD x13 x21 | s49 => DD x13 x22 | s50 => DD x13 x23 | s51 => DD x13 x24 | s52 => DD x13 x25 | s53 => DD x13 x26 | s54 => DD x13 x27 | s55 => DD x13 x28 | s56 => DD x13 x29 | s57 => DD x13 x30 | s58 => DD x13 x31 | s59 => DD x13 x32 | s60 => DD x13 x33 | s61 => DD x13 x34 | s62 => DD x13 x35 | s63 => DD x13 x36 | s64 => DD x13 x37 | s65 => DD x13 x38 | s66 => DD x13 x39 | s67 => DD x13 x40 | s68 => DD x13 x41 | s69 => DD x13 x42 | s70 => DD x13 x43 | s71 => DD x13 x44 | s72 => DD x13 x45 | s73 => DD x13 x46 | s74 => DD x13 x47 | s75 => DD x13 x48 | s76 => DD x13 x49 | s77 => DD x13 x50 | s78 => DD x13 x51 | s79 => DD x13 x52 | s80 => DD x13 x53 | s81 => DD x13 x54 | s82 => DD x13 x55 | s83 => DD x13 x56 | s84 => DD x13 x57 | s85 => DD x13 x58 | s86 => DD x13 x59 | s87 => DD x13 x60 | s88 => DD x13 x61 | s89 => DD x13 x62 | s90 => DD x13 x63 | s91 => DD x14 x0 | s92 => DD x14 x1 | s93 => DD x14 x2 | s94 => DD x14 x3 | s95 => DD x14 x4 | s96 => DD x14 x5 | s97 => DD x14 x6 | s98 => DD x14 x7 | s99 => DD x14 x8 | s100 => DD x14 x9 | s101 => DD x14 x10 | s102 => DD x14 x11 | s103 => DD x14 x12 | s104 => DD x14 x13 | s105 => DD x14 x14 | s106 => DD x14 x15 | s107 => DD x14 x16 | s108 => DD x14 x17 | s109 => DD x14 x18 | s110 => DD x14 x19 | s111 => DD x14 x20 | s112 => DD x14 x21 | s113 => DD x14 x22 | s114 => DD x14 x23 | s115 => DD x14 x24 | s116 => DD x14 x25 | s117 => DD x14 x26 | s118 => DD x14 x27 | s119 => DD x14 x28 | s120 => DD x14 x29 | s121 => DD x14 x30 | s122 => DD x14 x31 | s123 => DD x14 x32 | s124 => DD x14 x33 | s125 => DD x14 x34 | s126 => DD x14 x35 end.
Definition m806 (c : sum2) : dd := match c with s0 => DD x12 x38 | s1 => DD x12 x39 | s2 => DD x12 x40 | s3 => DD x12 x41 | s4 => DD x12 x42 | s5 => DD x12 x43 | s6 => DD x12 x44 | s7 => DD x12 x45 | s8 => DD x12 x46 | s9 => DD x12 x47 | s10 => DD x12 x48 | s11 => DD x12 x49 | s12 => DD x12 x50 | s13 => DD x12 x51 | s14 => DD x12 x52 | s15 => DD x12 x53 | s16 => DD x12 x54 | s17 => DD x12 x55 | s18 => DD x12 x56 | s19 => DD x12 x57 | s20 => DD x12 x58 | s21 => DD x12 x59 | s22 => DD x12 x60 | s23 => DD x12 x61 | s24 => DD x12 x62 | s25 => DD x12 x63 | s26 => DD x13 x0 | s27 => DD x13 x1 | s28 => DD x13 x2 | s29 => DD x13 x3 | s30 => DD x13 x4 | s31 => DD x13 x5 | s32 => DD x13 x6 | s33 => DD x13 x7 | s34 => DD x13 x8 | s35 => DD x13 x9 | s36 => DD x13 x10 | s37 => DD x13 x11 | s38 => DD x13 x12 | s39 => DD x13 x13 | s40 => DD x13 x14 | s41 => DD x13 x15 | s42 => DD x13 x16 | s43 => DD x13 x17 | s44 => DD x13 x18 | s45 => DD x13 x19 | s46 => DD x13 x20 | s47 => DD x13 x21 | s48 => DD x13 x22 | s49 => DD x13 x23 | s50 => DD x13 x24 | s51 => DD x13 x25 | s52 => DD x13 x26 | s53 => DD x13 x27 | s54 => DD x13 x28 | s55 => DD x13 x29 | s56 => DD x13 x30 | s57 => DD x13 x31 | s58 => DD x13 x32 | s59 => DD x13 x33 | s60 => DD x13 x34 | s61 => DD x13 x35 | s62 => DD x13 x36 | s63 => DD x13 x37 | s64 => DD x13 x38 | s65 => DD x13 x39 | s66 => DD x13 x40 | s67 => DD x13 x41 | s68 => DD x13 x42 | s69 => DD x13 x43 | s70 => DD x13 x44 | s71 => DD x13 x45 | s72 => DD x13 x46 | s73 => DD x13 x47 | s74 => DD x13 x48 | s75 => DD x13 x49 | s76 => DD x13 x50 | s77 => DD x13 x51 | s78 => DD x13 x52 | s79 => DD x13 x53 | s80 => DD x13 x54 | s81 => DD x13 x55 | s82 => DD x13 x56 | s83 => DD x13 x57 | s84 => DD x13 x58 | s85 => DD x13 x59 | s86 => DD x13 x60 | s87 => DD x13 x61 | s88 => DD x13 x62 | s89 => DD x13 x63 | s90 => DD x14 x0 | s91 => DD x14 x1 | s92 => DD x14 x2 | s93 => DD x14 x3 | s94 => DD x14 x4 | s95 => DD x14 x5 | s96 => DD x14 x6 | s97 => DD x14 x7 | s98 => DD x14 x8 | s99 => DD x14 x9 | s100 => DD x14 x10 | s101 => DD x14 x11 | s102 => DD x14 x12 | s103 => DD x14 x13 | s104 => DD x14 x14 | s105 => DD x14 x15 | s106 => DD x14 x16 | s107 => DD x14 x17 | s108 => DD x14 x18 | s109 => DD x14 x19 | s110 => DD x14 x20 | s111 => DD x14 x21 | s112 => DD x14 x22 | s113 => DD x14 x23 | s114 => DD x14 x24 | s115 => DD x14 x25 | s116 => DD x14 x26 | s117 => DD x14 x27 | s118 => DD x14 x28 | s119 => DD x14 x29 | s120 => DD x14 x30 | s121 => DD x14 x31 | s122 => DD x14 x32 | s123 => DD x14 x33 | s124 => DD x14 x34 | s125 => DD x14 x35 | s126 => DD x14 x36 end.
Definition m810 (c : sum2) : dd := match c with s0 => DD x12 x42 | s1 => DD x12 x43 | s2 => DD x12 x44 | s3 => DD x12 x45 | s4 => DD x12 x46 | s5 => DD x12 x47 | s6 => DD x12 x48 | s7 => DD x12 x49 | s8 => DD x12 x50 | s9 => DD x12 x51 | s10 => DD x12 x52 | s11 => DD x12 x53 | s12 => DD x12 x54 | s13 => DD x12 x55 | s14 => DD x12 x56 | s15 => DD x12 x57 | s16 => DD x12 x58 | s17 => DD x12 x59 | s18 => DD x12 x60 | s19 => DD x12 x61 | s20 => DD x12 x62 | s21 => DD x12 x63 | s22 => DD x13 x0 | s23 => DD x13 x1 | s24 => DD x13 x2 | s25 => DD x13 x3 | s26 => DD x13 x4 | s27 => DD x13 x5 | s28 => DD x13 x6 | s29 => DD x13 x7 | s30 => DD x13 x8 | s31 => DD x13 x9 | s32 => DD x13 x10 | s33 => DD x13 x11 | s34 => DD x13 x12 | s35 => DD x13 x13 | s36 => DD x13 x14 | s37 => DD x13 x15 | s38 => DD x13 x16 | s39 => DD x13 x17 | s40 => DD x13 x18 | s41 => DD x13 x19 | s42 => DD x13 x20 | s43 => DD x13 x21 | s44 => DD x13 x22 | s45 => DD x13 x23 | s46 => DD x13 x24 | s47 => DD x13 x25 | s48 => DD x13 x26 | s49 => DD x13 x27 | s50 => DD x13 x28 | s51 => DD x13 x29 | s52 => DD x13 x30 | s53 => DD x13 x31 | s54 => DD x13 x32 | s55 => DD x13 x33 | s56 => DD x13 x34 | s57 => DD x13 x35 | s58 => DD x13 x36 | s59 => DD x13 x37 | s60 => DD x13 x38 | s61 => DD x13 x39 | s62 => DD x13 x40 | s63 => DD x13 x41 | s64 => DD x13 x42 | s65 => DD x13 x43 | s66 => DD x13 x44 | s67 => DD x13 x45 | s68 => DD x13 x46 | s69 => DD x13 x47 | s70 => DD x13 x48 | s71 => DD x13 x49 | s72 => DD x13 x50 | s73 => DD x13 x51 | s74 => DD x13 x52 | s75 => DD x13 x53 | s76 => DD x13 x54 | s77 => DD x13 x55 | s78 => DD x13 x56 | s79 => DD x13 x57 | s80 => DD x13 x58 | s81 => DD x13 x59 | s82 => DD x13 x60 | s83 => DD x13 x61 | s84 => DD x13 x62 | s85 => DD x13 x63 | s86 => DD x14 x0 | s87 => DD x14 x1 | s88 => DD x14 x2 | s89 => DD x14 x3 | s90 => DD x14 x4 | s91 => DD x14 x5 | s92 => DD x14 x6 | s93 => DD x14 x7 | s94 => DD x14 x8 | s95 => DD x14 x9 | s96 => DD x14 x10 | s97 => DD x14 x11 | s98 => DD x14 x12 | s99 => DD x14 x13 | s100 => DD x14 x14 | s101 => DD x14 x15 | s102 => DD x14 x16 | s103 => DD x14 x17 | s104 => DD x14 x18 | s105 => DD x14 x19 | s106 => DD x14 x20 | s107 => DD x14 x21 | s108 => DD x14 x22 | s109 => DD x14 x23 | s110 => DD x14 x24 | s111 => DD x14 x25 | s112 => DD x14 x26 | s113 => DD x14 x27 | s114 => DD x14 x28 | s115 => DD x14 x29 | s116 => DD x14 x30 | s117 => DD x14 x31 | s118 => DD x14 x32 | s119 => DD x14 x33 | s120 => DD x14 x34 | s121 => DD x14 x35 | s122 => DD x14 x36 | s123 => DD x14 x37 | s124 => DD x14 x38 | s125 => DD x14 x39 | s126 => DD x14 x40 end.
Definition m812 (c : sum2) : dd := match c with s0 => DD x12 x44 | s1 => DD x12 x45 | s2 => DD x12 x46 | s3 => DD x12 x47 | s4 => DD x12 x48 | s5 => DD x12 x49 | s6 => DD x12 x50 | s7 => DD x12 x51 | s8 => DD x12 x52 | s9 => DD x12 x53 | s10 => DD x12 x54 | s11 => DD x12 x55 | s12 => DD x12 x56 | s13 => DD x12 x57 | s14 => DD x12 x58 | s15 => DD x12 x59 | s16 => DD x12 x60 | s17 => DD x12 x61 | s18 => DD x12 x62 | s19 => DD x12 x63 | s20 => DD x13 x0 | s21 => DD x13 x1 | s22 => DD x13 x2 | s23 => DD x13 x3 | s24 => DD x13 x4 | s25 => DD x13 x5 | s26 => DD x13 x6 | s27 => DD x13 x7 | s28 => DD x13 x8 | s29 => DD x13 x9 | s30 => DD x13 x10 | s31 => DD x13 x11 | s32 => DD x13 x12 | s33 => DD x13 x13 | s34 => DD x13 x14 | s35 => DD x13 x15 | s36 => DD x13 x16 | s37 => DD x13 x17 | s38 => DD x13 x18 | s39 => DD x13 x19 | s40 => DD x13 x20 | s41 => DD x13 x21 | s42 => DD x13 x22 | s43 => DD x13 x23 | s44 => DD x13 x24 | s45 => DD x13 x25 | s46 => DD x13 x26 | s47 => DD x13 x27 | s48 => DD x13 x28 | s49 => DD x13 x29 | s50 => DD x13 x30 | s51 => DD x13 x31 | s52 => DD x13 x32 | s53 => DD x13 x33 | s54 => DD x13 x34 | s55 => DD x13 x35 | s56 => DD x13 x36 | s57 => DD x13 x37 | s58 => DD x13 x38 | s59 => DD x13 x39 | s60 => DD x13 x40 | s61 => DD x13 x41 | s62 => DD x13 x42 | s63 => DD x13 x43 | s64 => DD x13 x44 | s65 => DD x13 x45 | s66 => DD x13 x46 | s67 => DD x13 x47 | s68 => DD x13 x48 | s69 => DD x13 x49 | s70 => DD x13 x50 | s71 => DD x13 x51 | s72 => DD x13 x52 | s73 => DD x13 x53 | s74 => DD x13 x54 | s75 => DD x13 x55 | s76 => DD x13 x56 | s77 => DD x13 x57 | s78 => DD x13 x58 | s79 => DD x13 x59 | s80 => DD x13 x60 | s81 => DD x13 x61 | s82 => DD x13 x62 | s83 => DD x13 x63 | s84 => DD x14 x0 | s85 => DD x14 x1 | s86 => DD x14 x2 | s87 => DD x14 x3 | s88 => DD x14 x4 | s89 => DD x14 x5 | s90 => DD x14 x6 | s91 => DD x14 x7 | s92 => DD x14 x8 | s93 => DD x14 x9 | s94 => DD x14 x10 | s95 => DD x14 x11 | s96 => DD x14 x12 | s97 => DD x14 x13 | s98 => DD x14 x14 | s99 => DD x14 x15 | s100 => DD x14 x16 | s101 => DD x14 x17 | s102 => DD x14 x18 | s103 => DD x14 x19 | s104 => DD x14 x20 | s105 => DD x14 x21 | s106 => DD x14 x22 | s107 => DD x14 x23 | s108 => DD x14 x24 | s109 => DD x14 x25 | s110 => DD x14 x26 | s111 => DD x14 x27 | s112 => DD x14 x28 | s113 => DD x14 x29 | s114 => DD x14 x30 | s115 => DD x14 x31 | s116 => DD x14 x32 | s117 => DD x14 x33 | s118 => DD x14 x34 | s119 => DD x14 x35 | s120 => DD x14 x36 | s121 => DD x14 x37 | s122 => DD x14 x38 | s123 => DD x14 x39 | s124 => DD x14 x40 | s125 => DD x14 x41 | s126 => DD x14 x42 end.
Definition m814 (c : sum2) : dd := match c with s0 => DD x12 x46 | s1 => DD x12 x47 | s2 => DD x12 x48 | s3 => DD x12 x49 | s4 => DD x12 x50 | s5 => DD x12 x51 | s6 => DD x12 x52 | s7 => DD x12 x53 | s8 => DD x12 x54 | s9 => DD x12 x55 | s10 => DD x12 x56 | s11 => DD x12 x57 | s12 => DD x12 x58 | s13 => DD x12 x59 | s14 => DD x12 x60 | s15 => DD x12 x61 | s16 => DD x12 x62 | s17 => DD x12 x63 | s18 => DD x13 x0 | s19 => DD x13 x1 | s20 => DD x13 x2 | s21 => DD x13 x3 | s22 => DD x13 x4 | s23 => DD x13 x5 | s24 => DD x13 x6 | s25 => DD x13 x7 | s26 => DD x13 x8 | s27 => DD x13 x9 | s28 => DD x13 x10 | s29 => DD x13 x11 | s30 => DD x13 x12 | s31 => DD x13 x13 | s32 => DD x13 x14 | s33 => DD x13 x15 | s34 => DD x13 x16 | s35 => DD x13 x17 | s36 => DD x13 x18 | s37 => DD x13 x19 | s38 => DD x13 x20 | s39 => DD x13 x21 | s40 => DD x13 x22 | s41 => DD x13 x23 | s42 => DD x13 x24 | s43 => DD x13 x25 | s44 => DD x13 x26 | s45 => DD x13 x27 | s46 => DD x13 x28 | s47 => DD x13 x29 | s48 => DD x13 x30 | s49 => DD x13 x31 | s50 => DD x13 x32 | s51 => DD x13 x33 | s52 => DD x13 x34 | s53 => DD x13 x35 | s54 => DD x13 x36 | s55 => DD x13 x37 | s56 => DD x13 x38 | s57 => DD x13 x39 | s58 => DD x13 x40 | s59 => DD x13 x41 | s60 => DD x13 x42 | s61 => DD x13 x43 | s62 => DD x13 x44 | s63 => DD x13 x45 | s64 => DD x13 x46 | s65 => DD x13 x47 | s66 => DD x13 x48 | s67 => DD x13 x49 | s68 => DD x13 x50 | s69 => DD x13 x51 | s70 => DD x13 x52 | s71 => DD x13 x53 | s72 => DD x13 x54 | s73 => DD x13 x55 | s74 => DD x13 x56 | s75 => DD x13 x57 | s76 => DD x13 x58 | s77 => DD x13 x59 | s78 => DD x13 x60 | s79 => DD x13 x61 | s80 => DD x13 x62 | s81 => DD x13 x63 | s82 => DD x14 x0 | s83 => DD x14 x1 | s84 => DD x14 x2 | s85 => DD x14 x3 | s86 => DD x14 x4 | s87 => DD x14 x5 | s88 => DD x14 x6 | s89 => DD x14 x7 | s90 => DD x14 x8 | s91 => DD x14 x9 | s92 => DD x14 x10 | s93 => DD x14 x11 | s94 => DD x14 x12 | s95 => DD x14 x13 | s96 => DD x14 x14 | s97 => DD x14 x15 | s98 => DD x14 x16 | s99 => DD x14 x17 | s100 => DD x14 x18 | s101 => DD x14 x19 | s102 => DD x14 x20 | s103 => DD x14 x21 | s104 => DD x14 x22 | s105 => DD x14 x23 | s106 => DD x14 x24 | s107 => DD x14 x25 | s108 => DD x14 x26 | s109 => DD x14 x27 | s110 => DD x14 x28 | s111 => DD x14 x29 | s112 => DD x14 x30 | s113 => DD x14 x31 | s114 => DD x14 x32 | s115 => DD x14 x33 | s116 => DD x14 x34 | s117 => DD x14 x35 | s118 => DD x14 x36 | s119 => DD x14 x37 | s120 => DD x14 x38 | s121 => DD x14 x39 | s122 => DD x14 x40 | s123 => DD x14 x41 | s124 => DD x14 x42 | s125 => DD x14 x43 | s126 => DD x14 x44 end.
Definition m816 (c : sum2) : dd := match c with s0 => DD x12 x48 | s1 => DD x12 x49 | s2 => DD x12 x50 | s3 => DD x12 x51 | s4 => DD x12 x52 | s5 => DD x12 x53 | s6 => DD x12 x54 | s7 => DD x12 x55 | s8 => DD x12 x56 | s9 => DD x12 x57 | s10 => DD x12 x58 | s11 => DD x12 x59 | s12 => DD x12 x60 | s13 => DD x12 x61 | s14 => DD x12 x62 | s15 => DD x12 x63 | s16 => DD x13 x0 | s17 => DD x13 x1 | s18 => DD x13 x2 | s19 => DD x13 x3 | s20 => DD x13 x4 | s21 => DD x13 x5 | s22 => DD x13 x6 | s23 => DD x13 x7 | s24 => DD x13 x8 | s25 => DD x13 x9 | s26 => DD x13 x10 | s27 => DD x13 x11 | s28 => DD x13 x12 | s29 => DD x13 x13 | s30 => DD x13 x14 | s31 => DD x13 x15 | s32 => DD x13 x16 | s33 => DD x13 x17 | s34 => DD x13 x18 | s35 => DD x13 x19 | s36 => DD x13 x20 | s37 => DD x13 x21 | s38 => DD x13 x22 | s39 => DD x13 x23 | s40 => DD x13 x24 | s41 => DD x13 x25 | s42 => DD x13 x26 | s43 => DD x13 x27 | s44 => DD x13 x28 | s45 => DD x13 x29 | s46 => DD x13 x30 | s47 => DD x13 x31 | s48 => DD x13 x32 | s49 => DD x13 x33 | s50 => DD x13 x34 | s51 => DD x13 x35 | s52 => DD x13 x36 | s53 => DD x13 x37 | s54 => DD x13 x38 | s55 => DD x13 x39 | s56 => DD x13 x40 | s57 => DD x13 x41 | s58 => DD x13 x42 | s59 => DD x13 x43 | s60 => DD x13 x44 | s61 => DD x13 x45 | s62 => DD x13 x46 | s63 => DD x13 x47 | s64 => DD x13 x48 | s65 => DD x13 x49 | s66 => DD x13 x50 | s67 => DD x13 x51 | s68 => DD x13 x52 | s69 => DD x13 x53 | s70 => DD x13 x54 | s71 => DD x13 x55 | s72 => DD x13 x56 | s73 => DD x13 x57 | s74 => DD x13 x58 | s75 => DD x13 x59 | s76 => DD x13 x60 | s77 => DD x13 x61 | s78 => DD x13 x62 | s79 => DD x13 x63 | s80 => DD x14 x0 | s81 => DD x14 x1 | s82 => DD x14 x2 | s83 => DD x14 x3 | s84 => DD x14 x4 | s85 => DD x14 x5 | s86 => DD x14 x6 | s87 => DD x14 x7 | s88 => DD x14 x8 | s89 => DD x14 x9 | s90 => DD x14 x10 | s91 => DD x14 x11 | s92 => DD x14 x12 | s93 => DD x14 x13 | s94 => DD x14 x14 | s95 => DD x14 x15 | s96 => DD x14 x16 | s97 => DD x14 x17 | s98 => DD x14 x18 | s99 => DD x14 x19 | s100 => DD x14 x20 | s101 => DD x14 x21 | s102 => DD x14 x22 | s103 => DD x14 x23 | s104 => DD x14 x24 | s105 => DD x14 x25 | s106 => DD x14 x26 | s107 => DD x14 x27 | s108 => DD x14 x28 | s109 => DD x14 x29 | s110 => DD x14 x30 | s111 => DD x14 x31 | s112 => DD x14 x32 | s113 => DD x14 x33 | s114 => DD x14 x34 | s115 => DD x14 x35 | s116 => DD x14 x36 | s117 => DD x14 x37 | s118 => DD x14 x38 | s119 => DD x14 x39 | s120 => DD x14 x40 | s121 => DD x14 x41 | s122 => DD x14 x42 | s123 => DD x14 x43 | s124 => DD x14 x44 | s125 => DD x14 x45 | s126 => DD x14 x46 end.
Definition m817 (c : sum2) : dd := match c with s0 => DD x12 x49 | s1 => DD x12 x50 | s2 => DD x12 x51 | s3 => DD x12 x52 | s4 => DD x12 x53 | s5 => DD x12 x54 | s6 => DD x12 x55 | s7 => DD x12 x56 | s8 => DD x12 x57 | s9 => DD x12 x58 | s10 => DD x12 x59 | s11 => DD x12 x60 | s12 => DD x12 x61 | s13 => DD x12 x62 | s14 => DD x12 x63 | s15 => DD x13 x0 | s16 => DD x13 x1 | s17 => DD x13 x2 | s18 => DD x13 x3 | s19 => DD x13 x4 | s20 => DD x13 x5 | s21 => DD x13 x6 | s22 => DD x13 x7 | s23 => DD x13 x8 | s24 => DD x13 x9 | s25 => DD x13 x10 | s26 => DD x13 x11 | s27 => DD x13 x12 | s28 => DD x13 x13 | s29 => DD x13 x14 | s30 => DD x13 x15 | s31 => DD x13 x16 | s32 => DD x13 x17 | s33 => DD x13 x18 | s34 => DD x13 x19 | s35 => DD x13 x20 | s36 => DD x13 x21 | s37 => DD x13 x22 | s38 => DD x13 x23 | s39 => DD x13 x24 | s40 => DD x13 x25 | s41 => DD x13 x26 | s42 => DD x13 x27 | s43 => DD x13 x28 | s44 => DD x13 x29 | s45 => DD x13 x30 | s46 => DD x13 x31 | s47 => DD x13 x32 | s48 => DD x13 x33 | s49 => DD x13 x34 | s50 => DD x13 x35 | s51 => DD x13 x36 | s52 => DD x13 x37 | s53 => DD x13 x38 | s54 => DD x13 x39 | s55 => DD x13 x40 | s56 => DD x13 x41 | s57 => DD x13 x42 | s58 => DD x13 x43 | s59 => DD x13 x44 | s60 => DD x13 x45 | s61 => DD x13 x46 | s62 => DD x13 x47 | s63 => DD x13 x48 | s64 => DD x13 x49 | s65 => DD x13 x50 | s66 => DD x13 x51 | s67 => DD x13 x52 | s68 => DD x13 x53 | s69 => DD x13 x54 | s70 => DD x13 x55 | s71 => DD x13 x56 | s72 => DD x13 x57 | s73 => DD x13 x58 | s74 => DD x13 x59 | s75 => DD x13 x60 | s76 => DD x13 x61 | s77 => DD x13 x62 | s78 => DD x13 x63 | s79 => DD x14 x0 | s80 => DD x14 x1 | s81 => DD x14 x2 | s82 => DD x14 x3 | s83 => DD x14 x4 | s84 => DD x14 x5 | s85 => DD x14 x6 | s86 => DD x14 x7 | s87 => DD x14 x8 | s88 => DD x14 x9 | s89 => DD x14 x10 | s90 => DD x14 x11 | s91 => DD x14 x12 | s92 => DD x14 x13 | s93 => DD x14 x14 | s94 => DD x14 x15 | s95 => DD x14 x16 | s96 => DD x14 x17 | s97 => DD x14 x18 | s98 => DD x14 x19 | s99 => DD x14 x20 | s100 => DD x14 x21 | s101 => DD x14 x22 | s102 => DD x14 x23 | s103 => DD x14 x24 | s104 => DD x14 x25 | s105 => DD x14 x26 | s106 => DD x14 x27 | s107 => DD x14 x28 | s108 => DD x14 x29 | s109 => DD x14 x30 | s110 => DD x14 x31 | s111 => DD x14 x32 | s112 => DD x14 x33 | s113 => DD x14 x34 | s114 => DD x14 x35 | s115 => DD x14 x36 | s116 => DD x14 x37 | s117 => DD x14 x38 | s118 => DD x14 x39 | s119 => DD x14 x40 | s120 => DD x14 x41 | s121 => DD x14 x42 | s122 => DD x14 x43 | s123 => DD x14 x44 | s124 => DD x14 x45 | s125 => DD x14 x46 | s126 => DD x14 x47 end.
Definition m819 (c : sum2) : dd := match c with s0 => DD x12 x51 | s1 => DD x12 x52 | s2 => DD x12 x53 | s3 => DD x12 x54 | s4 => DD x12 x55 | s5 => DD x12 x56 | s6 => DD x12 x57 | s7 => DD x12 x58 | s8 => DD x12 x59 | s9 => DD x12 x60 | s10 => DD x12 x61 | s11 => DD x12 x62 | s12 => DD x12 x63 | s13 => DD x13 x0 | s14 => DD x13 x1 | s15 => DD x13 x2 | s16 => DD x13 x3 | s17 => DD x13 x4 | s18 => DD x13 x5 | s19 => DD x13 x6 | s20 => DD x13 x7 | s21 => DD x13 x8 | s22 => DD x13 x9 | s23 => DD x13 x10 | s24 => DD x13 x11 | s25 => DD x13 x12 | s26 => DD x13 x13 | s27 => DD x13 x14 | s28 => DD x13 x15 | s29 => DD x13 x16 | s30 => DD x13 x17 | s31 => DD x13 x18 | s32 => DD x13 x19 | s33 => DD x13 x20 | s34 => DD x13 x21 | s35 => DD x13 x22 | s36 => DD x13 x23 | s37 => DD x13 x24 | s38 => DD x13 x25 | s39 => DD x13 x26 | s40 => DD x13 x27 | s41 => DD x13 x28 | s42 => DD x13 x29 | s43 => DD x13 x30 | s44 => DD x13 x31 | s45 => DD x13 x32 | s46 => DD x13 x33 | s47 => DD x13 x34 | s48 => DD x13 x35 | s49 => DD x13 x36 | s50 => DD x13 x37 | s51 => DD x13 x38 | s52 => DD x13 x39 | s53 => DD x13 x40 | s54 => DD x13 x41 | s55 => DD x13 x42 | s56 => DD x13 x43 | s57 => DD x13 x44 | s58 => DD x13 x45 | s59 => DD x13 x46 | s60 => DD x13 x47 | s61 => DD x13 x48 | s62 => DD x13 x49 | s63 => DD x13 x50 | s64 => DD x13 x51 | s65 => DD x13 x52 | s66 => DD x13 x53 | s67 => DD x13 x54 | s68 => DD x13 x55 | s69 => DD x13 x56 | s70 => DD x13 x57 | s71 => DD x13 x58 | s72 => DD x13 x59 | s73 => DD x13 x60 | s74 => DD x13 x61 | s75 => DD x13 x62 | s76 => DD x13 x63 | s77 => DD x14 x0 | s78 => DD x14 x1 | s79 => DD x14 x2 | s80 => DD x14 x3 | s81 => DD x14 x4 | s82 => DD x14 x5 | s83 => DD x14 x6 | s84 => DD x14 x7 | s85 => DD x14 x8 | s86 => DD x14 x9 | s87 => DD x14 x10 | s88 => DD x14 x11 | s89 => DD x14 x12 | s90 => DD x14 x13 | s91 => DD x14 x14 | s92 => DD x14 x15 | s93 => DD x14 x16 | s94 => DD x14 x17 | s95 => DD x14 x18 | s96 => DD x14 x19 | s97 => DD x14 x20 | s98 => DD x14 x21 | s99 => DD x14 x22 | s100 => DD x14 x23 | s101 => DD x14 x24 | s102 => DD x14 x25 | s103 => DD x14 x26 | s104 => DD x14 x27 | s105 => DD x14 x28 | s106 => DD x14 x29 | s107 => DD x14 x30 | s108 => DD x14 x31 | s109 => DD x14 x32 | s110 => DD x14 x33 | s111 => DD x14 x34 | s112 => DD x14 x35 | s113 => DD x14 x36 | s114 => DD x14 x37 | s115 => DD x14 x38 | s116 => DD x14 x39 | s117 => DD x14 x40 | s118 => DD x14 x41 | s119 => DD x14 x42 | s120 => DD x14 x43 | s121 => DD x14 x44 | s122 => DD x14 x45 | s123 => DD x14 x46 | s124 => DD x14 x47 | s125 => DD x14 x48 | s126 => DD x14 x49 end.
Definition m820 (c : sum2) : dd := match c with s0 => DD x12 x52 | s1 => DD x12 x53 | s2 => DD x12 x54 | s3 => DD x12 x55 | s4 => DD x12 x56 | s5 => DD x12 x57 | s6 => DD x12 x58 | s7 => DD x12 x59 | s8 => DD x12 x60 | s9 => DD x12 x61 | s10 => DD x12 x62 | s11 => DD x12 x63 | s12 => DD x13 x0 | s13 => DD x13 x1 | s14 => DD x13 x2 | s15 => DD x13 x3 | s16 => DD x13 x4 | s17 => DD x13 x5 | s18 => DD x13 x6 | s19 => DD x13 x7 | s20 => DD x13 x8 | s21 => DD x13 x9 | s22 => DD x13 x10 | s23 => DD x13 x11 | s24 => DD x13 x12 | s25 => DD x13 x13 | s26 => DD x13 x14 | s27 => DD x13 x15 | s28 => DD x13 x16 | s29 => DD x13 x17 | s30 => DD x13 x18 | s31 => DD x13 x19 | s32 => DD x13 x20 | s33 => DD x13 x21 | s34 => DD x13 x22 | s35 => DD x13 x23 | s36 => DD x13 x24 | s37 => DD x13 x25 | s38 => DD x13 x26 | s39 => DD x13 x27 | s40 => DD x13 x28 | s41 => DD x13 x29 | s42 => DD x13 x30 | s43 => DD x13 x31 | s44 => DD x13 x32 | s45 => DD x13 x33 | s46 => DD x13 x34 | s47 => DD x13 x35 | s48 => DD x13 x36 | s49 => DD x13 x37 | s50 => DD x13 x38 | s51 => DD x13 x39 | s52 => DD x13 x40 | s53 => DD x13 x41 | s54 => DD x13 x42 | s55 => DD x13 x43 | s56 => DD x13 x44 | s57 => DD x13 x45 | s58 => DD x13 x46 | s59 => DD x13 x47 | s60 => DD x13 x48 | s61 => DD x13 x49 | s62 => DD x13 x50 | s63 => DD x13 x51 | s64 => DD x13 x52 | s65 => DD x13 x53 | s66 => DD x13 x54 | s67 => DD x13 x55 | s68 => DD x13 x56 | s69 => DD x13 x57 | s70 => DD x13 x58 | s71 => DD x13 x59 | s72 => DD x13 x60 | s73 => DD x13 x61 | s74 => DD x13 x62 | s75 => DD x13 x63 | s76 => DD x14 x0 | s77 => DD x14 x1 | s78 => DD x14 x2 | s79 => DD x14 x3 | s80 => DD x14 x4 | s81 => DD x14 x5 | s82 => DD x14 x6 | s83 => DD x14 x7 | s84 => DD x14 x8 | s85 => DD x14 x9 | s86 => DD x14 x10 | s87 => DD x14 x11 | s88 => DD x14 x12 | s89 => DD x14 x13 | s90 => DD x14 x14 | s91 => DD x14 x15 | s92 => DD x14 x16 | s93 => DD x14 x17 | s94 => DD x14 x18 | s95 => DD x14 x19 | s96 => DD x14 x20 | s97 => DD x14 x21 | s98 => DD x14 x22 | s99 => DD x14 x23 | s100 => DD x14 x24 | s101 => DD x14 x25 | s102 => DD x14 x26 | s103 => DD x14 x27 | s104 => DD x14 x28 | s105 => DD x14 x29 | s106 => DD x14 x30 | s107 => DD x14 x31 | s108 => DD x14 x32 | s109 => DD x14 x33 | s110 => DD x14 x34 | s111 => DD x14 x35 | s112 => DD x14 x36 | s113 => DD x14 x37 | s114 => DD x14 x38 | s115 => DD x14 x39 | s116 => DD x14 x40 | s117 => DD x14 x41 | s118 => DD x14 x42 | s119 => DD x14 x43 | s120 => DD x14 x44 | s121 => DD x14 x45 | s122 => DD x14 x46 | s123 => DD x14 x47 | s124 => DD x14 x48 | s125 => DD x14 x49 | s126 => DD x14 x50 end.
Definition m825 (c : sum2) : dd := match c with s0 => DD x12 x57 | s1 => DD x12 x58 | s2 => DD x12 x59 | s3 => DD x12 x60 | s4 => DD x12 x61 | s5 => DD x12 x62 | s6 => DD x12 x63 | s7 => DD x13 x0 | s8 => DD x13 x1 | s9 => DD x13 x2 | s10 => DD x13 x3 | s11 => DD x13 x4 | s12 => DD x13 x5 | s13 => DD x13 x6 | s14 => DD x13 x7 | s15 => DD x13 x8 | s16 => DD x13 x9 | s17 => DD x13 x10 | s18 => DD x13 x11 | s19 => DD x13 x12 | s20 => DD x13 x13 | s21 => DD x13 x14 | s22 => DD x13 x15 | s23 => DD x13 x16 | s24 => DD x13 x17 | s25 => DD x13 x18 | s26 => DD x13 x19 | s27 => DD x13 x20 | s28 => DD x13 x21 | s29 => DD x13 x22 | s30 => DD x13 x23 | s31 => DD x13 x24 | s32 => DD x13 x25 | s33 => DD x13 x26 | s34 => DD x13 x27 | s35 => DD x13 x28 | s36 => DD x13 x29 | s37 => DD x13 x30 | s38 => DD x13 x31 | s39 => DD x13 x32 | s40 => DD x13 x33 | s41 => DD x13 x34 | s42 => DD x13 x35 | s43 => DD x13 x36 | s44 => DD x13 x37 | s45 => DD x13 x38 | s46 => DD x13 x39 | s47 => DD x13 x40 | s48 => DD x13 x41 | s49 => DD x13 x42 | s50 => DD x13 x43 | s51 => DD x13 x44 | s52 => DD x13 x45 | s53 => DD x13 x46 | s54 => DD x13 x47 | s55 => DD x13 x48 | s56 => DD x13 x49 | s57 => DD x13 x50 | s58 => DD x13 x51 | s59 => DD x13 x52 | s60 => DD x13 x53 | s61 => DD x13 x54 | s62 => DD x13 x55 | s63 => DD x13 x56 | s64 => DD x13 x57 | s65 => DD x13 x58 | s66 => DD x13 x59 | s67 => DD x13 x60 | s68 => DD x13 x61 | s69 => DD x13 x62 | s70 => DD x13 x63 | s71 => DD x14 x0 | s72 => DD x14 x1 | s73 => DD x14 x2 | s74 => DD x14 x3 | s75 => DD x14 x4 | s76 => DD x14 x5 | s77 => DD x14 x6 | s78 => DD x14 x7 | s79 => DD x14 x8 | s80 => DD x14 x9 | s81 => DD x14 x10 | s82 => DD x14 x11 | s83 => DD x14 x12 | s84 => DD x14 x13 | s85 => DD x14 x14 | s86 => DD x14 x15 | s87 => DD x14 x16 | s88 => DD x14 x17 | s89 => DD x14 x18 | s90 => DD x14 x19 | s91 => DD x14 x20 | s92 => DD x14 x21 | s93 => DD x14 x22 | s94 => DD x14 x23 | s95 => DD x14 x24 | s96 => DD x14 x25 | s97 => DD x14 x26 | s98 => DD x14 x27 | s99 => DD x14 x28 | s100 => DD x14 x29 | s101 => DD x14 x30 | s102 => DD x14 x31 | s103 => DD x14 x32 | s104 => DD x14 x33 | s105 => DD x14 x34 | s106 => DD x14 x35 | s107 => DD x14 x36 | s108 => DD x14 x37 | s109 => DD x14 x38 | s110 => DD x14 x39 | s111 => DD x14 x40 | s112 => DD x14 x41 | s113 => DD x14 x42 | s114 => DD x14 x43 | s115 => DD x14 x44 | s116 => DD x14 x45 | s117 => DD x14 x46 | s118 => DD x14 x47 | s119 => DD x14 x48 | s120 => DD x14 x49 | s121 => DD x14 x50 | s122 => DD x14 x51 | s123 => DD x14 x52 | s124 => DD x14 x53 | s125 => DD x14 x54 | s126 => DD x14 x55 end.
Definition m826 (c : sum2) : dd := match c with s0 => DD x12 x58 | s1 => DD x12 x59 | s2 => DD x12 x60 | s3 => DD x12 x61 | s4 => DD x12 x62 | s5 => DD x12 x63 | s6 => DD x13 x0 | s7 => DD x13 x1 | s8 => DD x13 x2 | s9 => DD x13 x3 | s10 => DD x13 x4 | s11 => DD x13 x5 | s12 => DD x13 x6 | s13 => DD x13 x7 | s14 => DD x13 x8 | s15 => DD x13 x9 | s16 => DD x13 x10 | s17 => DD x13 x11 | s18 => DD x13 x12 | s19 => DD x13 x13 | s20 => DD x13 x14 | s21 => DD x13 x15 | s22 => DD x13 x16 | s23 => DD x13 x17 | s24 => DD x13 x18 | s25 => DD x13 x19 | s26 => DD x13 x20 | s27 => DD x13 x21 | s28 => DD x13 x22 | s29 => DD x13 x23 | s30 => DD x13 x24 | s31 => DD x13 x25 | s32 => DD x13 x26 | s33 => DD x13 x27 | s34 => DD x13 x28 | s35 => DD x13 x29 | s36 => DD x13 x30 | s37 => DD x13 x31 | s38 => DD x13 x32 | s39 => DD x13 x33 | s40 => DD x13 x34 | s41 => DD x13 x35 | s42 => DD x13 x36 | s43 => DD x13 x37 | s44 => DD x13 x38 | s45 => DD x13 x39 | s46 => DD x13 x40 | s47 => DD x13 x41 | s48 => DD x13 x42 | s49 => DD x13 x43 | s50 => DD x13 x44 | s51 => DD x13 x45 | s52 => DD x13 x46 | s53 => DD x13 x47 | s54 => DD x13 x48 | s55 => DD x13 x49 | s56 => DD x13 x50 | s57 => DD x13 x51 | s58 => DD x13 x52 | s59 => DD x13 x53 | s60 => DD x13 x54 | s61 => DD x13 x55 | s62 => DD x13 x56 | s63 => DD x13 x57 | s64 => DD x13 x58 | s65 => DD x13 x59 | s66 => DD x13 x60 | s67 => DD x13 x61 | s68 => DD x13 x62 | s69 => DD x13 x63 | s70 => DD x14 x0 | s71 => DD x14 x1 | s72 => DD x14 x2 | s73 => DD x14 x3 | s74 => DD x14 x4 | s75 => DD x14 x5 | s76 => DD x14 x6 | s77 => DD x14 x7 | s78 => DD x14 x8 | s79 => DD x14 x9 | s80 => DD x14 x10 | s81 => DD x14 x11 | s82 => DD x14 x12 | s83 => DD x14 x13 | s84 => DD x14 x14 | s85 => DD x14 x15 | s86 => DD x14 x16 | s87 => DD x14 x17 | s88 => DD x14 x18 | s89 => DD x14 x19 | s90 => DD x14 x20 | s91 => DD x14 x21 | s92 => DD x14 x22 | s93 => DD x14 x23 | s94 => DD x14 x24 | s95 => DD x14 x25 | s96 => DD x14 x26 | s97 => DD x14 x27 | s98 => DD x14 x28 | s99 => DD x14 x29 | s100 => DD x14 x30 | s101 => DD x14 x31 | s102 => DD x14 x32 | s103 => DD x14 x33 | s104 => DD x14 x34 | s105 => DD x14 x35 | s106 => DD x14 x36 | s107 => DD x14 x37 | s108 => DD x14 x38 | s109 => DD x14 x39 | s110 => DD x14 x40 | s111 => DD x14 x41 | s112 => DD x14 x42 | s113 => DD x14 x43 | s114 => DD x14 x44 | s115 => DD x14 x45 | s116 => DD x14 x46 | s117 => DD x14 x47 | s118 => DD x14 x48 | s119 => DD x14 x49 | s120 => DD x14 x50 | s121 => DD x14 x51 | s122 => DD x14 x52 | s123 => DD x14 x53 | s124 => DD x14 x54 | s125 => DD x14 x55 | s126 => DD x14 x56 end.
Definition m828 (c : sum2) : dd := match c with s0 => DD x12 x60 | s1 => DD x12 x61 | s2 => DD x12 x62 | s3 => DD x12 x63 | s4 => DD x13 x0 | s5 => DD x13 x1 | s6 => DD x13 x2 | s7 => DD x13 x3 | s8 => DD x13 x4 | s9 => DD x13 x5 | s10 => DD x13 x6 | s11 => DD x13 x7 | s12 => DD x13 x8 | s13 => DD x13 x9 | s14 => DD x13 x10 | s15 => DD x13 x11 | s16 => DD x13 x12 | s17 => DD x13 x13 | s18 => DD x13 x14 | s19 => DD x13 x15 | s20 => DD x13 x16 | s21 => DD x13 x17 | s22 => DD x13 x18 | s23 => DD x13 x19 | s24 => DD x13 x20 | s25 => DD x13 x21 | s26 => DD x13 x22 | s27 => DD x13 x23 | s28 => DD x13 x24 | s29 => DD x13 x25 | s30 => DD x13 x26 | s31 => DD x13 x27 | s32 => DD x13 x28 | s33 => DD x13 x29 | s34 => DD x13 x30 | s35 => DD x13 x31 | s36 => DD x13 x32 | s37 => DD x13 x33 | s38 => DD x13 x34 | s39 => DD x13 x35 | s40 => DD x13 x36 | s41 => DD x13 x37 | s42 => DD x13 x38 | s43 => DD x13 x39 | s44 => DD x13 x40 | s45 => DD x13 x41 | s46 => DD x13 x42 | s47 => DD x13 x43 | s48 => DD x13 x44 | s49 => DD x13 x45 | s50 => DD x13 x46 | s51 => DD x13 x47 | s52 => DD x13 x48 | s53 => DD x13 x49 | s54 => DD x13 x50 | s55 => DD x13 x51 | s56 => DD x13 x52 | s57 => DD x13 x53 | s58 => DD x13 x54 | s59 => DD x13 x55 | s60 => DD x13 x56 | s61 => DD x13 x57 | s62 => DD x13 x58 | s63 => DD x13 x59 | s64 => DD x13 x60 | s65 => DD x13 x61 | s66 => DD x13 x62 | s67 => DD x13 x63 | s68 => DD x14 x0 | s69 => DD x14 x1 | s70 => DD x14 x2 | s71 => DD x14 x3 | s72 => DD x14 x4 | s73 => DD x14 x5 | s74 => DD x14 x6 | s75 => DD x14 x7 | s76 => DD x14 x8 | s77 => DD x14 x9 | s78 => DD x14 x10 | s79 => DD x14 x11 | s80 => DD x14 x12 | s81 => DD x14 x13 | s82 => DD x14 x14 | s83 => DD x14 x15 | s84 => DD x14 x16 | s85 => DD x14 x17 | s86 => DD x14 x18 | s87 => DD x14 x19 | s88 => DD x14 x20 | s89 => DD x14 x21 | s90 => DD x14 x22 | s91 => DD x14 x23 | s92 => DD x14 x24 | s93 => DD x14 x25 | s94 => DD x14 x26 | s95 => DD x14 x27 | s96 => DD x14 x28 | s97 => DD x14 x29 | s98 => DD x14 x30 | s99 => DD x14 x31 | s100 => DD x14 x32 | s101 => DD x14 x33 | s102 => DD x14 x34 | s103 => DD x14 x35 | s104 => DD x14 x36 | s105 => DD x14 x37 | s106 => DD x14 x38 | s107 => DD x14 x39 | s108 => DD x14 x40 | s109 => DD x14 x41 | s110 => DD x14 x42 | s111 => DD x14 x43 | s112 => DD x14 x44 | s113 => DD x14 x45 | s114 => DD x14 x46 | s115 => DD x14 x47 | s116 => DD x14 x48 | s117 => DD x14 x49 | s118 => DD x14 x50 | s119 => DD x14 x51 | s120 => DD x14 x52 | s121 => DD x14 x53 | s122 => DD x14 x54 | s123 => DD x14 x55 | s124 => DD x14 x56 | s125 => DD x14 x57 | s126 => DD x14 x58 end.
Definition m832 (c : sum2) : dd := match c with s0 => DD x13 x0 | s1 => DD x13 x1 | s2 => DD x13 x2 | s3 => DD x13 x3 | s4 => DD x13 x4 | s5 => DD x13 x5 | s6 => DD x13 x6 | s7 => DD x13 x7 | s8 => DD x13 x8 | s9 => DD x13 x9 | s10 => DD x13 x10 | s11 => DD x13 x11 | s12 => DD x13 x12 | s13 => DD x13 x13 | s14 => DD x13 x14 | s15 => DD x13 x15 | s16 => DD x13 x16 | s17 => DD x13 x17 | s18 => DD x13 x18 | s19 => DD x13 x19 | s20 => DD x13 x20 | s21 => DD x13 x21 | s22 => DD x13 x22 | s23 => DD x13 x23 | s24 => DD x13 x24 | s25 => DD x13 x25 | s26 => DD x13 x26 | s27 => DD x13 x27 | s28 => DD x13 x28 | s29 => DD x13 x29 | s30 => DD x13 x30 | s31 => DD x13 x31 | s32 => DD x13 x32 | s33 => DD x13 x33 | s34 => DD x13 x34 | s35 => DD x13 x35 | s36 => DD x13 x36 | s37 => DD x13 x37 | s38 => DD x13 x38 | s39 => DD x13 x39 | s40 => DD x13 x40 | s41 => DD x13 x41 | s42 => DD x13 x42 | s43 => DD x13 x43 | s44 => DD x13 x44 | s45 => DD x13 x45 | s46 => DD x13 x46 | s47 => DD x13 x47 | s48 => DD x13 x48 | s49 => DD x13 x49 | s50 => DD x13 x50 | s51 => DD x13 x51 | s52 => DD x13 x52 | s53 => DD x13 x53 | s54 => DD x13 x54 | s55 => DD x13 x55 | s56 => DD x13 x56 | s57 => DD x13 x57 | s58 => DD x13 x58 | s59 => DD x13 x59 | s60 => DD x13 x60 | s61 => DD x13 x61 | s62 => DD x13 x62 | s63 => DD x13 x63 | s64 => DD x14 x0 | s65 => DD x14 x1 | s66 => DD x14 x2 | s67 => DD x14 x3 | s68 => DD x14 x4 | s69 => DD x14 x5 | s70 => DD x14 x6 | s71 => DD x14 x7 | s72 => DD x14 x8 | s73 => DD x14 x9 | s74 => DD x14 x10 | s75 => DD x14 x11 | s76 => DD x14 x12 | s77 => DD x14 x13 | s78 => DD x14 x14 | s79 => DD x14 x15 | s80 => DD x14 x16 | s81 => DD x14 x17 | s82 => DD x14 x18 | s83 => DD x14 x19 | s84 => DD x14 x20 | s85 => DD x14 x21 | s86 => DD x14 x22 | s87 => DD x14 x23 | s88 => DD x14 x24 | s89 => DD x14 x25 | s90 => DD x14 x26 | s91 => DD x14 x27 | s92 => DD x14 x28 | s93 => DD x14 x29 | s94 => DD x14 x30 | s95 => DD x14 x31 | s96 => DD x14 x32 | s97 => DD x14 x33 | s98 => DD x14 x34 | s99 => DD x14 x35 | s100 => DD x14 x36 | s101 => DD x14 x37 | s102 => DD x14 x38 | s103 => DD x14 x39 | s104 => DD x14 x40 | s105 => DD x14 x41 | s106 => DD x14 x42 | s107 => DD x14 x43 | s108 => DD x14 x44 | s109 => DD x14 x45 | s110 => DD x14 x46 | s111 => DD x14 x47 | s112 => DD x14 x48 | s113 => DD x14 x49 | s114 => DD x14 x50 | s115 => DD x14 x51 | s116 => DD x14 x52 | s117 => DD x14 x53 | s118 => DD x14 x54 | s119 => DD x14 x55 | s120 => DD x14 x56 | s121 => DD x14 x57 | s122 => DD x14 x58 | s123 => DD x14 x59 | s124 => DD x14 x60 | s125 => DD x14 x61 | s126 => DD x14 x62 end.
Definition m833 (c : sum2) : dd := match c with s0 => DD x13 x1 | s1 => DD x13 x2 | s2 => DD x13 x3 | s3 => DD x13 x4 | s4 => DD x13 x5 | s5 => DD x13 x6 | s6 => DD x13 x7 | s7 => DD x13 x8 | s8 => DD x13 x9 | s9 => DD x13 x10 | s10 => DD x13 x11 | s11 => DD x13 x12 | s12 => DD x13 x13 | s13 => DD x13 x14 | s14 => DD x13 x15 | s15 => DD x13 x16 | s16 => DD x13 x17 | s17 => DD x13 x18 | s18 => DD x13 x19 | s19 => DD x13 x20 | s20 => DD x13 x21 | s21 => DD x13 x22 | s22 => DD x13 x23 | s23 => DD x13 x24 | s24 => DD x13 x25 | s25 => DD x13 x26 | s26 => DD x13 x27 | s27 => DD x13 x28 | s28 => DD x13 x29 | s29 => DD x13 x30 | s30 => DD x13 x31 | s31 => DD x13 x32 | s32 => DD x13 x33 | s33 => DD x13 x34 | s34 => DD x13 x35 | s35 => DD x13 x36 | s36 => DD x13 x37 | s37 => DD x13 x38 | s38 => DD x13 x39 | s39 => DD x13 x40 | s40 => DD x13 x41 | s41 => DD x13 x42 | s42 => DD x13 x43 | s43 => DD x13 x44 | s44 => DD x13 x45 | s45 => DD x13 x46 | s46 => DD x13 x47 | s47 => DD x13 x48 | s48 => DD x13 x49 | s49 => DD x13 x50 | s50 => DD x13 x51 | s51 => DD x13 x52 | s52 => DD x13 x53 | s53 => DD x13 x54 | s54 => DD x13 x55 | s55 => DD x13 x56 | s56 => DD x13 x57 | s57 => DD x13 x58 | s58 => DD x13 x59 | s59 => DD x13 x60 | s60 => DD x13 x61 | s61 => DD x13 x62 | s62 => DD x13 x63 | s63 => DD x14 x0 | s64 => DD x14 x1 | s65 => DD x14 x2 | s66 => DD x14 x3 | s67 => DD x14 x4 | s68 => DD x14 x5 | s69 => DD x14 x6 | s70 => DD x14 x7 | s71 => DD x14 x8 | s72 => DD x14 x9 | s73 => DD x14 x10 | s74 => DD x14 x11 | s75 => DD x14 x12 | s76 => DD x14 x13 | s77 => DD x14 x14 | s78 => DD x14 x15 | s79 => DD x14 x16 | s80 => DD x14 x17 | s81 => DD x14 x18 | s82 => DD x14 x19 | s83 => DD x14 x20 | s84 => DD x14 x21 | s85 => DD x14 x22 | s86 => DD x14 x23 | s87 => DD x14 x24 | s88 => DD x14 x25 | s89 => DD x14 x26 | s90 => DD x14 x27 | s91 => DD x14 x28 | s92 => DD x14 x29 | s93 => DD x14 x30 | s94 => DD x14 x31 | s95 => DD x14 x32 | s96 => DD x14 x33 | s97 => DD x14 x34 | s98 => DD x14 x35 | s99 => DD x14 x36 | s100 => DD x14 x37 | s101 => DD x14 x38 | s102 => DD x14 x39 | s103 => DD x14 x40 | s104 => DD x14 x41 | s105 => DD x14 x42 | s106 => DD x14 x43 | s107 => DD x14 x44 | s108 => DD x14 x45 | s109 => DD x14 x46 | s110 => DD x14 x47 | s111 => DD x14 x48 | s112 => DD x14 x49 | s113 => DD x14 x50 | s114 => DD x14 x51 | s115 => DD x14 x52 | s116 => DD x14 x53 | s117 => DD x14 x54 | s118 => DD x14 x55 | s119 => DD x14 x56 | s120 => DD x14 x57 | s121 => DD x14 x58 | s122 => DD x14 x59 | s123 => DD x14 x60 | s124 => DD x14 x61 | s125 => DD x14 x62 | s126 => DD x14 x63 end.
Definition m836 (c : sum2) : dd := match c with s0 => DD x13 x4 | s1 => DD x13 x5 | s2 => DD x13 x6 | s3 => DD x13 x7 | s4 => DD x13 x8 | s5 => DD x13 x9 | s6 => DD x13 x10 | s7 => DD x13 x11 | s8 => DD x13 x12 | s9 => DD x13 x13 | s10 => DD x13 x14 | s11 => DD x13 x15 | s12 => DD x13 x16 | s13 => DD x13 x17 | s14 => DD x13 x18 | s15 => DD x13 x19 | s16 => DD x13 x20 | s17 => DD x13 x21 | s18 => DD x13 x22 | s19 => DD x13 x23 | s20 => DD x13 x24 | s21 => DD x13 x25 | s22 => DD x13 x26 | s23 => DD x13 x27 | s24 => DD x13 x28 | s25 => DD x13 x29 | s26 => DD x13 x30 | s27 => DD x13 x31 | s28 => DD x13 x32 | s29 => DD x13 x33 | s30 => DD x13 x34 | s31 => DD x13 x35 | s32 => DD x13 x36 | s33 => DD x13 x37 | s34 => DD x13 x38 | s35 => DD x13 x39 | s36 => DD x13 x40 | s37 => DD x13 x41 | s38 => DD x13 x42 | s39 => DD x13 x43 | s40 => DD x13 x44 | s41 => DD x13 x45 | s42 => DD x13 x46 | s43 => DD x13 x47 | s44 => DD x13 x48 | s45 => DD x13 x49 | s46 => DD x13 x50 | s47 => DD x13 x51 | s48 => DD x13 x52 | s49 => DD x13 x53 | s50 => DD x13 x54 | s51 => DD x13 x55 | s52 => DD x13 x56 | s53 => DD x13 x57 | s54 => DD x13 x58 | s55 => DD x13 x59 | s56 => DD x13 x60 | s57 => DD x13 x61 | s58 => DD x13 x62 | s59 => DD x13 x63 | s60 => DD x14 x0 | s61 => DD x14 x1 | s62 => DD x14 x2 | s63 => DD x14 x3 | s64 => DD x14 x4 | s65 => DD x14 x5 | s66 => DD x14 x6 | s67 => DD x14 x7 | s68 => DD x14 x8 | s69 => DD x14 x9 | s70 => DD x14 x10 | s71 => DD x14 x11 | s72 => DD x14 x12 | s73 => DD x14 x13 | s74 => DD x14 x14 | s75 => DD x14 x15 | s76 => DD x14 x16 | s77 => DD x14 x17 | s78 => DD x14 x18 | s79 => DD x14 x19 | s80 => DD x14 x20 | s81 => DD x14 x21 | s82 => DD x14 x22 | s83 => DD x14 x23 | s84 => DD x14 x24 | s85 => DD x14 x25 | s86 => DD x14 x26 | s87 => DD x14 x27 | s88 => DD x14 x28 | s89 => DD x14 x29 | s90 => DD x14 x30 | s91 => DD x14 x31 | s92 => DD x14 x32 | s93 => DD x14 x33 | s94 => DD x14 x34 | s95 => DD x14 x35 | s96 => DD x14 x36 | s97 => DD x14 x37 | s98 => DD x14 x38 | s99 => DD x14 x39 | s100 => DD x14 x40 | s101 => DD x14 x41 | s102 => DD x14 x42 | s103 => DD x14 x43 | s104 => DD x14 x44 | s105 => DD x14 x45 | s106 => DD x14 x46 | s107 => DD x14 x47 | s108 => DD x14 x48 | s109 => DD x14 x49 | s110 => DD x14 x50 | s111 => DD x14 x51 | s112 => DD x14 x52 | s113 => DD x14 x53 | s114 => DD x14 x54 | s115 => DD x14 x55 | s116 => DD x14 x56 | s117 => DD x14 x57 | s118 => DD x14 x58 | s119 => DD x14 x59 | s120 => DD x14 x60 | s121 => DD x14 x61 | s122 => DD x14 x62 | s123 => DD x14 x63 | s124 => DD x15 x0 | s125 => DD x15 x1 | s126 => DD x15 x2 end.
Definition m837 (c : sum2) : dd := match c with s0 => DD x13 x5 | s1 => DD x13 x6 | s2 => DD x13 x7 | s3 => DD x13 x8 | s4 => DD x13 x9 | s5 => DD x13 x10 | s6 => DD x13 x11 | s7 => DD x13 x12 | s8 => DD x13 x13 | s9 => DD x13 x14 | s10 => DD x13 x15 | s11 => DD x13 x16 | s12 => DD x13 x17 | s13 => DD x13 x18 | s14 => DD x13 x19 | s15 => DD x13 x20 | s16 => DD x13 x21 | s17 => DD x13 x22 | s18 => DD x13 x23 | s19 => DD x13 x24 | s20 => DD x13 x25 | s21 => DD x13 x26 | s22 => DD x13 x27 | s23 => DD x13 x28 | s24 => DD x13 x29 | s25 => DD x13 x30 | s26 => DD x13 x31 | s27 => DD x13 x32 | s28 => DD x13 x33 | s29 => DD x13 x34 | s30 => DD x13 x35 | s31 => DD x13 x36 | s32 => DD x13 x37 | s33 => DD x13 x38 | s34 => DD x13 x39 | s35 => DD x13 x40 | s36 => DD x13 x41 | s37 => DD x13 x42 | s38 => DD x13 x43 | s39 => DD x13 x44 | s40 => DD x13 x45 | s41 => DD x13 x46 | s42 => DD x13 x47 | s43 => DD x13 x48 | s44 => DD x13 x49 | s45 => DD x13 x50 | s46 => DD x13 x51 | s47 => DD x13 x52 | s48 => DD x13 x53 | s49 => DD x13 x54 | s50 => DD x13 x55 | s51 => DD x13 x56 | s52 => DD x13 x57 | s53 => DD x13 x58 | s54 => DD x13 x59 | s55 => DD x13 x60 | s56 => DD x13 x61 | s57 => DD x13 x62 | s58 => DD x13 x63 | s59 => DD x14 x0 | s60 => DD x14 x1 | s61 => DD x14 x2 | s62 => DD x14 x3 | s63 => DD x14 x4 | s64 => DD x14 x5 | s65 => DD x14 x6 | s66 => DD x14 x7 | s67 => DD x14 x8 | s68 => DD x14 x9 | s69 => DD x14 x10 | s70 => DD x14 x11 | s71 => DD x14 x12 | s72 => DD x14 x13 | s73 => DD x14 x14 | s74 => DD x14 x15 | s75 => DD x14 x16 | s76 => DD x14 x17 | s77 => DD x14 x18 | s78 => DD x14 x19 | s79 => DD x14 x20 | s80 => DD x14 x21 | s81 => DD x14 x22 | s82 => DD x14 x23 | s83 => DD x14 x24 | s84 => DD x14 x25 | s85 => DD x14 x26 | s86 => DD x14 x27 | s87 => DD x14 x28 | s88 => DD x14 x29 | s89 => DD x14 x30 | s90 => DD x14 x31 | s91 => DD x14 x32 | s92 => DD x14 x33 | s93 => DD x14 x34 | s94 => DD x14 x35 | s95 => DD x14 x36 | s96 => DD x14 x37 | s97 => DD x14 x38 | s98 => DD x14 x39 | s99 => DD x14 x40 | s100 => DD x14 x41 | s101 => DD x14 x42 | s102 => DD x14 x43 | s103 => DD x14 x44 | s104 => DD x14 x45 | s105 => DD x14 x46 | s106 => DD x14 x47 | s107 => DD x14 x48 | s108 => DD x14 x49 | s109 => DD x14 x50 | s110 => DD x14 x51 | s111 => DD x14 x52 | s112 => DD x14 x53 | s113 => DD x14 x54 | s114 => DD x14 x55 | s115 => DD x14 x56 | s116 => DD x14 x57 | s117 => DD x14 x58 | s118 => DD x14 x59 | s119 => DD x14 x60 | s120 => DD x14 x61 | s121 => DD x14 x62 | s122 => DD x14 x63 | s123 => DD x15 x0 | s124 => DD x15 x1 | s125 => DD x15 x2 | s126 => DD x15 x3 end.
Definition m840 (c : sum2) : dd := match c with s0 => DD x13 x8 | s1 => DD x13 x9 | s2 => DD x13 x10 | s3 => DD x13 x11 | s4 => DD x13 x12 | s5 => DD x13 x13 | s6 => DD x13 x14 | s7 => DD x13 x15 | s8 => DD x13 x16 | s9 => DD x13 x17 | s10 => DD x13 x18 | s11 => DD x13 x19 | s12 => DD x13 x20 | s13 => DD x13 x21 | s14 => DD x13 x22 | s15 => DD x13 x23 | s16 => DD x13 x24 | s17 => DD x13 x25 | s18 => DD x13 x26 | s19 => DD x13 x27 | s20 => DD x13 x28 | s21 => DD x13 x29 | s22 => DD x13 x30 | s23 => DD x13 x31 | s24 => DD x13 x32 | s25 => DD x13 x33 | s26 => DD x13 x34 | s27 => DD x13 x35 | s28 => DD x13 x36 | s29 => DD x13 x37 | s30 => DD x13 x38 | s31 => DD x13 x39 | s32 => DD x13 x40 | s33 => DD x13 x41 | s34 => DD x13 x42 | s35 => DD x13 x43 | s36 => DD x13 x44 | s37 => DD x13 x45 | s38 => DD x13 x46 | s39 => DD x13 x47 | s40 => DD x13 x48 | s41 => DD x13 x49 | s42 => DD x13 x50 | s43 => DD x13 x51 | s44 => DD x13 x52 | s45 => DD x13 x53 | s46 => DD x13 x54 | s47 => DD x13 x55 | s48 => DD x13 x56 | s49 => DD x13 x57 | s50 => DD x13 x58 | s51 => DD x13 x59 | s52 => DD x13 x60 | s53 => DD x13 x61 | s54 => DD x13 x62 | s55 => DD x13 x63 | s56 => DD x14 x0 | s57 => DD x14 x1 | s58 => DD x14 x2 | s59 => DD x14 x3 | s60 => DD x14 x4 | s61 => DD x14 x5 | s62 => DD x14 x6 | s63 => DD x14 x7 | s64 => DD x14 x8 | s65 => DD x14 x9 | s66 => DD x14 x10 | s67 => DD x14 x11 | s68 => DD x14 x12 | s69 => DD x14 x13 | s70 => DD x14 x14 | s71 => DD x14 x15 | s72 => DD x14 x16 | s73 => DD x14 x17 | s74 => DD x14 x18 | s75 => DD x14 x19 | s76 => DD x14 x20 | s77 => DD x14 x21 | s78 => DD x14 x22 | s79 => DD x14 x23 | s80 => DD x14 x24 | s81 => DD x14 x25 | s82 => DD x14 x26 | s83 => DD x14 x27 | s84 => DD x14 x28 | s85 => DD x14 x29 | s86 => DD x14 x30 | s87 => DD x14 x31 | s88 => DD x14 x32 | s89 => DD x14 x33 | s90 => DD x14 x34 | s91 => DD x14 x35 | s92 => DD x14 x36 | s93 => DD x14 x37 | s94 => DD x14 x38 | s95 => DD x14 x39 | s96 => DD x14 x40 | s97 => DD x14 x41 | s98 => DD x14 x42 | s99 => DD x14 x43 | s100 => DD x14 x44 | s101 => DD x14 x45 | s102 => DD x14 x46 | s103 => DD x14 x47 | s104 => DD x14 x48 | s105 => DD x14 x49 | s106 => DD x14 x50 | s107 => DD x14 x51 | s108 => DD x14 x52 | s109 => DD x14 x53 | s110 => DD x14 x54 | s111 => DD x14 x55 | s112 => DD x14 x56 | s113 => DD x14 x57 | s114 => DD x14 x58 | s115 => DD x14 x59 | s116 => DD x14 x60 | s117 => DD x14 x61 | s118 => DD x14 x62 | s119 => DD x14 x63 | s120 => DD x15 x0 | s121 => DD x15 x1 | s122 => DD x15 x2 | s123 => DD x15 x3 | s124 => DD x15 x4 | s125 => DD x15 x5 | s126 => DD x15 x6 end.
Definition m841 (c : sum2) : dd := match c with s0 => DD x13 x9 | s1 => DD x13 x10 | s2 => DD x13 x11 | s3 => DD x13 x12 | s4 => DD x13 x13 | s5 => DD x13 x14 | s6 => DD x13 x15 | s7 => DD x13 x16 | s8 => DD x13 x17 | s9 => DD x13 x18 | s10 => DD x13 x19 | s11 => DD x13 x20 | s12 => DD x13 x21 | s13 => DD x13 x22 | s14 => DD x13 x23 | s15 => DD x13 x24 | s16 => DD x13 x25 | s17 => DD x13 x26 | s18 => DD x13 x27 | s19 => DD x13 x28 | s20 => DD x13 x29 | s21 => DD x13 x30 | s22 => DD x13 x31 | s23 => DD x13 x32 | s24 => DD x13 x33 | s25 => DD x13 x34 | s26 => DD x13 x35 | s27 => DD x13 x36 | s28 => DD x13 x37 | s29 => DD x13 x38 | s30 => DD x13 x39 | s31 => DD x13 x40 | s32 => DD x13 x41 | s33 => DD x13 x42 | s34 => DD x13 x43 | s35 => DD x13 x44 | s36 => DD x13 x45 | s37 => DD x13 x46 | s38 => DD x13 x47 | s39 => DD x13 x48 | s40 => DD x13 x49 | s41 => DD x13 x50 | s42 => DD x13 x51 | s43 => DD x13 x52 | s44 => DD x13 x53 | s45 => DD x13 x54 | s46 => DD x13 x55 | s47 => DD x13 x56 | s48 => DD x13 x57 | s49 => DD x13 x58 | s50 => DD x13 x59 | s51 => DD x13 x60 | s52 => DD x13 x61 | s53 => DD x13 x62 | s54 => DD x13 x63 | s55 => DD x14 x0 | s56 => DD x14 x1 | s57 => DD x14 x2 | s58 => DD x14 x3 | s59 => DD x14 x4 | s60 => DD x14 x5 | s61 => DD x14 x6 | s62 => DD x14 x7 | s63 => DD x14 x8 | s64 => DD x14 x9 | s65 => DD x14 x10 | s66 => DD x14 x11 | s67 => DD x14 x12 | s68 => DD x14 x13 | s69 => DD x14 x14 | s70 => DD x14 x15 | s71 => DD x14 x16 | s72 => DD x14 x17 | s73 => DD x14 x18 | s74 => DD x14 x19 | s75 => DD x14 x20 | s76 => DD x14 x21 | s77 => DD x14 x22 | s78 => DD x14 x23 | s79 => DD x14 x24 | s80 => DD x14 x25 | s81 => DD x14 x26 | s82 => DD x14 x27 | s83 => DD x14 x28 | s84 => DD x14 x29 | s85 => DD x14 x30 | s86 => DD x14 x31 | s87 => DD x14 x32 | s88 => DD x14 x33 | s89 => DD x14 x34 | s90 => DD x14 x35 | s91 => DD x14 x36 | s92 => DD x14 x37 | s93 => DD x14 x38 | s94 => DD x14 x39 | s95 => DD x14 x40 | s96 => DD x14 x41 | s97 => DD x14 x42 | s98 => DD x14 x43 | s99 => DD x14 x44 | s100 => DD x14 x45 | s101 => DD x14 x46 | s102 => DD x14 x47 | s103 => DD x14 x48 | s104 => DD x14 x49 | s105 => DD x14 x50 | s106 => DD x14 x51 | s107 => DD x14 x52 | s108 => DD x14 x53 | s109 => DD x14 x54 | s110 => DD x14 x55 | s111 => DD x14 x56 | s112 => DD x14 x57 | s113 => DD x14 x58 | s114 => DD x14 x59 | s115 => DD x14 x60 | s116 => DD x14 x61 | s117 => DD x14 x62 | s118 => DD x14 x63 | s119 => DD x15 x0 | s120 => DD x15 x1 | s121 => DD x15 x2 | s122 => DD x15 x3 | s123 => DD x15 x4 | s124 => DD x15 x5 | s125 => DD x15 x6 | s126 => DD x15 x7 end.
Definition m846 (c : sum2) : dd := match c with s0 => DD x13 x14 | s1 => DD x13 x15 | s2 => DD x13 x16 | s3 => DD x13 x17 | s4 => DD x13 x18 | s5 => DD x13 x19 | s6 => DD x13 x20 | s7 => DD x13 x21 | s8 => DD x13 x22 | s9 => DD x13 x23 | s10 => DD x13 x24 | s11 => DD x13 x25 | s12 => DD x13 x26 | s13 => DD x13 x27 | s14 => DD x13 x28 | s15 => DD x13 x29 | s16 => DD x13 x30 | s17 => DD x13 x31 | s18 => DD x13 x32 | s19 => DD x13 x33 | s20 => DD x13 x34 | s21 => DD x13 x35 | s22 => DD x13 x36 | s23 => DD x13 x37 | s24 => DD x13 x38 | s25 => DD x13 x39 | s26 => DD x13 x40 | s27 => DD x13 x41 | s28 => DD x13 x42 | s29 => DD x13 x43 | s30 => DD x13 x44 | s31 => DD x13 x45 | s32 => DD x13 x46 | s33 => DD x13 x47 | s34 => DD x13 x48 | s35 => DD x13 x49 | s36 => DD x13 x50 | s37 => DD x13 x51 | s38 => DD x13 x52 | s39 => DD x13 x53 | s40 => DD x13 x54 | s41 => DD x13 x55 | s42 => DD x13 x56 | s43 => DD x13 x57 | s44 => DD x13 x58 | s45 => DD x13 x59 | s46 => DD x13 x60 | s47 => DD x13 x61 | s48 => DD x13 x62 | s49 => DD x13 x63 | s50 => DD x14 x0 | s51 => DD x14 x1 | s52 => DD x14 x2 | s53 => DD x14 x3 | s54 => DD x14 x4 | s55 => DD x14 x5 | s56 => DD x14 x6 | s57 => DD x14 x7 | s58 => DD x14 x8 | s59 => DD x14 x9 | s60 => DD x14 x10 | s61 => DD x14 x11 | s62 => DD x14 x12 | s63 => DD x14 x13 | s64 => DD x14 x14 | s65 => DD x14 x15 | s66 => DD x14 x16 | s67 => DD x14 x17 | s68 => DD x14 x18 | s69 => DD x14 x19 | s70 => DD x14 x20 | s71 => DD x14 x21 | s72 => DD x14 x22 | s73 => DD x14 x23 | s74 => DD x14 x24 | s75 => DD x14 x25 | s76 => DD x14 x26 | s77 => DD x14 x27 | s78 => DD x14 x28 | s79 => DD x14 x29 | s80 => DD x14 x30 | s81 => DD x14 x31 | s82 => DD x14 x32 | s83 => DD x14 x33 | s84 => DD x14 x34 | s85 => DD x14 x35 | s86 => DD x14 x36 | s87 => DD x14 x37 | s88 => DD x14 x38 | s89 => DD x14 x39 | s90 => DD x14 x40 | s91 => DD x14 x41 | s92 => DD x14 x42 | s93 => DD x14 x43 | s94 => DD x14 x44 | s95 => DD x14 x45 | s96 => DD x14 x46 | s97 => DD x14 x47 | s98 => DD x14 x48 | s99 => DD x14 x49 | s100 => DD x14 x50 | s101 => DD x14 x51 | s102 => DD x14 x52 | s103 => DD x14 x53 | s104 => DD x14 x54 | s105 => DD x14 x55 | s106 => DD x14 x56 | s107 => DD x14 x57 | s108 => DD x14 x58 | s109 => DD x14 x59 | s110 => DD x14 x60 | s111 => DD x14 x61 | s112 => DD x14 x62 | s113 => DD x14 x63 | s114 => DD x15 x0 | s115 => DD x15 x1 | s116 => DD x15 x2 | s117 => DD x15 x3 | s118 => DD x15 x4 | s119 => DD x15 x5 | s120 => DD x15 x6 | s121 => DD x15 x7 | s122 => DD x15 x8 | s123 => DD x15 x9 | s124 => DD x15 x10 | s125 => DD x15 x11 | s126 => DD x15 x12 end.
Definition m848 (c : sum2) : dd := match c with s0 => DD x13 x16 | s1 => DD x13 x17 | s2 => DD x13 x18 | s3 => DD x13 x19 | s4 => DD x13 x20 | s5 => DD x13 x21 | s6 => DD x13 x22 | s7 => DD x13 x23 | s8 => DD x13 x24 | s9 => DD x13 x25 | s10 => DD x13 x26 | s11 => DD x13 x27 | s12 => DD x13 x28 | s13 => DD x13 x29 | s14 => DD x13 x30 | s15 => DD x13 x31 | s16 => DD x13 x32 | s17 => DD x13 x33 | s18 => DD x13 x34 | s19 => DD x13 x35 | s20 => DD x13 x36 | s21 => DD x13 x37 | s22 => DD x13 x38 | s23 => DD x13 x39 | s24 => DD x13 x40 | s25 => DD x13 x41 | s26 => DD x13 x42 | s27 => DD x13 x43 | s28 => DD x13 x44 | s29 => DD x13 x45 | s30 => DD x13 x46 | s31 => DD x13 x47 | s32 => DD x13 x48 | s33 => DD x13 x49 | s34 => DD x13 x50 | s35 => DD x13 x51 | s36 => DD x13 x52 | s37 => DD x13 x53 | s38 => DD x13 x54 | s39 => DD x13 x55 | s40 => DD x13 x56 | s41 => DD x13 x57 | s42 => DD x13 x58 | s43 => DD x13 x59 | s44 => DD x13 x60 | s45 => DD x13 x61 | s46 => DD x13 x62 | s47 => DD x13 x63 | s48 => DD x14 x0 | s49 => DD x14 x1 | s50 => DD x14 x2 | s51 => DD x14 x3 | s52 => DD x14 x4 | s53 => DD x14 x5 | s54 => DD x14 x6 | s55 => DD x14 x7 | s56 => DD x14 x8 | s57 => DD x14 x9 | s58 => DD x14 x10 | s59 => DD x14 x11 | s60 => DD x14 x12 | s61 => DD x14 x13 | s62 => DD x14 x14 | s63 => DD x14 x15 | s64 => DD x14 x16 | s65 => DD x14 x17 | s66 => DD x14 x18 | s67 => DD x14 x19 | s68 => DD x14 x20 | s69 => DD x14 x21 | s70 => DD x14 x22 | s71 => DD x14 x23 | s72 => DD x14 x24 | s73 => DD x14 x25 | s74 => DD x14 x26 | s75 => DD x14 x27 | s76 => DD x14 x28 | s77 => DD x14 x29 | s78 => DD x14 x30 | s79 => DD x14 x31 | s80 => DD x14 x32 | s81 => DD x14 x33 | s82 => DD x14 x34 | s83 => DD x14 x35 | s84 => DD x14 x36 | s85 => DD x14 x37 | s86 => DD x14 x38 | s87 => DD x14 x39 | s88 => DD x14 x40 | s89 => DD x14 x41 | s90 => DD x14 x42 | s91 => DD x14 x43 | s92 => DD x14 x44 | s93 => DD x14 x45 | s94 => DD x14 x46 | s95 => DD x14 x47 | s96 => DD x14 x48 | s97 => DD x14 x49 | s98 => DD x14 x50 | s99 => DD x14 x51 | s100 => DD x14 x52 | s101 => DD x14 x53 | s102 => DD x14 x54 | s103 => DD x14 x55 | s104 => DD x14 x56 | s105 => DD x14 x57 | s106 => DD x14 x58 | s107 => DD x14 x59 | s108 => DD x14 x60 | s109 => DD x14 x61 | s110 => DD x14 x62 | s111 => DD x14 x63 | s112 => DD x15 x0 | s113 => DD x15 x1 | s114 => DD x15 x2 | s115 => DD x15 x3 | s116 => DD x15 x4 | s117 => DD x15 x5 | s118 => DD x15 x6 | s119 => DD x15 x7 | s120 => DD x15 x8 | s121 => DD x15 x9 | s122 => DD x15 x10 | s123 => DD x15 x11 | s124 => DD x15 x12 | s125 => DD x15 x13 | s126 => DD x15 x14 end.
Definition m850 (c : sum2) : dd := match c with s0 => DD x13 x18 | s1 => DD x13 x19 | s2 => DD x13 x20 | s3 => DD x13 x21 | s4 => DD x13 x22 | s5 => DD x13 x23 | s6 => DD x13 x24 | s7 => DD x13 x25 | s8 => DD x13 x26 | s9 => DD x13 x27 | s10 => DD x13 x28 | s11 => DD x13 x29 | s12 => DD x13 x30 | s13 => DD x13 x31 | s14 => DD x13 x32 | s15 => DD x13 x33 | s16 => DD x13 x34 | s17 => DD x13 x35 | s18 => DD x13 x36 | s19 => DD x13 x37 | s20 => DD x13 x38 | s21 => DD x13 x39 | s22 => DD x13 x40 | s23 => DD x13 x41 | s24 => DD x13 x42 | s25 => DD x13 x43 | s26 => DD x13 x44 | s27 => DD x13 x45 | s28 => DD x13 x46 | s29 => DD x13 x47 | s30 => DD x13 x48 | s31 => DD x13 x49 | s32 => DD x13 x50 | s33 => DD x13 x51 | s34 => DD x13 x52 | s35 => DD x13 x53 | s36 => DD x13 x54 | s37 => DD x13 x55 | s38 => DD x13 x56 | s39 => DD x13 x57 | s40 => DD x13 x58 | s41 => DD x13 x59 | s42 => DD x13 x60 | s43 => DD x13 x61 | s44 => DD x13 x62 | s45 => DD x13 x63 | s46 => DD x14 x0 | s47 => DD x14 x1 | s48 => DD x14 x2 | s49 => DD x14 x3 | s50 => DD x14 x4 | s51 => DD x14 x5 | s52 => DD x14 x6 | s53 => DD x14 x7 | s54 => DD x14 x8 | s55 => DD x14 x9 | s56 => DD x14 x10 | s57 => DD x14 x11 | s58 => DD x14 x12 | s59 => DD x14 x13 | s60 => DD x14 x14 | s61 => DD x14 x15 | s62 => DD x14 x16 | s63 => DD x14 x17 | s64 => DD x14 x18 | s65 => DD x14 x19 | s66 => DD x14 x20 | s67 => DD x14 x21 | s68 => DD x14 x22 | s69 => DD x14 x23 | s70 => DD x14 x24 | s71 => DD x14 x25 | s72 => DD x14 x26 | s73 => DD x14 x27 | s74 => DD x14 x28 | s75 => DD x14 x29 | s76 => DD x14 x30 | s77 => DD x14 x31 | s78 => DD x14 x32 | s79 => DD x14 x33 | s80 => DD x14 x34 | s81 => DD x14 x35 | s82 => DD x14 x36 | s83 => DD x14 x37 | s84 => DD x14 x38 | s85 => DD x14 x39 | s86 => DD x14 x40 | s87 => DD x14 x41 | s88 => DD x14 x42 | s89 => DD x14 x43 | s90 => DD x14 x44 | s91 => DD x14 x45 | s92 => DD x14 x46 | s93 => DD x14 x47 | s94 => DD x14 x48 | s95 => DD x14 x49 | s96 => DD x14 x50 | s97 => DD x14 x51 | s98 => DD x14 x52 | s99 => DD x14 x53 | s100 => DD x14 x54 | s101 => DD x14 x55 | s102 => DD x14 x56 | s103 => DD x14 x57 | s104 => DD x14 x58 | s105 => DD x14 x59 | s106 => DD x14 x60 | s107 => DD x14 x61 | s108 => DD x14 x62 | s109 => DD x14 x63 | s110 => DD x15 x0 | s111 => DD x15 x1 | s112 => DD x15 x2 | s113 => DD x15 x3 | s114 => DD x15 x4 | s115 => DD x15 x5 | s116 => DD x15 x6 | s117 => DD x15 x7 | s118 => DD x15 x8 | s119 => DD x15 x9 | s120 => DD x15 x10 | s121 => DD x15 x11 | s122 => DD x15 x12 | s123 => DD x15 x13 | s124 => DD x15 x14 | s125 => DD x15 x15 | s126 => DD x15 x16 end.
Definition m851 (c : sum2) : dd := match c with s0 => DD x13 x19 | s1 => DD x13 x20 | s2 => DD x13 x21 | s3 => DD x13 x22 | s4 => DD x13 x23 | s5 => DD x13 x24 | s6 => DD x13 x25 | s7 => DD x13 x26 | s8 => DD x13 x27 | s9 => DD x13 x28 | s10 => DD x13 x29 | s11 => DD x13 x30 | s12 => DD x13 x31 | s13 => DD x13 x32 | s14 => DD x13 x33 | s15 => DD x13 x34 | s16 => DD x13 x35 | s17 => DD x13 x36 | s18 => DD x13 x37 | s19 => DD x13 x38 | s20 => DD x13 x39 | s21 => DD x13 x40 | s22 => DD x13 x41 | s23 => DD x13 x42 | s24 => DD x13 x43 | s25 => DD x13 x44 | s26 => DD x13 x45 | s27 => DD x13 x46 | s28 => DD x13 x47 | s29 => DD x13 x48 | s30 => DD x13 x49 | s31 => DD x13 x50 | s32 => DD x13 x51 | s33 => DD x13 x52 | s34 => DD x13 x53 | s35 => DD x13 x54 | s36 => DD x13 x55 | s37 => DD x13 x56 | s38 => DD x13 x57 | s39 => DD x13 x58 | s40 => DD x13 x59 | s41 => DD x13 x60 | s42 => DD x13 x61 | s43 => DD x13 x62 | s44 => DD x13 x63 | s45 => DD x14 x0 | s46 => DD x14 x1 | s47 => DD x14 x2 | s48 => DD x14 x3 | s49 => DD x14 x4 | s50 => DD x14 x5 | s51 => DD x14 x6 | s52 => DD x14 x7 | s53 => DD x14 x8 | s54 => DD x14 x9 | s55 => DD x14 x10 | s56 => DD x14 x11 | s57 => DD x14 x12 | s58 => DD x14 x13 | s59 => DD x14 x14 | s60 => DD x14 x15 | s61 => DD x14 x16 | s62 => DD x14 x17 | s63 => DD x14 x18 | s64 => DD x14 x19 | s65 => DD x14 x20 | s66 => DD x14 x21 | s67 => DD x14 x22 | s68 => DD x14 x23 | s69 => DD x14 x24 | s70 => DD x14 x25 | s71 => DD x14 x26 | s72 => DD x14 x27 | s73 => DD x14 x28 | s74 => DD x14 x29 | s75 => DD x14 x30 | s76 => DD x14 x31 | s77 => DD x14 x32 | s78 => DD x14 x33 | s79 => DD x14 x34 | s80 => DD x14 x35 | s81 => DD x14 x36 | s82 => DD x14 x37 | s83 => DD x14 x38 | s84 => DD x14 x39 | s85 => DD x14 x40 | s86 => DD x14 x41 | s87 => DD x14 x42 | s88 => DD x14 x43 | s89 => DD x14 x44 | s90 => DD x14 x45 | s91 => DD x14 x46 | s92 => DD x14 x47 | s93 => DD x14 x48 | s94 => DD x14 x49 | s95 => DD x14 x50 | s96 => DD x14 x51 | s97 => DD x14 x52 | s98 => DD x14 x53 | s99 => DD x14 x54 | s100 => DD x14 x55 | s101 => DD x14 x56 | s102 => DD x14 x57 | s103 => DD x14 x58 | s104 => DD x14 x59 | s105 => DD x14 x60 | s106 => DD x14 x61 | s107 => DD x14 x62 | s108 => DD x14 x63 | s109 => DD x15 x0 | s110 => DD x15 x1 | s111 => DD x15 x2 | s112 => DD x15 x3 | s113 => DD x15 x4 | s114 => DD x15 x5 | s115 => DD x15 x6 | s116 => DD x15 x7 | s117 => DD x15 x8 | s118 => DD x15 x9 | s119 => DD x15 x10 | s120 => DD x15 x11 | s121 => DD x15 x12 | s122 => DD x15 x13 | s123 => DD x15 x14 | s124 => DD x15 x15 | s125 => DD x15 x16 | s126 => DD x15 x17 end.
Definition m854 (c : sum2) : dd := match c with s0 => DD x13 x22 | s1 => DD x13 x23 | s2 => DD x13 x24 | s3 => DD x13 x25 | s4 => DD x13 x26 | s5 => DD x13 x27 | s6 => DD x13 x28 | s7 => DD x13 x29 | s8 => DD x13 x30 | s9 => DD x13 x31 | s10 => DD x13 x32 | s11 => DD x13 x33 | s12 => DD x13 x34 | s13 => DD x13 x35 | s14 => DD x13 x36 | s15 => DD x13 x37 | s16 => DD x13 x38 | s17 => DD x13 x39 | s18 => DD x13 x40 | s19 => DD x13 x41 | s20 => DD x13 x42 | s21 => DD x13 x43 | s22 => DD x13 x44 | s23 => DD x13 x45 | s24 => DD x13 x46 | s25 => DD x13 x47 | s26 => DD x13 x48 | s27 => DD x13 x49 | s28 => DD x13 x50 | s29 => DD x13 x51 | s30 => DD x13 x52 | s31 => DD x13 x53 | s32 => DD x13 x54 | s33 => DD x13 x55 | s34 => DD x13 x56 | s35 => DD x13 x57 | s36 => DD x13 x58 | s37 => DD x13 x59 | s38 => DD x13 x60 | s39 => DD x13 x61 | s40 => DD x13 x62 | s41 => DD x13 x63 | s42 => DD x14 x0 | s43 => DD x14 x1 | s44 => DD x14 x2 | s45 => DD x14 x3 | s46 => DD x14 x4 | s47 => DD x14 x5 | s48 => DD x14 x6 | s49 => DD x14 x7 | s50 => DD x14 x8 | s51 => DD x14 x9 | s52 => DD x14 x10 | s53 => DD x14 x11 | s54 => DD x14 x12 | s55 => DD x14 x13 | s56 => DD x14 x14 | s57 => DD x14 x15 | s58 => DD x14 x16 | s59 => DD x14 x17 | s60 => DD x14 x18 | s61 => DD x14 x19 | s62 => DD x14 x20 | s63 => DD x14 x21 | s64 => DD x14 x22 | s65 => DD x14 x23 | s66 => DD x14 x24 | s67 => DD x14 x25 | s68 => DD x14 x26 | s69 => DD x14 x27 | s70 => DD x14 x28 | s71 => DD x14 x29 | s72 => DD x14 x30 | s73 => DD x14 x31 | s74 => DD x14 x32 | s75 => DD x14 x33 | s76 => DD x14 x34 | s77 => DD x14 x35 | s78 => DD x14 x36 | s79 => DD x14 x37 | s80 => DD x14 x38 | s81 => DD x14 x39 | s82 => DD x14 x40 | s83 => DD x14 x41 | s84 => DD x14 x42 | s85 => DD x14 x43 | s86 => DD x14 x44 | s87 => DD x14 x45 | s88 => DD x14 x46 | s89 => DD x14 x47 | s90 => DD x14 x48 | s91 => DD x14 x49 | s92 => DD x14 x50 | s93 => DD x14 x51 | s94 => DD x14 x52 | s95 => DD x14 x53 | s96 => DD x14 x54 | s97 => DD x14 x55 | s98 => DD x14 x56 | s99 => DD x14 x57 | s100 => DD x14 x58 | s101 => DD x14 x59 | s102 => DD x14 x60 | s103 => DD x14 x61 | s104 => DD x14 x62 | s105 => DD x14 x63 | s106 => DD x15 x0 | s107 => DD x15 x1 | s108 => DD x15 x2 | s109 => DD x15 x3 | s110 => DD x15 x4 | s111 => DD x15 x5 | s112 => DD x15 x6 | s113 => DD x15 x7 | s114 => DD x15 x8 | s115 => DD x15 x9 | s116 => DD x15 x10 | s117 => DD x15 x11 | s118 => DD x15 x12 | s119 => DD x15 x13 | s120 => DD x15 x14 | s121 => DD x15 x15 | s122 => DD x15 x16 | s123 => DD x15 x17 | s124 => DD x15 x18 | s125 => DD x15 x19 | s126 => DD x15 x20 end.
Definition m855 (c : sum2) : dd := match c with s0 => DD x13 x23 | s1 => DD x13 x24 | s2 => DD x13 x25 | s3 => DD x13 x26 | s4 => DD x13 x27 | s5 => DD x13 x28 | s6 => DD x13 x29 | s7 => DD x13 x30 | s8 => DD x13 x31 | s9 => DD x13 x32 | s10 => DD x13 x33 | s11 => DD x13 x34 | s12 => DD x13 x35 | s13 => DD x13 x36 | s14 => DD x13 x37 | s15 => DD x13 x38 | s16 => DD x13 x39 | s17 => DD x13 x40 | s18 => DD x13 x41 | s19 => DD x13 x42 | s20 => DD x13 x43 | s21 => DD x13 x44 | s22 => DD x13 x45 | s23 => DD x13 x46 | s24 => DD x13 x47 | s25 => DD x13 x48 | s26 => DD x13 x49 | s27 => DD x13 x50 | s28 => DD x13 x51 | s29 => DD x13 x52 | s30 => DD x13 x53 | s31 => DD x13 x54 | s32 => DD x13 x55 | s33 => DD x13 x56 | s34 => DD x13 x57 | s35 => DD x13 x58 | s36 => DD x13 x59 | s37 => DD x13 x60 | s38 => DD x13 x61 | s39 => DD x13 x62 | s40 => DD x13 x63 | s41 => DD x14 x0 | s42 => DD x14 x1 | s43 => DD x14 x2 | s44 => DD x14 x3 | s45 => DD x14 x4 | s46 => DD x14 x5 | s47 => DD x14 x6 | s48 => DD x14 x7 | s49 => DD x14 x8 | s50 => DD x14 x9 | s51 => DD x14 x10 | s52 => DD x14 x11 | s53 => DD x14 x12 | s54 => DD x14 x13 | s55 => DD x14 x14 | s56 => DD x14 x15 | s57 => DD x14 x16 | s58 => DD x14 x17 | s59 => DD x14 x18 | s60 => DD x14 x19 | s61 => DD x14 x20 | s62 => DD x14 x21 | s63 => DD x14 x22 | s64 => DD x14 x23 | s65 => DD x14 x24 | s66 => DD x14 x25 | s67 => DD x14 x26 | s68 => DD x14 x27 | s69 => DD x14 x28 | s70 => DD x14 x29 | s71 => DD x14 x30 | s72 => DD x14 x31 | s73 => DD x14 x32 | s74 => DD x14 x33 | s75 => DD x14 x34 | s76 => DD x14 x35 | s77 => DD x14 x36 | s78 => DD x14 x37 | s79 => DD x14 x38 | s80 => DD x14 x39 | s81 => DD x14 x40 | s82 => DD x14 x41 | s83 => DD x14 x42 | s84 => DD x14 x43 | s85 => DD x14 x44 | s86 => DD x14 x45 | s87 => DD x14 x46 | s88 => DD x14 x47 | s89 => DD x14 x48 | s90 => DD x14 x49 | s91 => DD x14 x50 | s92 => DD x14 x51 | s93 => DD x14 x52 | s94 => DD x14 x53 | s95 => DD x14 x54 | s96 => DD x14 x55 | s97 => DD x14 x56 | s98 => DD x14 x57 | s99 => DD x14 x58 | s100 => DD x14 x59 | s101 => DD x14 x60 | s102 => DD x14 x61 | s103 => DD x14 x62 | s104 => DD x14 x63 | s105 => DD x15 x0 | s106 => DD x15 x1 | s107 => DD x15 x2 | s108 => DD x15 x3 | s109 => DD x15 x4 | s110 => DD x15 x5 | s111 => DD x15 x6 | s112 => DD x15 x7 | s113 => DD x15 x8 | s114 => DD x15 x9 | s115 => DD x15 x10 | s116 => DD x15 x11 | s117 => DD x15 x12 | s118 => DD x15 x13 | s119 => DD x15 x14 | s120 => DD x15 x15 | s121 => DD x15 x16 | s122 => DD x15 x17 | s123 => DD x15 x18 | s124 => DD x15 x19 | s125 => DD x15 x20 | s126 => DD x15 x21 end.
Definition m858 (c : sum2) : dd := match c with s0 => DD x13 x26 | s1 => DD x13 x27 | s2 => DD x13 x28 | s3 => DD x13 x29 | s4 => DD x13 x30 | s5 => DD x13 x31 | s6 => DD x13 x32 | s7 => DD x13 x33 | s8 => DD x13 x34 | s9 => DD x13 x35 | s10 => DD x13 x36 | s11 => DD x13 x37 | s12 => DD x13 x38 | s13 => DD x13 x39 | s14 => DD x13 x40 | s15 => DD x13 x41 | s16 => DD x13 x42 | s17 => DD x13 x43 | s18 => DD x13 x44 | s19 => DD x13 x45 | s20 => DD x13 x46 | s21 => DD x13 x47 | s22 => DD x13 x48 | s23 => DD x13 x49 | s24 => DD x13 x50 | s25 => DD x13 x51 | s26 => DD x13 x52 | s27 => DD x13 x53 | s28 => DD x13 x54 | s29 => DD x13 x55 | s30 => DD x13 x56 | s31 => DD x13 x57 | s32 => DD x13 x58 | s33 => DD x13 x59 | s34 => DD x13 x60 | s35 => DD x13 x61 | s36 => DD x13 x62 | s37 => DD x13 x63 | s38 => DD x14 x0 | s39 => DD x14 x1 | s40 => DD x14 x2 | s41 => DD x14 x3 | s42 => DD x14 x4 | s43 => DD x14 x5 | s44 => DD x14 x6 | s45 => DD x14 x7 | s46 => DD x14 x8 | s47 => DD x14 x9 | s48 => DD x14 x10 | s49 => DD x14 x11 | s50 => DD x14 x12 | s51 => DD x14 x13 | s52 => DD x14 x14 | s53 => DD x14 x15 | s54 => DD x14 x16 | s55 => DD x14 x17 | s56 => DD x14 x18 | s57 => DD x14 x19 | s58 => DD x14 x20 | s59 => DD x14 x21 | s60 => DD x14 x22 | s61 => DD x14 x23 | s62 => DD x14 x24 | s63 => DD x14 x25 | s64 => DD x14 x26 | s65 => DD x14 x27 | s66 => DD x14 x28 | s67 => DD x14 x29 | s68 => DD x14 x30 | s69 => DD x14 x31 | s70 => DD x14 x32 | s71 => DD x14 x33 | s72 => DD x14 x34 | s73 => DD x14 x35 | s74 => DD x14 x36 | s75 => DD x14 x37 | s76 => DD x14 x38 | s77 => DD x14 x39 | s78 => DD x14 x40 | s79 => DD x14 x41 | s80 => DD x14 x42 | s81 => DD x14 x43 | s82 => DD x14 x44 | s83 => DD x14 x45 | s84 => DD x14 x46 | s85 => DD x14 x47 | s86 => DD x14 x48 | s87 => DD x14 x49 | s88 => DD x14 x50 | s89 => DD x14 x51 | s90 => DD x14 x52 | s91 => DD x14 x53 | s92 => DD x14 x54 | s93 => DD x14 x55 | s94 => DD x14 x56 | s95 => DD x14 x57 | s96 => DD x14 x58 | s97 => DD x14 x59 | s98 => DD x14 x60 | s99 => DD x14 x61 | s100 => DD x14 x62 | s101 => DD x14 x63 | s102 => DD x15 x0 | s103 => DD x15 x1 | s104 => DD x15 x2 | s105 => DD x15 x3 | s106 => DD x15 x4 | s107 => DD x15 x5 | s108 => DD x15 x6 | s109 => DD x15 x7 | s110 => DD x15 x8 | s111 => DD x15 x9 | s112 => DD x15 x10 | s113 => DD x15 x11 | s114 => DD x15 x12 | s115 => DD x15 x13 | s116 => DD x15 x14 | s117 => DD x15 x15 | s118 => DD x15 x16 | s119 => DD x15 x17 | s120 => DD x15 x18 | s121 => DD x15 x19 | s122 => DD x15 x20 | s123 => DD x15 x21 | s124 => DD x15 x22 | s125 => DD x15 x23 | s126 => DD x15 x24 end.
Definition m860 (c : sum2) : dd := match c with s0 => DD x13 x28 | s1 => DD x13 x29 | s2 => DD x13 x30 | s3 => DD x13 x31 | s4 => DD x13 x32 | s5 => DD x13 x33 | s6 => DD x13 x34 | s7 => DD x13 x35 | s8 => DD x13 x36 | s9 => DD x13 x37 | s10 => DD x13 x38 | s11 => DD x13 x39 | s12 => DD x13 x40 | s13 => DD x13 x41 | s14 => DD x13 x42 | s15 => DD x13 x43 | s16 => DD x13 x44 | s17 => DD x13 x45 | s18 => DD x13 x46 | s19 => DD x13 x47 | s20 => DD x13 x48 | s21 => DD x13 x49 | s22 => DD x13 x50 | s23 => DD x13 x51 | s24 => DD x13 x52 | s25 => DD x13 x53 | s26 => DD x13 x54 | s27 => DD x13 x55 | s28 => DD x13 x56 | s29 => DD x13 x57 | s30 => DD x13 x58 | s31 => DD x13 x59 | s32 => DD x13 x60 | s33 => DD x13 x61 | s34 => DD x13 x62 | s35 => DD x13 x63 | s36 => DD x14 x0 | s37 => DD x14 x1 | s38 => DD x14 x2 | s39 => DD x14 x3 | s40 => DD x14 x4 | s41 => DD x14 x5 | s42 => DD x14 x6 | s43 => DD x14 x7 | s44 => DD x14 x8 | s45 => DD x14 x9 | s46 => DD x14 x10 | s47 => DD x14 x11 | s48 => DD x14 x12 | s49 => DD x14 x13 | s50 => DD x14 x14 | s51 => DD x14 x15 | s52 => DD x14 x16 | s53 => DD x14 x17 | s54 => DD x14 x18 | s55 => DD x14 x19 | s56 => DD x14 x20 | s57 => DD x14 x21 | s58 => DD x14 x22 | s59 => DD x14 x23 | s60 => DD x14 x24 | s61 => DD x14 x25 | s62 => DD x14 x26 | s63 => DD x14 x27 | s64 => DD x14 x28 | s65 => DD x14 x29 | s66 => DD x14 x30 | s67 => DD x14 x31 | s68 => DD x14 x32 | s69 => DD x14 x33 | s70 => DD x14 x34 | s71 => DD x14 x35 | s72 => DD x14 x36 | s73 => DD x14 x37 | s74 => DD x14 x38 | s75 => DD x14 x39 | s76 => DD x14 x40 | s77 => DD x14 x41 | s78 => DD x14 x42 | s79 => DD x14 x43 | s80 => DD x14 x44 | s81 => DD x14 x45 | s82 => DD x14 x46 | s83 => DD x14 x47 | s84 => DD x14 x48 | s85 => DD x14 x49 | s86 => DD x14 x50 | s87 => DD x14 x51 | s88 => DD x14 x52 | s89 => DD x14 x53 | s90 => DD x14 x54 | s91 => DD x14 x55 | s92 => DD x14 x56 | s93 => DD x14 x57 | s94 => DD x14 x58 | s95 => DD x14 x59 | s96 => DD x14 x60 | s97 => DD x14 x61 | s98 => DD x14 x62 | s99 => DD x14 x63 | s100 => DD x15 x0 | s101 => DD x15 x1 | s102 => DD x15 x2 | s103 => DD x15 x3 | s104 => DD x15 x4 | s105 => DD x15 x5 | s106 => DD x15 x6 | s107 => DD x15 x7 | s108 => DD x15 x8 | s109 => DD x15 x9 | s110 => DD x15 x10 | s111 => DD x15 x11 | s112 => DD x15 x12 | s113 => DD x15 x13 | s114 => DD x15 x14 | s115 => DD x15 x15 | s116 => DD x15 x16 | s117 => DD x15 x17 | s118 => DD x15 x18 | s119 => DD x15 x19 | s120 => DD x15 x20 | s121 => DD x15 x21 | s122 => DD x15 x22 | s123 => DD x15 x23 | s124 => DD x15 x24 | s125 => DD x15 x25 | s126 => DD x15 x26 end.
Definition m861 (c : sum2) : dd := match c with s0 => DD x13 x29 | s1 => DD x13 x30 | s2 => DD x13 x31 | s3 => DD x13 x32 | s4 => DD x13 x33 | s5 => DD x13 x34 | s6 => DD x13 x35 | s7 => DD x13 x36 | s8 => DD x13 x37 | s9 => DD x13 x38 | s10 => DD x13 x39 | s11 => DD x13 x40 | s12 => DD x13 x41 | s13 => DD x13 x42 | s14 => DD x13 x43 | s15 => DD x13 x44 | s16 => DD x13 x45 | s17 => DD x13 x46 | s18 => DD x13 x47 | s19 => DD x13 x48 | s20 => DD x13 x49 | s21 => DD x13 x50 | s22 => DD x13 x51 | s23 => DD x13 x52 | s24 => DD x13 x53 | s25 => DD x13 x54 | s26 => DD x13 x55 | s27 => DD x13 x56 | s28 => DD x13 x57 | s29 => DD x13 x58 | s30 => DD x13 x59 | s31 => DD x13 x60 | s32 => DD x13 x61 | s33 => DD x13 x62 | s34 => DD x13 x63 | s35 => DD x14 x0 | s36 => DD x14 x1 | s37 => DD x14 x2 | s38 => DD x14 x3 | s39 => DD x14 x4 | s40 => DD x14 x5 | s41 => DD x14 x6 | s42 => DD x14 x7 | s43 => DD x14 x8 | s44 => DD x14 x9 | s45 => DD x14 x10 | s46 => DD x14 x11 | s47 => DD x14 x12 | s48 => DD x14 x13 | s49 => DD x14 x14 | s50 => DD x14 x15 | s51 => DD x14 x16 | s52 => DD x14 x17 | s53 => DD x14 x18 | s54 => DD x14 x19 | s55 => DD x14 x20 | s56 => DD x14 x21 | s57 => DD x14 x22 | s58 => DD x14 x23 | s59 => DD x14 x24 | s60 => DD x14 x25 | s61 => DD x14 x26 | s62 => DD x14 x27 | s63 => DD x14 x28 | s64 => DD x14 x29 | s65 => DD x14 x30 | s66 => DD x14 x31 | s67 => DD x14 x32 | s68 => DD x14 x33 | s69 => DD x14 x34 | s70 => DD x14 x35 | s71 => DD x14 x36 | s72 => DD x14 x37 | s73 => DD x14 x38 | s74 => DD x14 x39 | s75 => DD x14 x40 | s76 => DD x14 x41 | s77 => DD x14 x42 | s78 => DD x14 x43 | s79 => DD x14 x44 | s80 => DD x14 x45 | s81 => DD x14 x46 | s82 => DD x14 x47 | s83 => DD x14 x48 | s84 => DD x14 x49 | s85 => DD x14 x50 | s86 => DD x14 x51 | s87 => DD x14 x52 | s88 => DD x14 x53 | s89 => DD x14 x54 | s90 => DD x14 x55 | s91 => DD x14 x56 | s92 => DD x14 x57 | s93 => DD x14 x58 | s94 => DD x14 x59 | s95 => DD x14 x60 | s96 => DD x14 x61 | s97 => DD x14 x62 | s98 => DD x14 x63 | s99 => DD x15 x0 | s100 => DD x15 x1 | s101 => DD x15 x2 | s102 => DD x15 x3 | s103 => DD x15 x4 | s104 => DD x15 x5 | s105 => DD x15 x6 | s106 => DD x15 x7 | s107 => DD x15 x8 | s108 => DD x15 x9 | s109 => DD x15 x10 | s110 => DD x15 x11 | s111 => DD x15 x12 | s112 => DD x15 x13 | s113 => DD x15 x14 | s114 => DD x15 x15 | s115 => DD x15 x16 | s116 => DD x15 x17 | s117 => DD x15 x18 | s118 => DD x15 x19 | s119 => DD x15 x20 | s120 => DD x15 x21 | s121 => DD x15 x22 | s122 => DD x15 x23 | s123 => DD x15 x24 | s124 => DD x15 x25 | s125 => DD x15 x26 | s126 => DD x15 x27 end.
Definition m864 (c : sum2) : dd := match c with s0 => DD x13 x32 | s1 => DD x13 x33 | s2 => DD x13 x34 | s3 => DD x13 x35 | s4 => DD x13 x36 | s5 => DD x13 x37 | s6 => DD x13 x38 | s7 => DD x13 x39 | s8 => DD x13 x40 | s9 => DD x13 x41 | s10 => DD x13 x42 | s11 => DD x13 x43 | s12 => DD x13 x44 | s13 => DD x13 x45 | s14 => DD x13 x46 | s15 => DD x13 x47 | s16 => DD x13 x48 | s17 => DD x13 x49 | s18 => DD x13 x50 | s19 => DD x13 x51 | s20 => DD x13 x52 | s21 => DD x13 x53 | s22 => DD x13 x54 | s23 => DD x13 x55 | s24 => DD x13 x56 | s25 => DD x13 x57 | s26 => DD x13 x58 | s27 => DD x13 x59 | s28 => DD x13 x60 | s29 => DD x13 x61 | s30 => DD x13 x62 | s31 => DD x13 x63 | s32 => DD x14 x0 | s33 => DD x14 x1 | s34 => DD x14 x2 | s35 => DD x14 x3 | s36 => DD x14 x4 | s37 => DD x14 x5 | s38 => DD x14 x6 | s39 => DD x14 x7 | s40 => DD x14 x8 | s41 => DD x14 x9 | s42 => DD x14 x10 | s43 => DD x14 x11 | s44 => DD x14 x12 | s45 => DD x14 x13 | s46 => DD x14 x14 | s47 => DD x14 x15 | s48 => DD x14 x16 | s49 => DD x14 x17 | s50 => DD x14 x18 | s51 => DD x14 x19 | s52 => DD x14 x20 | s53 => DD x14 x21 | s54 => DD x14 x22 | s55 => DD x14 x23 | s56 => DD x14 x24 | s57 => DD x14 x25 | s58 => DD x14 x26 | s59 => DD x14 x27 | s60 => DD x14 x28 | s61 => DD x14 x29 | s62 => DD x14 x30 | s63 => DD x14 x31 | s64 => DD x14 x32 | s65 => DD x14 x33 | s66 => DD x14 x34 | s67 => DD x14 x35 | s68 => DD x14 x36 | s69 => DD x14 x37 | s70 => DD x14 x38 | s71 => DD x14 x39 | s72 => DD x14 x40 | s73 => DD x14 x41 | s74 => DD x14 x42 | s75 => DD x14 x43 | s76 => DD x14 x44 | s77 => DD x14 x45 | s78 => DD x14 x46 | s79 => DD x14 x47 | s80 => DD x14 x48 | s81 => DD x14 x49 | s82 => DD x14 x50 | s83 => DD x14 x51 | s84 => DD x14 x52 | s85 => DD x14 x53 | s86 => DD x14 x54 | s87 => DD x14 x55 | s88 => DD x14 x56 | s89 => DD x14 x57 | s90 => DD x14 x58 | s91 => DD x14 x59 | s92 => DD x14 x60 | s93 => DD x14 x61 | s94 => DD x14 x62 | s95 => DD x14 x63 | s96 => DD x15 x0 | s97 => DD x15 x1 | s98 => DD x15 x2 | s99 => DD x15 x3 | s100 => DD x15 x4 | s101 => DD x15 x5 | s102 => DD x15 x6 | s103 => DD x15 x7 | s104 => DD x15 x8 | s105 => DD x15 x9 | s106 => DD x15 x10 | s107 => DD x15 x11 | s108 => DD x15 x12 | s109 => DD x15 x13 | s110 => DD x15 x14 | s111 => DD x15 x15 | s112 => DD x15 x16 | s113 => DD x15 x17 | s114 => DD x15 x18 | s115 => DD x15 x19 | s116 => DD x15 x20 | s117 => DD x15 x21 | s118 => DD x15 x22 | s119 => DD x15 x23 | s120 => DD x15 x24 | s121 => DD x15 x25 | s122 => DD x15 x26 | s123 => DD x15 x27 | s124 => DD x15 x28 | s125 => DD x15 x29 | s126 => DD x15 x30 end.
Definition m867 (c : sum2) : dd := match c with s0 => DD x13 x35 | s1 => DD x13 x36 | s2 => DD x13 x37 | s3 => DD x13 x38 | s4 => DD x13 x39 | s5 => DD x13 x40 | s6 => DD x13 x41 | s7 => DD x13 x42 | s8 => DD x13 x43 | s9 => DD x13 x44 | s10 => DD x13 x45 | s11 => DD x13 x46 | s12 => DD x13 x47 | s13 => DD x13 x48 | s14 => DD x13 x49 | s15 => DD x13 x50 | s16 => DD x13 x51 | s17 => DD x13 x52 | s18 => DD x13 x53 | s19 => DD x13 x54 | s20 => DD x13 x55 | s21 => DD x13 x56 | s22 => DD x13 x57 | s23 => DD x13 x58 | s24 => DD x13 x59 | s25 => DD x13 x60 | s26 => DD x13 x61 | s27 => DD x13 x62 | s28 => DD x13 x63 | s29 => DD x14 x0 | s30 => DD x14 x1 | s31 => DD x14 x2 | s32 => DD x14 x3 | s33 => DD x14 x4 | s34 => DD x14 x5 | s35 => DD x14 x6 | s36 => DD x14 x7 | s37 => DD x14 x8 | s38 => DD x14 x9 | s39 => DD x14 x10 | s40 => DD x14 x11 | s41 => DD x14 x12 | s42 => DD x14 x13 | s43 => DD x14 x14 | s44 => DD x14 x15 | s45 => DD x14 x16 | s46 => DD x14 x17 | s47 => DD x14 x18 | s48 => DD x14 x19 | s49 => DD x14 x20 | s50 => DD x14 x21 | s51 => DD x14 x22 | s52 => DD x14 x23 | s53 => DD x14 x24 | s54 => DD x14 x25 | s55 => DD x14 x26 | s56 => DD x14 x27 | s57 => DD x14 x28 | s58 => DD x14 x29 | s59 => DD x14 x30 | s60 => DD x14 x31 | s61 => DD x14 x32 | s62 => DD x14 x33 | s63 => DD x14 x34 | s64 => DD x14 x35 | s65 => DD x14 x36 | s66 => DD x14 x37 | s67 => DD x14 x38 | s68 => DD x14 x39 | s69 => DD x14 x40 | s70 => DD x14 x41 | s71 => DD x14 x42 | s72 => DD x14 x43 | s73 => DD x14 x44 | s74 => DD x14 x45 | s75 => DD x14 x46 | s76 => DD x14 x47 | s77 => DD x14 x48 | s78 => DD x14 x49 | s79 => DD x14 x50 | s80 => DD x14 x51 | s81 => DD x14 x52 | s82 => DD x14 x53 | s83 => DD x14 x54 | s84 => DD x14 x55 | s85 => DD x14 x56 | s86 => DD x14 x57 | s87 => DD x14 x58 | s88 => DD x14 x59 | s89 => DD x14 x60 | s90 => DD x14 x61 | s91 => DD x14 x62 | s92 => DD x14 x63 | s93 => DD x15 x0 | s94 => DD x15 x1 | s95 => DD x15 x2 | s96 => DD x15 x3 | s97 => DD x15 x4 | s98 => DD x15 x5 | s99 => DD x15 x6 | s100 => DD x15 x7 | s101 => DD x15 x8 | s102 => DD x15 x9 | s103 => DD x15 x10 | s104 => DD x15 x11 | s105 => DD x15 x12 | s106 => DD x15 x13 | s107 => DD x15 x14 | s108 => DD x15 x15 | s109 => DD x15 x16 | s110 => DD x15 x17 | s111 => DD x15 x18 | s112 => DD x15 x19 | s113 => DD x15 x20 | s114 => DD x15 x21 | s115 => DD x15 x22 | s116 => DD x15 x23 | s117 => DD x15 x24 | s118 => DD x15 x25 | s119 => DD x15 x26 | s120 => DD x15 x27 | s121 => DD x15 x28 | s122 => DD x15 x29 | s123 => DD x15 x30 | s124 => DD x15 x31 | s125 => DD x15 x32 | s126 => DD x15 x33 end.
Definition m868 (c : sum2) : dd := match c with s0 => DD x13 x36 | s1 => DD x13 x37 | s2 => DD x13 x38 | s3 => DD x13 x39 | s4 => DD x13 x40 | s5 => DD x13 x41 | s6 => DD x13 x42 | s7 => DD x13 x43 | s8 => DD x13 x44 | s9 => DD x13 x45 | s10 => DD x13 x46 | s11 => DD x13 x47 | s12 => DD x13 x48 | s13 => DD x13 x49 | s14 => DD x13 x50 | s15 => DD x13 x51 | s16 => DD x13 x52 | s17 => DD x13 x53 | s18 => DD x13 x54 | s19 => DD x13 x55 | s20 => DD x13 x56 | s21 => DD x13 x57 | s22 => DD x13 x58 | s23 => DD x13 x59 | s24 => DD x13 x60 | s25 => DD x13 x61 | s26 => DD x13 x62 | s27 => DD x13 x63 | s28 => DD x14 x0 | s29 => DD x14 x1 | s30 => DD x14 x2 | s31 => DD x14 x3 | s32 => DD x14 x4 | s33 => DD x14 x5 | s34 => DD x14 x6 | s35 => DD x14 x7 | s36 => DD x14 x8 | s37 => DD x14 x9 | s38 => DD x14 x10 | s39 => DD x14 x11 | s40 => DD x14 x12 | s41 => DD x14 x13 | s42 => DD x14 x14 | s43 => DD x14 x15 | s44 => DD x14 x16 | s45 => DD x14 x17 | s46 => DD x14 x18 | s47 => DD x14 x19 | s48 => DD x14 x20 | s49 => DD x14 x21 | s50 => DD x14 x22 | s51 => DD x14 x23 | s52 => DD x14 x24 | s53 => DD x14 x25 | s54 => DD x14 x26 | s55 => DD x14 x27 | s56 => DD x14 x28 | s57 => DD x14 x29 | s58 => DD x14 x30 | s59 => DD x14 x31 | s60 => DD x14 x32 | s61 => DD x14 x33 | s62 => DD x14 x34 | s63 => DD x14 x35 | s64 => DD x14 x36 | s65 => DD x14 x37 | s66 => DD x14 x38 | s67 => DD x14 x39 | s68 => DD x14 x40 | s69 => DD x14 x41 | s70 => DD x14 x42 | s71 => DD x14 x43 | s72 => DD x14 x44 | s73 => DD x14 x45 | s74 => DD x14 x46 | s75 => DD x14 x47 | s76 => DD x14 x48 | s77 => DD x14 x49 | s78 => DD x14 x50 | s79 => DD x14 x51 | s80 => DD x14 x52 | s81 => DD x14 x53 | s82 => DD x14 x54 | s83 => DD x14 x55 | s84 => DD x14 x56 | s85 => DD x14 x57 | s86 => DD x14 x58 | s87 => DD x14 x59 | s88 => DD x14 x60 | s89 => DD x14 x61 | s90 => DD x14 x62 | s91 => DD x14 x63 | s92 => DD x15 x0 | s93 => DD x15 x1 | s94 => DD x15 x2 | s95 => DD x15 x3 | s96 => DD x15 x4 | s97 => DD x15 x5 | s98 => DD x15 x6 | s99 => DD x15 x7 | s100 => DD x15 x8 | s101 => DD x15 x9 | s102 => DD x15 x10 | s103 => DD x15 x11 | s104 => DD x15 x12 | s105 => DD x15 x13 | s106 => DD x15 x14 | s107 => DD x15 x15 | s108 => DD x15 x16 | s109 => DD x15 x17 | s110 => DD x15 x18 | s111 => DD x15 x19 | s112 => DD x15 x20 | s113 => DD x15 x21 | s114 => DD x15 x22 | s115 => DD x15 x23 | s116 => DD x15 x24 | s117 => DD x15 x25 | s118 => DD x15 x26 | s119 => DD x15 x27 | s120 => DD x15 x28 | s121 => DD x15 x29 | s122 => DD x15 x30 | s123 => DD x15 x31 | s124 => DD x15 x32 | s125 => DD x15 x33 | s126 => DD x15 x34 end.
Definition m870 (c : sum2) : dd := match c with s0 => DD x13 x38 | s1 => DD x13 x39 | s2 => DD x13 x40 | s3 => DD x13 x41 | s4 => DD x13 x42 | s5 => DD x13 x43 | s6 => DD x13 x44 | s7 => DD x13 x45 | s8 => DD x13 x46 | s9 => DD x13 x47 | s10 => DD x13 x48 | s11 => DD x13 x49 | s12 => DD x13 x50 | s13 => DD x13 x51 | s14 => DD x13 x52 | s15 => DD x13 x53 | s16 => DD x13 x54 | s17 => DD x13 x55 | s18 => DD x13 x56 | s19 => DD x13 x57 | s20 => DD x13 x58 | s21 => DD x13 x59 | s22 => DD x13 x60 | s23 => DD x13 x61 | s24 => DD x13 x62 | s25 => DD x13 x63 | s26 => DD x14 x0 | s27 => DD x14 x1 | s28 => DD x14 x2 | s29 => DD x14 x3 | s30 => DD x14 x4 | s31 => DD x14 x5 | s32 => DD x14 x6 | s33 => DD x14 x7 | s34 => DD x14 x8 | s35 => DD x14 x9 | s36 => DD x14 x10 | s37 => DD x14 x11 | s38 => DD x14 x12 | s39 => DD x14 x13 | s40 => DD x14 x14 | s41 => DD x14 x15 | s42 => DD x14 x16 | s43 => DD x14 x17 | s44 => DD x14 x18 | s45 => DD x14 x19 | s46 => DD x14 x20 | s47 => DD x14 x21 | s48 => DD x14 x22 | s49 => DD x14 x23 | s50 => DD x14 x24 | s51 => DD x14 x25 | s52 => DD x14 x26 | s53 => DD x14 x27 | s54 => DD x14 x28 | s55 => DD x14 x29 | s56 => DD x14 x30 | s57 => DD x14 x31 | s58 => DD x14 x32 | s59 => DD x14 x33 | s60 => DD x14 x34 | s61 => DD x14 x35 | s62 => DD x14 x36 | s63 => DD x14 x37 | s64 => DD x14 x38 | s65 => DD x14 x39 | s66 => DD x14 x40 | s67 => DD x14 x41 | s68 => DD x14 x42 | s69 => DD x14 x43 | s70 => DD x14 x44 | s71 => DD x14 x45 | s72 => DD x14 x46 | s73 => DD x14 x47 | s74 => DD x14 x48 | s75 => DD x14 x49 | s76 => DD x14 x50 | s77 => DD x14 x51 | s78 => DD x14 x52 | s79 => DD x14 x53 | s80 => DD x14 x54 | s81 => DD x14 x55 | s82 => DD x14 x56 | s83 => DD x14 x57 | s84 => DD x14 x58 | s85 => DD x14 x59 | s86 => DD x14 x60 | s87 => DD x14 x61 | s88 => DD x14 x62 | s89 => DD x14 x63 | s90 => DD x15 x0 | s91 => DD x15 x1 | s92 => DD x15 x2 | s93 => DD x15 x3 | s94 => DD x15 x4 | s95 => DD x15 x5 | s96 => DD x15 x6 | s97 => DD x15 x7 | s98 => DD x15 x8 | s99 => DD x15 x9 | s100 => DD x15 x10 | s101 => DD x15 x11 | s102 => DD x15 x12 | s103 => DD x15 x13 | s104 => DD x15 x14 | s105 => DD x15 x15 | s106 => DD x15 x16 | s107 => DD x15 x17 | s108 => DD x15 x18 | s109 => DD x15 x19 | s110 => DD x15 x20 | s111 => DD x15 x21 | s112 => DD x15 x22 | s113 => DD x15 x23 | s114 => DD x15 x24 | s115 => DD x15 x25 | s116 => DD x15 x26 | s117 => DD x15 x27 | s118 => DD x15 x28 | s119 => DD x15 x29 | s120 => DD x15 x30 | s121 => DD x15 x31 | s122 => DD x15 x32 | s123 => DD x15 x33 | s124 => DD x15 x34 | s125 => DD x15 x35 | s126 => DD x15 x36 end.
Definition m874 (c : sum2) : dd := match c with s0 => DD x13 x42 | s1 => DD x13 x43 | s2 => DD x13 x44 | s3 => DD x13 x45 | s4 => DD x13 x46 | s5 => DD x13 x47 | s6 => DD x13 x48 | s7 => DD x13 x49 | s8 => DD x13 x50 | s9 => DD x13 x51 | s10 => DD x13 x52 | s11 => DD x13 x53 | s12 => DD x13 x54 | s13 => DD x13 x55 | s14 => DD x13 x56 | s15 => DD x13 x57 | s16 => DD x13 x58 | s17 => DD x13 x59 | s18 => DD x13 x60 | s19 => DD x13 x61 | s20 => DD x13 x62 | s21 => DD x13 x63 | s22 => DD x14 x0 | s23 => DD x14 x1 | s24 => DD x14 x2 | s25 => DD x14 x3 | s26 => DD x14 x4 | s27 => DD x14 x5 | s28 => DD x14 x6 | s29 => DD x14 x7 | s30 => DD x14 x8 | s31 => DD x14 x9 | s32 => DD x14 x10 | s33 => DD x14 x11 | s34 => DD x14 x12 | s35 => DD x14 x13 | s36 => DD x14 x14 | s37 => DD x14 x15 | s38 => DD x14 x16 | s39 => DD x14 x17 | s40 => DD x14 x18 | s41 => DD x14 x19 | s42 => DD x14 x20 | s43 => DD x14 x21 | s44 => DD x14 x22 | s45 => DD x14 x23 | s46 => DD x14 x24 | s47 => DD x14 x25 | s48 => DD x14 x26 | s49 => DD x14 x27 | s50 => DD x14 x28 | s51 => DD x14 x29 | s52 => DD x14 x30 | s53 => DD x14 x31 | s54 => DD x14 x32 | s55 => DD x14 x33 | s56 => DD x14 x34 | s57 => DD x14 x35 | s58 => DD x14 x36 | s59 => DD x14 x37 | s60 => DD x14 x38 | s61 => DD x14 x39 | s62 => DD x14 x40 | s63 => DD x14 x41 | s64 => DD x14 x42 | s65 => DD x14 x43 | s66 => DD x14 x44 | s67 => DD x14 x45 | s68 => DD x14 x46 | s69 => DD x14 x47 | s70 => DD x14 x48 | s71 => DD x14 x49 | s72 => DD x14 x50 | s73 => DD x14 x51 | s74 => DD x14 x52 | s75 => DD x14 x53 | s76 => DD x14 x54 | s77 => DD x14 x55 | s78 => DD x14 x56 | s79 => DD x14 x57 | s80 => DD x14 x58 | s81 => DD x14 x59 | s82 => DD x14 x60 | s83 => DD x14 x61 | s84 => DD x14 x62 | s85 => DD x14 x63 | s86 => DD x15 x0 | s87 => DD x15 x1 | s88 => DD x15 x2 | s89 => DD x15 x3 | s90 => DD x15 x4 | s91 => DD x15 x5 | s92 => DD x15 x6 | s93 => DD x15 x7 | s94 => DD x15 x8 | s95 => DD x15 x9 | s96 => DD x15 x10 | s97 => DD x15 x11 | s98 => DD x15 x12 | s99 => DD x15 x13 | s100 => DD x15 x14 | s101 => DD x15 x15 | s102 => DD x15 x16 | s103 => DD x15 x17 | s104 => DD x15 x18 | s105 => DD x15 x19 | s106 => DD x15 x20 | s107 => DD x15 x21 | s108 => DD x15 x22 | s109 => DD x15 x23 | s110 => DD x15 x24 | s111 => DD x15 x25 | s112 => DD x15 x26 | s113 => DD x15 x27 | s114 => DD x15 x28 | s115 => DD x15 x29 | s116 => DD x15 x30 | s117 => DD x15 x31 | s118 => DD x15 x32 | s119 => DD x15 x33 | s120 => DD x15 x34 | s121 => DD x15 x35 | s122 => DD x15 x36 | s123 => DD x15 x37 | s124 => DD x15 x38 | s125 => DD x15 x39 | s126 => DD x15 x40 end.
Definition m875 (c : sum2) : dd := match c with s0 => DD x13 x43 | s1 => DD x13 x44 | s2 => DD x13 x45 | s3 => DD x13 x46 | s4 => DD x13 x47 | s5 => DD x13 x48 | s6 => DD x13 x49 | s7 => DD x13 x50 | s8 => DD x13 x51 | s9 => DD x13 x52 | s10 => DD x13 x53 | s11 => DD x13 x54 | s12 => DD x13 x55 | s13 => DD x13 x56 | s14 => DD x13 x57 | s15 => DD x13 x58 | s16 => DD x13 x59 | s17 => DD x13 x60 | s18 => DD x13 x61 | s19 => DD x13 x62 | s20 => DD x13 x63 | s21 => DD x14 x0 | s22 => DD x14 x1 | s23 => DD x14 x2 | s24 => DD x14 x3 | s25 => DD x14 x4 | s26 => DD x14 x5 | s27 => DD x14 x6 | s28 => DD x14 x7 | s29 => DD x14 x8 | s30 => DD x14 x9 | s31 => DD x14 x10 | s32 => DD x14 x11 | s33 => DD x14 x12 | s34 => DD x14 x13 | s35 => DD x14 x14 | s36 => DD x14 x15 | s37 => DD x14 x16 | s38 => DD x14 x17 | s39 => DD x14 x18 | s40 => DD x14 x19 | s41 => DD x14 x20 | s42 => DD x14 x21 | s43 => DD x14 x22 | s44 => DD x14 x23 | s45 => DD x14 x24 | s46 => DD x14 x25 | s47 => DD x14 x26 | s48 => DD x14 x27 | s49 => DD x14 x28 | s50 => DD x14 x29 | s51 => DD x14 x30 | s52 => DD x14 x31 | s53 => DD x14 x32 | s54 => DD x14 x33 | s55 => DD x14 x34 | s56 => DD x14 x35 | s57 => DD x14 x36 | s58 => DD x14 x37 | s59 => DD x14 x38 | s60 => DD x14 x39 | s61 => DD x14 x40 | s62 => DD x14 x41 | s63 => DD x14 x42 | s64 => DD x14 x43 | s65 => DD x14 x44 | s66 => DD x14 x45 | s67 => DD x14 x46 | s68 => DD x14 x47 | s69 => DD x14 x48 | s70 => DD x14 x49 | s71 => DD x14 x50 | s72 => DD x14 x51 | s73 => DD x14 x52 | s74 => DD x14 x53 | s75 => DD x14 x54 | s76 => DD x14 x55 | s77 => DD x14 x56 | s78 => DD x14 x57 | s79 => DD x14 x58 | s80 => DD x14 x59 | s81 => DD x14 x60 | s82 => DD x14 x61 | s83 => DD x14 x62 | s84 => DD x14 x63 | s85 => DD x15 x0 | s86 => DD x15 x1 | s87 => DD x15 x2 | s88 => DD x15 x3 | s89 => DD x15 x4 | s90 => DD x15 x5 | s91 => DD x15 x6 | s92 => DD x15 x7 | s93 => DD x15 x8 | s94 => DD x15 x9 | s95 => DD x15 x10 | s96 => DD x15 x11 | s97 => DD x15 x12 | s98 => DD x15 x13 | s99 => DD x15 x14 | s100 => DD x15 x15 | s101 => DD x15 x16 | s102 => DD x15 x17 | s103 => DD x15 x18 | s104 => DD x15 x19 | s105 => DD x15 x20 | s106 => DD x15 x21 | s107 => DD x15 x22 | s108 => DD x15 x23 | s109 => DD x15 x24 | s110 => DD x15 x25 | s111 => DD x15 x26 | s112 => DD x15 x27 | s113 => DD x15 x28 | s114 => DD x15 x29 | s115 => DD x15 x30 | s116 => DD x15 x31 | s117 => DD x15 x32 | s118 => DD x15 x33 | s119 => DD x15 x34 | s120 => DD x15 x35 | s121 => DD x15 x36 | s122 => DD x15 x37 | s123 => DD x15 x38 | s124 => DD x15 x39 | s125 => DD x15 x40 | s126 => DD x15 x41 end.
Definition m880 (c : sum2) : dd := match c with s0 => DD x13 x48 | s1 => DD x13 x49 | s2 => DD x13 x50 | s3 => DD x13 x51 | s4 => DD x13 x52 | s5 => DD x13 x53 | s6 => DD x13 x54 | s7 => DD x13 x55 | s8 => DD x13 x56 | s9 => DD x13 x57 | s10 => DD x13 x58 | s11 => DD x13 x59 | s12 => DD x13 x60 | s13 => DD x13 x61 | s14 => DD x13 x62 | s15 => DD x13 x63 | s16 => DD x14 x0 | s17 => DD x14 x1 | s18 => DD x14 x2 | s19 => DD x14 x3 | s20 => DD x14 x4 | s21 => DD x14 x5 | s22 => DD x14 x6 | s23 => DD x14 x7 | s24 => DD x14 x8 | s25 => DD x14 x9 | s26 => DD x14 x10 | s27 => DD x14 x11 | s28 => DD x14 x12 | s29 => DD x14 x13 | s30 => DD x14 x14 | s31 => DD x14 x15 | s32 => DD x14 x16 | s33 => DD x14 x17 | s34 => DD x14 x18 | s35 => DD x14 x19 | s36 => DD x14 x20 | s37 => DD x14 x21 | s38 => DD x14 x22 | s39 => DD x14 x23 | s40 => DD x14 x24 | s41 => DD x14 x25 | s42 => DD x14 x26 | s43 => DD x14 x27 | s44 => DD x14 x28 | s45 => DD x14 x29 | s46 => DD x14 x30 | s47 => DD x14 x31 | s48 => DD x14 x32 | s49 => DD x14 x33 | s50 => DD x14 x34 | s51 => DD x14 x35 | s52 => DD x14 x36 | s53 => DD x14 x37 | s54 => DD x14 x38 | s55 => DD x14 x39 | s56 => DD x14 x40 | s57 => DD x14 x41 | s58 => DD x14 x42 | s59 => DD x14 x43 | s60 => DD x14 x44 | s61 => DD x14 x45 | s62 => DD x14 x46 | s63 => DD x14 x47 | s64 => DD x14 x48 | s65 => DD x14 x49 | s66 => DD x14 x50 | s67 => DD x14 x51 | s68 => DD x14 x52 | s69 => DD x14 x53 | s70 => DD x14 x54 | s71 => DD x14 x55 | s72 => DD x14 x56 | s73 => DD x14 x57 | s74 => DD x14 x58 | s75 => DD x14 x59 | s76 => DD x14 x60 | s77 => DD x14 x61 | s78 => DD x14 x62 | s79 => DD x14 x63 | s80 => DD x15 x0 | s81 => DD x15 x1 | s82 => DD x15 x2 | s83 => DD x15 x3 | s84 => DD x15 x4 | s85 => DD x15 x5 | s86 => DD x15 x6 | s87 => DD x15 x7 | s88 => DD x15 x8 | s89 => DD x15 x9 | s90 => DD x15 x10 | s91 => DD x15 x11 | s92 => DD x15 x12 | s93 => DD x15 x13 | s94 => DD x15 x14 | s95 => DD x15 x15 | s96 => DD x15 x16 | s97 => DD x15 x17 | s98 => DD x15 x18 | s99 => DD x15 x19 | s100 => DD x15 x20 | s101 => DD x15 x21 | s102 => DD x15 x22 | s103 => DD x15 x23 | s104 => DD x15 x24 | s105 => DD x15 x25 | s106 => DD x15 x26 | s107 => DD x15 x27 | s108 => DD x15 x28 | s109 => DD x15 x29 | s110 => DD x15 x30 | s111 => DD x15 x31 | s112 => DD x15 x32 | s113 => DD x15 x33 | s114 => DD x15 x34 | s115 => DD x15 x35 | s116 => DD x15 x36 | s117 => DD x15 x37 | s118 => DD x15 x38 | s119 => DD x15 x39 | s120 => DD x15 x40 | s121 => DD x15 x41 | s122 => DD x15 x42 | s123 => DD x15 x43 | s124 => DD x15 x44 | s125 => DD x15 x45 | s126 => DD x15 x46 end.
Definition m882 (c : sum2) : dd := match c with s0 => DD x13 x50 | s1 => DD x13 x51 | s2 => DD x13 x52 | s3 => DD x13 x53 | s4 => DD x13 x54 | s5 => DD x13 x55 | s6 => DD x13 x56 | s7 => DD x13 x57 | s8 => DD x13 x58 | s9 => DD x13 x59 | s10 => DD x13 x60 | s11 => DD x13 x61 | s12 => DD x13 x62 | s13 => DD x13 x63 | s14 => DD x14 x0 | s15 => DD x14 x1 | s16 => DD x14 x2 | s17 => DD x14 x3 | s18 => DD x14 x4 | s19 => DD x14 x5 | s20 => DD x14 x6 | s21 => DD x14 x7 | s22 => DD x14 x8 | s23 => DD x14 x9 | s24 => DD x14 x10 | s25 => DD x14 x11 | s26 => DD x14 x12 | s27 => DD x14 x13 | s28 => DD x14 x14 | s29 => DD x14 x15 | s30 => DD x14 x16 | s31 => DD x14 x17 | s32 => DD x14 x18 | s33 => DD x14 x19 | s34 => DD x14 x20 | s35 => DD x14 x21 | s36 => DD x14 x22 | s37 => DD x14 x23 | s38 => DD x14 x24 | s39 => DD x14 x25 | s40 => DD x14 x26 | s41 => DD x14 x27 | s42 => DD x14 x28 | s43 => DD x14 x29 | s44 => DD x14 x30 | s45 => DD x14 x31 | s46 => DD x14 x32 | s47 => DD x14 x33 | s48 => DD x14 x34 | s49 => DD x14 x35 | s50 => DD x14 x36 | s51 => DD x14 x37 | s52 => DD x14 x38 | s53 => DD x14 x39 | s54 => DD x14 x40 | s55 => DD x14 x41 | s56 => DD x14 x42 | s57 => DD x14 x43 | s58 => DD x14 x44 | s59 => DD x14 x45 | s60 => DD x14 x46 | s61 => DD x14 x47 | s62 => DD x14 x48 | s63 => DD x14 x49 | s64 => DD x14 x50 | s65 => DD x14 x51 | s66 => DD x14 x52 | s67 => DD x14 x53 | s68 => DD x14 x54 | s69 => DD x14 x55 | s70 => DD x14 x56 | s71 => DD x14 x57 | s72 => DD x14 x58 | s73 => DD x14 x59 | s74 => DD x14 x60 | s75 => DD x14 x61 | s76 => DD x14 x62 | s77 => DD x14 x63 | s78 => DD x15 x0 | s79 => DD x15 x1 | s80 => DD x15 x2 | s81 => DD x15 x3 | s82 => DD x15 x4 | s83 => DD x15 x5 | s84 => DD x15 x6 | s85 => DD x15 x7 | s86 => DD x15 x8 | s87 => DD x15 x9 | s88 => DD x15 x10 | s89 => DD x15 x11 | s90 => DD x15 x12 | s91 => DD x15 x13 | s92 => DD x15 x14 | s93 => DD x15 x15 | s94 => DD x15 x16 | s95 => DD x15 x17 | s96 => DD x15 x18 | s97 => DD x15 x19 | s98 => DD x15 x20 | s99 => DD x15 x21 | s100 => DD x15 x22 | s101 => DD x15 x23 | s102 => DD x15 x24 | s103 => DD x15 x25 | s104 => DD x15 x26 | s105 => DD x15 x27 | s106 => DD x15 x28 | s107 => DD x15 x29 | s108 => DD x15 x30 | s109 => DD x15 x31 | s110 => DD x15 x32 | s111 => DD x15 x33 | s112 => DD x15 x34 | s113 => DD x15 x35 | s114 => DD x15 x36 | s115 => DD x15 x37 | s116 => DD x15 x38 | s117 => DD x15 x39 | s118 => DD x15 x40 | s119 => DD x15 x41 | s120 => DD x15 x42 | s121 => DD x15 x43 | s122 => DD x15 x44 | s123 => DD x15 x45 | s124 => DD x15 x46 | s125 => DD x15 x47 | s126 => DD x15 x48 end.
Definition m884 (c : sum2) : dd := match c with s0 => DD x13 x52 | s1 => DD x13 x53 | s2 => DD x13 x54 | s3 => DD x13 x55 | s4 => DD x13 x56 | s5 => DD x13 x57 | s6 => DD x13 x58 | s7 => DD x13 x59 | s8 => DD x13 x60 | s9 => DD x13 x61 | s10 => DD x13 x62 | s11 => DD x13 x63 | s12 => DD x14 x0 | s13 => DD x14 x1 | s14 => DD x14 x2 | s15 => DD x14 x3 | s16 => DD x14 x4 | s17 => DD x14 x5 | s18 => DD x14 x6 | s19 => DD x14 x7 | s20 => DD x14 x8 | s21 => DD x14 x9 | s22 => DD x14 x10 | s23 => DD x14 x11 | s24 => DD x14 x12 | s25 => DD x14 x13 | s26 => DD x14 x14 | s27 => DD x14 x15 | s28 => DD x14 x16 | s29 => DD x14 x17 | s30 => DD x14 x18 | s31 => DD x14 x19 | s32 => DD x14 x20 | s33 => DD x14 x21 | s34 => DD x14 x22 | s35 => DD x14 x23 | s36 => DD x14 x24 | s37 => DD x14 x25 | s38 => DD x14 x26 | s39 => DD x14 x27 | s40 => DD x14 x28 | s41 => DD x14 x29 | s42 => DD x14 x30 | s43 => DD x14 x31 | s44 => DD x14 x32 | s45 => DD x14 x33 | s46 => DD x14 x34 | s47 => DD x14 x35 | s48 => DD x14 x36 | s49 => DD x14 x37 | s50 => DD x14 x38 | s51 => DD x14 x39 | s52 => DD x14 x40 | s53 => DD x14 x41 | s54 => DD x14 x42 | s55 => DD x14 x43 | s56 => DD x14 x44 | s57 => DD x14 x45 | s58 => DD x14 x46 | s59 => DD x14 x47 | s60 => DD x14 x48 | s61 => DD x14 x49 | s62 => DD x14 x50 | s63 => DD x14 x51 | s64 => DD x14 x52 | s65 => DD x14 x53 | s66 => DD x14 x54 | s67 => DD x14 x55 | s68 => DD x14 x56 | s69 => DD x14 x57 | s70 => DD x14 x58 | s71 => DD x14 x59 | s72 => DD x14 x60 | s73 => DD x14 x61 | s74 => DD x14 x62 | s75 => DD x14 x63 | s76 => DD x15 x0 | s77 => DD x15 x1 | s78 => DD x15 x2 | s79 => DD x15 x3 | s80 => DD x15 x4 | s81 => DD x15 x5 | s82 => DD x15 x6 | s83 => DD x15 x7 | s84 => DD x15 x8 | s85 => DD x15 x9 | s86 => DD x15 x10 | s87 => DD x15 x11 | s88 => DD x15 x12 | s89 => DD x15 x13 | s90 => DD x15 x14 | s91 => DD x15 x15 | s92 => DD x15 x16 | s93 => DD x15 x17 | s94 => DD x15 x18 | s95 => DD x15 x19 | s96 => DD x15 x20 | s97 => DD x15 x21 | s98 => DD x15 x22 | s99 => DD x15 x23 | s100 => DD x15 x24 | s101 => DD x15 x25 | s102 => DD x15 x26 | s103 => DD x15 x27 | s104 => DD x15 x28 | s105 => DD x15 x29 | s106 => DD x15 x30 | s107 => DD x15 x31 | s108 => DD x15 x32 | s109 => DD x15 x33 | s110 => DD x15 x34 | s111 => DD x15 x35 | s112 => DD x15 x36 | s113 => DD x15 x37 | s114 => DD x15 x38 | s115 => DD x15 x39 | s116 => DD x15 x40 | s117 => DD x15 x41 | s118 => DD x15 x42 | s119 => DD x15 x43 | s120 => DD x15 x44 | s121 => DD x15 x45 | s122 => DD x15 x46 | s123 => DD x15 x47 | s124 => DD x15 x48 | s125 => DD x15 x49 | s126 => DD x15 x50 end.
Definition m885 (c : sum2) : dd := match c with s0 => DD x13 x53 | s1 => DD x13 x54 | s2 => DD x13 x55 | s3 => DD x13 x56 | s4 => DD x13 x57 | s5 => DD x13 x58 | s6 => DD x13 x59 | s7 => DD x13 x60 | s8 => DD x13 x61 | s9 => DD x13 x62 | s10 => DD x13 x63 | s11 => DD x14 x0 | s12 => DD x14 x1 | s13 => DD x14 x2 | s14 => DD x14 x3 | s15 => DD x14 x4 | s16 => DD x14 x5 | s17 => DD x14 x6 | s18 => DD x14 x7 | s19 => DD x14 x8 | s20 => DD x14 x9 | s21 => DD x14 x10 | s22 => DD x14 x11 | s23 => DD x14 x12 | s24 => DD x14 x13 | s25 => DD x14 x14 | s26 => DD x14 x15 | s27 => DD x14 x16 | s28 => DD x14 x17 | s29 => DD x14 x18 | s30 => DD x14 x19 | s31 => DD x14 x20 | s32 => DD x14 x21 | s33 => DD x14 x22 | s34 => DD x14 x23 | s35 => DD x14 x24 | s36 => DD x14 x25 | s37 => DD x14 x26 | s38 => DD x14 x27 | s39 => DD x14 x28 | s40 => DD x14 x29 | s41 => DD x14 x30 | s42 => DD x14 x31 | s43 => DD x14 x32 | s44 => DD x14 x33 | s45 => DD x14 x34 | s46 => DD x14 x35 | s47 => DD x14 x36 | s48 => DD x14 x37 | s49 => DD x14 x38 | s50 => DD x14 x39 | s51 => DD x14 x40 | s52 => DD x14 x41 | s53 => DD x14 x42 | s54 => DD x14 x43 | s55 => DD x14 x44 | s56 => DD x14 x45 | s57 => DD x14 x46 | s58 => DD x14 x47 | s59 => DD x14 x48 | s60 => DD x14 x49 | s61 => DD x14 x50 | s62 => DD x14 x51 | s63 => DD x14 x52 | s64 => DD x14 x53 | s65 => DD x14 x54 | s66 => DD x14 x55 | s67 => DD x14 x56 | s68 => DD x14 x57 | s69 => DD x14 x58 | s70 => DD x14 x59 | s71 => DD x14 x60 | s72 => DD x14 x61 | s73 => DD x14 x62 | s74 => DD x14 x63 | s75 => DD x15 x0 | s76 => DD x15 x1 | s77 => DD x15 x2 | s78 => DD x15 x3 | s79 => DD x15 x4 | s80 => DD x15 x5 | s81 => DD x15 x6 | s82 => DD x15 x7 | s83 => DD x15 x8 | s84 => DD x15 x9 | s85 => DD x15 x10 | s86 => DD x15 x11 | s87 => DD x15 x12 | s88 => DD x15 x13 | s89 => DD x15 x14 | s90 => DD x15 x15 | s91 => DD x15 x16 | s92 => DD x15 x17 | s93 => DD x15 x18 | s94 => DD x15 x19 | s95 => DD x15 x20 | s96 => DD x15 x21 | s97 => DD x15 x22 | s98 => DD x15 x23 | s99 => DD x15 x24 | s100 => DD x15 x25 | s101 => DD x15 x26 | s102 => DD x15 x27 | s103 => DD x15 x28 | s104 => DD x15 x29 | s105 => DD x15 x30 | s106 => DD x15 x31 | s107 => DD x15 x32 | s108 => DD x15 x33 | s109 => DD x15 x34 | s110 => DD x15 x35 | s111 => DD x15 x36 | s112 => DD x15 x37 | s113 => DD x15 x38 | s114 => DD x15 x39 | s115 => DD x15 x40 | s116 => DD x15 x41 | s117 => DD x15 x42 | s118 => DD x15 x43 | s119 => DD x15 x44 | s120 => DD x15 x45 | s121 => DD x15 x46 | s122 => DD x15 x47 | s123 => DD x15 x48 | s124 => DD x15 x49 | s125 => DD x15 x50 | s126 => DD x15 x51 end.
Definition m888 (c : sum2) : dd := match c with s0 => DD x13 x56 | s1 => DD x13 x57 | s2 => DD x13 x58 | s3 => DD x13 x59 | s4 => DD x13 x60 | s5 => DD x13 x61 | s6 => DD x13 x62 | s7 => DD x13 x63 | s8 => DD x14 x0 | s9 => DD x14 x1 | s10 => DD x14 x2 | s11 => DD x14 x3 | s12 => DD x14 x4 | s13 => DD x14 x5 | s14 => DD x14 x6 | s15 => DD x14 x7 | s16 => DD x14 x8 | s17 => DD x14 x9 | s18 => DD x14 x10 | s19 => DD x14 x11 | s20 => DD x14 x12 | s21 => DD x14 x13 | s22 => DD x14 x14 | s23 => DD x14 x15 | s24 => DD x14 x16 | s25 => DD x14 x17 | s26 => DD x14 x18 | s27 => DD x14 x19 | s28 => DD x14 x20 | s29 => DD x14 x21 | s30 => DD x14 x22 | s31 => DD x14 x23 | s32 => DD x14 x24 | s33 => DD x14 x25 | s34 => DD x14 x26 | s35 => DD x14 x27 | s36 => DD x14 x28 | s37 => DD x14 x29 | s38 => DD x14 x30 | s39 => DD x14 x31 | s40 => DD x14 x32 | s41 => DD x14 x33 | s42 => DD x14 x34 | s43 => DD x14 x35 | s44 => DD x14 x36 | s45 => DD x14 x37 | s46 => DD x14 x38 | s47 => DD x14 x39 | s48 => DD x14 x40 | s49 => DD x14 x41 | s50 => DD x14 x42 | s51 => DD x14 x43 | s52 => DD x14 x44 | s53 => DD x14 x45 | s54 => DD x14 x46 | s55 => DD x14 x47 | s56 => DD x14 x48 | s57 => DD x14 x49 | s58 => DD x14 x50 | s59 => DD x14 x51 | s60 => DD x14 x52 | s61 => DD x14 x53 | s62 => DD x14 x54 | s63 => DD x14 x55 | s64 => DD x14 x56 | s65 => DD x14 x57 | s66 => DD x14 x58 | s67 => DD x14 x59 | s68 => DD x14 x60 | s69 => DD x14 x61 | s70 => DD x14 x62 | s71 => DD x14 x63 | s72 => DD x15 x0 | s73 => DD x15 x1 | s74 => DD x15 x2 | s75 => DD x15 x3 | s76 => DD x15 x4 | s77 => DD x15 x5 | s78 => DD x15 x6 | s79 => DD x15 x7 | s80 => DD x15 x8 | s81 => DD x15 x9 | s82 => DD x15 x10 | s83 => DD x15 x11 | s84 => DD x15 x12 | s85 => DD x15 x13 | s86 => DD x15 x14 | s87 => DD x15 x15 | s88 => DD x15 x16 | s89 => DD x15 x17 | s90 => DD x15 x18 | s91 => DD x15 x19 | s92 => DD x15 x20 | s93 => DD x15 x21 | s94 => DD x15 x22 | s95 => DD x15 x23 | s96 => DD x15 x24 | s97 => DD x15 x25 | s98 => DD x15 x26 | s99 => DD x15 x27 | s100 => DD x15 x28 | s101 => DD x15 x29 | s102 => DD x15 x30 | s103 => DD x15 x31 | s104 => DD x15 x32 | s105 => DD x15 x33 | s106 => DD x15 x34 | s107 => DD x15 x35 | s108 => DD x15 x36 | s109 => DD x15 x37 | s110 => DD x15 x38 | s111 => DD x15 x39 | s112 => DD x15 x40 | s113 => DD x15 x41 | s114 => DD x15 x42 | s115 => DD x15 x43 | s116 => DD x15 x44 | s117 => DD x15 x45 | s118 => DD x15 x46 | s119 => DD x15 x47 | s120 => DD x15 x48 | s121 => DD x15 x49 | s122 => DD x15 x50 | s123 => DD x15 x51 | s124 => DD x15 x52 | s125 => DD x15 x53 | s126 => DD x15 x54 end.
Definition m891 (c : sum2) : dd := match c with s0 => DD x13 x59 | s1 => DD x13 x60 | s2 => DD x13 x61 | s3 => DD x13 x62 | s4 => DD x13 x63 | s5 => DD x14 x0 | s6 => DD x14 x1 | s7 => DD x14 x2 | s8 => DD x14 x3 | s9 => DD x14 x4 | s10 => DD x14 x5 | s11 => DD x14 x6 | s12 => DD x14 x7 | s13 => DD x14 x8 | s14 => DD x14 x9 | s15 => DD x14 x10 | s16 => DD x14 x11 | s17 => DD x14 x12 | s18 => DD x14 x13 | s19 => DD x14 x14 | s20 => DD x14 x15 | s21 => DD x14 x16 | s22 => DD x14 x17 | s23 => DD x14 x18 | s24 => DD x14 x19 | s25 => DD x14 x20 | s26 => DD x14 x21 | s27 => DD x14 x22 | s28 => DD x14 x23 | s29 => DD x14 x24 | s30 => DD x14 x25 | s31 => DD x14 x26 | s32 => DD x14 x27 | s33 => DD x14 x28 | s34 => DD x14 x29 | s35 => DD x14 x30 | s36 => DD x14 x31 | s37 => DD x14 x32 | s38 => DD x14 x33 | s39 => DD x14 x34 | s40 => DD x14 x35 | s41 => DD x14 x36 | s42 => DD x14 x37 | s43 => DD x14 x38 | s44 => DD x14 x39 | s45 => DD x14 x40 | s46 => DD x14 x41 | s47 => DD x14 x42 | s48 => DD x14 x43 | s49 => DD x14 x44 | s50 => DD x14 x45 | s51 => DD x14 x46 | s52 => DD x14 x47 | s53 => DD x14 x48 | s54 => DD x14 x49 | s55 => DD x14 x50 | s56 => DD x14 x51 | s57 => DD x14 x52 | s58 => DD x14 x53 | s59 => DD x14 x54 | s60 => DD x14 x55 | s61 => DD x14 x56 | s62 => DD x14 x57 | s63 => DD x14 x58 | s64 => DD x14 x59 | s65 => DD x14 x60 | s66 => DD x14 x61 | s67 => DD x14 x62 | s68 => DD x14 x63 | s69 => DD x15 x0 | s70 => DD x15 x1 | s71 => DD x15 x2 | s72 => DD x15 x3 | s73 => DD x15 x4 | s74 => DD x15 x5 | s75 => DD x15 x6 | s76 => DD x15 x7 | s77 => DD x15 x8 | s78 => DD x15 x9 | s79 => DD x15 x10 | s80 => DD x15 x11 | s81 => DD x15 x12 | s82 => DD x15 x13 | s83 => DD x15 x14 | s84 => DD x15 x15 | s85 => DD x15 x16 | s86 => DD x15 x17 | s87 => DD x15 x18 | s88 => DD x15 x19 | s89 => DD x15 x20 | s90 => DD x15 x21 | s91 => DD x15 x22 | s92 => DD x15 x23 | s93 => DD x15 x24 | s94 => DD x15 x25 | s95 => DD x15 x26 | s96 => DD x15 x27 | s97 => DD x15 x28 | s98 => DD x15 x29 | s99 => DD x15 x30 | s100 => DD x15 x31 | s101 => DD x15 x32 | s102 => DD x15 x33 | s103 => DD x15 x34 | s104 => DD x15 x35 | s105 => DD x15 x36 | s106 => DD x15 x37 | s107 => DD x15 x38 | s108 => DD x15 x39 | s109 => DD x15 x40 | s110 => DD x15 x41 | s111 => DD x15 x42 | s112 => DD x15 x43 | s113 => DD x15 x44 | s114 => DD x15 x45 | s115 => DD x15 x46 | s116 => DD x15 x47 | s117 => DD x15 x48 | s118 => DD x15 x49 | s119 => DD x15 x50 | s120 => DD x15 x51 | s121 => DD x15 x52 | s122 => DD x15 x53 | s123 => DD x15 x54 | s124 => DD x15 x55 | s125 => DD x15 x56 | s126 => DD x15 x57 end.
Definition m893 (c : sum2) : dd := match c with s0 => DD x13 x61 | s1 => DD x13 x62 | s2 => DD x13 x63 | s3 => DD x14 x0 | s4 => DD x14 x1 | s5 => DD x14 x2 | s6 => DD x14 x3 | s7 => DD x14 x4 | s8 => DD x14 x5 | s9 => DD x14 x6 | s10 => DD x14 x7 | s11 => DD x14 x8 | s12 => DD x14 x9 | s13 => DD x14 x10 | s14 => DD x14 x11 | s15 => DD x14 x12 | s16 => DD x14 x13 | s17 => DD x14 x14 | s18 => DD x14 x15 | s19 => DD x14 x16 | s20 => DD x14 x17 | s21 => DD x14 x18 | s22 => DD x14 x19 | s23 => DD x14 x20 | s24 => DD x14 x21 | s25 => DD x14 x22 | s26 => DD x14 x23 | s27 => DD x14 x24 | s28 => DD x14 x25 | s29 => DD x14 x26 | s30 => DD x14 x27 | s31 => DD x14 x28 | s32 => DD x14 x29 | s33 => DD x14 x30 | s34 => DD x14 x31 | s35 => DD x14 x32 | s36 => DD x14 x33 | s37 => DD x14 x34 | s38 => DD x14 x35 | s39 => DD x14 x36 | s40 => DD x14 x37 | s41 => DD x14 x38 | s42 => DD x14 x39 | s43 => DD x14 x40 | s44 => DD x14 x41 | s45 => DD x14 x42 | s46 => DD x14 x43 | s47 => DD x14 x44 | s48 => DD x14 x45 | s49 => DD x14 x46 | s50 => DD x14 x47 | s51 => DD x14 x48 | s52 => DD x14 x49 | s53 => DD x14 x50 | s54 => DD x14 x51 | s55 => DD x14 x52 | s56 => DD x14 x53 | s57 => DD x14 x54 | s58 => DD x14 x55 | s59 => DD x14 x56 | s60 => DD x14 x57 | s61 => DD x14 x58 | s62 => DD x14 x59 | s63 => DD x14 x60 | s64 => DD x14 x61 | s65 => DD x14 x62 | s66 => DD x14 x63 | s67 => DD x15 x0 | s68 => DD x15 x1 | s69 => DD x15 x2 | s70 => DD x15 x3 | s71 => DD x15 x4 | s72 => DD x15 x5 | s73 => DD x15 x6 | s74 => DD x15 x7 | s75 => DD x15 x8 | s76 => DD x15 x9 | s77 => DD x15 x10 | s78 => DD x15 x11 | s79 => DD x15 x12 | s80 => DD x15 x13 | s81 => DD x15 x14 | s82 => DD x15 x15 | s83 => DD x15 x16 | s84 => DD x15 x17 | s85 => DD x15 x18 | s86 => DD x15 x19 | s87 => DD x15 x20 | s88 => DD x15 x21 | s89 => DD x15 x22 | s90 => DD x15 x23 | s91 => DD x15 x24 | s92 => DD x15 x25 | s93 => DD x15 x26 | s94 => DD x15 x27 | s95 => DD x15 x28 | s96 => DD x15 x29 | s97 => DD x15 x30 | s98 => DD x15 x31 | s99 => DD x15 x32 | s100 => DD x15 x33 | s101 => DD x15 x34 | s102 => DD x15 x35 | s103 => DD x15 x36 | s104 => DD x15 x37 | s105 => DD x15 x38 | s106 => DD x15 x39 | s107 => DD x15 x40 | s108 => DD x15 x41 | s109 => DD x15 x42 | s110 => DD x15 x43 | s111 => DD x15 x44 | s112 => DD x15 x45 | s113 => DD x15 x46 | s114 => DD x15 x47 | s115 => DD x15 x48 | s116 => DD x15 x49 | s117 => DD x15 x50 | s118 => DD x15 x51 | s119 => DD x15 x52 | s120 => DD x15 x53 | s121 => DD x15 x54 | s122 => DD x15 x55 | s123 => DD x15 x56 | s124 => DD x15 x57 | s125 => DD x15 x58 | s126 => DD x15 x59 end.
Definition m896 (c : sum2) : dd := match c with s0 => DD x14 x0 | s1 => DD x14 x1 | s2 => DD x14 x2 | s3 => DD x14 x3 | s4 => DD x14 x4 | s5 => DD x14 x5 | s6 => DD x14 x6 | s7 => DD x14 x7 | s8 => DD x14 x8 | s9 => DD x14 x9 | s10 => DD x14 x10 | s11 => DD x14 x11 | s12 => DD x14 x12 | s13 => DD x14 x13 | s14 => DD x14 x14 | s15 => DD x14 x15 | s16 => DD x14 x16 | s17 => DD x14 x17 | s18 => DD x14 x18 | s19 => DD x14 x19 | s20 => DD x14 x20 | s21 => DD x14 x21 | s22 => DD x14 x22 | s23 => DD x14 x23 | s24 => DD x14 x24 | s25 => DD x14 x25 | s26 => DD x14 x26 | s27 => DD x14 x27 | s28 => DD x14 x28 | s29 => DD x14 x29 | s30 => DD x14 x30 | s31 => DD x14 x31 | s32 => DD x14 x32 | s33 => DD x14 x33 | s34 => DD x14 x34 | s35 => DD x14 x35 | s36 => DD x14 x36 | s37 => DD x14 x37 | s38 => DD x14 x38 | s39 => DD x14 x39 | s40 => DD x14 x40 | s41 => DD x14 x41 | s42 => DD x14 x42 | s43 => DD x14 x43 | s44 => DD x14 x44 | s45 => DD x14 x45 | s46 => DD x14 x46 | s47 => DD x14 x47 | s48 => DD x14 x48 | s49 => DD x14 x49 | s50 => DD x14 x50 | s51 => DD x14 x51 | s52 => DD x14 x52 | s53 => DD x14 x53 | s54 => DD x14 x54 | s55 => DD x14 x55 | s56 => DD x14 x56 | s57 => DD x14 x57 | s58 => DD x14 x58 | s59 => DD x14 x59 | s60 => DD x14 x60 | s61 => DD x14 x61 | s62 => DD x14 x62 | s63 => DD x14 x63 | s64 => DD x15 x0 | s65 => DD x15 x1 | s66 => DD x15 x2 | s67 => DD x15 x3 | s68 => DD x15 x4 | s69 => DD x15 x5 | s70 => DD x15 x6 | s71 => DD x15 x7 | s72 => DD x15 x8 | s73 => DD x15 x9 | s74 => DD x15 x10 | s75 => DD x15 x11 | s76 => DD x15 x12 | s77 => DD x15 x13 | s78 => DD x15 x14 | s79 => DD x15 x15 | s80 => DD x15 x16 | s81 => DD x15 x17 | s82 => DD x15 x18 | s83 => DD x15 x19 | s84 => DD x15 x20 | s85 => DD x15 x21 | s86 => DD x15 x22 | s87 => DD x15 x23 | s88 => DD x15 x24 | s89 => DD x15 x25 | s90 => DD x15 x26 | s91 => DD x15 x27 | s92 => DD x15 x28 | s93 => DD x15 x29 | s94 => DD x15 x30 | s95 => DD x15 x31 | s96 => DD x15 x32 | s97 => DD x15 x33 | s98 => DD x15 x34 | s99 => DD x15 x35 | s100 => DD x15 x36 | s101 => DD x15 x37 | s102 => DD x15 x38 | s103 => DD x15 x39 | s104 => DD x15 x40 | s105 => DD x15 x41 | s106 => DD x15 x42 | s107 => DD x15 x43 | s108 => DD x15 x44 | s109 => DD x15 x45 | s110 => DD x15 x46 | s111 => DD x15 x47 | s112 => DD x15 x48 | s113 => DD x15 x49 | s114 => DD x15 x50 | s115 => DD x15 x51 | s116 => DD x15 x52 | s117 => DD x15 x53 | s118 => DD x15 x54 | s119 => DD x15 x55 | s120 => DD x15 x56 | s121 => DD x15 x57 | s122 => DD x15 x58 | s123 => DD x15 x59 | s124 => DD x15 x60 | s125 => DD x15 x61 | s126 => DD x15 x62 end.
Definition m897 (c : sum2) : dd := match c with s0 => DD x14 x1 | s1 => DD x14 x2 | s2 => DD x14 x3 | s3 => DD x14 x4 | s4 => DD x14 x5 | s5 => DD x14 x6 | s6 => DD x14 x7 | s7 => DD x14 x8 | s8 => DD x14 x9 | s9 => DD x14 x10 | s10 => DD x14 x11 | s11 => DD x14 x12 | s12 => DD x14 x13 | s13 => DD x14 x14 | s14 => DD x14 x15 | s15 => DD x14 x16 | s16 => DD x14 x17 | s17 => DD x14 x18 | s18 => DD x14 x19 | s19 => DD x14 x20 | s20 => DD x14 x21 | s21 => DD x14 x22 | s22 => DD x14 x23 | s23 => DD x14 x24 | s24 => DD x14 x25 | s25 => DD x14 x26 | s26 => DD x14 x27 | s27 => DD x14 x28 | s28 => DD x14 x29 | s29 => DD x14 x30 | s30 => DD x14 x31 | s31 => DD x14 x32 | s32 => DD x14 x33 | s33 => DD x14 x34 | s34 => DD x14 x35 | s35 => DD x14 x36 | s36 => DD x14 x37 | s37 => DD x14 x38 | s38 => DD x14 x39 | s39 => DD x14 x40 | s40 => DD x14 x41 | s41 => DD x14 x42 | s42 => DD x14 x43 | s43 => DD x14 x44 | s44 => DD x14 x45 | s45 => DD x14 x46 | s46 => DD x14 x47 | s47 => DD x14 x48 | s48 => DD x14 x49 | s49 => DD x14 x50 | s50 => DD x14 x51 | s51 => DD x14 x52 | s52 => DD x14 x53 | s53 => DD x14 x54 | s54 => DD x14 x55 | s55 => DD x14 x56 | s56 => DD x14 x57 | s57 => DD x14 x58 | s58 => DD x14 x59 | s59 => DD x14 x60 | s60 => DD x14 x61 | s61 => DD x14 x62 | s62 => DD x14 x63 | s63 => DD x15 x0 | s64 => DD x15 x1 | s65 => DD x15 x2 | s66 => DD x15 x3 | s67 => DD x15 x4 | s68 => DD x15 x5 | s69 => DD x15 x6 | s70 => DD x15 x7 | s71 => DD x15 x8 | s72 => DD x15 x9 | s73 => DD x15 x10 | s74 => DD x15 x11 | s75 => DD x15 x12 | s76 => DD x15 x13 | s77 => DD x15 x14 | s78 => DD x15 x15 | s79 => DD x15 x16 | s80 => DD x15 x17 | s81 => DD x15 x18 | s82 => DD x15 x19 | s83 => DD x15 x20 | s84 => DD x15 x21 | s85 => DD x15 x22 | s86 => DD x15 x23 | s87 => DD x15 x24 | s88 => DD x15 x25 | s89 => DD x15 x26 | s90 => DD x15 x27 | s91 => DD x15 x28 | s92 => DD x15 x29 | s93 => DD x15 x30 | s94 => DD x15 x31 | s95 => DD x15 x32 | s96 => DD x15 x33 | s97 => DD x15 x34 | s98 => DD x15 x35 | s99 => DD x15 x36 | s100 => DD x15 x37 | s101 => DD x15 x38 | s102 => DD x15 x39 | s103 => DD x15 x40 | s104 => DD x15 x41 | s105 => DD x15 x42 | s106 => DD x15 x43 | s107 => DD x15 x44 | s108 => DD x15 x45 | s109 => DD x15 x46 | s110 => DD x15 x47 | s111 => DD x15 x48 | s112 => DD x15 x49 | s113 => DD x15 x50 | s114 => DD x15 x51 | s115 => DD x15 x52 | s116 => DD x15 x53 | s117 => DD x15 x54 | s118 => DD x15 x55 | s119 => DD x15 x56 | s120 => DD x15 x57 | s121 => DD x15 x58 | s122 => DD x15 x59 | s123 => DD x15 x60 | s124 => DD x15 x61 | s125 => DD x15 x62 | s126 => DD x15 x63 end.
Definition m899 (c : sum2) : dd := match c with s0 => DD x14 x3 | s1 => DD x14 x4 | s2 => DD x14 x5 | s3 => DD x14 x6 | s4 => DD x14 x7 | s5 => DD x14 x8 | s6 => DD x14 x9 | s7 => DD x14 x10 | s8 => DD x14 x11 | s9 => DD x14 x12 | s10 => DD x14 x13 | s11 => DD x14 x14 | s12 => DD x14 x15 | s13 => DD x14 x16 | s14 => DD x14 x17 | s15 => DD x14 x18 | s16 => DD x14 x19 | s17 => DD x14 x20 | s18 => DD x14 x21 | s19 => DD x14 x22 | s20 => DD x14 x23 | s21 => DD x14 x24 | s22 => DD x14 x25 | s23 => DD x14 x26 | s24 => DD x14 x27 | s25 => DD x14 x28 | s26 => DD x14 x29 | s27 => DD x14 x30 | s28 => DD x14 x31 | s29 => DD x14 x32 | s30 => DD x14 x33 | s31 => DD x14 x34 | s32 => DD x14 x35 | s33 => DD x14 x36 | s34 => DD x14 x37 | s35 => DD x14 x38 | s36 => DD x14 x39 | s37 => DD x14 x40 | s38 => DD x14 x41 | s39 => DD x14 x42 | s40 => DD x14 x43 | s41 => DD x14 x44 | s42 => DD x14 x45 | s43 => DD x14 x46 | s44 => DD x14 x47 | s45 => DD x14 x48 | s46 => DD x14 x49 | s47 => DD x14 x50 | s48 => DD x14 x51 | s49 => DD x14 x52 | s50 => DD x14 x53 | s51 => DD x14 x54 | s52 => DD x14 x55 | s53 => DD x14 x56 | s54 => DD x14 x57 | s55 => DD x14 x58 | s56 => DD x14 x59 | s57 => DD x14 x60 | s58 => DD x14 x61 | s59 => DD x14 x62 | s60 => DD x14 x63 | s61 => DD x15 x0 | s62 => DD x15 x1 | s63 => DD x15 x2 | s64 => DD x15 x3 | s65 => DD x15 x4 | s66 => DD x15 x5 | s67 => DD x15 x6 | s68 => DD x15 x7 | s69 => DD x15 x8 | s70 => DD x15 x9 | s71 => DD x15 x10 | s72 => DD x15 x11 | s73 => DD x15 x12 | s74 => DD x15 x13 | s75 => DD x15 x14 | s76 => DD x15 x15 | s77 => DD x15 x16 | s78 => DD x15 x17 | s79 => DD x15 x18 | s80 => DD x15 x19 | s81 => DD x15 x20 | s82 => DD x15 x21 | s83 => DD x15 x22 | s84 => DD x15 x23 | s85 => DD x15 x24 | s86 => DD x15 x25 | s87 => DD x15 x26 | s88 => DD x15 x27 | s89 => DD x15 x28 | s90 => DD x15 x29 | s91 => DD x15 x30 | s92 => DD x15 x31 | s93 => DD x15 x32 | s94 => DD x15 x33 | s95 => DD x15 x34 | s96 => DD x15 x35 | s97 => DD x15 x36 | s98 => DD x15 x37 | s99 => DD x15 x38 | s100 => DD x15 x39 | s101 => DD x15 x40 | s102 => DD x15 x41 | s103 => DD x15 x42 | s104 => DD x15 x43 | s105 => DD x15 x44 | s106 => DD x15 x45 | s107 => DD x15 x46 | s108 => DD x15 x47 | s109 => DD x15 x48 | s110 => DD x15 x49 | s111 => DD x15 x50 | s112 => DD x15 x51 | s113 => DD x15 x52 | s114 => DD x15 x53 | s115 => DD x15 x54 | s116 => DD x15 x55 | s117 => DD x15 x56 | s118 => DD x15 x57 | s119 => DD x15 x58 | s120 => DD x15 x59 | s121 => DD x15 x60 | s122 => DD x15 x61 | s123 => DD x15 x62 | s124 => DD x15 x63 | s125 => DD x16 x0 | s126 => DD x16 x1 end.
Definition m900 (c : sum2) : dd := match c with s0 => DD x14 x4 | s1 => DD x14 x5 | s2 => DD x14 x6 | s3 => DD x14 x7 | s4 => DD x14 x8 | s5 => DD x14 x9 | s6 => DD x14 x10 | s7 => DD x14 x11 | s8 => DD x14 x12 | s9 => DD x14 x13 | s10 => DD x14 x14 | s11 => DD x14 x15 | s12 => DD x14 x16 | s13 => DD x14 x17 | s14 => DD x14 x18 | s15 => DD x14 x19 | s16 => DD x14 x20 | s17 => DD x14 x21 | s18 => DD x14 x22 | s19 => DD x14 x23 | s20 => DD x14 x24 | s21 => DD x14 x25 | s22 => DD x14 x26 | s23 => DD x14 x27 | s24 => DD x14 x28 | s25 => DD x14 x29 | s26 => DD x14 x30 | s27 => DD x14 x31 | s28 => DD x14 x32 | s29 => DD x14 x33 | s30 => DD x14 x34 | s31 => DD x14 x35 | s32 => DD x14 x36 | s33 => DD x14 x37 | s34 => DD x14 x38 | s35 => DD x14 x39 | s36 => DD x14 x40 | s37 => DD x14 x41 | s38 => DD x14 x42 | s39 => DD x14 x43 | s40 => DD x14 x44 | s41 => DD x14 x45 | s42 => DD x14 x46 | s43 => DD x14 x47 | s44 => DD x14 x48 | s45 => DD x14 x49 | s46 => DD x14 x50 | s47 => DD x14 x51 | s48 => DD x14 x52 | s49 => DD x14 x53 | s50 => DD x14 x54 | s51 => DD x14 x55 | s52 => DD x14 x56 | s53 => DD x14 x57 | s54 => DD x14 x58 | s55 => DD x14 x59 | s56 => DD x14 x60 | s57 => DD x14 x61 | s58 => DD x14 x62 | s59 => DD x14 x63 | s60 => DD x15 x0 | s61 => DD x15 x1 | s62 => DD x15 x2 | s63 => DD x15 x3 | s64 => DD x15 x4 | s65 => DD x15 x5 | s66 => DD x15 x6 | s67 => DD x15 x7 | s68 => DD x15 x8 | s69 => DD x15 x9 | s70 => DD x15 x10 | s71 => DD x15 x11 | s72 => DD x15 x12 | s73 => DD x15 x13 | s74 => DD x15 x14 | s75 => DD x15 x15 | s76 => DD x15 x16 | s77 => DD x15 x17 | s78 => DD x15 x18 | s79 => DD x15 x19 | s80 => DD x15 x20 | s81 => DD x15 x21 | s82 => DD x15 x22 | s83 => DD x15 x23 | s84 => DD x15 x24 | s85 => DD x15 x25 | s86 => DD x15 x26 | s87 => DD x15 x27 | s88 => DD x15 x28 | s89 => DD x15 x29 | s90 => DD x15 x30 | s91 => DD x15 x31 | s92 => DD x15 x32 | s93 => DD x15 x33 | s94 => DD x15 x34 | s95 => DD x15 x35 | s96 => DD x15 x36 | s97 => DD x15 x37 | s98 => DD x15 x38 | s99 => DD x15 x39 | s100 => DD x15 x40 | s101 => DD x15 x41 | s102 => DD x15 x42 | s103 => DD x15 x43 | s104 => DD x15 x44 | s105 => DD x15 x45 | s106 => DD x15 x46 | s107 => DD x15 x47 | s108 => DD x15 x48 | s109 => DD x15 x49 | s110 => DD x15 x50 | s111 => DD x15 x51 | s112 => DD x15 x52 | s113 => DD x15 x53 | s114 => DD x15 x54 | s115 => DD x15 x55 | s116 => DD x15 x56 | s117 => DD x15 x57 | s118 => DD x15 x58 | s119 => DD x15 x59 | s120 => DD x15 x60 | s121 => DD x15 x61 | s122 => DD x15 x62 | s123 => DD x15 x63 | s124 => DD x16 x0 | s125 => DD x16 x1 | s126 => DD x16 x2 end.
Definition m901 (c : sum2) : dd := match c with s0 => DD x14 x5 | s1 => DD x14 x6 | s2 => DD x14 x7 | s3 => DD x14 x8 | s4 => DD x14 x9 | s5 => DD x14 x10 | s6 => DD x14 x11 | s7 => DD x14 x12 | s8 => DD x14 x13 | s9 => DD x14 x14 | s10 => DD x14 x15 | s11 => DD x14 x16 | s12 => DD x14 x17 | s13 => DD x14 x18 | s14 => DD x14 x19 | s15 => DD x14 x20 | s16 => DD x14 x21 | s17 => DD x14 x22 | s18 => DD x14 x23 | s19 => DD x14 x24 | s20 => DD x14 x25 | s21 => DD x14 x26 | s22 => DD x14 x27 | s23 => DD x14 x28 | s24 => DD x14 x29 | s25 => DD x14 x30 | s26 => DD x14 x31 | s27 => DD x14 x32 | s28 => DD x14 x33 | s29 => DD x14 x34 | s30 => DD x14 x35 | s31 => DD x14 x36 | s32 => DD x14 x37 | s33 => DD x14 x38 | s34 => DD x14 x39 | s35 => DD x14 x40 | s36 => DD x14 x41 | s37 => DD x14 x42 | s38 => DD x14 x43 | s39 => DD x14 x44 | s40 => DD x14 x45 | s41 => DD x14 x46 | s42 => DD x14 x47 | s43 => DD x14 x48 | s44 => DD x14 x49 | s45 => DD x14 x50 | s46 => DD x14 x51 | s47 => DD x14 x52 | s48 => DD x14 x53 | s49 => DD x14 x54 | s50 => DD x14 x55 | s51 => DD x14 x56 | s52 => DD x14 x57 | s53 => DD x14 x58 | s54 => DD x14 x59 | s55 => DD x14 x60 | s56 => DD x14 x61 | s57 => DD x14 x62 | s58 => DD x14 x63 | s59 => DD x15 x0 | s60 => DD x15 x1 | s61 => DD x15 x2 | s62 => DD x15 x3 | s63 => DD x15 x4 | s64 => DD x15 x5 | s65 => DD x15 x6 | s66 => DD x15 x7 | s67 => DD x15 x8 | s68 => DD x15 x9 | s69 => DD x15 x10 | s70 => DD x15 x11 | s71 => DD x15 x12 | s72 => DD x15 x13 | s73 => DD x15 x14 | s74 => DD x15 x15 | s75 => DD x15 x16 | s76 => DD x15 x17 | s77 => DD x15 x18 | s78 => DD x15 x19 | s79 => DD x15 x20 | s80 => DD x15 x21 | s81 => DD x15 x22 | s82 => DD x15 x23 | s83 => DD x15 x24 | s84 => DD x15 x25 | s85 => DD x15 x26 | s86 => DD x15 x27 | s87 => DD x15 x28 | s88 => DD x15 x29 | s89 => DD x15 x30 | s90 => DD x15 x31 | s91 => DD x15 x32 | s92 => DD x15 x33 | s93 => DD x15 x34 | s94 => DD x15 x35 | s95 => DD x15 x36 | s96 => DD x15 x37 | s97 => DD x15 x38 | s98 => DD x15 x39 | s99 => DD x15 x40 | s100 => DD x15 x41 | s101 => DD x15 x42 | s102 => DD x15 x43 | s103 => DD x15 x44 | s104 => DD x15 x45 | s105 => DD x15 x46 | s106 => DD x15 x47 | s107 => DD x15 x48 | s108 => DD x15 x49 | s109 => DD x15 x50 | s110 => DD x15 x51 | s111 => DD x15 x52 | s112 => DD x15 x53 | s113 => DD x15 x54 | s114 => DD x15 x55 | s115 => DD x15 x56 | s116 => DD x15 x57 | s117 => DD x15 x58 | s118 => DD x15 x59 | s119 => DD x15 x60 | s120 => DD x15 x61 | s121 => DD x15 x62 | s122 => DD x15 x63 | s123 => DD x16 x0 | s124 => DD x16 x1 | s125 => DD x16 x2 | s126 => DD x16 x3 end.
Definition m902 (c : sum2) : dd := match c with s0 => DD x14 x6 | s1 => DD x14 x7 | s2 => DD x14 x8 | s3 => DD x14 x9 | s4 => DD x14 x10 | s5 => DD x14 x11 | s6 => DD x14 x12 | s7 => DD x14 x13 | s8 => DD x14 x14 | s9 => DD x14 x15 | s10 => DD x14 x16 | s11 => DD x14 x17 | s12 => DD x14 x18 | s13 => DD x14 x19 | s14 => DD x14 x20 | s15 => DD x14 x21 | s16 => DD x14 x22 | s17 => DD x14 x23 | s18 => DD x14 x24 | s19 => DD x14 x25 | s20 => DD x14 x26 | s21 => DD x14 x27 | s22 => DD x14 x28 | s23 => DD x14 x29 | s24 => DD x14 x30 | s25 => DD x14 x31 | s26 => DD x14 x32 | s27 => DD x14 x33 | s28 => DD x14 x34 | s29 => DD x14 x35 | s30 => DD x14 x36 | s31 => DD x14 x37 | s32 => DD x14 x38 | s33 => DD x14 x39 | s34 => DD x14 x40 | s35 => DD x14 x41 | s36 => DD x14 x42 | s37 => DD x14 x43 | s38 => DD x14 x44 | s39 => DD x14 x45 | s40 => DD x14 x46 | s41 => DD x14 x47 | s42 => DD x14 x48 | s43 => DD x14 x49 | s44 => DD x14 x50 | s45 => DD x14 x51 | s46 => DD x14 x52 | s47 => DD x14 x53 | s48 => DD x14 x54 | s49 => DD x14 x55 | s50 => DD x14 x56 | s51 => DD x14 x57 | s52 => DD x14 x58 | s53 => DD x14 x59 | s54 => DD x14 x60 | s55 => DD x14 x61 | s56 => DD x14 x62 | s57 => DD x14 x63 | s58 => DD x15 x0 | s59 => DD x15 x1 | s60 => DD x15 x2 | s61 => DD x15 x3 | s62 => DD x15 x4 | s63 => DD x15 x5 | s64 => DD x15 x6 | s65 => DD x15 x7 | s66 => DD x15 x8 | s67 => DD x15 x9 | s68 => DD x15 x10 | s69 => DD x15 x11 | s70 => DD x15 x12 | s71 => DD x15 x13 | s72 => DD x15 x14 | s73 => DD x15 x15 | s74 => DD x15 x16 | s75 => DD x15 x17 | s76 => DD x15 x18 | s77 => DD x15 x19 | s78 => DD x15 x20 | s79 => DD x15 x21 | s80 => DD x15 x22 | s81 => DD x15 x23 | s82 => DD x15 x24 | s83 => DD x15 x25 | s84 => DD x15 x26 | s85 => DD x15 x27 | s86 => DD x15 x28 | s87 => DD x15 x29 | s88 => DD x15 x30 | s89 => DD x15 x31 | s90 => DD x15 x32 | s91 => DD x15 x33 | s92 => DD x15 x34 | s93 => DD x15 x35 | s94 => DD x15 x36 | s95 => DD x15 x37 | s96 => DD x15 x38 | s97 => DD x15 x39 | s98 => DD x15 x40 | s99 => DD x15 x41 | s100 => DD x15 x42 | s101 => DD x15 x43 | s102 => DD x15 x44 | s103 => DD x15 x45 | s104 => DD x15 x46 | s105 => DD x15 x47 | s106 => DD x15 x48 | s107 => DD x15 x49 | s108 => DD x15 x50 | s109 => DD x15 x51 | s110 => DD x15 x52 | s111 => DD x15 x53 | s112 => DD x15 x54 | s113 => DD x15 x55 | s114 => DD x15 x56 | s115 => DD x15 x57 | s116 => DD x15 x58 | s117 => DD x15 x59 | s118 => DD x15 x60 | s119 => DD x15 x61 | s120 => DD x15 x62 | s121 => DD x15 x63 | s122 => DD x16 x0 | s123 => DD x16 x1 | s124 => DD x16 x2 | s125 => DD x16 x3 | s126 => DD x16 x4 end.
Definition m903 (c : sum2) : dd := match c with s0 => DD x14 x7 | s1 => DD x14 x8 | s2 => DD x14 x9 | s3 => DD x14 x10 | s4 => DD x14 x11 | s5 => DD x14 x12 | s6 => DD x14 x13 | s7 => DD x14 x14 | s8 => DD x14 x15 | s9 => DD x14 x16 | s10 => DD x14 x17 | s11 => DD x14 x18 | s12 => DD x14 x19 | s13 => DD x14 x20 | s14 => DD x14 x21 | s15 => DD x14 x22 | s16 => DD x14 x23 | s17 => DD x14 x24 | s18 => DD x14 x25 | s19 => DD x14 x26 | s20 => DD x14 x27 | s21 => DD x14 x28 | s22 => DD x14 x29 | s23 => DD x14 x30 | s24 => DD x14 x31 | s25 => DD x14 x32 | s26 => DD x14 x33 | s27 => DD x14 x34 | s28 => DD x14 x35 | s29 => DD x14 x36 | s30 => DD x14 x37 | s31 => DD x14 x38 | s32 => DD x14 x39 | s33 => DD x14 x40 | s34 => DD x14 x41 | s35 => DD x14 x42 | s36 => DD x14 x43 | s37 => DD x14 x44 | s38 => DD x14 x45 | s39 => DD x14 x46 | s40 => DD x14 x47 | s41 => DD x14 x48 | s42 => DD x14 x49 | s43 => DD x14 x50 | s44 => DD x14 x51 | s45 => DD x14 x52 | s46 => DD x14 x53 | s47 => DD x14 x54 | s48 => DD x14 x55 | s49 => DD x14 x56 | s50 => DD x14 x57 | s51 => DD x14 x58 | s52 => DD x14 x59 | s53 => DD x14 x60 | s54 => DD x14 x61 | s55 => DD x14 x62 | s56 => DD x14 x63 | s57 => DD x15 x0 | s58 => DD x15 x1 | s59 => DD x15 x2 | s60 => DD x15 x3 | s61 => DD x15 x4 | s62 => DD x15 x5 | s63 => DD x15 x6 | s64 => DD x15 x7 | s65 => DD x15 x8 | s66 => DD x15 x9 | s67 => DD x15 x10 | s68 => DD x15 x11 | s69 => DD x15 x12 | s70 => DD x15 x13 | s71 => DD x15 x14 | s72 => DD x15 x15 | s73 => DD x15 x16 | s74 => DD x15 x17 | s75 => DD x15 x18 | s76 => DD x15 x19 | s77 => DD x15 x20 | s78 => DD x15 x21 | s79 => DD x15 x22 | s80 => DD x15 x23 | s81 => DD x15 x24 | s82 => DD x15 x25 | s83 => DD x15 x26 | s84 => DD x15 x27 | s85 => DD x15 x28 | s86 => DD x15 x29 | s87 => DD x15 x30 | s88 => DD x15 x31 | s89 => DD x15 x32 | s90 => DD x15 x33 | s91 => DD x15 x34 | s92 => DD x15 x35 | s93 => DD x15 x36 | s94 => DD x15 x37 | s95 => DD x15 x38 | s96 => DD x15 x39 | s97 => DD x15 x40 | s98 => DD x15 x41 | s99 => DD x15 x42 | s100 => DD x15 x43 | s101 => DD x15 x44 | s102 => DD x15 x45 | s103 => DD x15 x46 | s104 => DD x15 x47 | s105 => DD x15 x48 | s106 => DD x15 x49 | s107 => DD x15 x50 | s108 => DD x15 x51 | s109 => DD x15 x52 | s110 => DD x15 x53 | s111 => DD x15 x54 | s112 => DD x15 x55 | s113 => DD x15 x56 | s114 => DD x15 x57 | s115 => DD x15 x58 | s116 => DD x15 x59 | s117 => DD x15 x60 | s118 => DD x15 x61 | s119 => DD x15 x62 | s120 => DD x15 x63 | s121 => DD x16 x0 | s122 => DD x16 x1 | s123 => DD x16 x2 | s124 => DD x16 x3 | s125 => DD x16 x4 | s126 => DD x16 x5 end.
Definition m910 (c : sum2) : dd := match c with s0 => DD x14 x14 | s1 => DD x14 x15 | s2 => DD x14 x16 | s3 => DD x14 x17 | s4 => DD x14 x18 | s5 => DD x14 x19 | s6 => DD x14 x20 | s7 => DD x14 x21 | s8 => DD x14 x22 | s9 => DD x14 x23 | s10 => DD x14 x24 | s11 => DD x14 x25 | s12 => DD x14 x26 | s13 => DD x14 x27 | s14 => DD x14 x28 | s15 => DD x14 x29 | s16 => DD x14 x30 | s17 => DD x14 x31 | s18 => DD x14 x32 | s19 => DD x14 x33 | s20 => DD x14 x34 | s21 => DD x14 x35 | s22 => DD x14 x36 | s23 => DD x14 x37 | s24 => DD x14 x38 | s25 => DD x14 x39 | s26 => DD x14 x40 | s27 => DD x14 x41 | s28 => DD x14 x42 | s29 => DD x14 x43 | s30 => DD x14 x44 | s31 => DD x14 x45 | s32 => DD x14 x46 | s33 => DD x14 x47 | s34 => DD x14 x48 | s35 => DD x14 x49 | s36 => DD x14 x50 | s37 => DD x14 x51 | s38 => DD x14 x52 | s39 => DD x14 x53 | s40 => DD x14 x54 | s41 => DD x14 x55 | s42 => DD x14 x56 | s43 => DD x14 x57 | s44 => DD x14 x58 | s45 => DD x14 x59 | s46 => DD x14 x60 | s47 => DD x14 x61 | s48 => DD x14 x62 | s49 => DD x14 x63 | s50 => DD x15 x0 | s51 => DD x15 x1 | s52 => DD x15 x2 | s53 => DD x15 x3 | s54 => DD x15 x4 | s55 => DD x15 x5 | s56 => DD x15 x6 | s57 => DD x15 x7 | s58 => DD x15 x8 | s59 => DD x15 x9 | s60 => DD x15 x10 | s61 => DD x15 x11 | s62 => DD x15 x12 | s63 => DD x15 x13 | s64 => DD x15 x14 | s65 => DD x15 x15 | s66 => DD x15 x16 | s67 => DD x15 x17 | s68 => DD x15 x18 | s69 => DD x15 x19 | s70 => DD x15 x20 | s71 => DD x15 x21 | s72 => DD x15 x22 | s73 => DD x15 x23 | s74 => DD x15 x24 | s75 => DD x15 x25 | s76 => DD x15 x26 | s77 => DD x15 x27 | s78 => DD x15 x28 | s79 => DD x15 x29 | s80 => DD x15 x30 | s81 => DD x15 x31 | s82 => DD x15 x32 | s83 => DD x15 x33 | s84 => DD x15 x34 | s85 => DD x15 x35 | s86 => DD x15 x36 | s87 => DD x15 x37 | s88 => DD x15 x38 | s89 => DD x15 x39 | s90 => DD x15 x40 | s91 => DD x15 x41 | s92 => DD x15 x42 | s93 => DD x15 x43 | s94 => DD x15 x44 | s95 => DD x15 x45 | s96 => DD x15 x46 | s97 => DD x15 x47 | s98 => DD x15 x48 | s99 => DD x15 x49 | s100 => DD x15 x50 | s101 => DD x15 x51 | s102 => DD x15 x52 | s103 => DD x15 x53 | s104 => DD x15 x54 | s105 => DD x15 x55 | s106 => DD x15 x56 | s107 => DD x15 x57 | s108 => DD x15 x58 | s109 => DD x15 x59 | s110 => DD x15 x60 | s111 => DD x15 x61 | s112 => DD x15 x62 | s113 => DD x15 x63 | s114 => DD x16 x0 | s115 => DD x16 x1 | s116 => DD x16 x2 | s117 => DD x16 x3 | s118 => DD x16 x4 | s119 => DD x16 x5 | s120 => DD x16 x6 | s121 => DD x16 x7 | s122 => DD x16 x8 | s123 => DD x16 x9 | s124 => DD x16 x10 | s125 => DD x16 x11 | s126 => DD x16 x12 end.
Definition m912 (c : sum2) : dd := match c with s0 => DD x14 x16 | s1 => DD x14 x17 | s2 => DD x14 x18 | s3 => DD x14 x19 | s4 => DD x14 x20 | s5 => DD x14 x21 | s6 => DD x14 x22 | s7 => DD x14 x23 | s8 => DD x14 x24 | s9 => DD x14 x25 | s10 => DD x14 x26 | s11 => DD x14 x27 | s12 => DD x14 x28 | s13 => DD x14 x29 | s14 => DD x14 x30 | s15 => DD x14 x31 | s16 => DD x14 x32 | s17 => DD x14 x33 | s18 => DD x14 x34 | s19 => DD x14 x35 | s20 => DD x14 x36 | s21 => DD x14 x37 | s22 => DD x14 x38 | s23 => DD x14 x39 | s24 => DD x14 x40 | s25 => DD x14 x41 | s26 => DD x14 x42 | s27 => DD x14 x43 | s28 => DD x14 x44 | s29 => DD x14 x45 | s30 => DD x14 x46 | s31 => DD x14 x47 | s32 => DD x14 x48 | s33 => DD x14 x49 | s34 => DD x14 x50 | s35 => DD x14 x51 | s36 => DD x14 x52 | s37 => DD x14 x53 | s38 => DD x14 x54 | s39 => DD x14 x55 | s40 => DD x14 x56 | s41 => DD x14 x57 | s42 => DD x14 x58 | s43 => DD x14 x59 | s44 => DD x14 x60 | s45 => DD x14 x61 | s46 => DD x14 x62 | s47 => DD x14 x63 | s48 => DD x15 x0 | s49 => DD x15 x1 | s50 => DD x15 x2 | s51 => DD x15 x3 | s52 => DD x15 x4 | s53 => DD x15 x5 | s54 => DD x15 x6 | s55 => DD x15 x7 | s56 => DD x15 x8 | s57 => DD x15 x9 | s58 => DD x15 x10 | s59 => DD x15 x11 | s60 => DD x15 x12 | s61 => DD x15 x13 | s62 => DD x15 x14 | s63 => DD x15 x15 | s64 => DD x15 x16 | s65 => DD x15 x17 | s66 => DD x15 x18 | s67 => DD x15 x19 | s68 => DD x15 x20 | s69 => DD x15 x21 | s70 => DD x15 x22 | s71 => DD x15 x23 | s72 => DD x15 x24 | s73 => DD x15 x25 | s74 => DD x15 x26 | s75 => DD x15 x27 | s76 => DD x15 x28 | s77 => DD x15 x29 | s78 => DD x15 x30 | s79 => DD x15 x31 | s80 => DD x15 x32 | s81 => DD x15 x33 | s82 => DD x15 x34 | s83 => DD x15 x35 | s84 => DD x15 x36 | s85 => DD x15 x37 | s86 => DD x15 x38 | s87 => DD x15 x39 | s88 => DD x15 x40 | s89 => DD x15 x41 | s90 => DD x15 x42 | s91 => DD x15 x43 | s92 => DD x15 x44 | s93 => DD x15 x45 | s94 => DD x15 x46 | s95 => DD x15 x47 | s96 => DD x15 x48 | s97 => DD x15 x49 | s98 => DD x15 x50 | s99 => DD x15 x51 | s100 => DD x15 x52 | s101 => DD x15 x53 | s102 => DD x15 x54 | s103 => DD x15 x55 | s104 => DD x15 x56 | s105 => DD x15 x57 | s106 => DD x15 x58 | s107 => DD x15 x59 | s108 => DD x15 x60 | s109 => DD x15 x61 | s110 => DD x15 x62 | s111 => DD x15 x63 | s112 => DD x16 x0 | s113 => DD x16 x1 | s114 => DD x16 x2 | s115 => DD x16 x3 | s116 => DD x16 x4 | s117 => DD x16 x5 | s118 => DD x16 x6 | s119 => DD x16 x7 | s120 => DD x16 x8 | s121 => DD x16 x9 | s122 => DD x16 x10 | s123 => DD x16 x11 | s124 => DD x16 x12 | s125 => DD x16 x13 | s126 => DD x16 x14 end.
Definition m915 (c : sum2) : dd := match c with s0 => DD x14 x19 | s1 => DD x14 x20 | s2 => DD x14 x21 | s3 => DD x14 x22 | s4 => DD x14 x23 | s5 => DD x14 x24 | s6 => DD x14 x25 | s7 => DD x14 x26 | s8 => DD x14 x27 | s9 => DD x14 x28 | s10 => DD x14 x29 | s11 => DD x14 x30 | s12 => DD x14 x31 | s13 => DD x14 x32 | s14 => DD x14 x33 | s15 => DD x14 x34 | s16 => DD x14 x35 | s17 => DD x14 x36 | s18 => DD x14 x37 | s19 => DD x14 x38 | s20 => DD x14 x39 | s21 => DD x14 x40 | s22 => DD x14 x41 | s23 => DD x14 x42 | s24 => DD x14 x43 | s25 => DD x14 x44 | s26 => DD x14 x45 | s27 => DD x14 x46 | s28 => DD x14 x47 | s29 => DD x14 x48 | s30 => DD x14 x49 | s31 => DD x14 x50 | s32 => DD x14 x51 | s33 => DD x14 x52 | s34 => DD x14 x53 | s35 => DD x14 x54 | s36 => DD x14 x55 | s37 => DD x14 x56 | s38 => DD x14 x57 | s39 => DD x14 x58 | s40 => DD x14 x59 | s41 => DD x14 x60 | s42 => DD x14 x61 | s43 => DD x14 x62 | s44 => DD x14 x63 | s45 => DD x15 x0 | s46 => DD x15 x1 | s47 => DD x15 x2 | s48 => DD x15 x3 | s49 => DD x15 x4 | s50 => DD x15 x5 | s51 => DD x15 x6 | s52 => DD x15 x7 | s53 => DD x15 x8 | s54 => DD x15 x9 | s55 => DD x15 x10 | s56 => DD x15 x11 | s57 => DD x15 x12 | s58 => DD x15 x13 | s59 => DD x15 x14 | s60 => DD x15 x15 | s61 => DD x15 x16 | s62 => DD x15 x17 | s63 => DD x15 x18 | s64 => DD x15 x19 | s65 => DD x15 x20 | s66 => DD x15 x21 | s67 => DD x15 x22 | s68 => DD x15 x23 | s69 => DD x15 x24 | s70 => DD x15 x25 | s71 => DD x15 x26 | s72 => DD x15 x27 | s73 => DD x15 x28 | s74 => DD x15 x29 | s75 => DD x15 x30 | s76 => DD x15 x31 | s77 => DD x15 x32 | s78 => DD x15 x33 | s79 => DD x15 x34 | s80 => DD x15 x35 | s81 => DD x15 x36 | s82 => DD x15 x37 | s83 => DD x15 x38 | s84 => DD x15 x39 | s85 => DD x15 x40 | s86 => DD x15 x41 | s87 => DD x15 x42 | s88 => DD x15 x43 | s89 => DD x15 x44 | s90 => DD x15 x45 | s91 => DD x15 x46 | s92 => DD x15 x47 | s93 => DD x15 x48 | s94 => DD x15 x49 | s95 => DD x15 x50 | s96 => DD x15 x51 | s97 => DD x15 x52 | s98 => DD x15 x53 | s99 => DD x15 x54 | s100 => DD x15 x55 | s101 => DD x15 x56 | s102 => DD x15 x57 | s103 => DD x15 x58 | s104 => DD x15 x59 | s105 => DD x15 x60 | s106 => DD x15 x61 | s107 => DD x15 x62 | s108 => DD x15 x63 | s109 => DD x16 x0 | s110 => DD x16 x1 | s111 => DD x16 x2 | s112 => DD x16 x3 | s113 => DD x16 x4 | s114 => DD x16 x5 | s115 => DD x16 x6 | s116 => DD x16 x7 | s117 => DD x16 x8 | s118 => DD x16 x9 | s119 => DD x16 x10 | s120 => DD x16 x11 | s121 => DD x16 x12 | s122 => DD x16 x13 | s123 => DD x16 x14 | s124 => DD x16 x15 | s125 => DD x16 x16 | s126 => DD x16 x17 end.
Definition m918 (c : sum2) : dd := match c with s0 => DD x14 x22 | s1 => DD x14 x23 | s2 => DD x14 x24 | s3 => DD x14 x25 | s4 => DD x14 x26 | s5 => DD x14 x27 | s6 => DD x14 x28 | s7 => DD x14 x29 | s8 => DD x14 x30 | s9 => DD x14 x31 | s10 => DD x14 x32 | s11 => DD x14 x33 | s12 => DD x14 x34 | s13 => DD x14 x35 | s14 => DD x14 x36 | s15 => DD x14 x37 | s16 => DD x14 x38 | s17 => DD x14 x39 | s18 => DD x14 x40 | s19 => DD x14 x41 | s20 => DD x14 x42 | s21 => DD x14 x43 | s22 => DD x14 x44 | s23 => DD x14 x45 | s24 => DD x14 x46 | s25 => DD x14 x47 | s26 => DD x14 x48 | s27 => DD x14 x49 | s28 => DD x14 x50 | s29 => DD x14 x51 | s30 => DD x14 x52 | s31 => DD x14 x53 | s32 => DD x14 x54 | s33 => DD x14 x55 | s34 => DD x14 x56 | s35 => DD x14 x57 | s36 => DD x14 x58 | s37 => DD x14 x59 | s38 => DD x14 x60 | s39 => DD x14 x61 | s40 => DD x14 x62 | s41 => DD x14 x63 | s42 => DD x15 x0 | s43 => DD x15 x1 | s44 => DD x15 x2 | s45 => DD x15 x3 | s46 => DD x15 x4 | s47 => DD x15 x5 | s48 => DD x15 x6 | s49 => DD x15 x7 | s50 => DD x15 x8 | s51 => DD x15 x9 | s52 => DD x15 x10 | s53 => DD x15 x11 | s54 => DD x15 x12 | s55 => DD x15 x13 | s56 => DD x15 x14 | s57 => DD x15 x15 | s58 => DD x15 x16 | s59 => DD x15 x17 | s60 => DD x15 x18 | s61 => DD x15 x19 | s62 => DD x15 x20 | s63 => DD x15 x21 | s64 => DD x15 x22 | s65 => DD x15 x23 | s66 => DD x15 x24 | s67 => DD x15 x25 | s68 => DD x15 x26 | s69 => DD x15 x27 | s70 => DD x15 x28 | s71 => DD x15 x29 | s72 => DD x15 x30 | s73 => DD x15 x31 | s74 => DD x15 x32 | s75 => DD x15 x33 | s76 => DD x15 x34 | s77 => DD x15 x35 | s78 => DD x15 x36 | s79 => DD x15 x37 | s80 => DD x15 x38 | s81 => DD x15 x39 | s82 => DD x15 x40 | s83 => DD x15 x41 | s84 => DD x15 x42 | s85 => DD x15 x43 | s86 => DD x15 x44 | s87 => DD x15 x45 | s88 => DD x15 x46 | s89 => DD x15 x47 | s90 => DD x15 x48 | s91 => DD x15 x49 | s92 => DD x15 x50 | s93 => DD x15 x51 | s94 => DD x15 x52 | s95 => DD x15 x53 | s96 => DD x15 x54 | s97 => DD x15 x55 | s98 => DD x15 x56 | s99 => DD x15 x57 | s100 => DD x15 x58 | s101 => DD x15 x59 | s102 => DD x15 x60 | s103 => DD x15 x61 | s104 => DD x15 x62 | s105 => DD x15 x63 | s106 => DD x16 x0 | s107 => DD x16 x1 | s108 => DD x16 x2 | s109 => DD x16 x3 | s110 => DD x16 x4 | s111 => DD x16 x5 | s112 => DD x16 x6 | s113 => DD x16 x7 | s114 => DD x16 x8 | s115 => DD x16 x9 | s116 => DD x16 x10 | s117 => DD x16 x11 | s118 => DD x16 x12 | s119 => DD x16 x13 | s120 => DD x16 x14 | s121 => DD x16 x15 | s122 => DD x16 x16 | s123 => DD x16 x17 | s124 => DD x16 x18 | s125 => DD x16 x19 | s126 => DD x16 x20 end.
Definition m920 (c : sum2) : dd := match c with s0 => DD x14 x24 | s1 => DD x14 x25 | s2 => DD x14 x26 | s3 => DD x14 x27 | s4 => DD x14 x28 | s5 => DD x14 x29 | s6 => DD x14 x30 | s7 => DD x14 x31 | s8 => DD x14 x32 | s9 => DD x14 x33 | s10 => DD x14 x34 | s11 => DD x14 x35 | s12 => DD x14 x36 | s13 => DD x14 x37 | s14 => DD x14 x38 | s15 => DD x14 x39 | s16 => DD x14 x40 | s17 => DD x14 x41 | s18 => DD x14 x42 | s19 => DD x14 x43 | s20 => DD x14 x44 | s21 => DD x14 x45 | s22 => DD x14 x46 | s23 => DD x14 x47 | s24 => DD x14 x48 | s25 => DD x14 x49 | s26 => DD x14 x50 | s27 => DD x14 x51 | s28 => DD x14 x52 | s29 => DD x14 x53 | s30 => DD x14 x54 | s31 => DD x14 x55 | s32 => DD x14 x56 | s33 => DD x14 x57 | s34 => DD x14 x58 | s35 => DD x14 x59 | s36 => DD x14 x60 | s37 => DD x14 x61 | s38 => DD x14 x62 | s39 => DD x14 x63 | s40 => DD x15 x0 | s41 => DD x15 x1 | s42 => DD x15 x2 | s43 => DD x15 x3 | s44 => DD x15 x4 | s45 => DD x15 x5 | s46 => DD x15 x6 | s47 => DD x15 x7 | s48 => DD x15 x8 | s49 => DD x15 x9 | s50 => DD x15 x10 | s51 => DD x15 x11 | s52 => DD x15 x12 | s53 => DD x15 x13 | s54 => DD x15 x14 | s55 => DD x15 x15 | s56 => DD x15 x16 | s57 => DD x15 x17 | s58 => DD x15 x18 | s59 => DD x15 x19 | s60 => DD x15 x20 | s61 => DD x15 x21 | s62 => DD x15 x22 | s63 => DD x15 x23 | s64 => DD x15 x24 | s65 => DD x15 x25 | s66 => DD x15 x26 | s67 => DD x15 x27 | s68 => DD x15 x28 | s69 => DD x15 x29 | s70 => DD x15 x30 | s71 => DD x15 x31 | s72 => DD x15 x32 | s73 => DD x15 x33 | s74 => DD x15 x34 | s75 => DD x15 x35 | s76 => DD x15 x36 | s77 => DD x15 x37 | s78 => DD x15 x38 | s79 => DD x15 x39 | s80 => DD x15 x40 | s81 => DD x15 x41 | s82 => DD x15 x42 | s83 => DD x15 x43 | s84 => DD x15 x44 | s85 => DD x15 x45 | s86 => DD x15 x46 | s87 => DD x15 x47 | s88 => DD x15 x48 | s89 => DD x15 x49 | s90 => DD x15 x50 | s91 => DD x15 x51 | s92 => DD x15 x52 | s93 => DD x15 x53 | s94 => DD x15 x54 | s95 => DD x15 x55 | s96 => DD x15 x56 | s97 => DD x15 x57 | s98 => DD x15 x58 | s99 => DD x15 x59 | s100 => DD x15 x60 | s101 => DD x15 x61 | s102 => DD x15 x62 | s103 => DD x15 x63 | s104 => DD x16 x0 | s105 => DD x16 x1 | s106 => DD x16 x2 | s107 => DD x16 x3 | s108 => DD x16 x4 | s109 => DD x16 x5 | s110 => DD x16 x6 | s111 => DD x16 x7 | s112 => DD x16 x8 | s113 => DD x16 x9 | s114 => DD x16 x10 | s115 => DD x16 x11 | s116 => DD x16 x12 | s117 => DD x16 x13 | s118 => DD x16 x14 | s119 => DD x16 x15 | s120 => DD x16 x16 | s121 => DD x16 x17 | s122 => DD x16 x18 | s123 => DD x16 x19 | s124 => DD x16 x20 | s125 => DD x16 x21 | s126 => DD x16 x22 end.
Definition m924 (c : sum2) : dd := match c with s0 => DD x14 x28 | s1 => DD x14 x29 | s2 => DD x14 x30 | s3 => DD x14 x31 | s4 => DD x14 x32 | s5 => DD x14 x33 | s6 => DD x14 x34 | s7 => DD x14 x35 | s8 => DD x14 x36 | s9 => DD x14 x37 | s10 => DD x14 x38 | s11 => DD x14 x39 | s12 => DD x14 x40 | s13 => DD x14 x41 | s14 => DD x14 x42 | s15 => DD x14 x43 | s16 => DD x14 x44 | s17 => DD x14 x45 | s18 => DD x14 x46 | s19 => DD x14 x47 | s20 => DD x14 x48 | s21 => DD x14 x49 | s22 => DD x14 x50 | s23 => DD x14 x51 | s24 => DD x14 x52 | s25 => DD x14 x53 | s26 => DD x14 x54 | s27 => DD x14 x55 | s28 => DD x14 x56 | s29 => DD x14 x57 | s30 => DD x14 x58 | s31 => DD x14 x59 | s32 => DD x14 x60 | s33 => DD x14 x61 | s34 => DD x14 x62 | s35 => DD x14 x63 | s36 => DD x15 x0 | s37 => DD x15 x1 | s38 => DD x15 x2 | s39 => DD x15 x3 | s40 => DD x15 x4 | s41 => DD x15 x5 | s42 => DD x15 x6 | s43 => DD x15 x7 | s44 => DD x15 x8 | s45 => DD x15 x9 | s46 => DD x15 x10 | s47 => DD x15 x11 | s48 => DD x15 x12 | s49 => DD x15 x13 | s50 => DD x15 x14 | s51 => DD x15 x15 | s52 => DD x15 x16 | s53 => DD x15 x17 | s54 => DD x15 x18 | s55 => DD x15 x19 | s56 => DD x15 x20 | s57 => DD x15 x21 | s58 => DD x15 x22 | s59 => DD x15 x23 | s60 => DD x15 x24 | s61 => DD x15 x25 | s62 => DD x15 x26 | s63 => DD x15 x27 | s64 => DD x15 x28 | s65 => DD x15 x29 | s66 => DD x15 x30 | s67 => DD x15 x31 | s68 => DD x15 x32 | s69 => DD x15 x33 | s70 => DD x15 x34 | s71 => DD x15 x35 | s72 => DD x15 x36 | s73 => DD x15 x37 | s74 => DD x15 x38 | s75 => DD x15 x39 | s76 => DD x15 x40 | s77 => DD x15 x41 | s78 => DD x15 x42 | s79 => DD x15 x43 | s80 => DD x15 x44 | s81 => DD x15 x45 | s82 => DD x15 x46 | s83 => DD x15 x47 | s84 => DD x15 x48 | s85 => DD x15 x49 | s86 => DD x15 x50 | s87 => DD x15 x51 | s88 => DD x15 x52 | s89 => DD x15 x53 | s90 => DD x15 x54 | s91 => DD x15 x55 | s92 => DD x15 x56 | s93 => DD x15 x57 | s94 => DD x15 x58 | s95 => DD x15 x59 | s96 => DD x15 x60 | s97 => DD x15 x61 | s98 => DD x15 x62 | s99 => DD x15 x63 | s100 => DD x16 x0 | s101 => DD x16 x1 | s102 => DD x16 x2 | s103 => DD x16 x3 | s104 => DD x16 x4 | s105 => DD x16 x5 | s106 => DD x16 x6 | s107 => DD x16 x7 | s108 => DD x16 x8 | s109 => DD x16 x9 | s110 => DD x16 x10 | s111 => DD x16 x11 | s112 => DD x16 x12 | s113 => DD x16 x13 | s114 => DD x16 x14 | s115 => DD x16 x15 | s116 => DD x16 x16 | s117 => DD x16 x17 | s118 => DD x16 x18 | s119 => DD x16 x19 | s120 => DD x16 x20 | s121 => DD x16 x21 | s122 => DD x16 x22 | s123 => DD x16 x23 | s124 => DD x16 x24 | s125 => DD x16 x25 | s126 => DD x16 x26 end.
Definition m925 (c : sum2) : dd := match c with s0 => DD x14 x29 | s1 => DD x14 x30 | s2 => DD x14 x31 | s3 => DD x14 x32 | s4 => DD x14 x33 | s5 => DD x14 x34 | s6 => DD x14 x35 | s7 => DD x14 x36 | s8 => DD x14 x37 | s9 => DD x14 x38 | s10 => DD x14 x39 | s11 => DD x14 x40 | s12 => DD x14 x41 | s13 => DD x14 x42 | s14 => DD x14 x43 | s15 => DD x14 x44 | s16 => DD x14 x45 | s17 => DD x14 x46 | s18 => DD x14 x47 | s19 => DD x14 x48 | s20 => DD x14 x49 | s21 => DD x14 x50 | s22 => DD x14 x51 | s23 => DD x14 x52 | s24 => DD x14 x53 | s25 => DD x14 x54 | s26 => DD x14 x55 | s27 => DD x14 x56 | s28 => DD x14 x57 | s29 => DD x14 x58 | s30 => DD x14 x59 | s31 => DD x14 x60 | s32 => DD x14 x61 | s33 => DD x14 x62 | s34 => DD x14 x63 | s35 => DD x15 x0 | s36 => DD x15 x1 | s37 => DD x15 x2 | s38 => DD x15 x3 | s39 => DD x15 x4 | s40 => DD x15 x5 | s41 => DD x15 x6 | s42 => DD x15 x7 | s43 => DD x15 x8 | s44 => DD x15 x9 | s45 => DD x15 x10 | s46 => DD x15 x11 | s47 => DD x15 x12 | s48 => DD x15 x13 | s49 => DD x15 x14 | s50 => DD x15 x15 | s51 => DD x15 x16 | s52 => DD x15 x17 | s53 => DD x15 x18 | s54 => DD x15 x19 | s55 => DD x15 x20 | s56 => DD x15 x21 | s57 => DD x15 x22 | s58 => DD x15 x23 | s59 => DD x15 x24 | s60 => DD x15 x25 | s61 => DD x15 x26 | s62 => DD x15 x27 | s63 => DD x15 x28 | s64 => DD x15 x29 | s65 => DD x15 x30 | s66 => DD x15 x31 | s67 => DD x15 x32 | s68 => DD x15 x33 | s69 => DD x15 x34 | s70 => DD x15 x35 | s71 => DD x15 x36 | s72 => DD x15 x37 | s73 => DD x15 x38 | s74 => DD x15 x39 | s75 => DD x15 x40 | s76 => DD x15 x41 | s77 => DD x15 x42 | s78 => DD x15 x43 | s79 => DD x15 x44 | s80 => DD x15 x45 | s81 => DD x15 x46 | s82 => DD x15 x47 | s83 => DD x15 x48 | s84 => DD x15 x49 | s85 => DD x15 x50 | s86 => DD x15 x51 | s87 => DD x15 x52 | s88 => DD x15 x53 | s89 => DD x15 x54 | s90 => DD x15 x55 | s91 => DD x15 x56 | s92 => DD x15 x57 | s93 => DD x15 x58 | s94 => DD x15 x59 | s95 => DD x15 x60 | s96 => DD x15 x61 | s97 => DD x15 x62 | s98 => DD x15 x63 | s99 => DD x16 x0 | s100 => DD x16 x1 | s101 => DD x16 x2 | s102 => DD x16 x3 | s103 => DD x16 x4 | s104 => DD x16 x5 | s105 => DD x16 x6 | s106 => DD x16 x7 | s107 => DD x16 x8 | s108 => DD x16 x9 | s109 => DD x16 x10 | s110 => DD x16 x11 | s111 => DD x16 x12 | s112 => DD x16 x13 | s113 => DD x16 x14 | s114 => DD x16 x15 | s115 => DD x16 x16 | s116 => DD x16 x17 | s117 => DD x16 x18 | s118 => DD x16 x19 | s119 => DD x16 x20 | s120 => DD x16 x21 | s121 => DD x16 x22 | s122 => DD x16 x23 | s123 => DD x16 x24 | s124 => DD x16 x25 | s125 => DD x16 x26 | s126 => DD x16 x27 end.
Definition m928 (c : sum2) : dd := match c with s0 => DD x14 x32 | s1 => DD x14 x33 | s2 => DD x14 x34 | s3 => DD x14 x35 | s4 => DD x14 x36 | s5 => DD x14 x37 | s6 => DD x14 x38 | s7 => DD x14 x39 | s8 => DD x14 x40 | s9 => DD x14 x41 | s10 => DD x14 x42 | s11 => DD x14 x43 | s12 => DD x14 x44 | s13 => DD x14 x45 | s14 => DD x14 x46 | s15 => DD x14 x47 | s16 => DD x14 x48 | s17 => DD x14 x49 | s18 => DD x14 x50 | s19 => DD x14 x51 | s20 => DD x14 x52 | s21 => DD x14 x53 | s22 => DD x14 x54 | s23 => DD x14 x55 | s24 => DD x14 x56 | s25 => DD x14 x57 | s26 => DD x14 x58 | s27 => DD x14 x59 | s28 => DD x14 x60 | s29 => DD x14 x61 | s30 => DD x14 x62 | s31 => DD x14 x63 | s32 => DD x15 x0 | s33 => DD x15 x1 | s34 => DD x15 x2 | s35 => DD x15 x3 | s36 => DD x15 x4 | s37 => DD x15 x5 | s38 => DD x15 x6 | s39 => DD x15 x7 | s40 => DD x15 x8 | s41 => DD x15 x9 | s42 => DD x15 x10 | s43 => DD x15 x11 | s44 => DD x15 x12 | s45 => DD x15 x13 | s46 => DD x15 x14 | s47 => DD x15 x15 | s48 => DD x15 x16 | s49 => DD x15 x17 | s50 => DD x15 x18 | s51 => DD x15 x19 | s52 => DD x15 x20 | s53 => DD x15 x21 | s54 => DD x15 x22 | s55 => DD x15 x23 | s56 => DD x15 x24 | s57 => DD x15 x25 | s58 => DD x15 x26 | s59 => DD x15 x27 | s60 => DD x15 x28 | s61 => DD x15 x29 | s62 => DD x15 x30 | s63 => DD x15 x31 | s64 => DD x15 x32 | s65 => DD x15 x33 | s66 => DD x15 x34 | s67 => DD x15 x35 | s68 => DD x15 x36 | s69 => DD x15 x37 | s70 => DD x15 x38 | s71 => DD x15 x39 | s72 => DD x15 x40 | s73 => DD x15 x41 | s74 => DD x15 x42 | s75 => DD x15 x43 | s76 => DD x15 x44 | s77 => DD x15 x45 | s78 => DD x15 x46 | s79 => DD x15 x47 | s80 => DD x15 x48 | s81 => DD x15 x49 | s82 => DD x15 x50 | s83 => DD x15 x51 | s84 => DD x15 x52 | s85 => DD x15 x53 | s86 => DD x15 x54 | s87 => DD x15 x55 | s88 => DD x15 x56 | s89 => DD x15 x57 | s90 => DD x15 x58 | s91 => DD x15 x59 | s92 => DD x15 x60 | s93 => DD x15 x61 | s94 => DD x15 x62 | s95 => DD x15 x63 | s96 => DD x16 x0 | s97 => DD x16 x1 | s98 => DD x16 x2 | s99 => DD x16 x3 | s100 => DD x16 x4 | s101 => DD x16 x5 | s102 => DD x16 x6 | s103 => DD x16 x7 | s104 => DD x16 x8 | s105 => DD x16 x9 | s106 => DD x16 x10 | s107 => DD x16 x11 | s108 => DD x16 x12 | s109 => DD x16 x13 | s110 => DD x16 x14 | s111 => DD x16 x15 | s112 => DD x16 x16 | s113 => DD x16 x17 | s114 => DD x16 x18 | s115 => DD x16 x19 | s116 => DD x16 x20 | s117 => DD x16 x21 | s118 => DD x16 x22 | s119 => DD x16 x23 | s120 => DD x16 x24 | s121 => DD x16 x25 | s122 => DD x16 x26 | s123 => DD x16 x27 | s124 => DD x16 x28 | s125 => DD x16 x29 | s126 => DD x16 x30 end.
Definition m930 (c : sum2) : dd := match c with s0 => DD x14 x34 | s1 => DD x14 x35 | s2 => DD x14 x36 | s3 => DD x14 x37 | s4 => DD x14 x38 | s5 => DD x14 x39 | s6 => DD x14 x40 | s7 => DD x14 x41 | s8 => DD x14 x42 | s9 => DD x14 x43 | s10 => DD x14 x44 | s11 => DD x14 x45 | s12 => DD x14 x46 | s13 => DD x14 x47 | s14 => DD x14 x48 | s15 => DD x14 x49 | s16 => DD x14 x50 | s17 => DD x14 x51 | s18 => DD x14 x52 | s19 => DD x14 x53 | s20 => DD x14 x54 | s21 => DD x14 x55 | s22 => DD x14 x56 | s23 => DD x14 x57 | s24 => DD x14 x58 | s25 => DD x14 x59 | s26 => DD x14 x60 | s27 => DD x14 x61 | s28 => DD x14 x62 | s29 => DD x14 x63 | s30 => DD x15 x0 | s31 => DD x15 x1 | s32 => DD x15 x2 | s33 => DD x15 x3 | s34 => DD x15 x4 | s35 => DD x15 x5 | s36 => DD x15 x6 | s37 => DD x15 x7 | s38 => DD x15 x8 | s39 => DD x15 x9 | s40 => DD x15 x10 | s41 => DD x15 x11 | s42 => DD x15 x12 | s43 => DD x15 x13 | s44 => DD x15 x14 | s45 => DD x15 x15 | s46 => DD x15 x16 | s47 => DD x15 x17 | s48 => DD x15 x18 | s49 => DD x15 x19 | s50 => DD x15 x20 | s51 => DD x15 x21 | s52 => DD x15 x22 | s53 => DD x15 x23 | s54 => DD x15 x24 | s55 => DD x15 x25 | s56 => DD x15 x26 | s57 => DD x15 x27 | s58 => DD x15 x28 | s59 => DD x15 x29 | s60 => DD x15 x30 | s61 => DD x15 x31 | s62 => DD x15 x32 | s63 => DD x15 x33 | s64 => DD x15 x34 | s65 => DD x15 x35 | s66 => DD x15 x36 | s67 => DD x15 x37 | s68 => DD x15 x38 | s69 => DD x15 x39 | s70 => DD x15 x40 | s71 => DD x15 x41 | s72 => DD x15 x42 | s73 => DD x15 x43 | s74 => DD x15 x44 | s75 => DD x15 x45 | s76 => DD x15 x46 | s77 => DD x15 x47 | s78 => DD x15 x48 | s79 => DD x15 x49 | s80 => DD x15 x50 | s81 => DD x15 x51 | s82 => DD x15 x52 | s83 => DD x15 x53 | s84 => DD x15 x54 | s85 => DD x15 x55 | s86 => DD x15 x56 | s87 => DD x15 x57 | s88 => DD x15 x58 | s89 => DD x15 x59 | s90 => DD x15 x60 | s91 => DD x15 x61 | s92 => DD x15 x62 | s93 => DD x15 x63 | s94 => DD x16 x0 | s95 => DD x16 x1 | s96 => DD x16 x2 | s97 => DD x16 x3 | s98 => DD x16 x4 | s99 => DD x16 x5 | s100 => DD x16 x6 | s101 => DD x16 x7 | s102 => DD x16 x8 | s103 => DD x16 x9 | s104 => DD x16 x10 | s105 => DD x16 x11 | s106 => DD x16 x12 | s107 => DD x16 x13 | s108 => DD x16 x14 | s109 => DD x16 x15 | s110 => DD x16 x16 | s111 => DD x16 x17 | s112 => DD x16 x18 | s113 => DD x16 x19 | s114 => DD x16 x20 | s115 => DD x16 x21 | s116 => DD x16 x22 | s117 => DD x16 x23 | s118 => DD x16 x24 | s119 => DD x16 x25 | s120 => DD x16 x26 | s121 => DD x16 x27 | s122 => DD x16 x28 | s123 => DD x16 x29 | s124 => DD x16 x30 | s125 => DD x16 x31 | s126 => DD x16 x32 end.
Definition m931 (c : sum2) : dd := match c with s0 => DD x14 x35 | s1 => DD x14 x36 | s2 => DD x14 x37 | s3 => DD x14 x38 | s4 => DD x14 x39 | s5 => DD x14 x40 | s6 => DD x14 x41 | s7 => DD x14 x42 | s8 => DD x14 x43 | s9 => DD x14 x44 | s10 => DD x14 x45 | s11 => DD x14 x46 | s12 => DD x14 x47 | s13 => DD x14 x48 | s14 => DD x14 x49 | s15 => DD x14 x50 | s16 => DD x14 x51 | s17 => DD x14 x52 | s18 => DD x14 x53 | s19 => DD x14 x54 | s20 => DD x14 x55 | s21 => DD x14 x56 | s22 => DD x14 x57 | s23 => DD x14 x58 | s24 => DD x14 x59 | s25 => DD x14 x60 | s26 => DD x14 x61 | s27 => DD x14 x62 | s28 => DD x14 x63 | s29 => DD x15 x0 | s30 => DD x15 x1 | s31 => DD x15 x2 | s32 => DD x15 x3 | s33 => DD x15 x4 | s34 => DD x15 x5 | s35 => DD x15 x6 | s36 => DD x15 x7 | s37 => DD x15 x8 | s38 => DD x15 x9 | s39 => DD x15 x10 | s40 => DD x15 x11 | s41 => DD x15 x12 | s42 => DD x15 x13 | s43 => DD x15 x14 | s44 => DD x15 x15 | s45 => DD x15 x16 | s46 => DD x15 x17 | s47 => DD x15 x18 | s48 => DD x15 x19 | s49 => DD x15 x20 | s50 => DD x15 x21 | s51 => DD x15 x22 | s52 => DD x15 x23 | s53 => DD x15 x24 | s54 => DD x15 x25 | s55 => DD x15 x26 | s56 => DD x15 x27 | s57 => DD x15 x28 | s58 => DD x15 x29 | s59 => DD x15 x30 | s60 => DD x15 x31 | s61 => DD x15 x32 | s62 => DD x15 x33 | s63 => DD x15 x34 | s64 => DD x15 x35 | s65 => DD x15 x36 | s66 => DD x15 x37 | s67 => DD x15 x38 | s68 => DD x15 x39 | s69 => DD x15 x40 | s70 => DD x15 x41 | s71 => DD x15 x42 | s72 => DD x15 x43 | s73 => DD x15 x44 | s74 => DD x15 x45 | s75 => DD x15 x46 | s76 => DD x15 x47 | s77 => DD x15 x48 | s78 => DD x15 x49 | s79 => DD x15 x50 | s80 => DD x15 x51 | s81 => DD x15 x52 | s82 => DD x15 x53 | s83 => DD x15 x54 | s84 => DD x15 x55 | s85 => DD x15 x56 | s86 => DD x15 x57 | s87 => DD x15 x58 | s88 => DD x15 x59 | s89 => DD x15 x60 | s90 => DD x15 x61 | s91 => DD x15 x62 | s92 => DD x15 x63 | s93 => DD x16 x0 | s94 => DD x16 x1 | s95 => DD x16 x2 | s96 => DD x16 x3 | s97 => DD x16 x4 | s98 => DD x16 x5 | s99 => DD x16 x6 | s100 => DD x16 x7 | s101 => DD x16 x8 | s102 => DD x16 x9 | s103 => DD x16 x10 | s104 => DD x16 x11 | s105 => DD x16 x12 | s106 => DD x16 x13 | s107 => DD x16 x14 | s108 => DD x16 x15 | s109 => DD x16 x16 | s110 => DD x16 x17 | s111 => DD x16 x18 | s112 => DD x16 x19 | s113 => DD x16 x20 | s114 => DD x16 x21 | s115 => DD x16 x22 | s116 => DD x16 x23 | s117 => DD x16 x24 | s118 => DD x16 x25 | s119 => DD x16 x26 | s120 => DD x16 x27 | s121 => DD x16 x28 | s122 => DD x16 x29 | s123 => DD x16 x30 | s124 => DD x16 x31 | s125 => DD x16 x32 | s126 => DD x16 x33 end.
Definition m935 (c : sum2) : dd := match c with s0 => DD x14 x39 | s1 => DD x14 x40 | s2 => DD x14 x41 | s3 => DD x14 x42 | s4 => DD x14 x43 | s5 => DD x14 x44 | s6 => DD x14 x45 | s7 => DD x14 x46 | s8 => DD x14 x47 | s9 => DD x14 x48 | s10 => DD x14 x49 | s11 => DD x14 x50 | s12 => DD x14 x51 | s13 => DD x14 x52 | s14 => DD x14 x53 | s15 => DD x14 x54 | s16 => DD x14 x55 | s17 => DD x14 x56 | s18 => DD x14 x57 | s19 => DD x14 x58 | s20 => DD x14 x59 | s21 => DD x14 x60 | s22 => DD x14 x61 | s23 => DD x14 x62 | s24 => DD x14 x63 | s25 => DD x15 x0 | s26 => DD x15 x1 | s27 => DD x15 x2 | s28 => DD x15 x3 | s29 => DD x15 x4 | s30 => DD x15 x5 | s31 => DD x15 x6 | s32 => DD x15 x7 | s33 => DD x15 x8 | s34 => DD x15 x9 | s35 => DD x15 x10 | s36 => DD x15 x11 | s37 => DD x15 x12 | s38 => DD x15 x13 | s39 => DD x15 x14 | s40 => DD x15 x15 | s41 => DD x15 x16 | s42 => DD x15 x17 | s43 => DD x15 x18 | s44 => DD x15 x19 | s45 => DD x15 x20 | s46 => DD x15 x21 | s47 => DD x15 x22 | s48 => DD x15 x23 | s49 => DD x15 x24 | s50 => DD x15 x25 | s51 => DD x15 x26 | s52 => DD x15 x27 | s53 => DD x15 x28 | s54 => DD x15 x29 | s55 => DD x15 x30 | s56 => DD x15 x31 | s57 => DD x15 x32 | s58 => DD x15 x33 | s59 => DD x15 x34 | s60 => DD x15 x35 | s61 => DD x15 x36 | s62 => DD x15 x37 | s63 => DD x15 x38 | s64 => DD x15 x39 | s65 => DD x15 x40 | s66 => DD x15 x41 | s67 => DD x15 x42 | s68 => DD x15 x43 | s69 => DD x15 x44 | s70 => DD x15 x45 | s71 => DD x15 x46 | s72 => DD x15 x47 | s73 => DD x15 x48 | s74 => DD x15 x49 | s75 => DD x15 x50 | s76 => DD x15 x51 | s77 => DD x15 x52 | s78 => DD x15 x53 | s79 => DD x15 x54 | s80 => DD x15 x55 | s81 => DD x15 x56 | s82 => DD x15 x57 | s83 => DD x15 x58 | s84 => DD x15 x59 | s85 => DD x15 x60 | s86 => DD x15 x61 | s87 => DD x15 x62 | s88 => DD x15 x63 | s89 => DD x16 x0 | s90 => DD x16 x1 | s91 => DD x16 x2 | s92 => DD x16 x3 | s93 => DD x16 x4 | s94 => DD x16 x5 | s95 => DD x16 x6 | s96 => DD x16 x7 | s97 => DD x16 x8 | s98 => DD x16 x9 | s99 => DD x16 x10 | s100 => DD x16 x11 | s101 => DD x16 x12 | s102 => DD x16 x13 | s103 => DD x16 x14 | s104 => DD x16 x15 | s105 => DD x16 x16 | s106 => DD x16 x17 | s107 => DD x16 x18 | s108 => DD x16 x19 | s109 => DD x16 x20 | s110 => DD x16 x21 | s111 => DD x16 x22 | s112 => DD x16 x23 | s113 => DD x16 x24 | s114 => DD x16 x25 | s115 => DD x16 x26 | s116 => DD x16 x27 | s117 => DD x16 x28 | s118 => DD x16 x29 | s119 => DD x16 x30 | s120 => DD x16 x31 | s121 => DD x16 x32 | s122 => DD x16 x33 | s123 => DD x16 x34 | s124 => DD x16 x35 | s125 => DD x16 x36 | s126 => DD x16 x37 end.
Definition m936 (c : sum2) : dd := match c with s0 => DD x14 x40 | s1 => DD x14 x41 | s2 => DD x14 x42 | s3 => DD x14 x43 | s4 => DD x14 x44 | s5 => DD x14 x45 | s6 => DD x14 x46 | s7 => DD x14 x47 | s8 => DD x14 x48 | s9 => DD x14 x49 | s10 => DD x14 x50 | s11 => DD x14 x51 | s12 => DD x14 x52 | s13 => DD x14 x53 | s14 => DD x14 x54 | s15 => DD x14 x55 | s16 => DD x14 x56 | s17 => DD x14 x57 | s18 => DD x14 x58 | s19 => DD x14 x59 | s20 => DD x14 x60 | s21 => DD x14 x61 | s22 => DD x14 x62 | s23 => DD x14 x63 | s24 => DD x15 x0 | s25 => DD x15 x1 | s26 => DD x15 x2 | s27 => DD x15 x3 | s28 => DD x15 x4 | s29 => DD x15 x5 | s30 => DD x15 x6 | s31 => DD x15 x7 | s32 => DD x15 x8 | s33 => DD x15 x9 | s34 => DD x15 x10 | s35 => DD x15 x11 | s36 => DD x15 x12 | s37 => DD x15 x13 | s38 => DD x15 x14 | s39 => DD x15 x15 | s40 => DD x15 x16 | s41 => DD x15 x17 | s42 => DD x15 x18 | s43 => DD x15 x19 | s44 => DD x15 x20 | s45 => DD x15 x21 | s46 => DD x15 x22 | s47 => DD x15 x23 | s48 => DD x15 x24 | s49 => DD x15 x25 | s50 => DD x15 x26 | s51 => DD x15 x27 | s52 => DD x15 x28 | s53 => DD x15 x29 | s54 => DD x15 x30 | s55 => DD x15 x31 | s56 => DD x15 x32 | s57 => DD x15 x33 | s58 => DD x15 x34 | s59 => DD x15 x35 | s60 => DD x15 x36 | s61 => DD x15 x37 | s62 => DD x15 x38 | s63 => DD x15 x39 | s64 => DD x15 x40 | s65 => DD x15 x41 | s66 => DD x15 x42 | s67 => DD x15 x43 | s68 => DD x15 x44 | s69 => DD x15 x45 | s70 => DD x15 x46 | s71 => DD x15 x47 | s72 => DD x15 x48 | s73 => DD x15 x49 | s74 => DD x15 x50 | s75 => DD x15 x51 | s76 => DD x15 x52 | s77 => DD x15 x53 | s78 => DD x15 x54 | s79 => DD x15 x55 | s80 => DD x15 x56 | s81 => DD x15 x57 | s82 => DD x15 x58 | s83 => DD x15 x59 | s84 => DD x15 x60 | s85 => DD x15 x61 | s86 => DD x15 x62 | s87 => DD x15 x63 | s88 => DD x16 x0 | s89 => DD x16 x1 | s90 => DD x16 x2 | s91 => DD x16 x3 | s92 => DD x16 x4 | s93 => DD x16 x5 | s94 => DD x16 x6 | s95 => DD x16 x7 | s96 => DD x16 x8 | s97 => DD x16 x9 | s98 => DD x16 x10 | s99 => DD x16 x11 | s100 => DD x16 x12 | s101 => DD x16 x13 | s102 => DD x16 x14 | s103 => DD x16 x15 | s104 => DD x16 x16 | s105 => DD x16 x17 | s106 => DD x16 x18 | s107 => DD x16 x19 | s108 => DD x16 x20 | s109 => DD x16 x21 | s110 => DD x16 x22 | s111 => DD x16 x23 | s112 => DD x16 x24 | s113 => DD x16 x25 | s114 => DD x16 x26 | s115 => DD x16 x27 | s116 => DD x16 x28 | s117 => DD x16 x29 | s118 => DD x16 x30 | s119 => DD x16 x31 | s120 => DD x16 x32 | s121 => DD x16 x33 | s122 => DD x16 x34 | s123 => DD x16 x35 | s124 => DD x16 x36 | s125 => DD x16 x37 | s126 => DD x16 x38 end.
Definition m940 (c : sum2) : dd := match c with s0 => DD x14 x44 | s1 => DD x14 x45 | s2 => DD x14 x46 | s3 => DD x14 x47 | s4 => DD x14 x48 | s5 => DD x14 x49 | s6 => DD x14 x50 | s7 => DD x14 x51 | s8 => DD x14 x52 | s9 => DD x14 x53 | s10 => DD x14 x54 | s11 => DD x14 x55 | s12 => DD x14 x56 | s13 => DD x14 x57 | s14 => DD x14 x58 | s15 => DD x14 x59 | s16 => DD x14 x60 | s17 => DD x14 x61 | s18 => DD x14 x62 | s19 => DD x14 x63 | s20 => DD x15 x0 | s21 => DD x15 x1 | s22 => DD x15 x2 | s23 => DD x15 x3 | s24 => DD x15 x4 | s25 => DD x15 x5 | s26 => DD x15 x6 | s27 => DD x15 x7 | s28 => DD x15 x8 | s29 => DD x15 x9 | s30 => DD x15 x10 | s31 => DD x15 x11 | s32 => DD x15 x12 | s33 => DD x15 x13 | s34 => DD x15 x14 | s35 => DD x15 x15 | s36 => DD x15 x16 | s37 => DD x15 x17 | s38 => DD x15 x18 | s39 => DD x15 x19 | s40 => DD x15 x20 | s41 => DD x15 x21 | s42 => DD x15 x22 | s43 => DD x15 x23 | s44 => DD x15 x24 | s45 => DD x15 x25 | s46 => DD x15 x26 | s47 => DD x15 x27 | s48 => DD x15 x28 | s49 => DD x15 x29 | s50 => DD x15 x30 | s51 => DD x15 x31 | s52 => DD x15 x32 | s53 => DD x15 x33 | s54 => DD x15 x34 | s55 => DD x15 x35 | s56 => DD x15 x36 | s57 => DD x15 x37 | s58 => DD x15 x38 | s59 => DD x15 x39 | s60 => DD x15 x40 | s61 => DD x15 x41 | s62 => DD x15 x42 | s63 => DD x15 x43 | s64 => DD x15 x44 | s65 => DD x15 x45 | s66 => DD x15 x46 | s67 => DD x15 x47 | s68 => DD x15 x48 | s69 => DD x15 x49 | s70 => DD x15 x50 | s71 => DD x15 x51 | s72 => DD x15 x52 | s73 => DD x15 x53 | s74 => DD x15 x54 | s75 => DD x15 x55 | s76 => DD x15 x56 | s77 => DD x15 x57 | s78 => DD x15 x58 | s79 => DD x15 x59 | s80 => DD x15 x60 | s81 => DD x15 x61 | s82 => DD x15 x62 | s83 => DD x15 x63 | s84 => DD x16 x0 | s85 => DD x16 x1 | s86 => DD x16 x2 | s87 => DD x16 x3 | s88 => DD x16 x4 | s89 => DD x16 x5 | s90 => DD x16 x6 | s91 => DD x16 x7 | s92 => DD x16 x8 | s93 => DD x16 x9 | s94 => DD x16 x10 | s95 => DD x16 x11 | s96 => DD x16 x12 | s97 => DD x16 x13 | s98 => DD x16 x14 | s99 => DD x16 x15 | s100 => DD x16 x16 | s101 => DD x16 x17 | s102 => DD x16 x18 | s103 => DD x16 x19 | s104 => DD x16 x20 | s105 => DD x16 x21 | s106 => DD x16 x22 | s107 => DD x16 x23 | s108 => DD x16 x24 | s109 => DD x16 x25 | s110 => DD x16 x26 | s111 => DD x16 x27 | s112 => DD x16 x28 | s113 => DD x16 x29 | s114 => DD x16 x30 | s115 => DD x16 x31 | s116 => DD x16 x32 | s117 => DD x16 x33 | s118 => DD x16 x34 | s119 => DD x16 x35 | s120 => DD x16 x36 | s121 => DD x16 x37 | s122 => DD x16 x38 | s123 => DD x16 x39 | s124 => DD x16 x40 | s125 => DD x16 x41 | s126 => DD x16 x42 end.
Definition m943 (c : sum2) : dd := match c with s0 => DD x14 x47 | s1 => DD x14 x48 | s2 => DD x14 x49 | s3 => DD x14 x50 | s4 => DD x14 x51 | s5 => DD x14 x52 | s6 => DD x14 x53 | s7 => DD x14 x54 | s8 => DD x14 x55 | s9 => DD x14 x56 | s10 => DD x14 x57 | s11 => DD x14 x58 | s12 => DD x14 x59 | s13 => DD x14 x60 | s14 => DD x14 x61 | s15 => DD x14 x62 | s16 => DD x14 x63 | s17 => DD x15 x0 | s18 => DD x15 x1 | s19 => DD x15 x2 | s20 => DD x15 x3 | s21 => DD x15 x4 | s22 => DD x15 x5 | s23 => DD x15 x6 | s24 => DD x15 x7 | s25 => DD x15 x8 | s26 => DD x15 x9 | s27 => DD x15 x10 | s28 => DD x15 x11 | s29 => DD x15 x12 | s30 => DD x15 x13 | s31 => DD x15 x14 | s32 => DD x15 x15 | s33 => DD x15 x16 | s34 => DD x15 x17 | s35 => DD x15 x18 | s36 => DD x15 x19 | s37 => DD x15 x20 | s38 => DD x15 x21 | s39 => DD x15 x22 | s40 => DD x15 x23 | s41 => DD x15 x24 | s42 => DD x15 x25 | s43 => DD x15 x26 | s44 => DD x15 x27 | s45 => DD x15 x28 | s46 => DD x15 x29 | s47 => DD x15 x30 | s48 => DD x15 x31 | s49 => DD x15 x32 | s50 => DD x15 x33 | s51 => DD x15 x34 | s52 => DD x15 x35 | s53 => DD x15 x36 | s54 => DD x15 x37 | s55 => DD x15 x38 | s56 => DD x15 x39 | s57 => DD x15 x40 | s58 => DD x15 x41 | s59 => DD x15 x42 | s60 => DD x15 x43 | s61 => DD x15 x44 | s62 => DD x15 x45 | s63 => DD x15 x46 | s64 => DD x15 x47 | s65 => DD x15 x48 | s66 => DD x15 x49 | s67 => DD x15 x50 | s68 => DD x15 x51 | s69 => DD x15 x52 | s70 => DD x15 x53 | s71 => DD x15 x54 | s72 => DD x15 x55 | s73 => DD x15 x56 | s74 => DD x15 x57 | s75 => DD x15 x58 | s76 => DD x15 x59 | s77 => DD x15 x60 | s78 => DD x15 x61 | s79 => DD x15 x62 | s80 => DD x15 x63 | s81 => DD x16 x0 | s82 => DD x16 x1 | s83 => DD x16 x2 | s84 => DD x16 x3 | s85 => DD x16 x4 | s86 => DD x16 x5 | s87 => DD x16 x6 | s88 => DD x16 x7 | s89 => DD x16 x8 | s90 => DD x16 x9 | s91 => DD x16 x10 | s92 => DD x16 x11 | s93 => DD x16 x12 | s94 => DD x16 x13 | s95 => DD x16 x14 | s96 => DD x16 x15 | s97 => DD x16 x16 | s98 => DD x16 x17 | s99 => DD x16 x18 | s100 => DD x16 x19 | s101 => DD x16 x20 | s102 => DD x16 x21 | s103 => DD x16 x22 | s104 => DD x16 x23 | s105 => DD x16 x24 | s106 => DD x16 x25 | s107 => DD x16 x26 | s108 => DD x16 x27 | s109 => DD x16 x28 | s110 => DD x16 x29 | s111 => DD x16 x30 | s112 => DD x16 x31 | s113 => DD x16 x32 | s114 => DD x16 x33 | s115 => DD x16 x34 | s116 => DD x16 x35 | s117 => DD x16 x36 | s118 => DD x16 x37 | s119 => DD x16 x38 | s120 => DD x16 x39 | s121 => DD x16 x40 | s122 => DD x16 x41 | s123 => DD x16 x42 | s124 => DD x16 x43 | s125 => DD x16 x44 | s126 => DD x16 x45 end.
Definition m944 (c : sum2) : dd := match c with s0 => DD x14 x48 | s1 => DD x14 x49 | s2 => DD x14 x50 | s3 => DD x14 x51 | s4 => DD x14 x52 | s5 => DD x14 x53 | s6 => DD x14 x54 | s7 => DD x14 x55 | s8 => DD x14 x56 | s9 => DD x14 x57 | s10 => DD x14 x58 | s11 => DD x14 x59 | s12 => DD x14 x60 | s13 => DD x14 x61 | s14 => DD x14 x62 | s15 => DD x14 x63 | s16 => DD x15 x0 | s17 => DD x15 x1 | s18 => DD x15 x2 | s19 => DD x15 x3 | s20 => DD x15 x4 | s21 => DD x15 x5 | s22 => DD x15 x6 | s23 => DD x15 x7 | s24 => DD x15 x8 | s25 => DD x15 x9 | s26 => DD x15 x10 | s27 => DD x15 x11 | s28 => DD x15 x12 | s29 => DD x15 x13 | s30 => DD x15 x14 | s31 => DD x15 x15 | s32 => DD x15 x16 | s33 => DD x15 x17 | s34 => DD x15 x18 | s35 => DD x15 x19 | s36 => DD x15 x20 | s37 => DD x15 x21 | s38 => DD x15 x22 | s39 => DD x15 x23 | s40 => DD x15 x24 | s41 => DD x15 x25 | s42 => DD x15 x26 | s43 => DD x15 x27 | s44 => DD x15 x28 | s45 => DD x15 x29 | s46 => DD x15 x30 | s47 => DD x15 x31 | s48 => DD x15 x32 | s49 => DD x15 x33 | s50 => DD x15 x34 | s51 => DD x15 x35 | s52 => DD x15 x36 | s53 => DD x15 x37 | s54 => DD x15 x38 | s55 => DD x15 x39 | s56 => DD x15 x40 | s57 => DD x15 x41 | s58 => DD x15 x42 | s59 => DD x15 x43 | s60 => DD x15 x44 | s61 => DD x15 x45 | s62 => DD x15 x46 | s63 => DD x15 x47 | s64 => DD x15 x48 | s65 => DD x15 x49 | s66 => DD x15 x50 | s67 => DD x15 x51 | s68 => DD x15 x52 | s69 => DD x15 x53 | s70 => DD x15 x54 | s71 => DD x15 x55 | s72 => DD x15 x56 | s73 => DD x15 x57 | s74 => DD x15 x58 | s75 => DD x15 x59 | s76 => DD x15 x60 | s77 => DD x15 x61 | s78 => DD x15 x62 | s79 => DD x15 x63 | s80 => DD x16 x0 | s81 => DD x16 x1 | s82 => DD x16 x2 | s83 => DD x16 x3 | s84 => DD x16 x4 | s85 => DD x16 x5 | s86 => DD x16 x6 | s87 => DD x16 x7 | s88 => DD x16 x8 | s89 => DD x16 x9 | s90 => DD x16 x10 | s91 => DD x16 x11 | s92 => DD x16 x12 | s93 => DD x16 x13 | s94 => DD x16 x14 | s95 => DD x16 x15 | s96 => DD x16 x16 | s97 => DD x16 x17 | s98 => DD x16 x18 | s99 => DD x16 x19 | s100 => DD x16 x20 | s101 => DD x16 x21 | s102 => DD x16 x22 | s103 => DD x16 x23 | s104 => DD x16 x24 | s105 => DD x16 x25 | s106 => DD x16 x26 | s107 => DD x16 x27 | s108 => DD x16 x28 | s109 => DD x16 x29 | s110 => DD x16 x30 | s111 => DD x16 x31 | s112 => DD x16 x32 | s113 => DD x16 x33 | s114 => DD x16 x34 | s115 => DD x16 x35 | s116 => DD x16 x36 | s117 => DD x16 x37 | s118 => DD x16 x38 | s119 => DD x16 x39 | s120 => DD x16 x40 | s121 => DD x16 x41 | s122 => DD x16 x42 | s123 => DD x16 x43 | s124 => DD x16 x44 | s125 => DD x16 x45 | s126 => DD x16 x46 end.
Definition m945 (c : sum2) : dd := match c with s0 => DD x14 x49 | s1 => DD x14 x50 | s2 => DD x14 x51 | s3 => DD x14 x52 | s4 => DD x14 x53 | s5 => DD x14 x54 | s6 => DD x14 x55 | s7 => DD x14 x56 | s8 => DD x14 x57 | s9 => DD x14 x58 | s10 => DD x14 x59 | s11 => DD x14 x60 | s12 => DD x14 x61 | s13 => DD x14 x62 | s14 => DD x14 x63 | s15 => DD x15 x0 | s16 => DD x15 x1 | s17 => DD x15 x2 | s18 => DD x15 x3 | s19 => DD x15 x4 | s20 => DD x15 x5 | s21 => DD x15 x6 | s22 => DD x15 x7 | s23 => DD x15 x8 | s24 => DD x15 x9 | s25 => DD x15 x10 | s26 => DD x15 x11 | s27 => DD x15 x12 | s28 => DD x15 x13 | s29 => DD x15 x14 | s30 => DD x15 x15 | s31 => DD x15 x16 | s32 => DD x15 x17 | s33 => DD x15 x18 | s34 => DD x15 x19 | s35 => DD x15 x20 | s36 => DD x15 x21 | s37 => DD x15 x22 | s38 => DD x15 x23 | s39 => DD x15 x24 | s40 => DD x15 x25 | s41 => DD x15 x26 | s42 => DD x15 x27 | s43 => DD x15 x28 | s44 => DD x15 x29 | s45 => DD x15 x30 | s46 => DD x15 x31 | s47 => DD x15 x32 | s48 => DD x15 x33 | s49 => DD x15 x34 | s50 => DD x15 x35 | s51 => DD x15 x36 | s52 => DD x15 x37 | s53 => DD x15 x38 | s54 => DD x15 x39 | s55 => DD x15 x40 | s56 => DD x15 x41 | s57 => DD x15 x42 | s58 => DD x15 x43 | s59 => DD x15 x44 | s60 => DD x15 x45 | s61 => DD x15 x46 | s62 => DD x15 x47 | s63 => DD x15 x48 | s64 => DD x15 x49 | s65 => DD x15 x50 | s66 => DD x15 x51 | s67 => DD x15 x52 | s68 => DD x15 x53 | s69 => DD x15 x54 | s70 => DD x15 x55 | s71 => DD x15 x56 | s72 => DD x15 x57 | s73 => DD x15 x58 | s74 => DD x15 x59 | s75 => DD x15 x60 | s76 => DD x15 x61 | s77 => DD x15 x62 | s78 => DD x15 x63 | s79 => DD x16 x0 | s80 => DD x16 x1 | s81 => DD x16 x2 | s82 => DD x16 x3 | s83 => DD x16 x4 | s84 => DD x16 x5 | s85 => DD x16 x6 | s86 => DD x16 x7 | s87 => DD x16 x8 | s88 => DD x16 x9 | s89 => DD x16 x10 | s90 => DD x16 x11 | s91 => DD x16 x12 | s92 => DD x16 x13 | s93 => DD x16 x14 | s94 => DD x16 x15 | s95 => DD x16 x16 | s96 => DD x16 x17 | s97 => DD x16 x18 | s98 => DD x16 x19 | s99 => DD x16 x20 | s100 => DD x16 x21 | s101 => DD x16 x22 | s102 => DD x16 x23 | s103 => DD x16 x24 | s104 => DD x16 x25 | s105 => DD x16 x26 | s106 => DD x16 x27 | s107 => DD x16 x28 | s108 => DD x16 x29 | s109 => DD x16 x30 | s110 => DD x16 x31 | s111 => DD x16 x32 | s112 => DD x16 x33 | s113 => DD x16 x34 | s114 => DD x16 x35 | s115 => DD x16 x36 | s116 => DD x16 x37 | s117 => DD x16 x38 | s118 => DD x16 x39 | s119 => DD x16 x40 | s120 => DD x16 x41 | s121 => DD x16 x42 | s122 => DD x16 x43 | s123 => DD x16 x44 | s124 => DD x16 x45 | s125 => DD x16 x46 | s126 => DD x16 x47 end.
Definition m946 (c : sum2) : dd := match c with s0 => DD x14 x50 | s1 => DD x14 x51 | s2 => DD x14 x52 | s3 => DD x14 x53 | s4 => DD x14 x54 | s5 => DD x14 x55 | s6 => DD x14 x56 | s7 => DD x14 x57 | s8 => DD x14 x58 | s9 => DD x14 x59 | s10 => DD x14 x60 | s11 => DD x14 x61 | s12 => DD x14 x62 | s13 => DD x14 x63 | s14 => DD x15 x0 | s15 => DD x15 x1 | s16 => DD x15 x2 | s17 => DD x15 x3 | s18 => DD x15 x4 | s19 => DD x15 x5 | s20 => DD x15 x6 | s21 => DD x15 x7 | s22 => DD x15 x8 | s23 => DD x15 x9 | s24 => DD x15 x10 | s25 => DD x15 x11 | s26 => DD x15 x12 | s27 => DD x15 x13 | s28 => DD x15 x14 | s29 => DD x15 x15 | s30 => DD x15 x16 | s31 => DD x15 x17 | s32 => DD x15 x18 | s33 => DD x15 x19 | s34 => DD x15 x20 | s35 => DD x15 x21 | s36 => DD x15 x22 | s37 => DD x15 x23 | s38 => DD x15 x24 | s39 => DD x15 x25 | s40 => DD x15 x26 | s41 => DD x15 x27 | s42 => DD x15 x28 | s43 => DD x15 x29 | s44 => DD x15 x30 | s45 => DD x15 x31 | s46 => DD x15 x32 | s47 => DD x15 x33 | s48 => DD x15 x34 | s49 => DD x15 x35 | s50 => DD x15 x36 | s51 => DD x15 x37 | s52 => DD x15 x38 | s53 => DD x15 x39 | s54 => DD x15 x40 | s55 => DD x15 x41 | s56 => DD x15 x42 | s57 => DD x15 x43 | s58 => DD x15 x44 | s59 => DD x15 x45 | s60 => DD x15 x46 | s61 => DD x15 x47 | s62 => DD x15 x48 | s63 => DD x15 x49 | s64 => DD x15 x50 | s65 => DD x15 x51 | s66 => DD x15 x52 | s67 => DD x15 x53 | s68 => DD x15 x54 | s69 => DD x15 x55 | s70 => DD x15 x56 | s71 => DD x15 x57 | s72 => DD x15 x58 | s73 => DD x15 x59 | s74 => DD x15 x60 | s75 => DD x15 x61 | s76 => DD x15 x62 | s77 => DD x15 x63 | s78 => DD x16 x0 | s79 => DD x16 x1 | s80 => DD x16 x2 | s81 => DD x16 x3 | s82 => DD x16 x4 | s83 => DD x16 x5 | s84 => DD x16 x6 | s85 => DD x16 x7 | s86 => DD x16 x8 | s87 => DD x16 x9 | s88 => DD x16 x10 | s89 => DD x16 x11 | s90 => DD x16 x12 | s91 => DD x16 x13 | s92 => DD x16 x14 | s93 => DD x16 x15 | s94 => DD x16 x16 | s95 => DD x16 x17 | s96 => DD x16 x18 | s97 => DD x16 x19 | s98 => DD x16 x20 | s99 => DD x16 x21 | s100 => DD x16 x22 | s101 => DD x16 x23 | s102 => DD x16 x24 | s103 => DD x16 x25 | s104 => DD x16 x26 | s105 => DD x16 x27 | s106 => DD x16 x28 | s107 => DD x16 x29 | s108 => DD x16 x30 | s109 => DD x16 x31 | s110 => DD x16 x32 | s111 => DD x16 x33 | s112 => DD x16 x34 | s113 => DD x16 x35 | s114 => DD x16 x36 | s115 => DD x16 x37 | s116 => DD x16 x38 | s117 => DD x16 x39 | s118 => DD x16 x40 | s119 => DD x16 x41 | s120 => DD x16 x42 | s121 => DD x16 x43 | s122 => DD x16 x44 | s123 => DD x16 x45 | s124 => DD x16 x46 | s125 => DD x16 x47 | s126 => DD x16 x48 end.
Definition m950 (c : sum2) : dd := match c with s0 => DD x14 x54 | s1 => DD x14 x55 | s2 => DD x14 x56 | s3 => DD x14 x57 | s4 => DD x14 x58 | s5 => DD x14 x59 | s6 => DD x14 x60 | s7 => DD x14 x61 | s8 => DD x14 x62 | s9 => DD x14 x63 | s10 => DD x15 x0 | s11 => DD x15 x1 | s12 => DD x15 x2 | s13 => DD x15 x3 | s14 => DD x15 x4 | s15 => DD x15 x5 | s16 => DD x15 x6 | s17 => DD x15 x7 | s18 => DD x15 x8 | s19 => DD x15 x9 | s20 => DD x15 x10 | s21 => DD x15 x11 | s22 => DD x15 x12 | s23 => DD x15 x13 | s24 => DD x15 x14 | s25 => DD x15 x15 | s26 => DD x15 x16 | s27 => DD x15 x17 | s28 => DD x15 x18 | s29 => DD x15 x19 | s30 => DD x15 x20 | s31 => DD x15 x21 | s32 => DD x15 x22 | s33 => DD x15 x23 | s34 => DD x15 x24 | s35 => DD x15 x25 | s36 => DD x15 x26 | s37 => DD x15 x27 | s38 => DD x15 x28 | s39 => DD x15 x29 | s40 => DD x15 x30 | s41 => DD x15 x31 | s42 => DD x15 x32 | s43 => DD x15 x33 | s44 => DD x15 x34 | s45 => DD x15 x35 | s46 => DD x15 x36 | s47 => DD x15 x37 | s48 => DD x15 x38 | s49 => DD x15 x39 | s50 => DD x15 x40 | s51 => DD x15 x41 | s52 => DD x15 x42 | s53 => DD x15 x43 | s54 => DD x15 x44 | s55 => DD x15 x45 | s56 => DD x15 x46 | s57 => DD x15 x47 | s58 => DD x15 x48 | s59 => DD x15 x49 | s60 => DD x15 x50 | s61 => DD x15 x51 | s62 => DD x15 x52 | s63 => DD x15 x53 | s64 => DD x15 x54 | s65 => DD x15 x55 | s66 => DD x15 x56 | s67 => DD x15 x57 | s68 => DD x15 x58 | s69 => DD x15 x59 | s70 => DD x15 x60 | s71 => DD x15 x61 | s72 => DD x15 x62 | s73 => DD x15 x63 | s74 => DD x16 x0 | s75 => DD x16 x1 | s76 => DD x16 x2 | s77 => DD x16 x3 | s78 => DD x16 x4 | s79 => DD x16 x5 | s80 => DD x16 x6 | s81 => DD x16 x7 | s82 => DD x16 x8 | s83 => DD x16 x9 | s84 => DD x16 x10 | s85 => DD x16 x11 | s86 => DD x16 x12 | s87 => DD x16 x13 | s88 => DD x16 x14 | s89 => DD x16 x15 | s90 => DD x16 x16 | s91 => DD x16 x17 | s92 => DD x16 x18 | s93 => DD x16 x19 | s94 => DD x16 x20 | s95 => DD x16 x21 | s96 => DD x16 x22 | s97 => DD x16 x23 | s98 => DD x16 x24 | s99 => DD x16 x25 | s100 => DD x16 x26 | s101 => DD x16 x27 | s102 => DD x16 x28 | s103 => DD x16 x29 | s104 => DD x16 x30 | s105 => DD x16 x31 | s106 => DD x16 x32 | s107 => DD x16 x33 | s108 => DD x16 x34 | s109 => DD x16 x35 | s110 => DD x16 x36 | s111 => DD x16 x37 | s112 => DD x16 x38 | s113 => DD x16 x39 | s114 => DD x16 x40 | s115 => DD x16 x41 | s116 => DD x16 x42 | s117 => DD x16 x43 | s118 => DD x16 x44 | s119 => DD x16 x45 | s120 => DD x16 x46 | s121 => DD x16 x47 | s122 => DD x16 x48 | s123 => DD x16 x49 | s124 => DD x16 x50 | s125 => DD x16 x51 | s126 => DD x16 x52 end.
Definition m952 (c : sum2) : dd := match c with s0 => DD x14 x56 | s1 => DD x14 x57 | s2 => DD x14 x58 | s3 => DD x14 x59 | s4 => DD x14 x60 | s5 => DD x14 x61 | s6 => DD x14 x62 | s7 => DD x14 x63 | s8 => DD x15 x0 | s9 => DD x15 x1 | s10 => DD x15 x2 | s11 => DD x15 x3 | s12 => DD x15 x4 | s13 => DD x15 x5 | s14 => DD x15 x6 | s15 => DD x15 x7 | s16 => DD x15 x8 | s17 => DD x15 x9 | s18 => DD x15 x10 | s19 => DD x15 x11 | s20 => DD x15 x12 | s21 => DD x15 x13 | s22 => DD x15 x14 | s23 => DD x15 x15 | s24 => DD x15 x16 | s25 => DD x15 x17 | s26 => DD x15 x18 | s27 => DD x15 x19 | s28 => DD x15 x20 | s29 => DD x15 x21 | s30 => DD x15 x22 | s31 => DD x15 x23 | s32 => DD x15 x24 | s33 => DD x15 x25 | s34 => DD x15 x26 | s35 => DD x15 x27 | s36 => DD x15 x28 | s37 => DD x15 x29 | s38 => DD x15 x30 | s39 => DD x15 x31 | s40 => DD x15 x32 | s41 => DD x15 x33 | s42 => DD x15 x34 | s43 => DD x15 x35 | s44 => DD x15 x36 | s45 => DD x15 x37 | s46 => DD x15 x38 | s47 => DD x15 x39 | s48 => DD x15 x40 | s49 => DD x15 x41 | s50 => DD x15 x42 | s51 => DD x15 x43 | s52 => DD x15 x44 | s53 => DD x15 x45 | s54 => DD x15 x46 | s55 => DD x15 x47 | s56 => DD x15 x48 | s57 => DD x15 x49 | s58 => DD x15 x50 | s59 => DD x15 x51 | s60 => DD x15 x52 | s61 => DD x15 x53 | s62 => DD x15 x54 | s63 => DD x15 x55 | s64 => DD x15 x56 | s65 => DD x15 x57 | s66 => DD x15 x58 | s67 => DD x15 x59 | s68 => DD x15 x60 | s69 => DD x15 x61 | s70 => DD x15 x62 | s71 => DD x15 x63 | s72 => DD x16 x0 | s73 => DD x16 x1 | s74 => DD x16 x2 | s75 => DD x16 x3 | s76 => DD x16 x4 | s77 => DD x16 x5 | s78 => DD x16 x6 | s79 => DD x16 x7 | s80 => DD x16 x8 | s81 => DD x16 x9 | s82 => DD x16 x10 | s83 => DD x16 x11 | s84 => DD x16 x12 | s85 => DD x16 x13 | s86 => DD x16 x14 | s87 => DD x16 x15 | s88 => DD x16 x16 | s89 => DD x16 x17 | s90 => DD x16 x18 | s91 => DD x16 x19 | s92 => DD x16 x20 | s93 => DD x16 x21 | s94 => DD x16 x22 | s95 => DD x16 x23 | s96 => DD x16 x24 | s97 => DD x16 x25 | s98 => DD x16 x26 | s99 => DD x16 x27 | s100 => DD x16 x28 | s101 => DD x16 x29 | s102 => DD x16 x30 | s103 => DD x16 x31 | s104 => DD x16 x32 | s105 => DD x16 x33 | s106 => DD x16 x34 | s107 => DD x16 x35 | s108 => DD x16 x36 | s109 => DD x16 x37 | s110 => DD x16 x38 | s111 => DD x16 x39 | s112 => DD x16 x40 | s113 => DD x16 x41 | s114 => DD x16 x42 | s115 => DD x16 x43 | s116 => DD x16 x44 | s117 => DD x16 x45 | s118 => DD x16 x46 | s119 => DD x16 x47 | s120 => DD x16 x48 | s121 => DD x16 x49 | s122 => DD x16 x50 | s123 => DD x16 x51 | s124 => DD x16 x52 | s125 => DD x16 x53 | s126 => DD x16 x54 end.
Definition m954 (c : sum2) : dd := match c with s0 => DD x14 x58 | s1 => DD x14 x59 | s2 => DD x14 x60 | s3 => DD x14 x61 | s4 => DD x14 x62 | s5 => DD x14 x63 | s6 => DD x15 x0 | s7 => DD x15 x1 | s8 => DD x15 x2 | s9 => DD x15 x3 | s10 => DD x15 x4 | s11 => DD x15 x5 | s12 => DD x15 x6 | s13 => DD x15 x7 | s14 => DD x15 x8 | s15 => DD x15 x9 | s16 => DD x15 x10 | s17 => DD x15 x11 | s18 => DD x15 x12 | s19 => DD x15 x13 | s20 => DD x15 x14 | s21 => DD x15 x15 | s22 => DD x15 x16 | s23 => DD x15 x17 | s24 => DD x15 x18 | s25 => DD x15 x19 | s26 => DD x15 x20 | s27 => DD x15 x21 | s28 => DD x15 x22 | s29 => DD x15 x23 | s30 => DD x15 x24 | s31 => DD x15 x25 | s32 => DD x15 x26 | s33 => DD x15 x27 | s34 => DD x15 x28 | s35 => DD x15 x29 | s36 => DD x15 x30 | s37 => DD x15 x31 | s38 => DD x15 x32 | s39 => DD x15 x33 | s40 => DD x15 x34 | s41 => DD x15 x35 | s42 => DD x15 x36 | s43 => DD x15 x37 | s44 => DD x15 x38 | s45 => DD x15 x39 | s46 => DD x15 x40 | s47 => DD x15 x41 | s48 => DD x15 x42 | s49 => DD x15 x43 | s50 => DD x15 x44 | s51 => DD x15 x45 | s52 => DD x15 x46 | s53 => DD x15 x47 | s54 => DD x15 x48 | s55 => DD x15 x49 | s56 => DD x15 x50 | s57 => DD x15 x51 | s58 => DD x15 x52 | s59 => DD x15 x53 | s60 => DD x15 x54 | s61 => DD x15 x55 | s62 => DD x15 x56 | s63 => DD x15 x57 | s64 => DD x15 x58 | s65 => DD x15 x59 | s66 => DD x15 x60 | s67 => DD x15 x61 | s68 => DD x15 x62 | s69 => DD x15 x63 | s70 => DD x16 x0 | s71 => DD x16 x1 | s72 => DD x16 x2 | s73 => DD x16 x3 | s74 => DD x16 x4 | s75 => DD x16 x5 | s76 => DD x16 x6 | s77 => DD x16 x7 | s78 => DD x16 x8 | s79 => DD x16 x9 | s80 => DD x16 x10 | s81 => DD x16 x11 | s82 => DD x16 x12 | s83 => DD x16 x13 | s84 => DD x16 x14 | s85 => DD x16 x15 | s86 => DD x16 x16 | s87 => DD x16 x17 | s88 => DD x16 x18 | s89 => DD x16 x19 | s90 => DD x16 x20 | s91 => DD x16 x21 | s92 => DD x16 x22 | s93 => DD x16 x23 | s94 => DD x16 x24 | s95 => DD x16 x25 | s96 => DD x16 x26 | s97 => DD x16 x27 | s98 => DD x16 x28 | s99 => DD x16 x29 | s100 => DD x16 x30 | s101 => DD x16 x31 | s102 => DD x16 x32 | s103 => DD x16 x33 | s104 => DD x16 x34 | s105 => DD x16 x35 | s106 => DD x16 x36 | s107 => DD x16 x37 | s108 => DD x16 x38 | s109 => DD x16 x39 | s110 => DD x16 x40 | s111 => DD x16 x41 | s112 => DD x16 x42 | s113 => DD x16 x43 | s114 => DD x16 x44 | s115 => DD x16 x45 | s116 => DD x16 x46 | s117 => DD x16 x47 | s118 => DD x16 x48 | s119 => DD x16 x49 | s120 => DD x16 x50 | s121 => DD x16 x51 | s122 => DD x16 x52 | s123 => DD x16 x53 | s124 => DD x16 x54 | s125 => DD x16 x55 | s126 => DD x16 x56 end.
Definition m957 (c : sum2) : dd := match c with s0 => DD x14 x61 | s1 => DD x14 x62 | s2 => DD x14 x63 | s3 => DD x15 x0 | s4 => DD x15 x1 | s5 => DD x15 x2 | s6 => DD x15 x3 | s7 => DD x15 x4 | s8 => DD x15 x5 | s9 => DD x15 x6 | s10 => DD x15 x7 | s11 => DD x15 x8 | s12 => DD x15 x9 | s13 => DD x15 x10 | s14 => DD x15 x11 | s15 => DD x15 x12 | s16 => DD x15 x13 | s17 => DD x15 x14 | s18 => DD x15 x15 | s19 => DD x15 x16 | s20 => DD x15 x17 | s21 => DD x15 x18 | s22 => DD x15 x19 | s23 => DD x15 x20 | s24 => DD x15 x21 | s25 => DD x15 x22 | s26 => DD x15 x23 | s27 => DD x15 x24 | s28 => DD x15 x25 | s29 => DD x15 x26 | s30 => DD x15 x27 | s31 => DD x15 x28 | s32 => DD x15 x29 | s33 => DD x15 x30 | s34 => DD x15 x31 | s35 => DD x15 x32 | s36 => DD x15 x33 | s37 => DD x15 x34 | s38 => DD x15 x35 | s39 => DD x15 x36 | s40 => DD x15 x37 | s41 => DD x15 x38 | s42 => DD x15 x39 | s43 => DD x15 x40 | s44 => DD x15 x41 | s45 => DD x15 x42 | s46 => DD x15 x43 | s47 => DD x15 x44 | s48 => DD x15 x45 | s49 => DD x15 x46 | s50 => DD x15 x47 | s51 => DD x15 x48 | s52 => DD x15 x49 | s53 => DD x15 x50 | s54 => DD x15 x51 | s55 => DD x15 x52 | s56 => DD x15 x53 | s57 => DD x15 x54 | s58 => DD x15 x55 | s59 => DD x15 x56 | s60 => DD x15 x57 | s61 => DD x15 x58 | s62 => DD x15 x59 | s63 => DD x15 x60 | s64 => DD x15 x61 | s65 => DD x15 x62 | s66 => DD x15 x63 | s67 => DD x16 x0 | s68 => DD x16 x1 | s69 => DD x16 x2 | s70 => DD x16 x3 | s71 => DD x16 x4 | s72 => DD x16 x5 | s73 => DD x16 x6 | s74 => DD x16 x7 | s75 => DD x16 x8 | s76 => DD x16 x9 | s77 => DD x16 x10 | s78 => DD x16 x11 | s79 => DD x16 x12 | s80 => DD x16 x13 | s81 => DD x16 x14 | s82 => DD x16 x15 | s83 => DD x16 x16 | s84 => DD x16 x17 | s85 => DD x16 x18 | s86 => DD x16 x19 | s87 => DD x16 x20 | s88 => DD x16 x21 | s89 => DD x16 x22 | s90 => DD x16 x23 | s91 => DD x16 x24 | s92 => DD x16 x25 | s93 => DD x16 x26 | s94 => DD x16 x27 | s95 => DD x16 x28 | s96 => DD x16 x29 | s97 => DD x16 x30 | s98 => DD x16 x31 | s99 => DD x16 x32 | s100 => DD x16 x33 | s101 => DD x16 x34 | s102 => DD x16 x35 | s103 => DD x16 x36 | s104 => DD x16 x37 | s105 => DD x16 x38 | s106 => DD x16 x39 | s107 => DD x16 x40 | s108 => DD x16 x41 | s109 => DD x16 x42 | s110 => DD x16 x43 | s111 => DD x16 x44 | s112 => DD x16 x45 | s113 => DD x16 x46 | s114 => DD x16 x47 | s115 => DD x16 x48 | s116 => DD x16 x49 | s117 => DD x16 x50 | s118 => DD x16 x51 | s119 => DD x16 x52 | s120 => DD x16 x53 | s121 => DD x16 x54 | s122 => DD x16 x55 | s123 => DD x16 x56 | s124 => DD x16 x57 | s125 => DD x16 x58 | s126 => DD x16 x59 end.
Definition m960 (c : sum2) : dd := match c with s0 => DD x15 x0 | s1 => DD x15 x1 | s2 => DD x15 x2 | s3 => DD x15 x3 | s4 => DD x15 x4 | s5 => DD x15 x5 | s6 => DD x15 x6 | s7 => DD x15 x7 | s8 => DD x15 x8 | s9 => DD x15 x9 | s10 => DD x15 x10 | s11 => DD x15 x11 | s12 => DD x15 x12 | s13 => DD x15 x13 | s14 => DD x15 x14 | s15 => DD x15 x15 | s16 => DD x15 x16 | s17 => DD x15 x17 | s18 => DD x15 x18 | s19 => DD x15 x19 | s20 => DD x15 x20 | s21 => DD x15 x21 | s22 => DD x15 x22 | s23 => DD x15 x23 | s24 => DD x15 x24 | s25 => DD x15 x25 | s26 => DD x15 x26 | s27 => DD x15 x27 | s28 => DD x15 x28 | s29 => DD x15 x29 | s30 => DD x15 x30 | s31 => DD x15 x31 | s32 => DD x15 x32 | s33 => DD x15 x33 | s34 => DD x15 x34 | s35 => DD x15 x35 | s36 => DD x15 x36 | s37 => DD x15 x37 | s38 => DD x15 x38 | s39 => DD x15 x39 | s40 => DD x15 x40 | s41 => DD x15 x41 | s42 => DD x15 x42 | s43 => DD x15 x43 | s44 => DD x15 x44 | s45 => DD x15 x45 | s46 => DD x15 x46 | s47 => DD x15 x47 | s48 => DD x15 x48 | s49 => DD x15 x49 | s50 => DD x15 x50 | s51 => DD x15 x51 | s52 => DD x15 x52 | s53 => DD x15 x53 | s54 => DD x15 x54 | s55 => DD x15 x55 | s56 => DD x15 x56 | s57 => DD x15 x57 | s58 => DD x15 x58 | s59 => DD x15 x59 | s60 => DD x15 x60 | s61 => DD x15 x61 | s62 => DD x15 x62 | s63 => DD x15 x63 | s64 => DD x16 x0 | s65 => DD x16 x1 | s66 => DD x16 x2 | s67 => DD x16 x3 | s68 => DD x16 x4 | s69 => DD x16 x5 | s70 => DD x16 x6 | s71 => DD x16 x7 | s72 => DD x16 x8 | s73 => DD x16 x9 | s74 => DD x16 x10 | s75 => DD x16 x11 | s76 => DD x16 x12 | s77 => DD x16 x13 | s78 => DD x16 x14 | s79 => DD x16 x15 | s80 => DD x16 x16 | s81 => DD x16 x17 | s82 => DD x16 x18 | s83 => DD x16 x19 | s84 => DD x16 x20 | s85 => DD x16 x21 | s86 => DD x16 x22 | s87 => DD x16 x23 | s88 => DD x16 x24 | s89 => DD x16 x25 | s90 => DD x16 x26 | s91 => DD x16 x27 | s92 => DD x16 x28 | s93 => DD x16 x29 | s94 => DD x16 x30 | s95 => DD x16 x31 | s96 => DD x16 x32 | s97 => DD x16 x33 | s98 => DD x16 x34 | s99 => DD x16 x35 | s100 => DD x16 x36 | s101 => DD x16 x37 | s102 => DD x16 x38 | s103 => DD x16 x39 | s104 => DD x16 x40 | s105 => DD x16 x41 | s106 => DD x16 x42 | s107 => DD x16 x43 | s108 => DD x16 x44 | s109 => DD x16 x45 | s110 => DD x16 x46 | s111 => DD x16 x47 | s112 => DD x16 x48 | s113 => DD x16 x49 | s114 => DD x16 x50 | s115 => DD x16 x51 | s116 => DD x16 x52 | s117 => DD x16 x53 | s118 => DD x16 x54 | s119 => DD x16 x55 | s120 => DD x16 x56 | s121 => DD x16 x57 | s122 => DD x16 x58 | s123 => DD x16 x59 | s124 => DD x16 x60 | s125 => DD x16 x61 | s126 => DD x16 x62 end.
Definition m961 (c : sum2) : dd := match c with s0 => DD x15 x1 | s1 => DD x15 x2 | s2 => DD x15 x3 | s3 => DD x15 x4 | s4 => DD x15 x5 | s5 => DD x15 x6 | s6 => DD x15 x7 | s7 => DD x15 x8 | s8 => DD x15 x9 | s9 => DD x15 x10 | s10 => DD x15 x11 | s11 => DD x15 x12 | s12 => DD x15 x13 | s13 => DD x15 x14 | s14 => DD x15 x15 | s15 => DD x15 x16 | s16 => DD x15 x17 | s17 => DD x15 x18 | s18 => DD x15 x19 | s19 => DD x15 x20 | s20 => DD x15 x21 | s21 => DD x15 x22 | s22 => DD x15 x23 | s23 => DD x15 x24 | s24 => DD x15 x25 | s25 => DD x15 x26 | s26 => DD x15 x27 | s27 => DD x15 x28 | s28 => DD x15 x29 | s29 => DD x15 x30 | s30 => DD x15 x31 | s31 => DD x15 x32 | s32 => DD x15 x33 | s33 => DD x15 x34 | s34 => DD x15 x35 | s35 => DD x15 x36 | s36 => DD x15 x37 | s37 => DD x15 x38 | s38 => DD x15 x39 | s39 => DD x15 x40 | s40 => DD x15 x41 | s41 => DD x15 x42 | s42 => DD x15 x43 | s43 => DD x15 x44 | s44 => DD x15 x45 | s45 => DD x15 x46 | s46 => DD x15 x47 | s47 => DD x15 x48 | s48 => DD x15 x49 | s49 => DD x15 x50 | s50 => DD x15 x51 | s51 => DD x15 x52 | s52 => DD x15 x53 | s53 => DD x15 x54 | s54 => DD x15 x55 | s55 => DD x15 x56 | s56 => DD x15 x57 | s57 => DD x15 x58 | s58 => DD x15 x59 | s59 => DD x15 x60 | s60 => DD x15 x61 | s61 => DD x15 x62 | s62 => DD x15 x63 | s63 => DD x16 x0 | s64 => DD x16 x1 | s65 => DD x16 x2 | s66 => DD x16 x3 | s67 => DD x16 x4 | s68 => DD x16 x5 | s69 => DD x16 x6 | s70 => DD x16 x7 | s71 => DD x16 x8 | s72 => DD x16 x9 | s73 => DD x16 x10 | s74 => DD x16 x11 | s75 => DD x16 x12 | s76 => DD x16 x13 | s77 => DD x16 x14 | s78 => DD x16 x15 | s79 => DD x16 x16 | s80 => DD x16 x17 | s81 => DD x16 x18 | s82 => DD x16 x19 | s83 => DD x16 x20 | s84 => DD x16 x21 | s85 => DD x16 x22 | s86 => DD x16 x23 | s87 => DD x16 x24 | s88 => DD x16 x25 | s89 => DD x16 x26 | s90 => DD x16 x27 | s91 => DD x16 x28 | s92 => DD x16 x29 | s93 => DD x16 x30 | s94 => DD x16 x31 | s95 => DD x16 x32 | s96 => DD x16 x33 | s97 => DD x16 x34 | s98 => DD x16 x35 | s99 => DD x16 x36 | s100 => DD x16 x37 | s101 => DD x16 x38 | s102 => DD x16 x39 | s103 => DD x16 x40 | s104 => DD x16 x41 | s105 => DD x16 x42 | s106 => DD x16 x43 | s107 => DD x16 x44 | s108 => DD x16 x45 | s109 => DD x16 x46 | s110 => DD x16 x47 | s111 => DD x16 x48 | s112 => DD x16 x49 | s113 => DD x16 x50 | s114 => DD x16 x51 | s115 => DD x16 x52 | s116 => DD x16 x53 | s117 => DD x16 x54 | s118 => DD x16 x55 | s119 => DD x16 x56 | s120 => DD x16 x57 | s121 => DD x16 x58 | s122 => DD x16 x59 | s123 => DD x16 x60 | s124 => DD x16 x61 | s125 => DD x16 x62 | s126 => DD x16 x63 end.
Definition m962 (c : sum2) : dd := match c with s0 => DD x15 x2 | s1 => DD x15 x3 | s2 => DD x15 x4 | s3 => DD x15 x5 | s4 => DD x15 x6 | s5 => DD x15 x7 | s6 => DD x15 x8 | s7 => DD x15 x9 | s8 => DD x15 x10 | s9 => DD x15 x11 | s10 => DD x15 x12 | s11 => DD x15 x13 | s12 => DD x15 x14 | s13 => DD x15 x15 | s14 => DD x15 x16 | s15 => DD x15 x17 | s16 => DD x15 x18 | s17 => DD x15 x19 | s18 => DD x15 x20 | s19 => DD x15 x21 | s20 => DD x15 x22 | s21 => DD x15 x23 | s22 => DD x15 x24 | s23 => DD x15 x25 | s24 => DD x15 x26 | s25 => DD x15 x27 | s26 => DD x15 x28 | s27 => DD x15 x29 | s28 => DD x15 x30 | s29 => DD x15 x31 | s30 => DD x15 x32 | s31 => DD x15 x33 | s32 => DD x15 x34 | s33 => DD x15 x35 | s34 => DD x15 x36 | s35 => DD x15 x37 | s36 => DD x15 x38 | s37 => DD x15 x39 | s38 => DD x15 x40 | s39 => DD x15 x41 | s40 => DD x15 x42 | s41 => DD x15 x43 | s42 => DD x15 x44 | s43 => DD x15 x45 | s44 => DD x15 x46 | s45 => DD x15 x47 | s46 => DD x15 x48 | s47 => DD x15 x49 | s48 => DD x15 x50 | s49 => DD x15 x51 | s50 => DD x15 x52 | s51 => DD x15 x53 | s52 => DD x15 x54 | s53 => DD x15 x55 | s54 => DD x15 x56 | s55 => DD x15 x57 | s56 => DD x15 x58 | s57 => DD x15 x59 | s58 => DD x15 x60 | s59 => DD x15 x61 | s60 => DD x15 x62 | s61 => DD x15 x63 | s62 => DD x16 x0 | s63 => DD x16 x1 | s64 => DD x16 x2 | s65 => DD x16 x3 | s66 => DD x16 x4 | s67 => DD x16 x5 | s68 => DD x16 x6 | s69 => DD x16 x7 | s70 => DD x16 x8 | s71 => DD x16 x9 | s72 => DD x16 x10 | s73 => DD x16 x11 | s74 => DD x16 x12 | s75 => DD x16 x13 | s76 => DD x16 x14 | s77 => DD x16 x15 | s78 => DD x16 x16 | s79 => DD x16 x17 | s80 => DD x16 x18 | s81 => DD x16 x19 | s82 => DD x16 x20 | s83 => DD x16 x21 | s84 => DD x16 x22 | s85 => DD x16 x23 | s86 => DD x16 x24 | s87 => DD x16 x25 | s88 => DD x16 x26 | s89 => DD x16 x27 | s90 => DD x16 x28 | s91 => DD x16 x29 | s92 => DD x16 x30 | s93 => DD x16 x31 | s94 => DD x16 x32 | s95 => DD x16 x33 | s96 => DD x16 x34 | s97 => DD x16 x35 | s98 => DD x16 x36 | s99 => DD x16 x37 | s100 => DD x16 x38 | s101 => DD x16 x39 | s102 => DD x16 x40 | s103 => DD x16 x41 | s104 => DD x16 x42 | s105 => DD x16 x43 | s106 => DD x16 x44 | s107 => DD x16 x45 | s108 => DD x16 x46 | s109 => DD x16 x47 | s110 => DD x16 x48 | s111 => DD x16 x49 | s112 => DD x16 x50 | s113 => DD x16 x51 | s114 => DD x16 x52 | s115 => DD x16 x53 | s116 => DD x16 x54 | s117 => DD x16 x55 | s118 => DD x16 x56 | s119 => DD x16 x57 | s120 => DD x16 x58 | s121 => DD x16 x59 | s122 => DD x16 x60 | s123 => DD x16 x61 | s124 => DD x16 x62 | s125 => DD x16 x63 | s126 => DD x17 x0 end.
Definition m966 (c : sum2) : dd := match c with s0 => DD x15 x6 | s1 => DD x15 x7 | s2 => DD x15 x8 | s3 => DD x15 x9 | s4 => DD x15 x10 | s5 => DD x15 x11 | s6 => DD x15 x12 | s7 => DD x15 x13 | s8 => DD x15 x14 | s9 => DD x15 x15 | s10 => DD x15 x16 | s11 => DD x15 x17 | s12 => DD x15 x18 | s13 => DD x15 x19 | s14 => DD x15 x20 | s15 => DD x15 x21 | s16 => DD x15 x22 | s17 => DD x15 x23 | s18 => DD x15 x24 | s19 => DD x15 x25 | s20 => DD x15 x26 | s21 => DD x15 x27 | s22 => DD x15 x28 | s23 => DD x15 x29 | s24 => DD x15 x30 | s25 => DD x15 x31 | s26 => DD x15 x32 | s27 => DD x15 x33 | s28 => DD x15 x34 | s29 => DD x15 x35 | s30 => DD x15 x36 | s31 => DD x15 x37 | s32 => DD x15 x38 | s33 => DD x15 x39 | s34 => DD x15 x40 | s35 => DD x15 x41 | s36 => DD x15 x42 | s37 => DD x15 x43 | s38 => DD x15 x44 | s39 => DD x15 x45 | s40 => DD x15 x46 | s41 => DD x15 x47 | s42 => DD x15 x48 | s43 => DD x15 x49 | s44 => DD x15 x50 | s45 => DD x15 x51 | s46 => DD x15 x52 | s47 => DD x15 x53 | s48 => DD x15 x54 | s49 => DD x15 x55 | s50 => DD x15 x56 | s51 => DD x15 x57 | s52 => DD x15 x58 | s53 => DD x15 x59 | s54 => DD x15 x60 | s55 => DD x15 x61 | s56 => DD x15 x62 | s57 => DD x15 x63 | s58 => DD x16 x0 | s59 => DD x16 x1 | s60 => DD x16 x2 | s61 => DD x16 x3 | s62 => DD x16 x4 | s63 => DD x16 x5 | s64 => DD x16 x6 | s65 => DD x16 x7 | s66 => DD x16 x8 | s67 => DD x16 x9 | s68 => DD x16 x10 | s69 => DD x16 x11 | s70 => DD x16 x12 | s71 => DD x16 x13 | s72 => DD x16 x14 | s73 => DD x16 x15 | s74 => DD x16 x16 | s75 => DD x16 x17 | s76 => DD x16 x18 | s77 => DD x16 x19 | s78 => DD x16 x20 | s79 => DD x16 x21 | s80 => DD x16 x22 | s81 => DD x16 x23 | s82 => DD x16 x24 | s83 => DD x16 x25 | s84 => DD x16 x26 | s85 => DD x16 x27 | s86 => DD x16 x28 | s87 => DD x16 x29 | s88 => DD x16 x30 | s89 => DD x16 x31 | s90 => DD x16 x32 | s91 => DD x16 x33 | s92 => DD x16 x34 | s93 => DD x16 x35 | s94 => DD x16 x36 | s95 => DD x16 x37 | s96 => DD x16 x38 | s97 => DD x16 x39 | s98 => DD x16 x40 | s99 => DD x16 x41 | s100 => DD x16 x42 | s101 => DD x16 x43 | s102 => DD x16 x44 | s103 => DD x16 x45 | s104 => DD x16 x46 | s105 => DD x16 x47 | s106 => DD x16 x48 | s107 => DD x16 x49 | s108 => DD x16 x50 | s109 => DD x16 x51 | s110 => DD x16 x52 | s111 => DD x16 x53 | s112 => DD x16 x54 | s113 => DD x16 x55 | s114 => DD x16 x56 | s115 => DD x16 x57 | s116 => DD x16 x58 | s117 => DD x16 x59 | s118 => DD x16 x60 | s119 => DD x16 x61 | s120 => DD x16 x62 | s121 => DD x16 x63 | s122 => DD x17 x0 | s123 => DD x17 x1 | s124 => DD x17 x2 | s125 => DD x17 x3 | s126 => DD x17 x4 end.
Definition m968 (c : sum2) : dd := match c with s0 => DD x15 x8 | s1 => DD x15 x9 | s2 => DD x15 x10 | s3 => DD x15 x11 | s4 => DD x15 x12 | s5 => DD x15 x13 | s6 => DD x15 x14 | s7 => DD x15 x15 | s8 => DD x15 x16 | s9 => DD x15 x17 | s10 => DD x15 x18 | s11 => DD x15 x19 | s12 => DD x15 x20 | s13 => DD x15 x21 | s14 => DD x15 x22 | s15 => DD x15 x23 | s16 => DD x15 x24 | s17 => DD x15 x25 | s18 => DD x15 x26 | s19 => DD x15 x27 | s20 => DD x15 x28 | s21 => DD x15 x29 | s22 => DD x15 x30 | s23 => DD x15 x31 | s24 => DD x15 x32 | s25 => DD x15 x33 | s26 => DD x15 x34 | s27 => DD x15 x35 | s28 => DD x15 x36 | s29 => DD x15 x37 | s30 => DD x15 x38 | s31 => DD x15 x39 | s32 => DD x15 x40 | s33 => DD x15 x41 | s34 => DD x15 x42 | s35 => DD x15 x43 | s36 => DD x15 x44 | s37 => DD x15 x45 | s38 => DD x15 x46 | s39 => DD x15 x47 | s40 => DD x15 x48 | s41 => DD x15 x49 | s42 => DD x15 x50 | s43 => DD x15 x51 | s44 => DD x15 x52 | s45 => DD x15 x53 | s46 => DD x15 x54 | s47 => DD x15 x55 | s48 => DD x15 x56 | s49 => DD x15 x57 | s50 => DD x15 x58 | s51 => DD x15 x59 | s52 => DD x15 x60 | s53 => DD x15 x61 | s54 => DD x15 x62 | s55 => DD x15 x63 | s56 => DD x16 x0 | s57 => DD x16 x1 | s58 => DD x16 x2 | s59 => DD x16 x3 | s60 => DD x16 x4 | s61 => DD x16 x5 | s62 => DD x16 x6 | s63 => DD x16 x7 | s64 => DD x16 x8 | s65 => DD x16 x9 | s66 => DD x16 x10 | s67 => DD x16 x11 | s68 => DD x16 x12 | s69 => DD x16 x13 | s70 => DD x16 x14 | s71 => DD x16 x15 | s72 => DD x16 x16 | s73 => DD x16 x17 | s74 => DD x16 x18 | s75 => DD x16 x19 | s76 => DD x16 x20 | s77 => DD x16 x21 | s78 => DD x16 x22 | s79 => DD x16 x23 | s80 => DD x16 x24 | s81 => DD x16 x25 | s82 => DD x16 x26 | s83 => DD x16 x27 | s84 => DD x16 x28 | s85 => DD x16 x29 | s86 => DD x16 x30 | s87 => DD x16 x31 | s88 => DD x16 x32 | s89 => DD x16 x33 | s90 => DD x16 x34 | s91 => DD x16 x35 | s92 => DD x16 x36 | s93 => DD x16 x37 | s94 => DD x16 x38 | s95 => DD x16 x39 | s96 => DD x16 x40 | s97 => DD x16 x41 | s98 => DD x16 x42 | s99 => DD x16 x43 | s100 => DD x16 x44 | s101 => DD x16 x45 | s102 => DD x16 x46 | s103 => DD x16 x47 | s104 => DD x16 x48 | s105 => DD x16 x49 | s106 => DD x16 x50 | s107 => DD x16 x51 | s108 => DD x16 x52 | s109 => DD x16 x53 | s110 => DD x16 x54 | s111 => DD x16 x55 | s112 => DD x16 x56 | s113 => DD x16 x57 | s114 => DD x16 x58 | s115 => DD x16 x59 | s116 => DD x16 x60 | s117 => DD x16 x61 | s118 => DD x16 x62 | s119 => DD x16 x63 | s120 => DD x17 x0 | s121 => DD x17 x1 | s122 => DD x17 x2 | s123 => DD x17 x3 | s124 => DD x17 x4 | s125 => DD x17 x5 | s126 => DD x17 x6 end.
Definition m969 (c : sum2) : dd := match c with s0 => DD x15 x9 | s1 => DD x15 x10 | s2 => DD x15 x11 | s3 => DD x15 x12 | s4 => DD x15 x13 | s5 => DD x15 x14 | s6 => DD x15 x15 | s7 => DD x15 x16 | s8 => DD x15 x17 | s9 => DD x15 x18 | s10 => DD x15 x19 | s11 => DD x15 x20 | s12 => DD x15 x21 | s13 => DD x15 x22 | s14 => DD x15 x23 | s15 => DD x15 x24 | s16 => DD x15 x25 | s17 => DD x15 x26 | s18 => DD x15 x27 | s19 => DD x15 x28 | s20 => DD x15 x29 | s21 => DD x15 x30 | s22 => DD x15 x31 | s23 => DD x15 x32 | s24 => DD x15 x33 | s25 => DD x15 x34 | s26 => DD x15 x35 | s27 => DD x15 x36 | s28 => DD x15 x37 | s29 => DD x15 x38 | s30 => DD x15 x39 | s31 => DD x15 x40 | s32 => DD x15 x41 | s33 => DD x15 x42 | s34 => DD x15 x43 | s35 => DD x15 x44 | s36 => DD x15 x45 | s37 => DD x15 x46 | s38 => DD x15 x47 | s39 => DD x15 x48 | s40 => DD x15 x49 | s41 => DD x15 x50 | s42 => DD x15 x51 | s43 => DD x15 x52 | s44 => DD x15 x53 | s45 => DD x15 x54 | s46 => DD x15 x55 | s47 => DD x15 x56 | s48 => DD x15 x57 | s49 => DD x15 x58 | s50 => DD x15 x59 | s51 => DD x15 x60 | s52 => DD x15 x61 | s53 => DD x15 x62 | s54 => DD x15 x63 | s55 => DD x16 x0 | s56 => DD x16 x1 | s57 => DD x16 x2 | s58 => DD x16 x3 | s59 => DD x16 x4 | s60 => DD x16 x5 | s61 => DD x16 x6 | s62 => DD x16 x7 | s63 => DD x16 x8 | s64 => DD x16 x9 | s65 => DD x16 x10 | s66 => DD x16 x11 | s67 => DD x16 x12 | s68 => DD x16 x13 | s69 => DD x16 x14 | s70 => DD x16 x15 | s71 => DD x16 x16 | s72 => DD x16 x17 | s73 => DD x16 x18 | s74 => DD x16 x19 | s75 => DD x16 x20 | s76 => DD x16 x21 | s77 => DD x16 x22 | s78 => DD x16 x23 | s79 => DD x16 x24 | s80 => DD x16 x25 | s81 => DD x16 x26 | s82 => DD x16 x27 | s83 => DD x16 x28 | s84 => DD x16 x29 | s85 => DD x16 x30 | s86 => DD x16 x31 | s87 => DD x16 x32 | s88 => DD x16 x33 | s89 => DD x16 x34 | s90 => DD x16 x35 | s91 => DD x16 x36 | s92 => DD x16 x37 | s93 => DD x16 x38 | s94 => DD x16 x39 | s95 => DD x16 x40 | s96 => DD x16 x41 | s97 => DD x16 x42 | s98 => DD x16 x43 | s99 => DD x16 x44 | s100 => DD x16 x45 | s101 => DD x16 x46 | s102 => DD x16 x47 | s103 => DD x16 x48 | s104 => DD x16 x49 | s105 => DD x16 x50 | s106 => DD x16 x51 | s107 => DD x16 x52 | s108 => DD x16 x53 | s109 => DD x16 x54 | s110 => DD x16 x55 | s111 => DD x16 x56 | s112 => DD x16 x57 | s113 => DD x16 x58 | s114 => DD x16 x59 | s115 => DD x16 x60 | s116 => DD x16 x61 | s117 => DD x16 x62 | s118 => DD x16 x63 | s119 => DD x17 x0 | s120 => DD x17 x1 | s121 => DD x17 x2 | s122 => DD x17 x3 | s123 => DD x17 x4 | s124 => DD x17 x5 | s125 => DD x17 x6 | s126 => DD x17 x7 end.
Definition m972 (c : sum2) : dd := match c with s0 => DD x15 x12 | s1 => DD x15 x13 | s2 => DD x15 x14 | s3 => DD x15 x15 | s4 => DD x15 x16 | s5 => DD x15 x17 | s6 => DD x15 x18 | s7 => DD x15 x19 | s8 => DD x15 x20 | s9 => DD x15 x21 | s10 => DD x15 x22 | s11 => DD x15 x23 | s12 => DD x15 x24 | s13 => DD x15 x25 | s14 => DD x15 x26 | s15 => DD x15 x27 | s16 => DD x15 x28 | s17 => DD x15 x29 | s18 => DD x15 x30 | s19 => DD x15 x31 | s20 => DD x15 x32 | s21 => DD x15 x33 | s22 => DD x15 x34 | s23 => DD x15 x35 | s24 => DD x15 x36 | s25 => DD x15 x37 | s26 => DD x15 x38 | s27 => DD x15 x39 | s28 => DD x15 x40 | s29 => DD x15 x41 | s30 => DD x15 x42 | s31 => DD x15 x43 | s32 => DD x15 x44 | s33 => DD x15 x45 | s34 => DD x15 x46 | s35 => DD x15 x47 | s36 => DD x15 x48 | s37 => DD x15 x49 | s38 => DD x15 x50 | s39 => DD x15 x51 | s40 => DD x15 x52 | s41 => DD x15 x53 | s42 => DD x15 x54 | s43 => DD x15 x55 | s44 => DD x15 x56 | s45 => DD x15 x57 | s46 => DD x15 x58 | s47 => DD x15 x59 | s48 => DD x15 x60 | s49 => DD x15 x61 | s50 => DD x15 x62 | s51 => DD x15 x63 | s52 => DD x16 x0 | s53 => DD x16 x1 | s54 => DD x16 x2 | s55 => DD x16 x3 | s56 => DD x16 x4 | s57 => DD x16 x5 | s58 => DD x16 x6 | s59 => DD x16 x7 | s60 => DD x16 x8 | s61 => DD x16 x9 | s62 => DD x16 x10 | s63 => DD x16 x11 | s64 => DD x16 x12 | s65 => DD x16 x13 | s66 => DD x16 x14 | s67 => DD x16 x15 | s68 => DD x16 x16 | s69 => DD x16 x17 | s70 => DD x16 x18 | s71 => DD x16 x19 | s72 => DD x16 x20 | s73 => DD x16 x21 | s74 => DD x16 x22 | s75 => DD x16 x23 | s76 => DD x16 x24 | s77 => DD x16 x25 | s78 => DD x16 x26 | s79 => DD x16 x27 | s80 => DD x16 x28 | s81 => DD x16 x29 | s82 => DD x16 x30 | s83 => DD x16 x31 | s84 => DD x16 x32 | s85 => DD x16 x33 | s86 => DD x16 x34 | s87 => DD x16 x35 | s88 => DD x16 x36 | s89 => DD x16 x37 | s90 => DD x16 x38 | s91 => DD x16 x39 | s92 => DD x16 x40 | s93 => DD x16 x41 | s94 => DD x16 x42 | s95 => DD x16 x43 | s96 => DD x16 x44 | s97 => DD x16 x45 | s98 => DD x16 x46 | s99 => DD x16 x47 | s100 => DD x16 x48 | s101 => DD x16 x49 | s102 => DD x16 x50 | s103 => DD x16 x51 | s104 => DD x16 x52 | s105 => DD x16 x53 | s106 => DD x16 x54 | s107 => DD x16 x55 | s108 => DD x16 x56 | s109 => DD x16 x57 | s110 => DD x16 x58 | s111 => DD x16 x59 | s112 => DD x16 x60 | s113 => DD x16 x61 | s114 => DD x16 x62 | s115 => DD x16 x63 | s116 => DD x17 x0 | s117 => DD x17 x1 | s118 => DD x17 x2 | s119 => DD x17 x3 | s120 => DD x17 x4 | s121 => DD x17 x5 | s122 => DD x17 x6 | s123 => DD x17 x7 | s124 => DD x17 x8 | s125 => DD x17 x9 | s126 => DD x17 x10 end.
Definition m975 (c : sum2) : dd := match c with s0 => DD x15 x15 | s1 => DD x15 x16 | s2 => DD x15 x17 | s3 => DD x15 x18 | s4 => DD x15 x19 | s5 => DD x15 x20 | s6 => DD x15 x21 | s7 => DD x15 x22 | s8 => DD x15 x23 | s9 => DD x15 x24 | s10 => DD x15 x25 | s11 => DD x15 x26 | s12 => DD x15 x27 | s13 => DD x15 x28 | s14 => DD x15 x29 | s15 => DD x15 x30 | s16 => DD x15 x31 | s17 => DD x15 x32 | s18 => DD x15 x33 | s19 => DD x15 x34 | s20 => DD x15 x35 | s21 => DD x15 x36 | s22 => DD x15 x37 | s23 => DD x15 x38 | s24 => DD x15 x39 | s25 => DD x15 x40 | s26 => DD x15 x41 | s27 => DD x15 x42 | s28 => DD x15 x43 | s29 => DD x15 x44 | s30 => DD x15 x45 | s31 => DD x15 x46 | s32 => DD x15 x47 | s33 => DD x15 x48 | s34 => DD x15 x49 | s35 => DD x15 x50 | s36 => DD x15 x51 | s37 => DD x15 x52 | s38 => DD x15 x53 | s39 => DD x15 x54 | s40 => DD x15 x55 | s41 => DD x15 x56 | s42 => DD x15 x57 | s43 => DD x15 x58 | s44 => DD x15 x59 | s45 => DD x15 x60 | s46 => DD x15 x61 | s47 => DD x15 x62 | s48 => DD x15 x63 | s49 => DD x16 x0 | s50 => DD x16 x1 | s51 => DD x16 x2 | s52 => DD x16 x3 | s53 => DD x16 x4 | s54 => DD x16 x5 | s55 => DD x16 x6 | s56 => DD x16 x7 | s57 => DD x16 x8 | s58 => DD x16 x9 | s59 => DD x16 x10 | s60 => DD x16 x11 | s61 => DD x16 x12 | s62 => DD x16 x13 | s63 => DD x16 x14 | s64 => DD x16 x15 | s65 => DD x16 x16 | s66 => DD x16 x17 | s67 => DD x16 x18 | s68 => DD x16 x19 | s69 => DD x16 x20 | s70 => DD x16 x21 | s71 => DD x16 x22 | s72 => DD x16 x23 | s73 => DD x16 x24 | s74 => DD x16 x25 | s75 => DD x16 x26 | s76 => DD x16 x27 | s77 => DD x16 x28 | s78 => DD x16 x29 | s79 => DD x16 x30 | s80 => DD x16 x31 | s81 => DD x16 x32 | s82 => DD x16 x33 | s83 => DD x16 x34 | s84 => DD x16 x35 | s85 => DD x16 x36 | s86 => DD x16 x37 | s87 => DD x16 x38 | s88 => DD x16 x39 | s89 => DD x16 x40 | s90 => DD x16 x41 | s91 => DD x16 x42 | s92 => DD x16 x43 | s93 => DD x16 x44 | s94 => DD x16 x45 | s95 => DD x16 x46 | s96 => DD x16 x47 | s97 => DD x16 x48 | s98 => DD x16 x49 | s99 => DD x16 x50 | s100 => DD x16 x51 | s101 => DD x16 x52 | s102 => DD x16 x53 | s103 => DD x16 x54 | s104 => DD x16 x55 | s105 => DD x16 x56 | s106 => DD x16 x57 | s107 => DD x16 x58 | s108 => DD x16 x59 | s109 => DD x16 x60 | s110 => DD x16 x61 | s111 => DD x16 x62 | s112 => DD x16 x63 | s113 => DD x17 x0 | s114 => DD x17 x1 | s115 => DD x17 x2 | s116 => DD x17 x3 | s117 => DD x17 x4 | s118 => DD x17 x5 | s119 => DD x17 x6 | s120 => DD x17 x7 | s121 => DD x17 x8 | s122 => DD x17 x9 | s123 => DD x17 x10 | s124 => DD x17 x11 | s125 => DD x17 x12 | s126 => DD x17 x13 end.
Definition m976 (c : sum2) : dd := match c with s0 => DD x15 x16 | s1 => DD x15 x17 | s2 => DD x15 x18 | s3 => DD x15 x19 | s4 => DD x15 x20 | s5 => DD x15 x21 | s6 => DD x15 x22 | s7 => DD x15 x23 | s8 => DD x15 x24 | s9 => DD x15 x25 | s10 => DD x15 x26 | s11 => DD x15 x27 | s12 => DD x15 x28 | s13 => DD x15 x29 | s14 => DD x15 x30 | s15 => DD x15 x31 | s16 => DD x15 x32 | s17 => DD x15 x33 | s18 => DD x15 x34 | s19 => DD x15 x35 | s20 => DD x15 x36 | s21 => DD x15 x37 | s22 => DD x15 x38 | s23 => DD x15 x39 | s24 => DD x15 x40 | s25 => DD x15 x41 | s26 => DD x15 x42 | s27 => DD x15 x43 | s28 => DD x15 x44 | s29 => DD x15 x45 | s30 => DD x15 x46 | s31 => DD x15 x47 | s32 => DD x15 x48 | s33 => DD x15 x49 | s34 => DD x15 x50 | s35 => DD x15 x51 | s36 => DD x15 x52 | s37 => DD x15 x53 | s38 => DD x15 x54 | s39 => DD x15 x55 | s40 => DD x15 x56 | s41 => DD x15 x57 | s42 => DD x15 x58 | s43 => DD x15 x59 | s44 => DD x15 x60 | s45 => DD x15 x61 | s46 => DD x15 x62 | s47 => DD x15 x63 | s48 => DD x16 x0 | s49 => DD x16 x1 | s50 => DD x16 x2 | s51 => DD x16 x3 | s52 => DD x16 x4 | s53 => DD x16 x5 | s54 => DD x16 x6 | s55 => DD x16 x7 | s56 => DD x16 x8 | s57 => DD x16 x9 | s58 => DD x16 x10 | s59 => DD x16 x11 | s60 => DD x16 x12 | s61 => DD x16 x13 | s62 => DD x16 x14 | s63 => DD x16 x15 | s64 => DD x16 x16 | s65 => DD x16 x17 | s66 => DD x16 x18 | s67 => DD x16 x19 | s68 => DD x16 x20 | s69 => DD x16 x21 | s70 => DD x16 x22 | s71 => DD x16 x23 | s72 => DD x16 x24 | s73 => DD x16 x25 | s74 => DD x16 x26 | s75 => DD x16 x27 | s76 => DD x16 x28 | s77 => DD x16 x29 | s78 => DD x16 x30 | s79 => DD x16 x31 | s80 => DD x16 x32 | s81 => DD x16 x33 | s82 => DD x16 x34 | s83 => DD x16 x35 | s84 => DD x16 x36 | s85 => DD x16 x37 | s86 => DD x16 x38 | s87 => DD x16 x39 | s88 => DD x16 x40 | s89 => DD x16 x41 | s90 => DD x16 x42 | s91 => DD x16 x43 | s92 => DD x16 x44 | s93 => DD x16 x45 | s94 => DD x16 x46 | s95 => DD x16 x47 | s96 => DD x16 x48 | s97 => DD x16 x49 | s98 => DD x16 x50 | s99 => DD x16 x51 | s100 => DD x16 x52 | s101 => DD x16 x53 | s102 => DD x16 x54 | s103 => DD x16 x55 | s104 => DD x16 x56 | s105 => DD x16 x57 | s106 => DD x16 x58 | s107 => DD x16 x59 | s108 => DD x16 x60 | s109 => DD x16 x61 | s110 => DD x16 x62 | s111 => DD x16 x63 | s112 => DD x17 x0 | s113 => DD x17 x1 | s114 => DD x17 x2 | s115 => DD x17 x3 | s116 => DD x17 x4 | s117 => DD x17 x5 | s118 => DD x17 x6 | s119 => DD x17 x7 | s120 => DD x17 x8 | s121 => DD x17 x9 | s122 => DD x17 x10 | s123 => DD x17 x11 | s124 => DD x17 x12 | s125 => DD x17 x13 | s126 => DD x17 x14 end.
Definition m980 (c : sum2) : dd := match c with s0 => DD x15 x20 | s1 => DD x15 x21 | s2 => DD x15 x22 | s3 => DD x15 x23 | s4 => DD x15 x24 | s5 => DD x15 x25 | s6 => DD x15 x26 | s7 => DD x15 x27 | s8 => DD x15 x28 | s9 => DD x15 x29 | s10 => DD x15 x30 | s11 => DD x15 x31 | s12 => DD x15 x32 | s13 => DD x15 x33 | s14 => DD x15 x34 | s15 => DD x15 x35 | s16 => DD x15 x36 | s17 => DD x15 x37 | s18 => DD x15 x38 | s19 => DD x15 x39 | s20 => DD x15 x40 | s21 => DD x15 x41 | s22 => DD x15 x42 | s23 => DD x15 x43 | s24 => DD x15 x44 | s25 => DD x15 x45 | s26 => DD x15 x46 | s27 => DD x15 x47 | s28 => DD x15 x48 | s29 => DD x15 x49 | s30 => DD x15 x50 | s31 => DD x15 x51 | s32 => DD x15 x52 | s33 => DD x15 x53 | s34 => DD x15 x54 | s35 => DD x15 x55 | s36 => DD x15 x56 | s37 => DD x15 x57 | s38 => DD x15 x58 | s39 => DD x15 x59 | s40 => DD x15 x60 | s41 => DD x15 x61 | s42 => DD x15 x62 | s43 => DD x15 x63 | s44 => DD x16 x0 | s45 => DD x16 x1 | s46 => DD x16 x2 | s47 => DD x16 x3 | s48 => DD x16 x4 | s49 => DD x16 x5 | s50 => DD x16 x6 | s51 => DD x16 x7 | s52 => DD x16 x8 | s53 => DD x16 x9 | s54 => DD x16 x10 | s55 => DD x16 x11 | s56 => DD x16 x12 | s57 => DD x16 x13 | s58 => DD x16 x14 | s59 => DD x16 x15 | s60 => DD x16 x16 | s61 => DD x16 x17 | s62 => DD x16 x18 | s63 => DD x16 x19 | s64 => DD x16 x20 | s65 => DD x16 x21 | s66 => DD x16 x22 | s67 => DD x16 x23 | s68 => DD x16 x24 | s69 => DD x16 x25 | s70 => DD x16 x26 | s71 => DD x16 x27 | s72 => DD x16 x28 | s73 => DD x16 x29 | s74 => DD x16 x30 | s75 => DD x16 x31 | s76 => DD x16 x32 | s77 => DD x16 x33 | s78 => DD x16 x34 | s79 => DD x16 x35 | s80 => DD x16 x36 | s81 => DD x16 x37 | s82 => DD x16 x38 | s83 => DD x16 x39 | s84 => DD x16 x40 | s85 => DD x16 x41 | s86 => DD x16 x42 | s87 => DD x16 x43 | s88 => DD x16 x44 | s89 => DD x16 x45 | s90 => DD x16 x46 | s91 => DD x16 x47 | s92 => DD x16 x48 | s93 => DD x16 x49 | s94 => DD x16 x50 | s95 => DD x16 x51 | s96 => DD x16 x52 | s97 => DD x16 x53 | s98 => DD x16 x54 | s99 => DD x16 x55 | s100 => DD x16 x56 | s101 => DD x16 x57 | s102 => DD x16 x58 | s103 => DD x16 x59 | s104 => DD x16 x60 | s105 => DD x16 x61 | s106 => DD x16 x62 | s107 => DD x16 x63 | s108 => DD x17 x0 | s109 => DD x17 x1 | s110 => DD x17 x2 | s111 => DD x17 x3 | s112 => DD x17 x4 | s113 => DD x17 x5 | s114 => DD x17 x6 | s115 => DD x17 x7 | s116 => DD x17 x8 | s117 => DD x17 x9 | s118 => DD x17 x10 | s119 => DD x17 x11 | s120 => DD x17 x12 | s121 => DD x17 x13 | s122 => DD x17 x14 | s123 => DD x17 x15 | s124 => DD x17 x16 | s125 => DD x17 x17 | s126 => DD x17 x18 end.
Definition m984 (c : sum2) : dd := match c with s0 => DD x15 x24 | s1 => DD x15 x25 | s2 => DD x15 x26 | s3 => DD x15 x27 | s4 => DD x15 x28 | s5 => DD x15 x29 | s6 => DD x15 x30 | s7 => DD x15 x31 | s8 => DD x15 x32 | s9 => DD x15 x33 | s10 => DD x15 x34 | s11 => DD x15 x35 | s12 => DD x15 x36 | s13 => DD x15 x37 | s14 => DD x15 x38 | s15 => DD x15 x39 | s16 => DD x15 x40 | s17 => DD x15 x41 | s18 => DD x15 x42 | s19 => DD x15 x43 | s20 => DD x15 x44 | s21 => DD x15 x45 | s22 => DD x15 x46 | s23 => DD x15 x47 | s24 => DD x15 x48 | s25 => DD x15 x49 | s26 => DD x15 x50 | s27 => DD x15 x51 | s28 => DD x15 x52 | s29 => DD x15 x53 | s30 => DD x15 x54 | s31 => DD x15 x55 | s32 => DD x15 x56 | s33 => DD x15 x57 | s34 => DD x15 x58 | s35 => DD x15 x59 | s36 => DD x15 x60 | s37 => DD x15 x61 | s38 => DD x15 x62 | s39 => DD x15 x63 | s40 => DD x16 x0 | s41 => DD x16 x1 | s42 => DD x16 x2 | s43 => DD x16 x3 | s44 => DD x16 x4 | s45 => DD x16 x5 | s46 => DD x16 x6 | s47 => DD x16 x7 | s48 => DD x16 x8 | s49 => DD x16 x9 | s50 => DD x16 x10 | s51 => DD x16 x11 | s52 => DD x16 x12 | s53 => DD x16 x13 | s54 => DD x16 x14 | s55 => DD x16 x15 | s56 => DD x16 x16 | s57 => DD x16 x17 | s58 => DD x16 x18 | s59 => DD x16 x19 | s60 => DD x16 x20 | s61 => DD x16 x21 | s62 => DD x16 x22 | s63 => DD x16 x23 | s64 => DD x16 x24 | s65 => DD x16 x25 | s66 => DD x16 x26 | s67 => DD x16 x27 | s68 => DD x16 x28 | s69 => DD x16 x29 | s70 => DD x16 x30 | s71 => DD x16 x31 | s72 => DD x16 x32 | s73 => DD x16 x33 | s74 => DD x16 x34 | s75 => DD x16 x35 | s76 => DD x16 x36 | s77 => DD x16 x37 | s78 => DD x16 x38 | s79 => DD x16 x39 | s80 => DD x16 x40 | s81 => DD x16 x41 | s82 => DD x16 x42 | s83 => DD x16 x43 | s84 => DD x16 x44 | s85 => DD x16 x45 | s86 => DD x16 x46 | s87 => DD x16 x47 | s88 => DD x16 x48 | s89 => DD x16 x49 | s90 => DD x16 x50 | s91 => DD x16 x51 | s92 => DD x16 x52 | s93 => DD x16 x53 | s94 => DD x16 x54 | s95 => DD x16 x55 | s96 => DD x16 x56 | s97 => DD x16 x57 | s98 => DD x16 x58 | s99 => DD x16 x59 | s100 => DD x16 x60 | s101 => DD x16 x61 | s102 => DD x16 x62 | s103 => DD x16 x63 | s104 => DD x17 x0 | s105 => DD x17 x1 | s106 => DD x17 x2 | s107 => DD x17 x3 | s108 => DD x17 x4 | s109 => DD x17 x5 | s110 => DD x17 x6 | s111 => DD x17 x7 | s112 => DD x17 x8 | s113 => DD x17 x9 | s114 => DD x17 x10 | s115 => DD x17 x11 | s116 => DD x17 x12 | s117 => DD x17 x13 | s118 => DD x17 x14 | s119 => DD x17 x15 | s120 => DD x17 x16 | s121 => DD x17 x17 | s122 => DD x17 x18 | s123 => DD x17 x19 | s124 => DD x17 x20 | s125 => DD x17 x21 | s126 => DD x17 x22 end.
Definition m986 (c : sum2) : dd := match c with s0 => DD x15 x26 | s1 => DD x15 x27 | s2 => DD x15 x28 | s3 => DD x15 x29 | s4 => DD x15 x30 | s5 => DD x15 x31 | s6 => DD x15 x32 | s7 => DD x15 x33 | s8 => DD x15 x34 | s9 => DD x15 x35 | s10 => DD x15 x36 | s11 => DD x15 x37 | s12 => DD x15 x38 | s13 => DD x15 x39 | s14 => DD x15 x40 | s15 => DD x15 x41 | s16 => DD x15 x42 | s17 => DD x15 x43 | s18 => DD x15 x44 | s19 => DD x15 x45 | s20 => DD x15 x46 | s21 => DD x15 x47 | s22 => DD x15 x48 | s23 => DD x15 x49 | s24 => DD x15 x50 | s25 => DD x15 x51 | s26 => DD x15 x52 | s27 => DD x15 x53 | s28 => DD x15 x54 | s29 => DD x15 x55 | s30 => DD x15 x56 | s31 => DD x15 x57 | s32 => DD x15 x58 | s33 => DD x15 x59 | s34 => DD x15 x60 | s35 => DD x15 x61 | s36 => DD x15 x62 | s37 => DD x15 x63 | s38 => DD x16 x0 | s39 => DD x16 x1 | s40 => DD x16 x2 | s41 => DD x16 x3 | s42 => DD x16 x4 | s43 => DD x16 x5 | s44 => DD x16 x6 | s45 => DD x16 x7 | s46 => DD x16 x8 | s47 => DD x16 x9 | s48 => DD x16 x10 | s49 => DD x16 x11 | s50 => DD x16 x12 | s51 => DD x16 x13 | s52 => DD x16 x14 | s53 => DD x16 x15 | s54 => DD x16 x16 | s55 => DD x16 x17 | s56 => DD x16 x18 | s57 => DD x16 x19 | s58 => DD x16 x20 | s59 => DD x16 x21 | s60 => DD x16 x22 | s61 => DD x16 x23 | s62 => DD x16 x24 | s63 => DD x16 x25 | s64 => DD x16 x26 | s65 => DD x16 x27 | s66 => DD x16 x28 | s67 => DD x16 x29 | s68 => DD x16 x30 | s69 => DD x16 x31 | s70 => DD x16 x32 | s71 => DD x16 x33 | s72 => DD x16 x34 | s73 => DD x16 x35 | s74 => DD x16 x36 | s75 => DD x16 x37 | s76 => DD x16 x38 | s77 => DD x16 x39 | s78 => DD x16 x40 | s79 => DD x16 x41 | s80 => DD x16 x42 | s81 => DD x16 x43 | s82 => DD x16 x44 | s83 => DD x16 x45 | s84 => DD x16 x46 | s85 => DD x16 x47 | s86 => DD x16 x48 | s87 => DD x16 x49 | s88 => DD x16 x50 | s89 => DD x16 x51 | s90 => DD x16 x52 | s91 => DD x16 x53 | s92 => DD x16 x54 | s93 => DD x16 x55 | s94 => DD x16 x56 | s95 => DD x16 x57 | s96 => DD x16 x58 | s97 => DD x16 x59 | s98 => DD x16 x60 | s99 => DD x16 x61 | s100 => DD x16 x62 | s101 => DD x16 x63 | s102 => DD x17 x0 | s103 => DD x17 x1 | s104 => DD x17 x2 | s105 => DD x17 x3 | s106 => DD x17 x4 | s107 => DD x17 x5 | s108 => DD x17 x6 | s109 => DD x17 x7 | s110 => DD x17 x8 | s111 => DD x17 x9 | s112 => DD x17 x10 | s113 => DD x17 x11 | s114 => DD x17 x12 | s115 => DD x17 x13 | s116 => DD x17 x14 | s117 => DD x17 x15 | s118 => DD x17 x16 | s119 => DD x17 x17 | s120 => DD x17 x18 | s121 => DD x17 x19 | s122 => DD x17 x20 | s123 => DD x17 x21 | s124 => DD x17 x22 | s125 => DD x17 x23 | s126 => DD x17 x24 end.
Definition m987 (c : sum2) : dd := match c with s0 => DD x15 x27 | s1 => DD x15 x28 | s2 => DD x15 x29 | s3 => DD x15 x30 | s4 => DD x15 x31 | s5 => DD x15 x32 | s6 => DD x15 x33 | s7 => DD x15 x34 | s8 => DD x15 x35 | s9 => DD x15 x36 | s10 => DD x15 x37 | s11 => DD x15 x38 | s12 => DD x15 x39 | s13 => DD x15 x40 | s14 => DD x15 x41 | s15 => DD x15 x42 | s16 => DD x15 x43 | s17 => DD x15 x44 | s18 => DD x15 x45 | s19 => DD x15 x46 | s20 => DD x15 x47 | s21 => DD x15 x48 | s22 => DD x15 x49 | s23 => DD x15 x50 | s24 => DD x15 x51 | s25 => DD x15 x52 | s26 => DD x15 x53 | s27 => DD x15 x54 | s28 => DD x15 x55 | s29 => DD x15 x56 | s30 => DD x15 x57 | s31 => DD x15 x58 | s32 => DD x15 x59 | s33 => DD x15 x60 | s34 => DD x15 x61 | s35 => DD x15 x62 | s36 => DD x15 x63 | s37 => DD x16 x0 | s38 => DD x16 x1 | s39 => DD x16 x2 | s40 => DD x16 x3 | s41 => DD x16 x4 | s42 => DD x16 x5 | s43 => DD x16 x6 | s44 => DD x16 x7 | s45 => DD x16 x8 | s46 => DD x16 x9 | s47 => DD x16 x10 | s48 => DD x16 x11 | s49 => DD x16 x12 | s50 => DD x16 x13 | s51 => DD x16 x14 | s52 => DD x16 x15 | s53 => DD x16 x16 | s54 => DD x16 x17 | s55 => DD x16 x18 | s56 => DD x16 x19 | s57 => DD x16 x20 | s58 => DD x16 x21 | s59 => DD x16 x22 | s60 => DD x16 x23 | s61 => DD x16 x24 | s62 => DD x16 x25 | s63 => DD x16 x26 | s64 => DD x16 x27 | s65 => DD x16 x28 | s66 => DD x16 x29 | s67 => DD x16 x30 | s68 => DD x16 x31 | s69 => DD x16 x32 | s70 => DD x16 x33 | s71 => DD x16 x34 | s72 => DD x16 x35 | s73 => DD x16 x36 | s74 => DD x16 x37 | s75 => DD x16 x38 | s76 => DD x16 x39 | s77 => DD x16 x40 | s78 => DD x16 x41 | s79 => DD x16 x42 | s80 => DD x16 x43 | s81 => DD x16 x44 | s82 => DD x16 x45 | s83 => DD x16 x46 | s84 => DD x16 x47 | s85 => DD x16 x48 | s86 => DD x16 x49 | s87 => DD x16 x50 | s88 => DD x16 x51 | s89 => DD x16 x52 | s90 => DD x16 x53 | s91 => DD x16 x54 | s92 => DD x16 x55 | s93 => DD x16 x56 | s94 => DD x16 x57 | s95 => DD x16 x58 | s96 => DD x16 x59 | s97 => DD x16 x60 | s98 => DD x16 x61 | s99 => DD x16 x62 | s100 => DD x16 x63 | s101 => DD x17 x0 | s102 => DD x17 x1 | s103 => DD x17 x2 | s104 => DD x17 x3 | s105 => DD x17 x4 | s106 => DD x17 x5 | s107 => DD x17 x6 | s108 => DD x17 x7 | s109 => DD x17 x8 | s110 => DD x17 x9 | s111 => DD x17 x10 | s112 => DD x17 x11 | s113 => DD x17 x12 | s114 => DD x17 x13 | s115 => DD x17 x14 | s116 => DD x17 x15 | s117 => DD x17 x16 | s118 => DD x17 x17 | s119 => DD x17 x18 | s120 => DD x17 x19 | s121 => DD x17 x20 | s122 => DD x17 x21 | s123 => DD x17 x22 | s124 => DD x17 x23 | s125 => DD x17 x24 | s126 => DD x17 x25 end.
Definition m988 (c : sum2) : dd := match c with s0 => DD x15 x28 | s1 => DD x15 x29 | s2 => DD x15 x30 | s3 => DD x15 x31 | s4 => DD x15 x32 | s5 => DD x15 x33 | s6 => DD x15 x34 | s7 => DD x15 x35 | s8 => DD x15 x36 | s9 => DD x15 x37 | s10 => DD x15 x38 | s11 => DD x15 x39 | s12 => DD x15 x40 | s13 => DD x15 x41 | s14 => DD x15 x42 | s15 => DD x15 x43 | s16 => DD x15 x44 | s17 => DD x15 x45 | s18 => DD x15 x46 | s19 => DD x15 x47 | s20 => DD x15 x48 | s21 => DD x15 x49 | s22 => DD x15 x50 | s23 => DD x15 x51 | s24 => DD x15 x52 | s25 => DD x15 x53 | s26 => DD x15 x54 | s27 => DD x15 x55 | s28 => DD x15 x56 | s29 => DD x15 x57 | s30 => DD x15 x58 | s31 => DD x15 x59 | s32 => DD x15 x60 | s33 => DD x15 x61 | s34 => DD x15 x62 | s35 => DD x15 x63 | s36 => DD x16 x0 | s37 => DD x16 x1 | s38 => DD x16 x2 | s39 => DD x16 x3 | s40 => DD x16 x4 | s41 => DD x16 x5 | s42 => DD x16 x6 | s43 => DD x16 x7 | s44 => DD x16 x8 | s45 => DD x16 x9 | s46 => DD x16 x10 | s47 => DD x16 x11 | s48 => DD x16 x12 | s49 => DD x16 x13 | s50 => DD x16 x14 | s51 => DD x16 x15 | s52 => DD x16 x16 | s53 => DD x16 x17 | s54 => DD x16 x18 | s55 => DD x16 x19 | s56 => DD x16 x20 | s57 => DD x16 x21 | s58 => DD x16 x22 | s59 => DD x16 x23 | s60 => DD x16 x24 | s61 => DD x16 x25 | s62 => DD x16 x26 | s63 => DD x16 x27 | s64 => DD x16 x28 | s65 => DD x16 x29 | s66 => DD x16 x30 | s67 => DD x16 x31 | s68 => DD x16 x32 | s69 => DD x16 x33 | s70 => DD x16 x34 | s71 => DD x16 x35 | s72 => DD x16 x36 | s73 => DD x16 x37 | s74 => DD x16 x38 | s75 => DD x16 x39 | s76 => DD x16 x40 | s77 => DD x16 x41 | s78 => DD x16 x42 | s79 => DD x16 x43 | s80 => DD x16 x44 | s81 => DD x16 x45 | s82 => DD x16 x46 | s83 => DD x16 x47 | s84 => DD x16 x48 | s85 => DD x16 x49 | s86 => DD x16 x50 | s87 => DD x16 x51 | s88 => DD x16 x52 | s89 => DD x16 x53 | s90 => DD x16 x54 | s91 => DD x16 x55 | s92 => DD x16 x56 | s93 => DD x16 x57 | s94 => DD x16 x58 | s95 => DD x16 x59 | s96 => DD x16 x60 | s97 => DD x16 x61 | s98 => DD x16 x62 | s99 => DD x16 x63 | s100 => DD x17 x0 | s101 => DD x17 x1 | s102 => DD x17 x2 | s103 => DD x17 x3 | s104 => DD x17 x4 | s105 => DD x17 x5 | s106 => DD x17 x6 | s107 => DD x17 x7 | s108 => DD x17 x8 | s109 => DD x17 x9 | s110 => DD x17 x10 | s111 => DD x17 x11 | s112 => DD x17 x12 | s113 => DD x17 x13 | s114 => DD x17 x14 | s115 => DD x17 x15 | s116 => DD x17 x16 | s117 => DD x17 x17 | s118 => DD x17 x18 | s119 => DD x17 x19 | s120 => DD x17 x20 | s121 => DD x17 x21 | s122 => DD x17 x22 | s123 => DD x17 x23 | s124 => DD x17 x24 | s125 => DD x17 x25 | s126 => DD x17 x26 end.
Definition m989 (c : sum2) : dd := match c with s0 => DD x15 x29 | s1 => DD x15 x30 | s2 => DD x15 x31 | s3 => DD x15 x32 | s4 => DD x15 x33 | s5 => DD x15 x34 | s6 => DD x15 x35 | s7 => DD x15 x36 | s8 => DD x15 x37 | s9 => DD x15 x38 | s10 => DD x15 x39 | s11 => DD x15 x40 | s12 => DD x15 x41 | s13 => DD x15 x42 | s14 => DD x15 x43 | s15 => DD x15 x44 | s16 => DD x15 x45 | s17 => DD x15 x46 | s18 => DD x15 x47 | s19 => DD x15 x48 | s20 => DD x15 x49 | s21 => DD x15 x50 | s22 => DD x15 x51 | s23 => DD x15 x52 | s24 => DD x15 x53 | s25 => DD x15 x54 | s26 => DD x15 x55 | s27 => DD x15 x56 | s28 => DD x15 x57 | s29 => DD x15 x58 | s30 => DD x15 x59 | s31 => DD x15 x60 | s32 => DD x15 x61 | s33 => DD x15 x62 | s34 => DD x15 x63 | s35 => DD x16 x0 | s36 => DD x16 x1 | s37 => DD x16 x2 | s38 => DD x16 x3 | s39 => DD x16 x4 | s40 => DD x16 x5 | s41 => DD x16 x6 | s42 => DD x16 x7 | s43 => DD x16 x8 | s44 => DD x16 x9 | s45 => DD x16 x10 | s46 => DD x16 x11 | s47 => DD x16 x12 | s48 => DD x16 x13 | s49 => DD x16 x14 | s50 => DD x16 x15 | s51 => DD x16 x16 | s52 => DD x16 x17 | s53 => DD x16 x18 | s54 => DD x16 x19 | s55 => DD x16 x20 | s56 => DD x16 x21 | s57 => DD x16 x22 | s58 => DD x16 x23 | s59 => DD x16 x24 | s60 => DD x16 x25 | s61 => DD x16 x26 | s62 => DD x16 x27 | s63 => DD x16 x28 | s64 => DD x16 x29 | s65 => DD x16 x30 | s66 => DD x16 x31 | s67 => DD x16 x32 | s68 => DD x16 x33 | s69 => DD x16 x34 | s70 => DD x16 x35 | s71 => DD x16 x36 | s72 => DD x16 x37 | s73 => DD x16 x38 | s74 => DD x16 x39 | s75 => DD x16 x40 | s76 => DD x16 x41 | s77 => DD x16 x42 | s78 => DD x16 x43 | s79 => DD x16 x44 | s80 => DD x16 x45 | s81 => DD x16 x46 | s82 => DD x16 x47 | s83 => DD x16 x48 | s84 => DD x16 x49 | s85 => DD x16 x50 | s86 => DD x16 x51 | s87 => DD x16 x52 | s88 => DD x16 x53 | s89 => DD x16 x54 | s90 => DD x16 x55 | s91 => DD x16 x56 | s92 => DD x16 x57 | s93 => DD x16 x58 | s94 => DD x16 x59 | s95 => DD x16 x60 | s96 => DD x16 x61 | s97 => DD x16 x62 | s98 => DD x16 x63 | s99 => DD x17 x0 | s100 => DD x17 x1 | s101 => DD x17 x2 | s102 => DD x17 x3 | s103 => DD x17 x4 | s104 => DD x17 x5 | s105 => DD x17 x6 | s106 => DD x17 x7 | s107 => DD x17 x8 | s108 => DD x17 x9 | s109 => DD x17 x10 | s110 => DD x17 x11 | s111 => DD x17 x12 | s112 => DD x17 x13 | s113 => DD x17 x14 | s114 => DD x17 x15 | s115 => DD x17 x16 | s116 => DD x17 x17 | s117 => DD x17 x18 | s118 => DD x17 x19 | s119 => DD x17 x20 | s120 => DD x17 x21 | s121 => DD x17 x22 | s122 => DD x17 x23 | s123 => DD x17 x24 | s124 => DD x17 x25 | s125 => DD x17 x26 | s126 => DD x17 x27 end.
Definition m990 (c : sum2) : dd := match c with s0 => DD x15 x30 | s1 => DD x15 x31 | s2 => DD x15 x32 | s3 => DD x15 x33 | s4 => DD x15 x34 | s5 => DD x15 x35 | s6 => DD x15 x36 | s7 => DD x15 x37 | s8 => DD x15 x38 | s9 => DD x15 x39 | s10 => DD x15 x40 | s11 => DD x15 x41 | s12 => DD x15 x42 | s13 => DD x15 x43 | s14 => DD x15 x44 | s15 => DD x15 x45 | s16 => DD x15 x46 | s17 => DD x15 x47 | s18 => DD x15 x48 | s19 => DD x15 x49 | s20 => DD x15 x50 | s21 => DD x15 x51 | s22 => DD x15 x52 | s23 => DD x15 x53 | s24 => DD x15 x54 | s25 => DD x15 x55 | s26 => DD x15 x56 | s27 => DD x15 x57 | s28 => DD x15 x58 | s29 => DD x15 x59 | s30 => DD x15 x60 | s31 => DD x15 x61 | s32 => DD x15 x62 | s33 => DD x15 x63 | s34 => DD x16 x0 | s35 => DD x16 x1 | s36 => DD x16 x2 | s37 => DD x16 x3 | s38 => DD x16 x4 | s39 => DD x16 x5 | s40 => DD x16 x6 | s41 => DD x16 x7 | s42 => DD x16 x8 | s43 => DD x16 x9 | s44 => DD x16 x10 | s45 => DD x16 x11 | s46 => DD x16 x12 | s47 => DD x16 x13 | s48 => DD x16 x14 | s49 => DD x16 x15 | s50 => DD x16 x16 | s51 => DD x16 x17 | s52 => DD x16 x18 | s53 => DD x16 x19 | s54 => DD x16 x20 | s55 => DD x16 x21 | s56 => DD x16 x22 | s57 => DD x16 x23 | s58 => DD x16 x24 | s59 => DD x16 x25 | s60 => DD x16 x26 | s61 => DD x16 x27 | s62 => DD x16 x28 | s63 => DD x16 x29 | s64 => DD x16 x30 | s65 => DD x16 x31 | s66 => DD x16 x32 | s67 => DD x16 x33 | s68 => DD x16 x34 | s69 => DD x16 x35 | s70 => DD x16 x36 | s71 => DD x16 x37 | s72 => DD x16 x38 | s73 => DD x16 x39 | s74 => DD x16 x40 | s75 => DD x16 x41 | s76 => DD x16 x42 | s77 => DD x16 x43 | s78 => DD x16 x44 | s79 => DD x16 x45 | s80 => DD x16 x46 | s81 => DD x16 x47 | s82 => DD x16 x48 | s83 => DD x16 x49 | s84 => DD x16 x50 | s85 => DD x16 x51 | s86 => DD x16 x52 | s87 => DD x16 x53 | s88 => DD x16 x54 | s89 => DD x16 x55 | s90 => DD x16 x56 | s91 => DD x16 x57 | s92 => DD x16 x58 | s93 => DD x16 x59 | s94 => DD x16 x60 | s95 => DD x16 x61 | s96 => DD x16 x62 | s97 => DD x16 x63 | s98 => DD x17 x0 | s99 => DD x17 x1 | s100 => DD x17 x2 | s101 => DD x17 x3 | s102 => DD x17 x4 | s103 => DD x17 x5 | s104 => DD x17 x6 | s105 => DD x17 x7 | s106 => DD x17 x8 | s107 => DD x17 x9 | s108 => DD x17 x10 | s109 => DD x17 x11 | s110 => DD x17 x12 | s111 => DD x17 x13 | s112 => DD x17 x14 | s113 => DD x17 x15 | s114 => DD x17 x16 | s115 => DD x17 x17 | s116 => DD x17 x18 | s117 => DD x17 x19 | s118 => DD x17 x20 | s119 => DD x17 x21 | s120 => DD x17 x22 | s121 => DD x17 x23 | s122 => DD x17 x24 | s123 => DD x17 x25 | s124 => DD x17 x26 | s125 => DD x17 x27 | s126 => DD x17 x28 end.
Definition m992 (c : sum2) : dd := match c with s0 => DD x15 x32 | s1 => DD x15 x33 | s2 => DD x15 x34 | s3 => DD x15 x35 | s4 => DD x15 x36 | s5 => DD x15 x37 | s6 => DD x15 x38 | s7 => DD x15 x39 | s8 => DD x15 x40 | s9 => DD x15 x41 | s10 => DD x15 x42 | s11 => DD x15 x43 | s12 => DD x15 x44 | s13 => DD x15 x45 | s14 => DD x15 x46 | s15 => DD x15 x47 | s16 => DD x15 x48 | s17 => DD x15 x49 | s18 => DD x15 x50 | s19 => DD x15 x51 | s20 => DD x15 x52 | s21 => DD x15 x53 | s22 => DD x15 x54 | s23 => DD x15 x55 | s24 => DD x15 x56 | s25 => DD x15 x57 | s26 => DD x15 x58 | s27 => DD x15 x59 | s28 => DD x15 x60 | s29 => DD x15 x61 | s30 => DD x15 x62 | s31 => DD x15 x63 | s32 => DD x16 x0 | s33 => DD x16 x1 | s34 => DD x16 x2 | s35 => DD x16 x3 | s36 => DD x16 x4 | s37 => DD x16 x5 | s38 => DD x16 x6 | s39 => DD x16 x7 | s40 => DD x16 x8 | s41 => DD x16 x9 | s42 => DD x16 x10 | s43 => DD x16 x11 | s44 => DD x16 x12 | s45 => DD x16 x13 | s46 => DD x16 x14 | s47 => DD x16 x15 | s48 => DD x16 x16 | s49 => DD x16 x17 | s50 => DD x16 x18 | s51 => DD x16 x19 | s52 => DD x16 x20 | s53 => DD x16 x21 | s54 => DD x16 x22 | s55 => DD x16 x23 | s56 => DD x16 x24 | s57 => DD x16 x25 | s58 => DD x16 x26 | s59 => DD x16 x27 | s60 => DD x16 x28 | s61 => DD x16 x29 | s62 => DD x16 x30 | s63 => DD x16 x31 | s64 => DD x16 x32 | s65 => DD x16 x33 | s66 => DD x16 x34 | s67 => DD x16 x35 | s68 => DD x16 x36 | s69 => DD x16 x37 | s70 => DD x16 x38 | s71 => DD x16 x39 | s72 => DD x16 x40 | s73 => DD x16 x41 | s74 => DD x16 x42 | s75 => DD x16 x43 | s76 => DD x16 x44 | s77 => DD x16 x45 | s78 => DD x16 x46 | s79 => DD x16 x47 | s80 => DD x16 x48 | s81 => DD x16 x49 | s82 => DD x16 x50 | s83 => DD x16 x51 | s84 => DD x16 x52 | s85 => DD x16 x53 | s86 => DD x16 x54 | s87 => DD x16 x55 | s88 => DD x16 x56 | s89 => DD x16 x57 | s90 => DD x16 x58 | s91 => DD x16 x59 | s92 => DD x16 x60 | s93 => DD x16 x61 | s94 => DD x16 x62 | s95 => DD x16 x63 | s96 => DD x17 x0 | s97 => DD x17 x1 | s98 => DD x17 x2 | s99 => DD x17 x3 | s100 => DD x17 x4 | s101 => DD x17 x5 | s102 => DD x17 x6 | s103 => DD x17 x7 | s104 => DD x17 x8 | s105 => DD x17 x9 | s106 => DD x17 x10 | s107 => DD x17 x11 | s108 => DD x17 x12 | s109 => DD x17 x13 | s110 => DD x17 x14 | s111 => DD x17 x15 | s112 => DD x17 x16 | s113 => DD x17 x17 | s114 => DD x17 x18 | s115 => DD x17 x19 | s116 => DD x17 x20 | s117 => DD x17 x21 | s118 => DD x17 x22 | s119 => DD x17 x23 | s120 => DD x17 x24 | s121 => DD x17 x25 | s122 => DD x17 x26 | s123 => DD x17 x27 | s124 => DD x17 x28 | s125 => DD x17 x29 | s126 => DD x17 x30 end.
Definition m999 (c : sum2) : dd := match c with s0 => DD x15 x39 | s1 => DD x15 x40 | s2 => DD x15 x41 | s3 => DD x15 x42 | s4 => DD x15 x43 | s5 => DD x15 x44 | s6 => DD x15 x45 | s7 => DD x15 x46 | s8 => DD x15 x47 | s9 => DD x15 x48 | s10 => DD x15 x49 | s11 => DD x15 x50 | s12 => DD x15 x51 | s13 => DD x15 x52 | s14 => DD x15 x53 | s15 => DD x15 x54 | s16 => DD x15 x55 | s17 => DD x15 x56 | s18 => DD x15 x57 | s19 => DD x15 x58 | s20 => DD x15 x59 | s21 => DD x15 x60 | s22 => DD x15 x61 | s23 => DD x15 x62 | s24 => DD x15 x63 | s25 => DD x16 x0 | s26 => DD x16 x1 | s27 => DD x16 x2 | s28 => DD x16 x3 | s29 => DD x16 x4 | s30 => DD x16 x5 | s31 => DD x16 x6 | s32 => DD x16 x7 | s33 => DD x16 x8 | s34 => DD x16 x9 | s35 => DD x16 x10 | s36 => DD x16 x11 | s37 => DD x16 x12 | s38 => DD x16 x13 | s39 => DD x16 x14 | s40 => DD x16 x15 | s41 => DD x16 x16 | s42 => DD x16 x17 | s43 => DD x16 x18 | s44 => DD x16 x19 | s45 => DD x16 x20 | s46 => DD x16 x21 | s47 => DD x16 x22 | s48 => DD x16 x23 | s49 => DD x16 x24 | s50 => DD x16 x25 | s51 => DD x16 x26 | s52 => DD x16 x27 | s53 => DD x16 x28 | s54 => DD x16 x29 | s55 => DD x16 x30 | s56 => DD x16 x31 | s57 => DD x16 x32 | s58 => DD x16 x33 | s59 => DD x16 x34 | s60 => DD x16 x35 | s61 => DD x16 x36 | s62 => DD x16 x37 | s63 => DD x16 x38 | s64 => DD x16 x39 | s65 => DD x16 x40 | s66 => DD x16 x41 | s67 => DD x16 x42 | s68 => DD x16 x43 | s69 => DD x16 x44 | s70 => DD x16 x45 | s71 => DD x16 x46 | s72 => DD x16 x47 | s73 => DD x16 x48 | s74 => DD x16 x49 | s75 => DD x16 x50 | s76 => DD x16 x51 | s77 => DD x16 x52 | s78 => DD x16 x53 | s79 => DD x16 x54 | s80 => DD x16 x55 | s81 => DD x16 x56 | s82 => DD x16 x57 | s83 => DD x16 x58 | s84 => DD x16 x59 | s85 => DD x16 x60 | s86 => DD x16 x61 | s87 => DD x16 x62 | s88 => DD x16 x63 | s89 => DD x17 x0 | s90 => DD x17 x1 | s91 => DD x17 x2 | s92 => DD x17 x3 | s93 => DD x17 x4 | s94 => DD x17 x5 | s95 => DD x17 x6 | s96 => DD x17 x7 | s97 => DD x17 x8 | s98 => DD x17 x9 | s99 => DD x17 x10 | s100 => DD x17 x11 | s101 => DD x17 x12 | s102 => DD x17 x13 | s103 => DD x17 x14 | s104 => DD x17 x15 | s105 => DD x17 x16 | s106 => DD x17 x17 | s107 => DD x17 x18 | s108 => DD x17 x19 | s109 => DD x17 x20 | s110 => DD x17 x21 | s111 => DD x17 x22 | s112 => DD x17 x23 | s113 => DD x17 x24 | s114 => DD x17 x25 | s115 => DD x17 x26 | s116 => DD x17 x27 | s117 => DD x17 x28 | s118 => DD x17 x29 | s119 => DD x17 x30 | s120 => DD x17 x31 | s121 => DD x17 x32 | s122 => DD x17 x33 | s123 => DD x17 x34 | s124 => DD x17 x35 | s125 => DD x17 x36 | s126 => DD x17 x37 end.
Definition m1000 (c : sum2) : dd := match c with s0 => DD x15 x40 | s1 => DD x15 x41 | s2 => DD x15 x42 | s3 => DD x15 x43 | s4 => DD x15 x44 | s5 => DD x15 x45 | s6 => DD x15 x46 | s7 => DD x15 x47 | s8 => DD x15 x48 | s9 => DD x15 x49 | s10 => DD x15 x50 | s11 => DD x15 x51 | s12 => DD x15 x52 | s13 => DD x15 x53 | s14 => DD x15 x54 | s15 => DD x15 x55 | s16 => DD x15 x56 | s17 => DD x15 x57 | s18 => DD x15 x58 | s19 => DD x15 x59 | s20 => DD x15 x60 | s21 => DD x15 x61 | s22 => DD x15 x62 | s23 => DD x15 x63 | s24 => DD x16 x0 | s25 => DD x16 x1 | s26 => DD x16 x2 | s27 => DD x16 x3 | s28 => DD x16 x4 | s29 => DD x16 x5 | s30 => DD x16 x6 | s31 => DD x16 x7 | s32 => DD x16 x8 | s33 => DD x16 x9 | s34 => DD x16 x10 | s35 => DD x16 x11 | s36 => DD x16 x12 | s37 => DD x16 x13 | s38 => DD x16 x14 | s39 => DD x16 x15 | s40 => DD x16 x16 | s41 => DD x16 x17 | s42 => DD x16 x18 | s43 => DD x16 x19 | s44 => DD x16 x20 | s45 => DD x16 x21 | s46 => DD x16 x22 | s47 => DD x16 x23 | s48 => DD x16 x24 | s49 => DD x16 x25 | s50 => DD x16 x26 | s51 => DD x16 x27 | s52 => DD x16 x28 | s53 => DD x16 x29 | s54 => DD x16 x30 | s55 => DD x16 x31 | s56 => DD x16 x32 | s57 => DD x16 x33 | s58 => DD x16 x34 | s59 => DD x16 x35 | s60 => DD x16 x36 | s61 => DD x16 x37 | s62 => DD x16 x38 | s63 => DD x16 x39 | s64 => DD x16 x40 | s65 => DD x16 x41 | s66 => DD x16 x42 | s67 => DD x16 x43 | s68 => DD x16 x44 | s69 => DD x16 x45 | s70 => DD x16 x46 | s71 => DD x16 x47 | s72 => DD x16 x48 | s73 => DD x16 x49 | s74 => DD x16 x50 | s75 => DD x16 x51 | s76 => DD x16 x52 | s77 => DD x16 x53 | s78 => DD x16 x54 | s79 => DD x16 x55 | s80 => DD x16 x56 | s81 => DD x16 x57 | s82 => DD x16 x58 | s83 => DD x16 x59 | s84 => DD x16 x60 | s85 => DD x16 x61 | s86 => DD x16 x62 | s87 => DD x16 x63 | s88 => DD x17 x0 | s89 => DD x17 x1 | s90 => DD x17 x2 | s91 => DD x17 x3 | s92 => DD x17 x4 | s93 => DD x17 x5 | s94 => DD x17 x6 | s95 => DD x17 x7 | s96 => DD x17 x8 | s97 => DD x17 x9 | s98 => DD x17 x10 | s99 => DD x17 x11 | s100 => DD x17 x12 | s101 => DD x17 x13 | s102 => DD x17 x14 | s103 => DD x17 x15 | s104 => DD x17 x16 | s105 => DD x17 x17 | s106 => DD x17 x18 | s107 => DD x17 x19 | s108 => DD x17 x20 | s109 => DD x17 x21 | s110 => DD x17 x22 | s111 => DD x17 x23 | s112 => DD x17 x24 | s113 => DD x17 x25 | s114 => DD x17 x26 | s115 => DD x17 x27 | s116 => DD x17 x28 | s117 => DD x17 x29 | s118 => DD x17 x30 | s119 => DD x17 x31 | s120 => DD x17 x32 | s121 => DD x17 x33 | s122 => DD x17 x34 | s123 => DD x17 x35 | s124 => DD x17 x36 | s125 => DD x17 x37 | s126 => DD x17 x38 end.
Definition m1003 (c : sum2) : dd := match c with s0 => DD x15 x43 | s1 => DD x15 x44 | s2 => DD x15 x45 | s3 => DD x15 x46 | s4 => DD x15 x47 | s5 => DD x15 x48 | s6 => DD x15 x49 | s7 => DD x15 x50 | s8 => DD x15 x51 | s9 => DD x15 x52 | s10 => DD x15 x53 | s11 => DD x15 x54 | s12 => DD x15 x55 | s13 => DD x15 x56 | s14 => DD x15 x57 | s15 => DD x15 x58 | s16 => DD x15 x59 | s17 => DD x15 x60 | s18 => DD x15 x61 | s19 => DD x15 x62 | s20 => DD x15 x63 | s21 => DD x16 x0 | s22 => DD x16 x1 | s23 => DD x16 x2 | s24 => DD x16 x3 | s25 => DD x16 x4 | s26 => DD x16 x5 | s27 => DD x16 x6 | s28 => DD x16 x7 | s29 => DD x16 x8 | s30 => DD x16 x9 | s31 => DD x16 x10 | s32 => DD x16 x11 | s33 => DD x16 x12 | s34 => DD x16 x13 | s35 => DD x16 x14 | s36 => DD x16 x15 | s37 => DD x16 x16 | s38 => DD x16 x17 | s39 => DD x16 x18 | s40 => DD x16 x19 | s41 => DD x16 x20 | s42 => DD x16 x21 | s43 => DD x16 x22 | s44 => DD x16 x23 | s45 => DD x16 x24 | s46 => DD x16 x25 | s47 => DD x16 x26 | s48 => DD x16 x27 | s49 => DD x16 x28 | s50 => DD x16 x29 | s51 => DD x16 x30 | s52 => DD x16 x31 | s53 => DD x16 x32 | s54 => DD x16 x33 | s55 => DD x16 x34 | s56 => DD x16 x35 | s57 => DD x16 x36 | s58 => DD x16 x37 | s59 => DD x16 x38 | s60 => DD x16 x39 | s61 => DD x16 x40 | s62 => DD x16 x41 | s63 => DD x16 x42 | s64 => DD x16 x43 | s65 => DD x16 x44 | s66 => DD x16 x45 | s67 => DD x16 x46 | s68 => DD x16 x47 | s69 => DD x16 x48 | s70 => DD x16 x49 | s71 => DD x16 x50 | s72 => DD x16 x51 | s73 => DD x16 x52 | s74 => DD x16 x53 | s75 => DD x16 x54 | s76 => DD x16 x55 | s77 => DD x16 x56 | s78 => DD x16 x57 | s79 => DD x16 x58 | s80 => DD x16 x59 | s81 => DD x16 x60 | s82 => DD x16 x61 | s83 => DD x16 x62 | s84 => DD x16 x63 | s85 => DD x17 x0 | s86 => DD x17 x1 | s87 => DD x17 x2 | s88 => DD x17 x3 | s89 => DD x17 x4 | s90 => DD x17 x5 | s91 => DD x17 x6 | s92 => DD x17 x7 | s93 => DD x17 x8 | s94 => DD x17 x9 | s95 => DD x17 x10 | s96 => DD x17 x11 | s97 => DD x17 x12 | s98 => DD x17 x13 | s99 => DD x17 x14 | s100 => DD x17 x15 | s101 => DD x17 x16 | s102 => DD x17 x17 | s103 => DD x17 x18 | s104 => DD x17 x19 | s105 => DD x17 x20 | s106 => DD x17 x21 | s107 => DD x17 x22 | s108 => DD x17 x23 | s109 => DD x17 x24 | s110 => DD x17 x25 | s111 => DD x17 x26 | s112 => DD x17 x27 | s113 => DD x17 x28 | s114 => DD x17 x29 | s115 => DD x17 x30 | s116 => DD x17 x31 | s117 => DD x17 x32 | s118 => DD x17 x33 | s119 => DD x17 x34 | s120 => DD x17 x35 | s121 => DD x17 x36 | s122 => DD x17 x37 | s123 => DD x17 x38 | s124 => DD x17 x39 | s125 => DD x17 x40 | s126 => DD x17 x41 end.
Definition m1007 (c : sum2) : dd := match c with s0 => DD x15 x47 | s1 => DD x15 x48 | s2 => DD x15 x49 | s3 => DD x15 x50 | s4 => DD x15 x51 | s5 => DD x15 x52 | s6 => DD x15 x53 | s7 => DD x15 x54 | s8 => DD x15 x55 | s9 => DD x15 x56 | s10 => DD x15 x57 | s11 => DD x15 x58 | s12 => DD x15 x59 | s13 => DD x15 x60 | s14 => DD x15 x61 | s15 => DD x15 x62 | s16 => DD x15 x63 | s17 => DD x16 x0 | s18 => DD x16 x1 | s19 => DD x16 x2 | s20 => DD x16 x3 | s21 => DD x16 x4 | s22 => DD x16 x5 | s23 => DD x16 x6 | s24 => DD x16 x7 | s25 => DD x16 x8 | s26 => DD x16 x9 | s27 => DD x16 x10 | s28 => DD x16 x11 | s29 => DD x16 x12 | s30 => DD x16 x13 | s31 => DD x16 x14 | s32 => DD x16 x15 | s33 => DD x16 x16 | s34 => DD x16 x17 | s35 => DD x16 x18 | s36 => DD x16 x19 | s37 => DD x16 x20 | s38 => DD x16 x21 | s39 => DD x16 x22 | s40 => DD x16 x23 | s41 => DD x16 x24 | s42 => DD x16 x25 | s43 => DD x16 x26 | s44 => DD x16 x27 | s45 => DD x16 x28 | s46 => DD x16 x29 | s47 => DD x16 x30 | s48 => DD x16 x31 | s49 => DD x16 x32 | s50 => DD x16 x33 | s51 => DD x16 x34 | s52 => DD x16 x35 | s53 => DD x16 x36 | s54 => DD x16 x37 | s55 => DD x16 x38 | s56 => DD x16 x39 | s57 => DD x16 x40 | s58 => DD x16 x41 | s59 => DD x16 x42 | s60 => DD x16 x43 | s61 => DD x16 x44 | s62 => DD x16 x45 | s63 => DD x16 x46 | s64 => DD x16 x47 | s65 => DD x16 x48 | s66 => DD x16 x49 | s67 => DD x16 x50 | s68 => DD x16 x51 | s69 => DD x16 x52 | s70 => DD x16 x53 | s71 => DD x16 x54 | s72 => DD x16 x55 | s73 => DD x16 x56 | s74 => DD x16 x57 | s75 => DD x16 x58 | s76 => DD x16 x59 | s77 => DD x16 x60 | s78 => DD x16 x61 | s79 => DD x16 x62 | s80 => DD x16 x63 | s81 => DD x17 x0 | s82 => DD x17 x1 | s83 => DD x17 x2 | s84 => DD x17 x3 | s85 => DD x17 x4 | s86 => DD x17 x5 | s87 => DD x17 x6 | s88 => DD x17 x7 | s89 => DD x17 x8 | s90 => DD x17 x9 | s91 => DD x17 x10 | s92 => DD x17 x11 | s93 => DD x17 x12 | s94 => DD x17 x13 | s95 => DD x17 x14 | s96 => DD x17 x15 | s97 => DD x17 x16 | s98 => DD x17 x17 | s99 => DD x17 x18 | s100 => DD x17 x19 | s101 => DD x17 x20 | s102 => DD x17 x21 | s103 => DD x17 x22 | s104 => DD x17 x23 | s105 => DD x17 x24 | s106 => DD x17 x25 | s107 => DD x17 x26 | s108 => DD x17 x27 | s109 => DD x17 x28 | s110 => DD x17 x29 | s111 => DD x17 x30 | s112 => DD x17 x31 | s113 => DD x17 x32 | s114 => DD x17 x33 | s115 => DD x17 x34 | s116 => DD x17 x35 | s117 => DD x17 x36 | s118 => DD x17 x37 | s119 => DD x17 x38 | s120 => DD x17 x39 | s121 => DD x17 x40 | s122 => DD x17 x41 | s123 => DD x17 x42 | s124 => DD x17 x43 | s125 => DD x17 x44 | s126 => DD x17 x45 end.
Definition m1008 (c : sum2) : dd := match c with s0 => DD x15 x48 | s1 => DD x15 x49 | s2 => DD x15 x50 | s3 => DD x15 x51 | s4 => DD x15 x52 | s5 => DD x15 x53 | s6 => DD x15 x54 | s7 => DD x15 x55 | s8 => DD x15 x56 | s9 => DD x15 x57 | s10 => DD x15 x58 | s11 => DD x15 x59 | s12 => DD x15 x60 | s13 => DD x15 x61 | s14 => DD x15 x62 | s15 => DD x15 x63 | s16 => DD x16 x0 | s17 => DD x16 x1 | s18 => DD x16 x2 | s19 => DD x16 x3 | s20 => DD x16 x4 | s21 => DD x16 x5 | s22 => DD x16 x6 | s23 => DD x16 x7 | s24 => DD x16 x8 | s25 => DD x16 x9 | s26 => DD x16 x10 | s27 => DD x16 x11 | s28 => DD x16 x12 | s29 => DD x16 x13 | s30 => DD x16 x14 | s31 => DD x16 x15 | s32 => DD x16 x16 | s33 => DD x16 x17 | s34 => DD x16 x18 | s35 => DD x16 x19 | s36 => DD x16 x20 | s37 => DD x16 x21 | s38 => DD x16 x22 | s39 => DD x16 x23 | s40 => DD x16 x24 | s41 => DD x16 x25 | s42 => DD x16 x26 | s43 => DD x16 x27 | s44 => DD x16 x28 | s45 => DD x16 x29 | s46 => DD x16 x30 | s47 => DD x16 x31 | s48 => DD x16 x32 | s49 => DD x16 x33 | s50 => DD x16 x34 | s51 => DD x16 x35 | s52 => DD x16 x36 | s53 => DD x16 x37 | s54 => DD x16 x38 | s55 => DD x16 x39 | s56 => DD x16 x40 | s57 => DD x16 x41 | s58 => DD x16 x42 | s59 => DD x16 x43 | s60 => DD x16 x44 | s61 => DD x16 x45 | s62 => DD x16 x46 | s63 => DD x16 x47 | s64 => DD x16 x48 | s65 => DD x16 x49 | s66 => DD x16 x50 | s67 => DD x16 x51 | s68 => DD x16 x52 | s69 => DD x16 x53 | s70 => DD x16 x54 | s71 => DD x16 x55 | s72 => DD x16 x56 | s73 => DD x16 x57 | s74 => DD x16 x58 | s75 => DD x16 x59 | s76 => DD x16 x60 | s77 => DD x16 x61 | s78 => DD x16 x62 | s79 => DD x16 x63 | s80 => DD x17 x0 | s81 => DD x17 x1 | s82 => DD x17 x2 | s83 => DD x17 x3 | s84 => DD x17 x4 | s85 => DD x17 x5 | s86 => DD x17 x6 | s87 => DD x17 x7 | s88 => DD x17 x8 | s89 => DD x17 x9 | s90 => DD x17 x10 | s91 => DD x17 x11 | s92 => DD x17 x12 | s93 => DD x17 x13 | s94 => DD x17 x14 | s95 => DD x17 x15 | s96 => DD x17 x16 | s97 => DD x17 x17 | s98 => DD x17 x18 | s99 => DD x17 x19 | s100 => DD x17 x20 | s101 => DD x17 x21 | s102 => DD x17 x22 | s103 => DD x17 x23 | s104 => DD x17 x24 | s105 => DD x17 x25 | s106 => DD x17 x26 | s107 => DD x17 x27 | s108 => DD x17 x28 | s109 => DD x17 x29 | s110 => DD x17 x30 | s111 => DD x17 x31 | s112 => DD x17 x32 | s113 => DD x17 x33 | s114 => DD x17 x34 | s115 => DD x17 x35 | s116 => DD x17 x36 | s117 => DD x17 x37 | s118 => DD x17 x38 | s119 => DD x17 x39 | s120 => DD x17 x40 | s121 => DD x17 x41 | s122 => DD x17 x42 | s123 => DD x17 x43 | s124 => DD x17 x44 | s125 => DD x17 x45 | s126 => DD x17 x46 end.
Definition m1012 (c : sum2) : dd := match c with s0 => DD x15 x52 | s1 => DD x15 x53 | s2 => DD x15 x54 | s3 => DD x15 x55 | s4 => DD x15 x56 | s5 => DD x15 x57 | s6 => DD x15 x58 | s7 => DD x15 x59 | s8 => DD x15 x60 | s9 => DD x15 x61 | s10 => DD x15 x62 | s11 => DD x15 x63 | s12 => DD x16 x0 | s13 => DD x16 x1 | s14 => DD x16 x2 | s15 => DD x16 x3 | s16 => DD x16 x4 | s17 => DD x16 x5 | s18 => DD x16 x6 | s19 => DD x16 x7 | s20 => DD x16 x8 | s21 => DD x16 x9 | s22 => DD x16 x10 | s23 => DD x16 x11 | s24 => DD x16 x12 | s25 => DD x16 x13 | s26 => DD x16 x14 | s27 => DD x16 x15 | s28 => DD x16 x16 | s29 => DD x16 x17 | s30 => DD x16 x18 | s31 => DD x16 x19 | s32 => DD x16 x20 | s33 => DD x16 x21 | s34 => DD x16 x22 | s35 => DD x16 x23 | s36 => DD x16 x24 | s37 => DD x16 x25 | s38 => DD x16 x26 | s39 => DD x16 x27 | s40 => DD x16 x28 | s41 => DD x16 x29 | s42 => DD x16 x30 | s43 => DD x16 x31 | s44 => DD x16 x32 | s45 => DD x16 x33 | s46 => DD x16 x34 | s47 => DD x16 x35 | s48 => DD x16 x36 | s49 => DD x16 x37 | s50 => DD x16 x38 | s51 => DD x16 x39 | s52 => DD x16 x40 | s53 => DD x16 x41 | s54 => DD x16 x42 | s55 => DD x16 x43 | s56 => DD x16 x44 | s57 => DD x16 x45 | s58 => DD x16 x46 | s59 => DD x16 x47 | s60 => DD x16 x48 | s61 => DD x16 x49 | s62 => DD x16 x50 | s63 => DD x16 x51 | s64 => DD x16 x52 | s65 => DD x16 x53 | s66 => DD x16 x54 | s67 => DD x16 x55 | s68 => DD x16 x56 | s69 => DD x16 x57 | s70 => DD x16 x58 | s71 => DD x16 x59 | s72 => DD x16 x60 | s73 => DD x16 x61 | s74 => DD x16 x62 | s75 => DD x16 x63 | s76 => DD x17 x0 | s77 => DD x17 x1 | s78 => DD x17 x2 | s79 => DD x17 x3 | s80 => DD x17 x4 | s81 => DD x17 x5 | s82 => DD x17 x6 | s83 => DD x17 x7 | s84 => DD x17 x8 | s85 => DD x17 x9 | s86 => DD x17 x10 | s87 => DD x17 x11 | s88 => DD x17 x12 | s89 => DD x17 x13 | s90 => DD x17 x14 | s91 => DD x17 x15 | s92 => DD x17 x16 | s93 => DD x17 x17 | s94 => DD x17 x18 | s95 => DD x17 x19 | s96 => DD x17 x20 | s97 => DD x17 x21 | s98 => DD x17 x22 | s99 => DD x17 x23 | s100 => DD x17 x24 | s101 => DD x17 x25 | s102 => DD x17 x26 | s103 => DD x17 x27 | s104 => DD x17 x28 | s105 => DD x17 x29 | s106 => DD x17 x30 | s107 => DD x17 x31 | s108 => DD x17 x32 | s109 => DD x17 x33 | s110 => DD x17 x34 | s111 => DD x17 x35 | s112 => DD x17 x36 | s113 => DD x17 x37 | s114 => DD x17 x38 | s115 => DD x17 x39 | s116 => DD x17 x40 | s117 => DD x17 x41 | s118 => DD x17 x42 | s119 => DD x17 x43 | s120 => DD x17 x44 | s121 => DD x17 x45 | s122 => DD x17 x46 | s123 => DD x17 x47 | s124 => DD x17 x48 | s125 => DD x17 x49 | s126 => DD x17 x50 end.
Definition m1014 (c : sum2) : dd := match c with s0 => DD x15 x54 | s1 => DD x15 x55 | s2 => DD x15 x56 | s3 => DD x15 x57 | s4 => DD x15 x58 | s5 => DD x15 x59 | s6 => DD x15 x60 | s7 => DD x15 x61 | s8 => DD x15 x62 | s9 => DD x15 x63 | s10 => DD x16 x0 | s11 => DD x16 x1 | s12 => DD x16 x2 | s13 => DD x16 x3 | s14 => DD x16 x4 | s15 => DD x16 x5 | s16 => DD x16 x6 | s17 => DD x16 x7 | s18 => DD x16 x8 | s19 => DD x16 x9 | s20 => DD x16 x10 | s21 => DD x16 x11 | s22 => DD x16 x12 | s23 => DD x16 x13 | s24 => DD x16 x14 | s25 => DD x16 x15 | s26 => DD x16 x16 | s27 => DD x16 x17 | s28 => DD x16 x18 | s29 => DD x16 x19 | s30 => DD x16 x20 | s31 => DD x16 x21 | s32 => DD x16 x22 | s33 => DD x16 x23 | s34 => DD x16 x24 | s35 => DD x16 x25 | s36 => DD x16 x26 | s37 => DD x16 x27 | s38 => DD x16 x28 | s39 => DD x16 x29 | s40 => DD x16 x30 | s41 => DD x16 x31 | s42 => DD x16 x32 | s43 => DD x16 x33 | s44 => DD x16 x34 | s45 => DD x16 x35 | s46 => DD x16 x36 | s47 => DD x16 x37 | s48 => DD x16 x38 | s49 => DD x16 x39 | s50 => DD x16 x40 | s51 => DD x16 x41 | s52 => DD x16 x42 | s53 => DD x16 x43 | s54 => DD x16 x44 | s55 => DD x16 x45 | s56 => DD x16 x46 | s57 => DD x16 x47 | s58 => DD x16 x48 | s59 => DD x16 x49 | s60 => DD x16 x50 | s61 => DD x16 x51 | s62 => DD x16 x52 | s63 => DD x16 x53 | s64 => DD x16 x54 | s65 => DD x16 x55 | s66 => DD x16 x56 | s67 => DD x16 x57 | s68 => DD x16 x58 | s69 => DD x16 x59 | s70 => DD x16 x60 | s71 => DD x16 x61 | s72 => DD x16 x62 | s73 => DD x16 x63 | s74 => DD x17 x0 | s75 => DD x17 x1 | s76 => DD x17 x2 | s77 => DD x17 x3 | s78 => DD x17 x4 | s79 => DD x17 x5 | s80 => DD x17 x6 | s81 => DD x17 x7 | s82 => DD x17 x8 | s83 => DD x17 x9 | s84 => DD x17 x10 | s85 => DD x17 x11 | s86 => DD x17 x12 | s87 => DD x17 x13 | s88 => DD x17 x14 | s89 => DD x17 x15 | s90 => DD x17 x16 | s91 => DD x17 x17 | s92 => DD x17 x18 | s93 => DD x17 x19 | s94 => DD x17 x20 | s95 => DD x17 x21 | s96 => DD x17 x22 | s97 => DD x17 x23 | s98 => DD x17 x24 | s99 => DD x17 x25 | s100 => DD x17 x26 | s101 => DD x17 x27 | s102 => DD x17 x28 | s103 => DD x17 x29 | s104 => DD x17 x30 | s105 => DD x17 x31 | s106 => DD x17 x32 | s107 => DD x17 x33 | s108 => DD x17 x34 | s109 => DD x17 x35 | s110 => DD x17 x36 | s111 => DD x17 x37 | s112 => DD x17 x38 | s113 => DD x17 x39 | s114 => DD x17 x40 | s115 => DD x17 x41 | s116 => DD x17 x42 | s117 => DD x17 x43 | s118 => DD x17 x44 | s119 => DD x17 x45 | s120 => DD x17 x46 | s121 => DD x17 x47 | s122 => DD x17 x48 | s123 => DD x17 x49 | s124 => DD x17 x50 | s125 => DD x17 x51 | s126 => DD x17 x52 end.
Definition m1015 (c : sum2) : dd := match c with s0 => DD x15 x55 | s1 => DD x15 x56 | s2 => DD x15 x57 | s3 => DD x15 x58 | s4 => DD x15 x59 | s5 => DD x15 x60 | s6 => DD x15 x61 | s7 => DD x15 x62 | s8 => DD x15 x63 | s9 => DD x16 x0 | s10 => DD x16 x1 | s11 => DD x16 x2 | s12 => DD x16 x3 | s13 => DD x16 x4 | s14 => DD x16 x5 | s15 => DD x16 x6 | s16 => DD x16 x7 | s17 => DD x16 x8 | s18 => DD x16 x9 | s19 => DD x16 x10 | s20 => DD x16 x11 | s21 => DD x16 x12 | s22 => DD x16 x13 | s23 => DD x16 x14 | s24 => DD x16 x15 | s25 => DD x16 x16 | s26 => DD x16 x17 | s27 => DD x16 x18 | s28 => DD x16 x19 | s29 => DD x16 x20 | s30 => DD x16 x21 | s31 => DD x16 x22 | s32 => DD x16 x23 | s33 => DD x16 x24 | s34 => DD x16 x25 | s35 => DD x16 x26 | s36 => DD x16 x27 | s37 => DD x16 x28 | s38 => DD x16 x29 | s39 => DD x16 x30 | s40 => DD x16 x31 | s41 => DD x16 x32 | s42 => DD x16 x33 | s43 => DD x16 x34 | s44 => DD x16 x35 | s45 => DD x16 x36 | s46 => DD x16 x37 | s47 => DD x16 x38 | s48 => DD x16 x39 | s49 => DD x16 x40 | s50 => DD x16 x41 | s51 => DD x16 x42 | s52 => DD x16 x43 | s53 => DD x16 x44 | s54 => DD x16 x45 | s55 => DD x16 x46 | s56 => DD x16 x47 | s57 => DD x16 x48 | s58 => DD x16 x49 | s59 => DD x16 x50 | s60 => DD x16 x51 | s61 => DD x16 x52 | s62 => DD x16 x53 | s63 => DD x16 x54 | s64 => DD x16 x55 | s65 => DD x16 x56 | s66 => DD x16 x57 | s67 => DD x16 x58 | s68 => DD x16 x59 | s69 => DD x16 x60 | s70 => DD x16 x61 | s71 => DD x16 x62 | s72 => DD x16 x63 | s73 => DD x17 x0 | s74 => DD x17 x1 | s75 => DD x17 x2 | s76 => DD x17 x3 | s77 => DD x17 x4 | s78 => DD x17 x5 | s79 => DD x17 x6 | s80 => DD x17 x7 | s81 => DD x17 x8 | s82 => DD x17 x9 | s83 => DD x17 x10 | s84 => DD x17 x11 | s85 => DD x17 x12 | s86 => DD x17 x13 | s87 => DD x17 x14 | s88 => DD x17 x15 | s89 => DD x17 x16 | s90 => DD x17 x17 | s91 => DD x17 x18 | s92 => DD x17 x19 | s93 => DD x17 x20 | s94 => DD x17 x21 | s95 => DD x17 x22 | s96 => DD x17 x23 | s97 => DD x17 x24 | s98 => DD x17 x25 | s99 => DD x17 x26 | s100 => DD x17 x27 | s101 => DD x17 x28 | s102 => DD x17 x29 | s103 => DD x17 x30 | s104 => DD x17 x31 | s105 => DD x17 x32 | s106 => DD x17 x33 | s107 => DD x17 x34 | s108 => DD x17 x35 | s109 => DD x17 x36 | s110 => DD x17 x37 | s111 => DD x17 x38 | s112 => DD x17 x39 | s113 => DD x17 x40 | s114 => DD x17 x41 | s115 => DD x17 x42 | s116 => DD x17 x43 | s117 => DD x17 x44 | s118 => DD x17 x45 | s119 => DD x17 x46 | s120 => DD x17 x47 | s121 => DD x17 x48 | s122 => DD x17 x49 | s123 => DD x17 x50 | s124 => DD x17 x51 | s125 => DD x17 x52 | s126 => DD x17 x53 end.
Definition m1020 (c : sum2) : dd := match c with s0 => DD x15 x60 | s1 => DD x15 x61 | s2 => DD x15 x62 | s3 => DD x15 x63 | s4 => DD x16 x0 | s5 => DD x16 x1 | s6 => DD x16 x2 | s7 => DD x16 x3 | s8 => DD x16 x4 | s9 => DD x16 x5 | s10 => DD x16 x6 | s11 => DD x16 x7 | s12 => DD x16 x8 | s13 => DD x16 x9 | s14 => DD x16 x10 | s15 => DD x16 x11 | s16 => DD x16 x12 | s17 => DD x16 x13 | s18 => DD x16 x14 | s19 => DD x16 x15 | s20 => DD x16 x16 | s21 => DD x16 x17 | s22 => DD x16 x18 | s23 => DD x16 x19 | s24 => DD x16 x20 | s25 => DD x16 x21 | s26 => DD x16 x22 | s27 => DD x16 x23 | s28 => DD x16 x24 | s29 => DD x16 x25 | s30 => DD x16 x26 | s31 => DD x16 x27 | s32 => DD x16 x28 | s33 => DD x16 x29 | s34 => DD x16 x30 | s35 => DD x16 x31 | s36 => DD x16 x32 | s37 => DD x16 x33 | s38 => DD x16 x34 | s39 => DD x16 x35 | s40 => DD x16 x36 | s41 => DD x16 x37 | s42 => DD x16 x38 | s43 => DD x16 x39 | s44 => DD x16 x40 | s45 => DD x16 x41 | s46 => DD x16 x42 | s47 => DD x16 x43 | s48 => DD x16 x44 | s49 => DD x16 x45 | s50 => DD x16 x46 | s51 => DD x16 x47 | s52 => DD x16 x48 | s53 => DD x16 x49 | s54 => DD x16 x50 | s55 => DD x16 x51 | s56 => DD x16 x52 | s57 => DD x16 x53 | s58 => DD x16 x54 | s59 => DD x16 x55 | s60 => DD x16 x56 | s61 => DD x16 x57 | s62 => DD x16 x58 | s63 => DD x16 x59 | s64 => DD x16 x60 | s65 => DD x16 x61 | s66 => DD x16 x62 | s67 => DD x16 x63 | s68 => DD x17 x0 | s69 => DD x17 x1 | s70 => DD x17 x2 | s71 => DD x17 x3 | s72 => DD x17 x4 | s73 => DD x17 x5 | s74 => DD x17 x6 | s75 => DD x17 x7 | s76 => DD x17 x8 | s77 => DD x17 x9 | s78 => DD x17 x10 | s79 => DD x17 x11 | s80 => DD x17 x12 | s81 => DD x17 x13 | s82 => DD x17 x14 | s83 => DD x17 x15 | s84 => DD x17 x16 | s85 => DD x17 x17 | s86 => DD x17 x18 | s87 => DD x17 x19 | s88 => DD x17 x20 | s89 => DD x17 x21 | s90 => DD x17 x22 | s91 => DD x17 x23 | s92 => DD x17 x24 | s93 => DD x17 x25 | s94 => DD x17 x26 | s95 => DD x17 x27 | s96 => DD x17 x28 | s97 => DD x17 x29 | s98 => DD x17 x30 | s99 => DD x17 x31 | s100 => DD x17 x32 | s101 => DD x17 x33 | s102 => DD x17 x34 | s103 => DD x17 x35 | s104 => DD x17 x36 | s105 => DD x17 x37 | s106 => DD x17 x38 | s107 => DD x17 x39 | s108 => DD x17 x40 | s109 => DD x17 x41 | s110 => DD x17 x42 | s111 => DD x17 x43 | s112 => DD x17 x44 | s113 => DD x17 x45 | s114 => DD x17 x46 | s115 => DD x17 x47 | s116 => DD x17 x48 | s117 => DD x17 x49 | s118 => DD x17 x50 | s119 => DD x17 x51 | s120 => DD x17 x52 | s121 => DD x17 x53 | s122 => DD x17 x54 | s123 => DD x17 x55 | s124 => DD x17 x56 | s125 => DD x17 x57 | s126 => DD x17 x58 end.
Definition m1023 (c : sum2) : dd := match c with s0 => DD x15 x63 | s1 => DD x16 x0 | s2 => DD x16 x1 | s3 => DD x16 x2 | s4 => DD x16 x3 | s5 => DD x16 x4 | s6 => DD x16 x5 | s7 => DD x16 x6 | s8 => DD x16 x7 | s9 => DD x16 x8 | s10 => DD x16 x9 | s11 => DD x16 x10 | s12 => DD x16 x11 | s13 => DD x16 x12 | s14 => DD x16 x13 | s15 => DD x16 x14 | s16 => DD x16 x15 | s17 => DD x16 x16 | s18 => DD x16 x17 | s19 => DD x16 x18 | s20 => DD x16 x19 | s21 => DD x16 x20 | s22 => DD x16 x21 | s23 => DD x16 x22 | s24 => DD x16 x23 | s25 => DD x16 x24 | s26 => DD x16 x25 | s27 => DD x16 x26 | s28 => DD x16 x27 | s29 => DD x16 x28 | s30 => DD x16 x29 | s31 => DD x16 x30 | s32 => DD x16 x31 | s33 => DD x16 x32 | s34 => DD x16 x33 | s35 => DD x16 x34 | s36 => DD x16 x35 | s37 => DD x16 x36 | s38 => DD x16 x37 | s39 => DD x16 x38 | s40 => DD x16 x39 | s41 => DD x16 x40 | s42 => DD x16 x41 | s43 => DD x16 x42 | s44 => DD x16 x43 | s45 => DD x16 x44 | s46 => DD x16 x45 | s47 => DD x16 x46 | s48 => DD x16 x47 | s49 => DD x16 x48 | s50 => DD x16 x49 | s51 => DD x16 x50 | s52 => DD x16 x51 | s53 => DD x16 x52 | s54 => DD x16 x53 | s55 => DD x16 x54 | s56 => DD x16 x55 | s57 => DD x16 x56 | s58 => DD x16 x57 | s59 => DD x16 x58 | s60 => DD x16 x59 | s61 => DD x16 x60 | s62 => DD x16 x61 | s63 => DD x16 x62 | s64 => DD x16 x63 | s65 => DD x17 x0 | s66 => DD x17 x1 | s67 => DD x17 x2 | s68 => DD x17 x3 | s69 => DD x17 x4 | s70 => DD x17 x5 | s71 => DD x17 x6 | s72 => DD x17 x7 | s73 => DD x17 x8 | s74 => DD x17 x9 | s75 => DD x17 x10 | s76 => DD x17 x11 | s77 => DD x17 x12 | s78 => DD x17 x13 | s79 => DD x17 x14 | s80 => DD x17 x15 | s81 => DD x17 x16 | s82 => DD x17 x17 | s83 => DD x17 x18 | s84 => DD x17 x19 | s85 => DD x17 x20 | s86 => DD x17 x21 | s87 => DD x17 x22 | s88 => DD x17 x23 | s89 => DD x17 x24 | s90 => DD x17 x25 | s91 => DD x17 x26 | s92 => DD x17 x27 | s93 => DD x17 x28 | s94 => DD x17 x29 | s95 => DD x17 x30 | s96 => DD x17 x31 | s97 => DD x17 x32 | s98 => DD x17 x33 | s99 => DD x17 x34 | s100 => DD x17 x35 | s101 => DD x17 x36 | s102 => DD x17 x37 | s103 => DD x17 x38 | s104 => DD x17 x39 | s105 => DD x17 x40 | s106 => DD x17 x41 | s107 => DD x17 x42 | s108 => DD x17 x43 | s109 => DD x17 x44 | s110 => DD x17 x45 | s111 => DD x17 x46 | s112 => DD x17 x47 | s113 => DD x17 x48 | s114 => DD x17 x49 | s115 => DD x17 x50 | s116 => DD x17 x51 | s117 => DD x17 x52 | s118 => DD x17 x53 | s119 => DD x17 x54 | s120 => DD x17 x55 | s121 => DD x17 x56 | s122 => DD x17 x57 | s123 => DD x17 x58 | s124 => DD x17 x59 | s125 => DD x17 x60 | s126 => DD x17 x61 end.
Definition m1024 (c : sum2) : dd := match c with s0 => DD x16 x0 | s1 => DD x16 x1 | s2 => DD x16 x2 | s3 => DD x16 x3 | s4 => DD x16 x4 | s5 => DD x16 x5 | s6 => DD x16 x6 | s7 => DD x16 x7 | s8 => DD x16 x8 | s9 => DD x16 x9 | s10 => DD x16 x10 | s11 => DD x16 x11 | s12 => DD x16 x12 | s13 => DD x16 x13 | s14 => DD x16 x14 | s15 => DD x16 x15 | s16 => DD x16 x16 | s17 => DD x16 x17 | s18 => DD x16 x18 | s19 => DD x16 x19 | s20 => DD x16 x20 | s21 => DD x16 x21 | s22 => DD x16 x22 | s23 => DD x16 x23 | s24 => DD x16 x24 | s25 => DD x16 x25 | s26 => DD x16 x26 | s27 => DD x16 x27 | s28 => DD x16 x28 | s29 => DD x16 x29 | s30 => DD x16 x30 | s31 => DD x16 x31 | s32 => DD x16 x32 | s33 => DD x16 x33 | s34 => DD x16 x34 | s35 => DD x16 x35 | s36 => DD x16 x36 | s37 => DD x16 x37 | s38 => DD x16 x38 | s39 => DD x16 x39 | s40 => DD x16 x40 | s41 => DD x16 x41 | s42 => DD x16 x42 | s43 => DD x16 x43 | s44 => DD x16 x44 | s45 => DD x16 x45 | s46 => DD x16 x46 | s47 => DD x16 x47 | s48 => DD x16 x48 | s49 => DD x16 x49 | s50 => DD x16 x50 | s51 => DD x16 x51 | s52 => DD x16 x52 | s53 => DD x16 x53 | s54 => DD x16 x54 | s55 => DD x16 x55 | s56 => DD x16 x56 | s57 => DD x16 x57 | s58 => DD x16 x58 | s59 => DD x16 x59 | s60 => DD x16 x60 | s61 => DD x16 x61 | s62 => DD x16 x62 | s63 => DD x16 x63 | s64 => DD x17 x0 | s65 => DD x17 x1 | s66 => DD x17 x2 | s67 => DD x17 x3 | s68 => DD x17 x4 | s69 => DD x17 x5 | s70 => DD x17 x6 | s71 => DD x17 x7 | s72 => DD x17 x8 | s73 => DD x17 x9 | s74 => DD x17 x10 | s75 => DD x17 x11 | s76 => DD x17 x12 | s77 => DD x17 x13 | s78 => DD x17 x14 | s79 => DD x17 x15 | s80 => DD x17 x16 | s81 => DD x17 x17 | s82 => DD x17 x18 | s83 => DD x17 x19 | s84 => DD x17 x20 | s85 => DD x17 x21 | s86 => DD x17 x22 | s87 => DD x17 x23 | s88 => DD x17 x24 | s89 => DD x17 x25 | s90 => DD x17 x26 | s91 => DD x17 x27 | s92 => DD x17 x28 | s93 => DD x17 x29 | s94 => DD x17 x30 | s95 => DD x17 x31 | s96 => DD x17 x32 | s97 => DD x17 x33 | s98 => DD x17 x34 | s99 => DD x17 x35 | s100 => DD x17 x36 | s101 => DD x17 x37 | s102 => DD x17 x38 | s103 => DD x17 x39 | s104 => DD x17 x40 | s105 => DD x17 x41 | s106 => DD x17 x42 | s107 => DD x17 x43 | s108 => DD x17 x44 | s109 => DD x17 x45 | s110 => DD x17 x46 | s111 => DD x17 x47 | s112 => DD x17 x48 | s113 => DD x17 x49 | s114 => DD x17 x50 | s115 => DD x17 x51 | s116 => DD x17 x52 | s117 => DD x17 x53 | s118 => DD x17 x54 | s119 => DD x17 x55 | s120 => DD x17 x56 | s121 => DD x17 x57 | s122 => DD x17 x58 | s123 => DD x17 x59 | s124 => DD x17 x60 | s125 => DD x17 x61 | s126 => DD x17 x62 end.
Definition m1025 (c : sum2) : dd := match c with s0 => DD x16 x1 | s1 => DD x16 x2 | s2 => DD x16 x3 | s3 => DD x16 x4 | s4 => DD x16 x5 | s5 => DD x16 x6 | s6 => DD x16 x7 | s7 => DD x16 x8 | s8 => DD x16 x9 | s9 => DD x16 x10 | s10 => DD x16 x11 | s11 => DD x16 x12 | s12 => DD x16 x13 | s13 => DD x16 x14 | s14 => DD x16 x15 | s15 => DD x16 x16 | s16 => DD x16 x17 | s17 => DD x16 x18 | s18 => DD x16 x19 | s19 => DD x16 x20 | s20 => DD x16 x21 | s21 => DD x16 x22 | s22 => DD x16 x23 | s23 => DD x16 x24 | s24 => DD x16 x25 | s25 => DD x16 x26 | s26 => DD x16 x27 | s27 => DD x16 x28 | s28 => DD x16 x29 | s29 => DD x16 x30 | s30 => DD x16 x31 | s31 => DD x16 x32 | s32 => DD x16 x33 | s33 => DD x16 x34 | s34 => DD x16 x35 | s35 => DD x16 x36 | s36 => DD x16 x37 | s37 => DD x16 x38 | s38 => DD x16 x39 | s39 => DD x16 x40 | s40 => DD x16 x41 | s41 => DD x16 x42 | s42 => DD x16 x43 | s43 => DD x16 x44 | s44 => DD x16 x45 | s45 => DD x16 x46 | s46 => DD x16 x47 | s47 => DD x16 x48 | s48 => DD x16 x49 | s49 => DD x16 x50 | s50 => DD x16 x51 | s51 => DD x16 x52 | s52 => DD x16 x53 | s53 => DD x16 x54 | s54 => DD x16 x55 | s55 => DD x16 x56 | s56 => DD x16 x57 | s57 => DD x16 x58 | s58 => DD x16 x59 | s59 => DD x16 x60 | s60 => DD x16 x61 | s61 => DD x16 x62 | s62 => DD x16 x63 | s63 => DD x17 x0 | s64 => DD x17 x1 | s65 => DD x17 x2 | s66 => DD x17 x3 | s67 => DD x17 x4 | s68 => DD x17 x5 | s69 => DD x17 x6 | s70 => DD x17 x7 | s71 => DD x17 x8 | s72 => DD x17 x9 | s73 => DD x17 x10 | s74 => DD x17 x11 | s75 => DD x17 x12 | s76 => DD x17 x13 | s77 => DD x17 x14 | s78 => DD x17 x15 | s79 => DD x17 x16 | s80 => DD x17 x17 | s81 => DD x17 x18 | s82 => DD x17 x19 | s83 => DD x17 x20 | s84 => DD x17 x21 | s85 => DD x17 x22 | s86 => DD x17 x23 | s87 => DD x17 x24 | s88 => DD x17 x25 | s89 => DD x17 x26 | s90 => DD x17 x27 | s91 => DD x17 x28 | s92 => DD x17 x29 | s93 => DD x17 x30 | s94 => DD x17 x31 | s95 => DD x17 x32 | s96 => DD x17 x33 | s97 => DD x17 x34 | s98 => DD x17 x35 | s99 => DD x17 x36 | s100 => DD x17 x37 | s101 => DD x17 x38 | s102 => DD x17 x39 | s103 => DD x17 x40 | s104 => DD x17 x41 | s105 => DD x17 x42 | s106 => DD x17 x43 | s107 => DD x17 x44 | s108 => DD x17 x45 | s109 => DD x17 x46 | s110 => DD x17 x47 | s111 => DD x17 x48 | s112 => DD x17 x49 | s113 => DD x17 x50 | s114 => DD x17 x51 | s115 => DD x17 x52 | s116 => DD x17 x53 | s117 => DD x17 x54 | s118 => DD x17 x55 | s119 => DD x17 x56 | s120 => DD x17 x57 | s121 => DD x17 x58 | s122 => DD x17 x59 | s123 => DD x17 x60 | s124 => DD x17 x61 | s125 => DD x17 x62 | s126 => DD x17 x63 end.
Definition m1026 (c : sum2) : dd := match c with s0 => DD x16 x2 | s1 => DD x16 x3 | s2 => DD x16 x4 | s3 => DD x16 x5 | s4 => DD x16 x6 | s5 => DD x16 x7 | s6 => DD x16 x8 | s7 => DD x16 x9 | s8 => DD x16 x10 | s9 => DD x16 x11 | s10 => DD x16 x12 | s11 => DD x16 x13 | s12 => DD x16 x14 | s13 => DD x16 x15 | s14 => DD x16 x16 | s15 => DD x16 x17 | s16 => DD x16 x18 | s17 => DD x16 x19 | s18 => DD x16 x20 | s19 => DD x16 x21 | s20 => DD x16 x22 | s21 => DD x16 x23 | s22 => DD x16 x24 | s23 => DD x16 x25 | s24 => DD x16 x26 | s25 => DD x16 x27 | s26 => DD x16 x28 | s27 => DD x16 x29 | s28 => DD x16 x30 | s29 => DD x16 x31 | s30 => DD x16 x32 | s31 => DD x16 x33 | s32 => DD x16 x34 | s33 => DD x16 x35 | s34 => DD x16 x36 | s35 => DD x16 x37 | s36 => DD x16 x38 | s37 => DD x16 x39 | s38 => DD x16 x40 | s39 => DD x16 x41 | s40 => DD x16 x42 | s41 => DD x16 x43 | s42 => DD x16 x44 | s43 => DD x16 x45 | s44 => DD x16 x46 | s45 => DD x16 x47 | s46 => DD x16 x48 | s47 => DD x16 x49 | s48 => DD x16 x50 | s49 => DD x16 x51 | s50 => DD x16 x52 | s51 => DD x16 x53 | s52 => DD x16 x54 | s53 => DD x16 x55 | s54 => DD x16 x56 | s55 => DD x16 x57 | s56 => DD x16 x58 | s57 => DD x16 x59 | s58 => DD x16 x60 | s59 => DD x16 x61 | s60 => DD x16 x62 | s61 => DD x16 x63 | s62 => DD x17 x0 | s63 => DD x17 x1 | s64 => DD x17 x2 | s65 => DD x17 x3 | s66 => DD x17 x4 | s67 => DD x17 x5 | s68 => DD x17 x6 | s69 => DD x17 x7 | s70 => DD x17 x8 | s71 => DD x17 x9 | s72 => DD x17 x10 | s73 => DD x17 x11 | s74 => DD x17 x12 | s75 => DD x17 x13 | s76 => DD x17 x14 | s77 => DD x17 x15 | s78 => DD x17 x16 | s79 => DD x17 x17 | s80 => DD x17 x18 | s81 => DD x17 x19 | s82 => DD x17 x20 | s83 => DD x17 x21 | s84 => DD x17 x22 | s85 => DD x17 x23 | s86 => DD x17 x24 | s87 => DD x17 x25 | s88 => DD x17 x26 | s89 => DD x17 x27 | s90 => DD x17 x28 | s91 => DD x17 x29 | s92 => DD x17 x30 | s93 => DD x17 x31 | s94 => DD x17 x32 | s95 => DD x17 x33 | s96 => DD x17 x34 | s97 => DD x17 x35 | s98 => DD x17 x36 | s99 => DD x17 x37 | s100 => DD x17 x38 | s101 => DD x17 x39 | s102 => DD x17 x40 | s103 => DD x17 x41 | s104 => DD x17 x42 | s105 => DD x17 x43 | s106 => DD x17 x44 | s107 => DD x17 x45 | s108 => DD x17 x46 | s109 => DD x17 x47 | s110 => DD x17 x48 | s111 => DD x17 x49 | s112 => DD x17 x50 | s113 => DD x17 x51 | s114 => DD x17 x52 | s115 => DD x17 x53 | s116 => DD x17 x54 | s117 => DD x17 x55 | s118 => DD x17 x56 | s119 => DD x17 x57 | s120 => DD x17 x58 | s121 => DD x17 x59 | s122 => DD x17 x60 | s123 => DD x17 x61 | s124 => DD x17 x62 | s125 => DD x17 x63 | s126 => DD x18 x0 end.
Definition m1029 (c : sum2) : dd := match c with s0 => DD x16 x5 | s1 => DD x16 x6 | s2 => DD x16 x7 | s3 => DD x16 x8 | s4 => DD x16 x9 | s5 => DD x16 x10 | s6 => DD x16 x11 | s7 => DD x16 x12 | s8 => DD x16 x13 | s9 => DD x16 x14 | s10 => DD x16 x15 | s11 => DD x16 x16 | s12 => DD x16 x17 | s13 => DD x16 x18 | s14 => DD x16 x19 | s15 => DD x16 x20 | s16 => DD x16 x21 | s17 => DD x16 x22 | s18 => DD x16 x23 | s19 => DD x16 x24 | s20 => DD x16 x25 | s21 => DD x16 x26 | s22 => DD x16 x27 | s23 => DD x16 x28 | s24 => DD x16 x29 | s25 => DD x16 x30 | s26 => DD x16 x31 | s27 => DD x16 x32 | s28 => DD x16 x33 | s29 => DD x16 x34 | s30 => DD x16 x35 | s31 => DD x16 x36 | s32 => DD x16 x37 | s33 => DD x16 x38 | s34 => DD x16 x39 | s35 => DD x16 x40 | s36 => DD x16 x41 | s37 => DD x16 x42 | s38 => DD x16 x43 | s39 => DD x16 x44 | s40 => DD x16 x45 | s41 => DD x16 x46 | s42 => DD x16 x47 | s43 => DD x16 x48 | s44 => DD x16 x49 | s45 => DD x16 x50 | s46 => DD x16 x51 | s47 => DD x16 x52 | s48 => DD x16 x53 | s49 => DD x16 x54 | s50 => DD x16 x55 | s51 => DD x16 x56 | s52 => DD x16 x57 | s53 => DD x16 x58 | s54 => DD x16 x59 | s55 => DD x16 x60 | s56 => DD x16 x61 | s57 => DD x16 x62 | s58 => DD x16 x63 | s59 => DD x17 x0 | s60 => DD x17 x1 | s61 => DD x17 x2 | s62 => DD x17 x3 | s63 => DD x17 x4 | s64 => DD x17 x5 | s65 => DD x17 x6 | s66 => DD x17 x7 | s67 => DD x17 x8 | s68 => DD x17 x9 | s69 => DD x17 x10 | s70 => DD x17 x11 | s71 => DD x17 x12 | s72 => DD x17 x13 | s73 => DD x17 x14 | s74 => DD x17 x15 | s75 => DD x17 x16 | s76 => DD x17 x17 | s77 => DD x17 x18 | s78 => DD x17 x19 | s79 => DD x17 x20 | s80 => DD x17 x21 | s81 => DD x17 x22 | s82 => DD x17 x23 | s83 => DD x17 x24 | s84 => DD x17 x25 | s85 => DD x17 x26 | s86 => DD x17 x27 | s87 => DD x17 x28 | s88 => DD x17 x29 | s89 => DD x17 x30 | s90 => DD x17 x31 | s91 => DD x17 x32 | s92 => DD x17 x33 | s93 => DD x17 x34 | s94 => DD x17 x35 | s95 => DD x17 x36 | s96 => DD x17 x37 | s97 => DD x17 x38 | s98 => DD x17 x39 | s99 => DD x17 x40 | s100 => DD x17 x41 | s101 => DD x17 x42 | s102 => DD x17 x43 | s103 => DD x17 x44 | s104 => DD x17 x45 | s105 => DD x17 x46 | s106 => DD x17 x47 | s107 => DD x17 x48 | s108 => DD x17 x49 | s109 => DD x17 x50 | s110 => DD x17 x51 | s111 => DD x17 x52 | s112 => DD x17 x53 | s113 => DD x17 x54 | s114 => DD x17 x55 | s115 => DD x17 x56 | s116 => DD x17 x57 | s117 => DD x17 x58 | s118 => DD x17 x59 | s119 => DD x17 x60 | s120 => DD x17 x61 | s121 => DD x17 x62 | s122 => DD x17 x63 | s123 => DD x18 x0 | s124 => DD x18 x1 | s125 => DD x18 x2 | s126 => DD x18 x3 end.
Definition m1032 (c : sum2) : dd := match c with s0 => DD x16 x8 | s1 => DD x16 x9 | s2 => DD x16 x10 | s3 => DD x16 x11 | s4 => DD x16 x12 | s5 => DD x16 x13 | s6 => DD x16 x14 | s7 => DD x16 x15 | s8 => DD x16 x16 | s9 => DD x16 x17 | s10 => DD x16 x18 | s11 => DD x16 x19 | s12 => DD x16 x20 | s13 => DD x16 x21 | s14 => DD x16 x22 | s15 => DD x16 x23 | s16 => DD x16 x24 | s17 => DD x16 x25 | s18 => DD x16 x26 | s19 => DD x16 x27 | s20 => DD x16 x28 | s21 => DD x16 x29 | s22 => DD x16 x30 | s23 => DD x16 x31 | s24 => DD x16 x32 | s25 => DD x16 x33 | s26 => DD x16 x34 | s27 => DD x16 x35 | s28 => DD x16 x36 | s29 => DD x16 x37 | s30 => DD x16 x38 | s31 => DD x16 x39 | s32 => DD x16 x40 | s33 => DD x16 x41 | s34 => DD x16 x42 | s35 => DD x16 x43 | s36 => DD x16 x44 | s37 => DD x16 x45 | s38 => DD x16 x46 | s39 => DD x16 x47 | s40 => DD x16 x48 | s41 => DD x16 x49 | s42 => DD x16 x50 | s43 => DD x16 x51 | s44 => DD x16 x52 | s45 => DD x16 x53 | s46 => DD x16 x54 | s47 => DD x16 x55 | s48 => DD x16 x56 | s49 => DD x16 x57 | s50 => DD x16 x58 | s51 => DD x16 x59 | s52 => DD x16 x60 | s53 => DD x16 x61 | s54 => DD x16 x62 | s55 => DD x16 x63 | s56 => DD x17 x0 | s57 => DD x17 x1 | s58 => DD x17 x2 | s59 => DD x17 x3 | s60 => DD x17 x4 | s61 => DD x17 x5 | s62 => DD x17 x6 | s63 => DD x17 x7 | s64 => DD x17 x8 | s65 => DD x17 x9 | s66 => DD x17 x10 | s67 => DD x17 x11 | s68 => DD x17 x12 | s69 => DD x17 x13 | s70 => DD x17 x14 | s71 => DD x17 x15 | s72 => DD x17 x16 | s73 => DD x17 x17 | s74 => DD x17 x18 | s75 => DD x17 x19 | s76 => DD x17 x20 | s77 => DD x17 x21 | s78 => DD x17 x22 | s79 => DD x17 x23 | s80 => DD x17 x24 | s81 => DD x17 x25 | s82 => DD x17 x26 | s83 => DD x17 x27 | s84 => DD x17 x28 | s85 => DD x17 x29 | s86 => DD x17 x30 | s87 => DD x17 x31 | s88 => DD x17 x32 | s89 => DD x17 x33 | s90 => DD x17 x34 | s91 => DD x17 x35 | s92 => DD x17 x36 | s93 => DD x17 x37 | s94 => DD x17 x38 | s95 => DD x17 x39 | s96 => DD x17 x40 | s97 => DD x17 x41 | s98 => DD x17 x42 | s99 => DD x17 x43 | s100 => DD x17 x44 | s101 => DD x17 x45 | s102 => DD x17 x46 | s103 => DD x17 x47 | s104 => DD x17 x48 | s105 => DD x17 x49 | s106 => DD x17 x50 | s107 => DD x17 x51 | s108 => DD x17 x52 | s109 => DD x17 x53 | s110 => DD x17 x54 | s111 => DD x17 x55 | s112 => DD x17 x56 | s113 => DD x17 x57 | s114 => DD x17 x58 | s115 => DD x17 x59 | s116 => DD x17 x60 | s117 => DD x17 x61 | s118 => DD x17 x62 | s119 => DD x17 x63 | s120 => DD x18 x0 | s121 => DD x18 x1 | s122 => DD x18 x2 | s123 => DD x18 x3 | s124 => DD x18 x4 | s125 => DD x18 x5 | s126 => DD x18 x6 end.
Definition m1034 (c : sum2) : dd := match c with s0 => DD x16 x10 | s1 => DD x16 x11 | s2 => DD x16 x12 | s3 => DD x16 x13 | s4 => DD x16 x14 | s5 => DD x16 x15 | s6 => DD x16 x16 | s7 => DD x16 x17 | s8 => DD x16 x18 | s9 => DD x16 x19 | s10 => DD x16 x20 | s11 => DD x16 x21 | s12 => DD x16 x22 | s13 => DD x16 x23 | s14 => DD x16 x24 | s15 => DD x16 x25 | s16 => DD x16 x26 | s17 => DD x16 x27 | s18 => DD x16 x28 | s19 => DD x16 x29 | s20 => DD x16 x30 | s21 => DD x16 x31 | s22 => DD x16 x32 | s23 => DD x16 x33 | s24 => DD x16 x34 | s25 => DD x16 x35 | s26 => DD x16 x36 | s27 => DD x16 x37 | s28 => DD x16 x38 | s29 => DD x16 x39 | s30 => DD x16 x40 | s31 => DD x16 x41 | s32 => DD x16 x42 | s33 => DD x16 x43 | s34 => DD x16 x44 | s35 => DD x16 x45 | s36 => DD x16 x46 | s37 => DD x16 x47 | s38 => DD x16 x48 | s39 => DD x16 x49 | s40 => DD x16 x50 | s41 => DD x16 x51 | s42 => DD x16 x52 | s43 => DD x16 x53 | s44 => DD x16 x54 | s45 => DD x16 x55 | s46 => DD x16 x56 | s47 => DD x16 x57 | s48 => DD x16 x58 | s49 => DD x16 x59 | s50 => DD x16 x60 | s51 => DD x16 x61 | s52 => DD x16 x62 | s53 => DD x16 x63 | s54 => DD x17 x0 | s55 => DD x17 x1 | s56 => DD x17 x2 | s57 => DD x17 x3 | s58 => DD x17 x4 | s59 => DD x17 x5 | s60 => DD x17 x6 | s61 => DD x17 x7 | s62 => DD x17 x8 | s63 => DD x17 x9 | s64 => DD x17 x10 | s65 => DD x17 x11 | s66 => DD x17 x12 | s67 => DD x17 x13 | s68 => DD x17 x14 | s69 => DD x17 x15 | s70 => DD x17 x16 | s71 => DD x17 x17 | s72 => DD x17 x18 | s73 => DD x17 x19 | s74 => DD x17 x20 | s75 => DD x17 x21 | s76 => DD x17 x22 | s77 => DD x17 x23 | s78 => DD x17 x24 | s79 => DD x17 x25 | s80 => DD x17 x26 | s81 => DD x17 x27 | s82 => DD x17 x28 | s83 => DD x17 x29 | s84 => DD x17 x30 | s85 => DD x17 x31 | s86 => DD x17 x32 | s87 => DD x17 x33 | s88 => DD x17 x34 | s89 => DD x17 x35 | s90 => DD x17 x36 | s91 => DD x17 x37 | s92 => DD x17 x38 | s93 => DD x17 x39 | s94 => DD x17 x40 | s95 => DD x17 x41 | s96 => DD x17 x42 | s97 => DD x17 x43 | s98 => DD x17 x44 | s99 => DD x17 x45 | s100 => DD x17 x46 | s101 => DD x17 x47 | s102 => DD x17 x48 | s103 => DD x17 x49 | s104 => DD x17 x50 | s105 => DD x17 x51 | s106 => DD x17 x52 | s107 => DD x17 x53 | s108 => DD x17 x54 | s109 => DD x17 x55 | s110 => DD x17 x56 | s111 => DD x17 x57 | s112 => DD x17 x58 | s113 => DD x17 x59 | s114 => DD x17 x60 | s115 => DD x17 x61 | s116 => DD x17 x62 | s117 => DD x17 x63 | s118 => DD x18 x0 | s119 => DD x18 x1 | s120 => DD x18 x2 | s121 => DD x18 x3 | s122 => DD x18 x4 | s123 => DD x18 x5 | s124 => DD x18 x6 | s125 => DD x18 x7 | s126 => DD x18 x8 end.
Definition m1035 (c : sum2) : dd := match c with s0 => DD x16 x11 | s1 => DD x16 x12 | s2 => DD x16 x13 | s3 => DD x16 x14 | s4 => DD x16 x15 | s5 => DD x16 x16 | s6 => DD x16 x17 | s7 => DD x16 x18 | s8 => DD x16 x19 | s9 => DD x16 x20 | s10 => DD x16 x21 | s11 => DD x16 x22 | s12 => DD x16 x23 | s13 => DD x16 x24 | s14 => DD x16 x25 | s15 => DD x16 x26 | s16 => DD x16 x27 | s17 => DD x16 x28 | s18 => DD x16 x29 | s19 => DD x16 x30 | s20 => DD x16 x31 | s21 => DD x16 x32 | s22 => DD x16 x33 | s23 => DD x16 x34 | s24 => DD x16 x35 | s25 => DD x16 x36 | s26 => DD x16 x37 | s27 => DD x16 x38 | s28 => DD x16 x39 | s29 => DD x16 x40 | s30 => DD x16 x41 | s31 => DD x16 x42 | s32 => DD x16 x43 | s33 => DD x16 x44 | s34 => DD x16 x45 | s35 => DD x16 x46 | s36 => DD x16 x47 | s37 => DD x16 x48 | s38 => DD x16 x49 | s39 => DD x16 x50 | s40 => DD x16 x51 | s41 => DD x16 x52 | s42 => DD x16 x53 | s43 => DD x16 x54 | s44 => DD x16 x55 | s45 => DD x16 x56 | s46 => DD x16 x57 | s47 => DD x16 x58 | s48 => DD x16 x59 | s49 => DD x16 x60 | s50 => DD x16 x61 | s51 => DD x16 x62 | s52 => DD x16 x63 | s53 => DD x17 x0 | s54 => DD x17 x1 | s55 => DD x17 x2 | s56 => DD x17 x3 | s57 => DD x17 x4 | s58 => DD x17 x5 | s59 => DD x17 x6 | s60 => DD x17 x7 | s61 => DD x17 x8 | s62 => DD x17 x9 | s63 => DD x17 x10 | s64 => DD x17 x11 | s65 => DD x17 x12 | s66 => DD x17 x13 | s67 => DD x17 x14 | s68 => DD x17 x15 | s69 => DD x17 x16 | s70 => DD x17 x17 | s71 => DD x17 x18 | s72 => DD x17 x19 | s73 => DD x17 x20 | s74 => DD x17 x21 | s75 => DD x17 x22 | s76 => DD x17 x23 | s77 => DD x17 x24 | s78 => DD x17 x25 | s79 => DD x17 x26 | s80 => DD x17 x27 | s81 => DD x17 x28 | s82 => DD x17 x29 | s83 => DD x17 x30 | s84 => DD x17 x31 | s85 => DD x17 x32 | s86 => DD x17 x33 | s87 => DD x17 x34 | s88 => DD x17 x35 | s89 => DD x17 x36 | s90 => DD x17 x37 | s91 => DD x17 x38 | s92 => DD x17 x39 | s93 => DD x17 x40 | s94 => DD x17 x41 | s95 => DD x17 x42 | s96 => DD x17 x43 | s97 => DD x17 x44 | s98 => DD x17 x45 | s99 => DD x17 x46 | s100 => DD x17 x47 | s101 => DD x17 x48 | s102 => DD x17 x49 | s103 => DD x17 x50 | s104 => DD x17 x51 | s105 => DD x17 x52 | s106 => DD x17 x53 | s107 => DD x17 x54 | s108 => DD x17 x55 | s109 => DD x17 x56 | s110 => DD x17 x57 | s111 => DD x17 x58 | s112 => DD x17 x59 | s113 => DD x17 x60 | s114 => DD x17 x61 | s115 => DD x17 x62 | s116 => DD x17 x63 | s117 => DD x18 x0 | s118 => DD x18 x1 | s119 => DD x18 x2 | s120 => DD x18 x3 | s121 => DD x18 x4 | s122 => DD x18 x5 | s123 => DD x18 x6 | s124 => DD x18 x7 | s125 => DD x18 x8 | s126 => DD x18 x9 end.
Definition m1036 (c : sum2) : dd := match c with s0 => DD x16 x12 | s1 => DD x16 x13 | s2 => DD x16 x14 | s3 => DD x16 x15 | s4 => DD x16 x16 | s5 => DD x16 x17 | s6 => DD x16 x18 | s7 => DD x16 x19 | s8 => DD x16 x20 | s9 => DD x16 x21 | s10 => DD x16 x22 | s11 => DD x16 x23 | s12 => DD x16 x24 | s13 => DD x16 x25 | s14 => DD x16 x26 | s15 => DD x16 x27 | s16 => DD x16 x28 | s17 => DD x16 x29 | s18 => DD x16 x30 | s19 => DD x16 x31 | s20 => DD x16 x32 | s21 => DD x16 x33 | s22 => DD x16 x34 | s23 => DD x16 x35 | s24 => DD x16 x36 | s25 => DD x16 x37 | s26 => DD x16 x38 | s27 => DD x16 x39 | s28 => DD x16 x40 | s29 => DD x16 x41 | s30 => DD x16 x42 | s31 => DD x16 x43 | s32 => DD x16 x44 | s33 => DD x16 x45 | s34 => DD x16 x46 | s35 => DD x16 x47 | s36 => DD x16 x48 | s37 => DD x16 x49 | s38 => DD x16 x50 | s39 => DD x16 x51 | s40 => DD x16 x52 | s41 => DD x16 x53 | s42 => DD x16 x54 | s43 => DD x16 x55 | s44 => DD x16 x56 | s45 => DD x16 x57 | s46 => DD x16 x58 | s47 => DD x16 x59 | s48 => DD x16 x60 | s49 => DD x16 x61 | s50 => DD x16 x62 | s51 => DD x16 x63 | s52 => DD x17 x0 | s53 => DD x17 x1 | s54 => DD x17 x2 | s55 => DD x17 x3 | s56 => DD x17 x4 | s57 => DD x17 x5 | s58 => DD x17 x6 | s59 => DD x17 x7 | s60 => DD x17 x8 | s61 => DD x17 x9 | s62 => DD x17 x10 | s63 => DD x17 x11 | s64 => DD x17 x12 | s65 => DD x17 x13 | s66 => DD x17 x14 | s67 => DD x17 x15 | s68 => DD x17 x16 | s69 => DD x17 x17 | s70 => DD x17 x18 | s71 => DD x17 x19 | s72 => DD x17 x20 | s73 => DD x17 x21 | s74 => DD x17 x22 | s75 => DD x17 x23 | s76 => DD x17 x24 | s77 => DD x17 x25 | s78 => DD x17 x26 | s79 => DD x17 x27 | s80 => DD x17 x28 | s81 => DD x17 x29 | s82 => DD x17 x30 | s83 => DD x17 x31 | s84 => DD x17 x32 | s85 => DD x17 x33 | s86 => DD x17 x34 | s87 => DD x17 x35 | s88 => DD x17 x36 | s89 => DD x17 x37 | s90 => DD x17 x38 | s91 => DD x17 x39 | s92 => DD x17 x40 | s93 => DD x17 x41 | s94 => DD x17 x42 | s95 => DD x17 x43 | s96 => DD x17 x44 | s97 => DD x17 x45 | s98 => DD x17 x46 | s99 => DD x17 x47 | s100 => DD x17 x48 | s101 => DD x17 x49 | s102 => DD x17 x50 | s103 => DD x17 x51 | s104 => DD x17 x52 | s105 => DD x17 x53 | s106 => DD x17 x54 | s107 => DD x17 x55 | s108 => DD x17 x56 | s109 => DD x17 x57 | s110 => DD x17 x58 | s111 => DD x17 x59 | s112 => DD x17 x60 | s113 => DD x17 x61 | s114 => DD x17 x62 | s115 => DD x17 x63 | s116 => DD x18 x0 | s117 => DD x18 x1 | s118 => DD x18 x2 | s119 => DD x18 x3 | s120 => DD x18 x4 | s121 => DD x18 x5 | s122 => DD x18 x6 | s123 => DD x18 x7 | s124 => DD x18 x8 | s125 => DD x18 x9 | s126 => DD x18 x10 end.
Definition m1037 (c : sum2) : dd := match c with s0 => DD x16 x13 | s1 => DD x16 x14 | s2 => DD x16 x15 | s3 => DD x16 x16 | s4 => DD x16 x17 | s5 => DD x16 x18 | s6 => DD x16 x19 | s7 => DD x16 x20 | s8 => DD x16 x21 | s9 => DD x16 x22 | s10 => DD x16 x23 | s11 => DD x16 x24 | s12 => DD x16 x25 | s13 => DD x16 x26 | s14 => DD x16 x27 | s15 => DD x16 x28 | s16 => DD x16 x29 | s17 => DD x16 x30 | s18 => DD x16 x31 | s19 => DD x16 x32 | s20 => DD x16 x33 | s21 => DD x16 x34 | s22 => DD x16 x35 | s23 => DD x16 x36 | s24 => DD x16 x37 | s25 => DD x16 x38 | s26 => DD x16 x39 | s27 => DD x16 x40 | s28 => DD x16 x41 | s29 => DD x16 x42 | s30 => DD x16 x43 | s31 => DD x16 x44 | s32 => DD x16 x45 | s33 => DD x16 x46 | s34 => DD x16 x47 | s35 => DD x16 x48 | s36 => DD x16 x49 | s37 => DD x16 x50 | s38 => DD x16 x51 | s39 => DD x16 x52 | s40 => DD x16 x53 | s41 => DD x16 x54 | s42 => DD x16 x55 | s43 => DD x16 x56 | s44 => DD x16 x57 | s45 => DD x16 x58 | s46 => DD x16 x59 | s47 => DD x16 x60 | s48 => DD x16 x61 | s49 => DD x16 x62 | s50 => DD x16 x63 | s51 => DD x17 x0 | s52 => DD x17 x1 | s53 => DD x17 x2 | s54 => DD x17 x3 | s55 => DD x17 x4 | s56 => DD x17 x5 | s57 => DD x17 x6 | s58 => DD x17 x7 | s59 => DD x17 x8 | s60 => DD x17 x9 | s61 => DD x17 x10 | s62 => DD x17 x11 | s63 => DD x17 x12 | s64 => DD x17 x13 | s65 => DD x17 x14 | s66 => DD x17 x15 | s67 => DD x17 x16 | s68 => DD x17 x17 | s69 => DD x17 x18 | s70 => DD x17 x19 | s71 => DD x17 x20 | s72 => DD x17 x21 | s73 => DD x17 x22 | s74 => DD x17 x23 | s75 => DD x17 x24 | s76 => DD x17 x25 | s77 => DD x17 x26 | s78 => DD x17 x27 | s79 => DD x17 x28 | s80 => DD x17 x29 | s81 => DD x17 x30 | s82 => DD x17 x31 | s83 => DD x17 x32 | s84 => DD x17 x33 | s85 => DD x17 x34 | s86 => DD x17 x35 | s87 => DD x17 x36 | s88 => DD x17 x37 | s89 => DD x17 x38 | s90 => DD x17 x39 | s91 => DD x17 x40 | s92 => DD x17 x41 | s93 => DD x17 x42 | s94 => DD x17 x43 | s95 => DD x17 x44 | s96 => DD x17 x45 | s97 => DD x17 x46 | s98 => DD x17 x47 | s99 => DD x17 x48 | s100 => DD x17 x49 | s101 => DD x17 x50 | s102 => DD x17 x51 | s103 => DD x17 x52 | s104 => DD x17 x53 | s105 => DD x17 x54 | s106 => DD x17 x55 | s107 => DD x17 x56 | s108 => DD x17 x57 | s109 => DD x17 x58 | s110 => DD x17 x59 | s111 => DD x17 x60 | s112 => DD x17 x61 | s113 => DD x17 x62 | s114 => DD x17 x63 | s115 => DD x18 x0 | s116 => DD x18 x1 | s117 => DD x18 x2 | s118 => DD x18 x3 | s119 => DD x18 x4 | s120 => DD x18 x5 | s121 => DD x18 x6 | s122 => DD x18 x7 | s123 => DD x18 x8 | s124 => DD x18 x9 | s125 => DD x18 x10 | s126 => DD x18 x11 end.
Definition m1040 (c : sum2) : dd := match c with s0 => DD x16 x16 | s1 => DD x16 x17 | s2 => DD x16 x18 | s3 => DD x16 x19 | s4 => DD x16 x20 | s5 => DD x16 x21 | s6 => DD x16 x22 | s7 => DD x16 x23 | s8 => DD x16 x24 | s9 => DD x16 x25 | s10 => DD x16 x26 | s11 => DD x16 x27 | s12 => DD x16 x28 | s13 => DD x16 x29 | s14 => DD x16 x30 | s15 => DD x16 x31 | s16 => DD x16 x32 | s17 => DD x16 x33 | s18 => DD x16 x34 | s19 => DD x16 x35 | s20 => DD x16 x36 | s21 => DD x16 x37 | s22 => DD x16 x38 | s23 => DD x16 x39 | s24 => DD x16 x40 | s25 => DD x16 x41 | s26 => DD x16 x42 | s27 => DD x16 x43 | s28 => DD x16 x44 | s29 => DD x16 x45 | s30 => DD x16 x46 | s31 => DD x16 x47 | s32 => DD x16 x48 | s33 => DD x16 x49 | s34 => DD x16 x50 | s35 => DD x16 x51 | s36 => DD x16 x52 | s37 => DD x16 x53 | s38 => DD x16 x54 | s39 => DD x16 x55 | s40 => DD x16 x56 | s41 => DD x16 x57 | s42 => DD x16 x58 | s43 => DD x16 x59 | s44 => DD x16 x60 | s45 => DD x16 x61 | s46 => DD x16 x62 | s47 => DD x16 x63 | s48 => DD x17 x0 | s49 => DD x17 x1 | s50 => DD x17 x2 | s51 => DD x17 x3 | s52 => DD x17 x4 | s53 => DD x17 x5 | s54 => DD x17 x6 | s55 => DD x17 x7 | s56 => DD x17 x8 | s57 => DD x17 x9 | s58 => DD x17 x10 | s59 => DD x17 x11 | s60 => DD x17 x12 | s61 => DD x17 x13 | s62 => DD x17 x14 | s63 => DD x17 x15 | s64 => DD x17 x16 | s65 => DD x17 x17 | s66 => DD x17 x18 | s67 => DD x17 x19 | s68 => DD x17 x20 | s69 => DD x17 x21 | s70 => DD x17 x22 | s71 => DD x17 x23 | s72 => DD x17 x24 | s73 => DD x17 x25 | s74 => DD x17 x26 | s75 => DD x17 x27 | s76 => DD x17 x28 | s77 => DD x17 x29 | s78 => DD x17 x30 | s79 => DD x17 x31 | s80 => DD x17 x32 | s81 => DD x17 x33 | s82 => DD x17 x34 | s83 => DD x17 x35 | s84 => DD x17 x36 | s85 => DD x17 x37 | s86 => DD x17 x38 | s87 => DD x17 x39 | s88 => DD x17 x40 | s89 => DD x17 x41 | s90 => DD x17 x42 | s91 => DD x17 x43 | s92 => DD x17 x44 | s93 => DD x17 x45 | s94 => DD x17 x46 | s95 => DD x17 x47 | s96 => DD x17 x48 | s97 => DD x17 x49 | s98 => DD x17 x50 | s99 => DD x17 x51 | s100 => DD x17 x52 | s101 => DD x17 x53 | s102 => DD x17 x54 | s103 => DD x17 x55 | s104 => DD x17 x56 | s105 => DD x17 x57 | s106 => DD x17 x58 | s107 => DD x17 x59 | s108 => DD x17 x60 | s109 => DD x17 x61 | s110 => DD x17 x62 | s111 => DD x17 x63 | s112 => DD x18 x0 | s113 => DD x18 x1 | s114 => DD x18 x2 | s115 => DD x18 x3 | s116 => DD x18 x4 | s117 => DD x18 x5 | s118 => DD x18 x6 | s119 => DD x18 x7 | s120 => DD x18 x8 | s121 => DD x18 x9 | s122 => DD x18 x10 | s123 => DD x18 x11 | s124 => DD x18 x12 | s125 => DD x18 x13 | s126 => DD x18 x14 end.
Definition m1044 (c : sum2) : dd := match c with s0 => DD x16 x20 | s1 => DD x16 x21 | s2 => DD x16 x22 | s3 => DD x16 x23 | s4 => DD x16 x24 | s5 => DD x16 x25 | s6 => DD x16 x26 | s7 => DD x16 x27 | s8 => DD x16 x28 | s9 => DD x16 x29 | s10 => DD x16 x30 | s11 => DD x16 x31 | s12 => DD x16 x32 | s13 => DD x16 x33 | s14 => DD x16 x34 | s15 => DD x16 x35 | s16 => DD x16 x36 | s17 => DD x16 x37 | s18 => DD x16 x38 | s19 => DD x16 x39 | s20 => DD x16 x40 | s21 => DD x16 x41 | s22 => DD x16 x42 | s23 => DD x16 x43 | s24 => DD x16 x44 | s25 => DD x16 x45 | s26 => DD x16 x46 | s27 => DD x16 x47 | s28 => DD x16 x48 | s29 => DD x16 x49 | s30 => DD x16 x50 | s31 => DD x16 x51 | s32 => DD x16 x52 | s33 => DD x16 x53 | s34 => DD x16 x54 | s35 => DD x16 x55 | s36 => DD x16 x56 | s37 => DD x16 x57 | s38 => DD x16 x58 | s39 => DD x16 x59 | s40 => DD x16 x60 | s41 => DD x16 x61 | s42 => DD x16 x62 | s43 => DD x16 x63 | s44 => DD x17 x0 | s45 => DD x17 x1 | s46 => DD x17 x2 | s47 => DD x17 x3 | s48 => DD x17 x4 | s49 => DD x17 x5 | s50 => DD x17 x6 | s51 => DD x17 x7 | s52 => DD x17 x8 | s53 => DD x17 x9 | s54 => DD x17 x10 | s55 => DD x17 x11 | s56 => DD x17 x12 | s57 => DD x17 x13 | s58 => DD x17 x14 | s59 => DD x17 x15 | s60 => DD x17 x16 | s61 => DD x17 x17 | s62 => DD x17 x18 | s63 => DD x17 x19 | s64 => DD x17 x20 | s65 => DD x17 x21 | s66 => DD x17 x22 | s67 => DD x17 x23 | s68 => DD x17 x24 | s69 => DD x17 x25 | s70 => DD x17 x26 | s71 => DD x17 x27 | s72 => DD x17 x28 | s73 => DD x17 x29 | s74 => DD x17 x30 | s75 => DD x17 x31 | s76 => DD x17 x32 | s77 => DD x17 x33 | s78 => DD x17 x34 | s79 => DD x17 x35 | s80 => DD x17 x36 | s81 => DD x17 x37 | s82 => DD x17 x38 | s83 => DD x17 x39 | s84 => DD x17 x40 | s85 => DD x17 x41 | s86 => DD x17 x42 | s87 => DD x17 x43 | s88 => DD x17 x44 | s89 => DD x17 x45 | s90 => DD x17 x46 | s91 => DD x17 x47 | s92 => DD x17 x48 | s93 => DD x17 x49 | s94 => DD x17 x50 | s95 => DD x17 x51 | s96 => DD x17 x52 | s97 => DD x17 x53 | s98 => DD x17 x54 | s99 => DD x17 x55 | s100 => DD x17 x56 | s101 => DD x17 x57 | s102 => DD x17 x58 | s103 => DD x17 x59 | s104 => DD x17 x60 | s105 => DD x17 x61 | s106 => DD x17 x62 | s107 => DD x17 x63 | s108 => DD x18 x0 | s109 => DD x18 x1 | s110 => DD x18 x2 | s111 => DD x18 x3 | s112 => DD x18 x4 | s113 => DD x18 x5 | s114 => DD x18 x6 | s115 => DD x18 x7 | s116 => DD x18 x8 | s117 => DD x18 x9 | s118 => DD x18 x10 | s119 => DD x18 x11 | s120 => DD x18 x12 | s121 => DD x18 x13 | s122 => DD x18 x14 | s123 => DD x18 x15 | s124 => DD x18 x16 | s125 => DD x18 x17 | s126 => DD x18 x18 end.
Definition m1045 (c : sum2) : dd := match c with s0 => DD x16 x21 | s1 => DD x16 x22 | s2 => DD x16 x23 | s3 => DD x16 x24 | s4 => DD x16 x25 | s5 => DD x16 x26 | s6 => DD x16 x27 | s7 => DD x16 x28 | s8 => DD x16 x29 | s9 => DD x16 x30 | s10 => DD x16 x31 | s11 => DD x16 x32 | s12 => DD x16 x33 | s13 => DD x16 x34 | s14 => DD x16 x35 | s15 => DD x16 x36 | s16 => DD x16 x37 | s17 => DD x16 x38 | s18 => DD x16 x39 | s19 => DD x16 x40 | s20 => DD x16 x41 | s21 => DD x16 x42 | s22 => DD x16 x43 | s23 => DD x16 x44 | s24 => DD x16 x45 | s25 => DD x16 x46 | s26 => DD x16 x47 | s27 => DD x16 x48 | s28 => DD x16 x49 | s29 => DD x16 x50 | s30 => DD x16 x51 | s31 => DD x16 x52 | s32 => DD x16 x53 | s33 => DD x16 x54 | s34 => DD x16 x55 | s35 => DD x16 x56 | s36 => DD x16 x57 | s37 => DD x16 x58 | s38 => DD x16 x59 | s39 => DD x16 x60 | s40 => DD x16 x61 | s41 => DD x16 x62 | s42 => DD x16 x63 | s43 => DD x17 x0 | s44 => DD x17 x1 | s45 => DD x17 x2 | s46 => DD x17 x3 | s47 => DD x17 x4 | s48 => DD x17 x5 | s49 => DD x17 x6 | s50 => DD x17 x7 | s51 => DD x17 x8 | s52 => DD x17 x9 | s53 => DD x17 x10 | s54 => DD x17 x11 | s55 => DD x17 x12 | s56 => DD x17 x13 | s57 => DD x17 x14 | s58 => DD x17 x15 | s59 => DD x17 x16 | s60 => DD x17 x17 | s61 => DD x17 x18 | s62 => DD x17 x19 | s63 => DD x17 x20 | s64 => DD x17 x21 | s65 => DD x17 x22 | s66 => DD x17 x23 | s67 => DD x17 x24 | s68 => DD x17 x25 | s69 => DD x17 x26 | s70 => DD x17 x27 | s71 => DD x17 x28 | s72 => DD x17 x29 | s73 => DD x17 x30 | s74 => DD x17 x31 | s75 => DD x17 x32 | s76 => DD x17 x33 | s77 => DD x17 x34 | s78 => DD x17 x35 | s79 => DD x17 x36 | s80 => DD x17 x37 | s81 => DD x17 x38 | s82 => DD x17 x39 | s83 => DD x17 x40 | s84 => DD x17 x41 | s85 => DD x17 x42 | s86 => DD x17 x43 | s87 => DD x17 x44 | s88 => DD x17 x45 | s89 => DD x17 x46 | s90 => DD x17 x47 | s91 => DD x17 x48 | s92 => DD x17 x49 | s93 => DD x17 x50 | s94 => DD x17 x51 | s95 => DD x17 x52 | s96 => DD x17 x53 | s97 => DD x17 x54 | s98 => DD x17 x55 | s99 => DD x17 x56 | s100 => DD x17 x57 | s101 => DD x17 x58 | s102 => DD x17 x59 | s103 => DD x17 x60 | s104 => DD x17 x61 | s105 => DD x17 x62 | s106 => DD x17 x63 | s107 => DD x18 x0 | s108 => DD x18 x1 | s109 => DD x18 x2 | s110 => DD x18 x3 | s111 => DD x18 x4 | s112 => DD x18 x5 | s113 => DD x18 x6 | s114 => DD x18 x7 | s115 => DD x18 x8 | s116 => DD x18 x9 | s117 => DD x18 x10 | s118 => DD x18 x11 | s119 => DD x18 x12 | s120 => DD x18 x13 | s121 => DD x18 x14 | s122 => DD x18 x15 | s123 => DD x18 x16 | s124 => DD x18 x17 | s125 => DD x18 x18 | s126 => DD x18 x19 end.
Definition m1050 (c : sum2) : dd := match c with s0 => DD x16 x26 | s1 => DD x16 x27 | s2 => DD x16 x28 | s3 => DD x16 x29 | s4 => DD x16 x30 | s5 => DD x16 x31 | s6 => DD x16 x32 | s7 => DD x16 x33 | s8 => DD x16 x34 | s9 => DD x16 x35 | s10 => DD x16 x36 | s11 => DD x16 x37 | s12 => DD x16 x38 | s13 => DD x16 x39 | s14 => DD x16 x40 | s15 => DD x16 x41 | s16 => DD x16 x42 | s17 => DD x16 x43 | s18 => DD x16 x44 | s19 => DD x16 x45 | s20 => DD x16 x46 | s21 => DD x16 x47 | s22 => DD x16 x48 | s23 => DD x16 x49 | s24 => DD x16 x50 | s25 => DD x16 x51 | s26 => DD x16 x52 | s27 => DD x16 x53 | s28 => DD x16 x54 | s29 => DD x16 x55 | s30 => DD x16 x56 | s31 => DD x16 x57 | s32 => DD x16 x58 | s33 => DD x16 x59 | s34 => DD x16 x60 | s35 => DD x16 x61 | s36 => DD x16 x62 | s37 => DD x16 x63 | s38 => DD x17 x0 | s39 => DD x17 x1 | s40 => DD x17 x2 | s41 => DD x17 x3 | s42 => DD x17 x4 | s43 => DD x17 x5 | s44 => DD x17 x6 | s45 => DD x17 x7 | s46 => DD x17 x8 | s47 => DD x17 x9 | s48 => DD x17 x10 | s49 => DD x17 x11 | s50 => DD x17 x12 | s51 => DD x17 x13 | s52 => DD x17 x14 | s53 => DD x17 x15 | s54 => DD x17 x16 | s55 => DD x17 x17 | s56 => DD x17 x18 | s57 => DD x17 x19 | s58 => DD x17 x20 | s59 => DD x17 x21 | s60 => DD x17 x22 | s61 => DD x17 x23 | s62 => DD x17 x24 | s63 => DD x17 x25 | s64 => DD x17 x26 | s65 => DD x17 x27 | s66 => DD x17 x28 | s67 => DD x17 x29 | s68 => DD x17 x30 | s69 => DD x17 x31 | s70 => DD x17 x32 | s71 => DD x17 x33 | s72 => DD x17 x34 | s73 => DD x17 x35 | s74 => DD x17 x36 | s75 => DD x17 x37 | s76 => DD x17 x38 | s77 => DD x17 x39 | s78 => DD x17 x40 | s79 => DD x17 x41 | s80 => DD x17 x42 | s81 => DD x17 x43 | s82 => DD x17 x44 | s83 => DD x17 x45 | s84 => DD x17 x46 | s85 => DD x17 x47 | s86 => DD x17 x48 | s87 => DD x17 x49 | s88 => DD x17 x50 | s89 => DD x17 x51 | s90 => DD x17 x52 | s91 => DD x17 x53 | s92 => DD x17 x54 | s93 => DD x17 x55 | s94 => DD x17 x56 | s95 => DD x17 x57 | s96 => DD x17 x58 | s97 => DD x17 x59 | s98 => DD x17 x60 | s99 => DD x17 x61 | s100 => DD x17 x62 | s101 => DD x17 x63 | s102 => DD x18 x0 | s103 => DD x18 x1 | s104 => DD x18 x2 | s105 => DD x18 x3 | s106 => DD x18 x4 | s107 => DD x18 x5 | s108 => DD x18 x6 | s109 => DD x18 x7 | s110 => DD x18 x8 | s111 => DD x18 x9 | s112 => DD x18 x10 | s113 => DD x18 x11 | s114 => DD x18 x12 | s115 => DD x18 x13 | s116 => DD x18 x14 | s117 => DD x18 x15 | s118 => DD x18 x16 | s119 => DD x18 x17 | s120 => DD x18 x18 | s121 => DD x18 x19 | s122 => DD x18 x20 | s123 => DD x18 x21 | s124 => DD x18 x22 | s125 => DD x18 x23 | s126 => DD x18 x24 end.
Definition m1053 (c : sum2) : dd := match c with s0 => DD x16 x29 | s1 => DD x16 x30 | s2 => DD x16 x31 | s3 => DD x16 x32 | s4 => DD x16 x33 | s5 => DD x16 x34 | s6 => DD x16 x35 | s7 => DD x16 x36 | s8 => DD x16 x37 | s9 => DD x16 x38 | s10 => DD x16 x39 | s11 => DD x16 x40 | s12 => DD x16 x41 | s13 => DD x16 x42 | s14 => DD x16 x43 | s15 => DD x16 x44 | s16 => DD x16 x45 | s17 => DD x16 x46 | s18 => DD x16 x47 | s19 => DD x16 x48 | s20 => DD x16 x49 | s21 => DD x16 x50 | s22 => DD x16 x51 | s23 => DD x16 x52 | s24 => DD x16 x53 | s25 => DD x16 x54 | s26 => DD x16 x55 | s27 => DD x16 x56 | s28 => DD x16 x57 | s29 => DD x16 x58 | s30 => DD x16 x59 | s31 => DD x16 x60 | s32 => DD x16 x61 | s33 => DD x16 x62 | s34 => DD x16 x63 | s35 => DD x17 x0 | s36 => DD x17 x1 | s37 => DD x17 x2 | s38 => DD x17 x3 | s39 => DD x17 x4 | s40 => DD x17 x5 | s41 => DD x17 x6 | s42 => DD x17 x7 | s43 => DD x17 x8 | s44 => DD x17 x9 | s45 => DD x17 x10 | s46 => DD x17 x11 | s47 => DD x17 x12 | s48 => DD x17 x13 | s49 => DD x17 x14 | s50 => DD x17 x15 | s51 => DD x17 x16 | s52 => DD x17 x17 | s53 => DD x17 x18 | s54 => DD x17 x19 | s55 => DD x17 x20 | s56 => DD x17 x21 | s57 => DD x17 x22 | s58 => DD x17 x23 | s59 => DD x17 x24 | s60 => DD x17 x25 | s61 => DD x17 x26 | s62 => DD x17 x27 | s63 => DD x17 x28 | s64 => DD x17 x29 | s65 => DD x17 x30 | s66 => DD x17 x31 | s67 => DD x17 x32 | s68 => DD x17 x33 | s69 => DD x17 x34 | s70 => DD x17 x35 | s71 => DD x17 x36 | s72 => DD x17 x37 | s73 => DD x17 x38 | s74 => DD x17 x39 | s75 => DD x17 x40 | s76 => DD x17 x41 | s77 => DD x17 x42 | s78 => DD x17 x43 | s79 => DD x17 x44 | s80 => DD x17 x45 | s81 => DD x17 x46 | s82 => DD x17 x47 | s83 => DD x17 x48 | s84 => DD x17 x49 | s85 => DD x17 x50 | s86 => DD x17 x51 | s87 => DD x17 x52 | s88 => DD x17 x53 | s89 => DD x17 x54 | s90 => DD x17 x55 | s91 => DD x17 x56 | s92 => DD x17 x57 | s93 => DD x17 x58 | s94 => DD x17 x59 | s95 => DD x17 x60 | s96 => DD x17 x61 | s97 => DD x17 x62 | s98 => DD x17 x63 | s99 => DD x18 x0 | s100 => DD x18 x1 | s101 => DD x18 x2 | s102 => DD x18 x3 | s103 => DD x18 x4 | s104 => DD x18 x5 | s105 => DD x18 x6 | s106 => DD x18 x7 | s107 => DD x18 x8 | s108 => DD x18 x9 | s109 => DD x18 x10 | s110 => DD x18 x11 | s111 => DD x18 x12 | s112 => DD x18 x13 | s113 => DD x18 x14 | s114 => DD x18 x15 | s115 => DD x18 x16 | s116 => DD x18 x17 | s117 => DD x18 x18 | s118 => DD x18 x19 | s119 => DD x18 x20 | s120 => DD x18 x21 | s121 => DD x18 x22 | s122 => DD x18 x23 | s123 => DD x18 x24 | s124 => DD x18 x25 | s125 => DD x18 x26 | s126 => DD x18 x27 end.
Definition m1054 (c : sum2) : dd := match c with s0 => DD x16 x30 | s1 => DD x16 x31 | s2 => DD x16 x32 | s3 => DD x16 x33 | s4 => DD x16 x34 | s5 => DD x16 x35 | s6 => DD x16 x36 | s7 => DD x16 x37 | s8 => DD x16 x38 | s9 => DD x16 x39 | s10 => DD x16 x40 | s11 => DD x16 x41 | s12 => DD x16 x42 | s13 => DD x16 x43 | s14 => DD x16 x44 | s15 => DD x16 x45 | s16 => DD x16 x46 | s17 => DD x16 x47 | s18 => DD x16 x48 | s19 => DD x16 x49 | s20 => DD x16 x50 | s21 => DD x16 x51 | s22 => DD x16 x52 | s23 => DD x16 x53 | s24 => DD x16 x54 | s25 => DD x16 x55 | s26 => DD x16 x56 | s27 => DD x16 x57 | s28 => DD x16 x58 | s29 => DD x16 x59 | s30 => DD x16 x60 | s31 => DD x16 x61 | s32 => DD x16 x62 | s33 => DD x16 x63 | s34 => DD x17 x0 | s35 => DD x17 x1 | s36 => DD x17 x2 | s37 => DD x17 x3 | s38 => DD x17 x4 | s39 => DD x17 x5 | s40 => DD x17 x6 | s41 => DD x17 x7 | s42 => DD x17 x8 | s43 => DD x17 x9 | s44 => DD x17 x10 | s45 => DD x17 x11 | s46 => DD x17 x12 | s47 => DD x17 x13 | s48 => DD x17 x14 | s49 => DD x17 x15 | s50 => DD x17 x16 | s51 => DD x17 x17 | s52 => DD x17 x18 | s53 => DD x17 x19 | s54 => DD x17 x20 | s55 => DD x17 x21 | s56 => DD x17 x22 | s57 => DD x17 x23 | s58 => DD x17 x24 | s59 => DD x17 x25 | s60 => DD x17 x26 | s61 => DD x17 x27 | s62 => DD x17 x28 | s63 => DD x17 x29 | s64 => DD x17 x30 | s65 => DD x17 x31 | s66 => DD x17 x32 | s67 => DD x17 x33 | s68 => DD x17 x34 | s69 => DD x17 x35 | s70 => DD x17 x36 | s71 => DD x17 x37 | s72 => DD x17 x38 | s73 => DD x17 x39 | s74 => DD x17 x40 | s75 => DD x17 x41 | s76 => DD x17 x42 | s77 => DD x17 x43 | s78 => DD x17 x44 | s79 => DD x17 x45 | s80 => DD x17 x46 | s81 => DD x17 x47 | s82 => DD x17 x48 | s83 => DD x17 x49 | s84 => DD x17 x50 | s85 => DD x17 x51 | s86 => DD x17 x52 | s87 => DD x17 x53 | s88 => DD x17 x54 | s89 => DD x17 x55 | s90 => DD x17 x56 | s91 => DD x17 x57 | s92 => DD x17 x58 | s93 => DD x17 x59 | s94 => DD x17 x60 | s95 => DD x17 x61 | s96 => DD x17 x62 | s97 => DD x17 x63 | s98 => DD x18 x0 | s99 => DD x18 x1 | s100 => DD x18 x2 | s101 => DD x18 x3 | s102 => DD x18 x4 | s103 => DD x18 x5 | s104 => DD x18 x6 | s105 => DD x18 x7 | s106 => DD x18 x8 | s107 => DD x18 x9 | s108 => DD x18 x10 | s109 => DD x18 x11 | s110 => DD x18 x12 | s111 => DD x18 x13 | s112 => DD x18 x14 | s113 => DD x18 x15 | s114 => DD x18 x16 | s115 => DD x18 x17 | s116 => DD x18 x18 | s117 => DD x18 x19 | s118 => DD x18 x20 | s119 => DD x18 x21 | s120 => DD x18 x22 | s121 => DD x18 x23 | s122 => DD x18 x24 | s123 => DD x18 x25 | s124 => DD x18 x26 | s125 => DD x18 x27 | s126 => DD x18 x28 end.
Definition m1056 (c : sum2) : dd := match c with s0 => DD x16 x32 | s1 => DD x16 x33 | s2 => DD x16 x34 | s3 => DD x16 x35 | s4 => DD x16 x36 | s5 => DD x16 x37 | s6 => DD x16 x38 | s7 => DD x16 x39 | s8 => DD x16 x40 | s9 => DD x16 x41 | s10 => DD x16 x42 | s11 => DD x16 x43 | s12 => DD x16 x44 | s13 => DD x16 x45 | s14 => DD x16 x46 | s15 => DD x16 x47 | s16 => DD x16 x48 | s17 => DD x16 x49 | s18 => DD x16 x50 | s19 => DD x16 x51 | s20 => DD x16 x52 | s21 => DD x16 x53 | s22 => DD x16 x54 | s23 => DD x16 x55 | s24 => DD x16 x56 | s25 => DD x16 x57 | s26 => DD x16 x58 | s27 => DD x16 x59 | s28 => DD x16 x60 | s29 => DD x16 x61 | s30 => DD x16 x62 | s31 => DD x16 x63 | s32 => DD x17 x0 | s33 => DD x17 x1 | s34 => DD x17 x2 | s35 => DD x17 x3 | s36 => DD x17 x4 | s37 => DD x17 x5 | s38 => DD x17 x6 | s39 => DD x17 x7 | s40 => DD x17 x8 | s41 => DD x17 x9 | s42 => DD x17 x10 | s43 => DD x17 x11 | s44 => DD x17 x12 | s45 => DD x17 x13 | s46 => DD x17 x14 | s47 => DD x17 x15 | s48 => DD x17 x16 | s49 => DD x17 x17 | s50 => DD x17 x18 | s51 => DD x17 x19 | s52 => DD x17 x20 | s53 => DD x17 x21 | s54 => DD x17 x22 | s55 => DD x17 x23 | s56 => DD x17 x24 | s57 => DD x17 x25 | s58 => DD x17 x26 | s59 => DD x17 x27 | s60 => DD x17 x28 | s61 => DD x17 x29 | s62 => DD x17 x30 | s63 => DD x17 x31 | s64 => DD x17 x32 | s65 => DD x17 x33 | s66 => DD x17 x34 | s67 => DD x17 x35 | s68 => DD x17 x36 | s69 => DD x17 x37 | s70 => DD x17 x38 | s71 => DD x17 x39 | s72 => DD x17 x40 | s73 => DD x17 x41 | s74 => DD x17 x42 | s75 => DD x17 x43 | s76 => DD x17 x44 | s77 => DD x17 x45 | s78 => DD x17 x46 | s79 => DD x17 x47 | s80 => DD x17 x48 | s81 => DD x17 x49 | s82 => DD x17 x50 | s83 => DD x17 x51 | s84 => DD x17 x52 | s85 => DD x17 x53 | s86 => DD x17 x54 | s87 => DD x17 x55 | s88 => DD x17 x56 | s89 => DD x17 x57 | s90 => DD x17 x58 | s91 => DD x17 x59 | s92 => DD x17 x60 | s93 => DD x17 x61 | s94 => DD x17 x62 | s95 => DD x17 x63 | s96 => DD x18 x0 | s97 => DD x18 x1 | s98 => DD x18 x2 | s99 => DD x18 x3 | s100 => DD x18 x4 | s101 => DD x18 x5 | s102 => DD x18 x6 | s103 => DD x18 x7 | s104 => DD x18 x8 | s105 => DD x18 x9 | s106 => DD x18 x10 | s107 => DD x18 x11 | s108 => DD x18 x12 | s109 => DD x18 x13 | s110 => DD x18 x14 | s111 => DD x18 x15 | s112 => DD x18 x16 | s113 => DD x18 x17 | s114 => DD x18 x18 | s115 => DD x18 x19 | s116 => DD x18 x20 | s117 => DD x18 x21 | s118 => DD x18 x22 | s119 => DD x18 x23 | s120 => DD x18 x24 | s121 => DD x18 x25 | s122 => DD x18 x26 | s123 => DD x18 x27 | s124 => DD x18 x28 | s125 => DD x18 x29 | s126 => DD x18 x30 end.
Definition m1058 (c : sum2) : dd := match c with s0 => DD x16 x34 | s1 => DD x16 x35 | s2 => DD x16 x36 | s3 => DD x16 x37 | s4 => DD x16 x38 | s5 => DD x16 x39 | s6 => DD x16 x40 | s7 => DD x16 x41 | s8 => DD x16 x42 | s9 => DD x16 x43 | s10 => DD x16 x44 | s11 => DD x16 x45 | s12 => DD x16 x46 | s13 => DD x16 x47 | s14 => DD x16 x48 | s15 => DD x16 x49 | s16 => DD x16 x50 | s17 => DD x16 x51 | s18 => DD x16 x52 | s19 => DD x16 x53 | s20 => DD x16 x54 | s21 => DD x16 x55 | s22 => DD x16 x56 | s23 => DD x16 x57 | s24 => DD x16 x58 | s25 => DD x16 x59 | s26 => DD x16 x60 | s27 => DD x16 x61 | s28 => DD x16 x62 | s29 => DD x16 x63 | s30 => DD x17 x0 | s31 => DD x17 x1 | s32 => DD x17 x2 | s33 => DD x17 x3 | s34 => DD x17 x4 | s35 => DD x17 x5 | s36 => DD x17 x6 | s37 => DD x17 x7 | s38 => DD x17 x8 | s39 => DD x17 x9 | s40 => DD x17 x10 | s41 => DD x17 x11 | s42 => DD x17 x12 | s43 => DD x17 x13 | s44 => DD x17 x14 | s45 => DD x17 x15 | s46 => DD x17 x16 | s47 => DD x17 x17 | s48 => DD x17 x18 | s49 => DD x17 x19 | s50 => DD x17 x20 | s51 => DD x17 x21 | s52 => DD x17 x22 | s53 => DD x17 x23 | s54 => DD x17 x24 | s55 => DD x17 x25 | s56 => DD x17 x26 | s57 => DD x17 x27 | s58 => DD x17 x28 | s59 => DD x17 x29 | s60 => DD x17 x30 | s61 => DD x17 x31 | s62 => DD x17 x32 | s63 => DD x17 x33 | s64 => DD x17 x34 | s65 => DD x17 x35 | s66 => DD x17 x36 | s67 => DD x17 x37 | s68 => DD x17 x38 | s69 => DD x17 x39 | s70 => DD x17 x40 | s71 => DD x17 x41 | s72 => DD x17 x42 | s73 => DD x17 x43 | s74 => DD x17 x44 | s75 => DD x17 x45 | s76 => DD x17 x46 | s77 => DD x17 x47 | s78 => DD x17 x48 | s79 => DD x17 x49 | s80 => DD x17 x50 | s81 => DD x17 x51 | s82 => DD x17 x52 | s83 => DD x17 x53 | s84 => DD x17 x54 | s85 => DD x17 x55 | s86 => DD x17 x56 | s87 => DD x17 x57 | s88 => DD x17 x58 | s89 => DD x17 x59 | s90 => DD x17 x60 | s91 => DD x17 x61 | s92 => DD x17 x62 | s93 => DD x17 x63 | s94 => DD x18 x0 | s95 => DD x18 x1 | s96 => DD x18 x2 | s97 => DD x18 x3 | s98 => DD x18 x4 | s99 => DD x18 x5 | s100 => DD x18 x6 | s101 => DD x18 x7 | s102 => DD x18 x8 | s103 => DD x18 x9 | s104 => DD x18 x10 | s105 => DD x18 x11 | s106 => DD x18 x12 | s107 => DD x18 x13 | s108 => DD x18 x14 | s109 => DD x18 x15 | s110 => DD x18 x16 | s111 => DD x18 x17 | s112 => DD x18 x18 | s113 => DD x18 x19 | s114 => DD x18 x20 | s115 => DD x18 x21 | s116 => DD x18 x22 | s117 => DD x18 x23 | s118 => DD x18 x24 | s119 => DD x18 x25 | s120 => DD x18 x26 | s121 => DD x18 x27 | s122 => DD x18 x28 | s123 => DD x18 x29 | s124 => DD x18 x30 | s125 => DD x18 x31 | s126 => DD x18 x32 end.
Definition m1060 (c : sum2) : dd := match c with s0 => DD x16 x36 | s1 => DD x16 x37 | s2 => DD x16 x38 | s3 => DD x16 x39 | s4 => DD x16 x40 | s5 => DD x16 x41 | s6 => DD x16 x42 | s7 => DD x16 x43 | s8 => DD x16 x44 | s9 => DD x16 x45 | s10 => DD x16 x46 | s11 => DD x16 x47 | s12 => DD x16 x48 | s13 => DD x16 x49 | s14 => DD x16 x50 | s15 => DD x16 x51 | s16 => DD x16 x52 | s17 => DD x16 x53 | s18 => DD x16 x54 | s19 => DD x16 x55 | s20 => DD x16 x56 | s21 => DD x16 x57 | s22 => DD x16 x58 | s23 => DD x16 x59 | s24 => DD x16 x60 | s25 => DD x16 x61 | s26 => DD x16 x62 | s27 => DD x16 x63 | s28 => DD x17 x0 | s29 => DD x17 x1 | s30 => DD x17 x2 | s31 => DD x17 x3 | s32 => DD x17 x4 | s33 => DD x17 x5 | s34 => DD x17 x6 | s35 => DD x17 x7 | s36 => DD x17 x8 | s37 => DD x17 x9 | s38 => DD x17 x10 | s39 => DD x17 x11 | s40 => DD x17 x12 | s41 => DD x17 x13 | s42 => DD x17 x14 | s43 => DD x17 x15 | s44 => DD x17 x16 | s45 => DD x17 x17 | s46 => DD x17 x18 | s47 => DD x17 x19 | s48 => DD x17 x20 | s49 => DD x17 x21 | s50 => DD x17 x22 | s51 => DD x17 x23 | s52 => DD x17 x24 | s53 => DD x17 x25 | s54 => DD x17 x26 | s55 => DD x17 x27 | s56 => DD x17 x28 | s57 => DD x17 x29 | s58 => DD x17 x30 | s59 => DD x17 x31 | s60 => DD x17 x32 | s61 => DD x17 x33 | s62 => DD x17 x34 | s63 => DD x17 x35 | s64 => DD x17 x36 | s65 => DD x17 x37 | s66 => DD x17 x38 | s67 => DD x17 x39 | s68 => DD x17 x40 | s69 => DD x17 x41 | s70 => DD x17 x42 | s71 => DD x17 x43 | s72 => DD x17 x44 | s73 => DD x17 x45 | s74 => DD x17 x46 | s75 => DD x17 x47 | s76 => DD x17 x48 | s77 => DD x17 x49 | s78 => DD x17 x50 | s79 => DD x17 x51 | s80 => DD x17 x52 | s81 => DD x17 x53 | s82 => DD x17 x54 | s83 => DD x17 x55 | s84 => DD x17 x56 | s85 => DD x17 x57 | s86 => DD x17 x58 | s87 => DD x17 x59 | s88 => DD x17 x60 | s89 => DD x17 x61 | s90 => DD x17 x62 | s91 => DD x17 x63 | s92 => DD x18 x0 | s93 => DD x18 x1 | s94 => DD x18 x2 | s95 => DD x18 x3 | s96 => DD x18 x4 | s97 => DD x18 x5 | s98 => DD x18 x6 | s99 => DD x18 x7 | s100 => DD x18 x8 | s101 => DD x18 x9 | s102 => DD x18 x10 | s103 => DD x18 x11 | s104 => DD x18 x12 | s105 => DD x18 x13 | s106 => DD x18 x14 | s107 => DD x18 x15 | s108 => DD x18 x16 | s109 => DD x18 x17 | s110 => DD x18 x18 | s111 => DD x18 x19 | s112 => DD x18 x20 | s113 => DD x18 x21 | s114 => DD x18 x22 | s115 => DD x18 x23 | s116 => DD x18 x24 | s117 => DD x18 x25 | s118 => DD x18 x26 | s119 => DD x18 x27 | s120 => DD x18 x28 | s121 => DD x18 x29 | s122 => DD x18 x30 | s123 => DD x18 x31 | s124 => DD x18 x32 | s125 => DD x18 x33 | s126 => DD x18 x34 end.
Definition m1062 (c : sum2) : dd := match c with s0 => DD x16 x38 | s1 => DD x16 x39 | s2 => DD x16 x40 | s3 => DD x16 x41 | s4 => DD x16 x42 | s5 => DD x16 x43 | s6 => DD x16 x44 | s7 => DD x16 x45 | s8 => DD x16 x46 | s9 => DD x16 x47 | s10 => DD x16 x48 | s11 => DD x16 x49 | s12 => DD x16 x50 | s13 => DD x16 x51 | s14 => DD x16 x52 | s15 => DD x16 x53 | s16 => DD x16 x54 | s17 => DD x16 x55 | s18 => DD x16 x56 | s19 => DD x16 x57 | s20 => DD x16 x58 | s21 => DD x16 x59 | s22 => DD x16 x60 | s23 => DD x16 x61 | s24 => DD x16 x62 | s25 => DD x16 x63 | s26 => DD x17 x0 | s27 => DD x17 x1 | s28 => DD x17 x2 | s29 => DD x17 x3 | s30 => DD x17 x4 | s31 => DD x17 x5 | s32 => DD x17 x6 | s33 => DD x17 x7 | s34 => DD x17 x8 | s35 => DD x17 x9 | s36 => DD x17 x10 | s37 => DD x17 x11 | s38 => DD x17 x12 | s39 => DD x17 x13 | s40 => DD x17 x14 | s41 => DD x17 x15 | s42 => DD x17 x16 | s43 => DD x17 x17 | s44 => DD x17 x18 | s45 => DD x17 x19 | s46 => DD x17 x20 | s47 => DD x17 x21 | s48 => DD x17 x22 | s49 => DD x17 x23 | s50 => DD x17 x24 | s51 => DD x17 x25 | s52 => DD x17 x26 | s53 => DD x17 x27 | s54 => DD x17 x28 | s55 => DD x17 x29 | s56 => DD x17 x30 | s57 => DD x17 x31 | s58 => DD x17 x32 | s59 => DD x17 x33 | s60 => DD x17 x34 | s61 => DD x17 x35 | s62 => DD x17 x36 | s63 => DD x17 x37 | s64 => DD x17 x38 | s65 => DD x17 x39 | s66 => DD x17 x40 | s67 => DD x17 x41 | s68 => DD x17 x42 | s69 => DD x17 x43 | s70 => DD x17 x44 | s71 => DD x17 x45 | s72 => DD x17 x46 | s73 => DD x17 x47 | s74 => DD x17 x48 | s75 => DD x17 x49 | s76 => DD x17 x50 | s77 => DD x17 x51 | s78 => DD x17 x52 | s79 => DD x17 x53 | s80 => DD x17 x54 | s81 => DD x17 x55 | s82 => DD x17 x56 | s83 => DD x17 x57 | s84 => DD x17 x58 | s85 => DD x17 x59 | s86 => DD x17 x60 | s87 => DD x17 x61 | s88 => DD x17 x62 | s89 => DD x17 x63 | s90 => DD x18 x0 | s91 => DD x18 x1 | s92 => DD x18 x2 | s93 => DD x18 x3 | s94 => DD x18 x4 | s95 => DD x18 x5 | s96 => DD x18 x6 | s97 => DD x18 x7 | s98 => DD x18 x8 | s99 => DD x18 x9 | s100 => DD x18 x10 | s101 => DD x18 x11 | s102 => DD x18 x12 | s103 => DD x18 x13 | s104 => DD x18 x14 | s105 => DD x18 x15 | s106 => DD x18 x16 | s107 => DD x18 x17 | s108 => DD x18 x18 | s109 => DD x18 x19 | s110 => DD x18 x20 | s111 => DD x18 x21 | s112 => DD x18 x22 | s113 => DD x18 x23 | s114 => DD x18 x24 | s115 => DD x18 x25 | s116 => DD x18 x26 | s117 => DD x18 x27 | s118 => DD x18 x28 | s119 => DD x18 x29 | s120 => DD x18 x30 | s121 => DD x18 x31 | s122 => DD x18 x32 | s123 => DD x18 x33 | s124 => DD x18 x34 | s125 => DD x18 x35 | s126 => DD x18 x36 end.
Definition m1064 (c : sum2) : dd := match c with s0 => DD x16 x40 | s1 => DD x16 x41 | s2 => DD x16 x42 | s3 => DD x16 x43 | s4 => DD x16 x44 | s5 => DD x16 x45 | s6 => DD x16 x46 | s7 => DD x16 x47 | s8 => DD x16 x48 | s9 => DD x16 x49 | s10 => DD x16 x50 | s11 => DD x16 x51 | s12 => DD x16 x52 | s13 => DD x16 x53 | s14 => DD x16 x54 | s15 => DD x16 x55 | s16 => DD x16 x56 | s17 => DD x16 x57 | s18 => DD x16 x58 | s19 => DD x16 x59 | s20 => DD x16 x60 | s21 => DD x16 x61 | s22 => DD x16 x62 | s23 => DD x16 x63 | s24 => DD x17 x0 | s25 => DD x17 x1 | s26 => DD x17 x2 | s27 => DD x17 x3 | s28 => DD x17 x4 | s29 => DD x17 x5 | s30 => DD x17 x6 | s31 => DD x17 x7 | s32 => DD x17 x8 | s33 => DD x17 x9 | s34 => DD x17 x10 | s35 => DD x17 x11 | s36 => DD x17 x12 | s37 => DD x17 x13 | s38 => DD x17 x14 | s39 => DD x17 x15 | s40 => DD x17 x16 | s41 => DD x17 x17 | s42 => DD x17 x18 | s43 => DD x17 x19 | s44 => DD x17 x20 | s45 => DD x17 x21 | s46 => DD x17 x22 | s47 => DD x17 x23 | s48 => DD x17 x24 | s49 => DD x17 x25 | s50 => DD x17 x26 | s51 => DD x17 x27 | s52 => DD x17 x28 | s53 => DD x17 x29 | s54 => DD x17 x30 | s55 => DD x17 x31 | s56 => DD x17 x32 | s57 => DD x17 x33 | s58 => DD x17 x34 | s59 => DD x17 x35 | s60 => DD x17 x36 | s61 => DD x17 x37 | s62 => DD x17 x38 | s63 => DD x17 x39 | s64 => DD x17 x40 | s65 => DD x17 x41 | s66 => DD x17 x42 | s67 => DD x17 x43 | s68 => DD x17 x44 | s69 => DD x17 x45 | s70 => DD x17 x46 | s71 => DD x17 x47 | s72 => DD x17 x48 | s73 => DD x17 x49 | s74 => DD x17 x50 | s75 => DD x17 x51 | s76 => DD x17 x52 | s77 => DD x17 x53 | s78 => DD x17 x54 | s79 => DD x17 x55 | s80 => DD x17 x56 | s81 => DD x17 x57 | s82 => DD x17 x58 | s83 => DD x17 x59 | s84 => DD x17 x60 | s85 => DD x17 x61 | s86 => DD x17 x62 | s87 => DD x17 x63 | s88 => DD x18 x0 | s89 => DD x18 x1 | s90 => DD x18 x2 | s91 => DD x18 x3 | s92 => DD x18 x4 | s93 => DD x18 x5 | s94 => DD x18 x6 | s95 => DD x18 x7 | s96 => DD x18 x8 | s97 => DD x18 x9 | s98 => DD x18 x10 | s99 => DD x18 x11 | s100 => DD x18 x12 | s101 => DD x18 x13 | s102 => DD x18 x14 | s103 => DD x18 x15 | s104 => DD x18 x16 | s105 => DD x18 x17 | s106 => DD x18 x18 | s107 => DD x18 x19 | s108 => DD x18 x20 | s109 => DD x18 x21 | s110 => DD x18 x22 | s111 => DD x18 x23 | s112 => DD x18 x24 | s113 => DD x18 x25 | s114 => DD x18 x26 | s115 => DD x18 x27 | s116 => DD x18 x28 | s117 => DD x18 x29 | s118 => DD x18 x30 | s119 => DD x18 x31 | s120 => DD x18 x32 | s121 => DD x18 x33 | s122 => DD x18 x34 | s123 => DD x18 x35 | s124 => DD x18 x36 | s125 => DD x18 x37 | s126 => DD x18 x38 end.
Definition m1066 (c : sum2) : dd := match c with s0 => DD x16 x42 | s1 => DD x16 x43 | s2 => DD x16 x44 | s3 => DD x16 x45 | s4 => DD x16 x46 | s5 => DD x16 x47 | s6 => DD x16 x48 | s7 => DD x16 x49 | s8 => DD x16 x50 | s9 => DD x16 x51 | s10 => DD x16 x52 | s11 => DD x16 x53 | s12 => DD x16 x54 | s13 => DD x16 x55 | s14 => DD x16 x56 | s15 => DD x16 x57 | s16 => DD x16 x58 | s17 => DD x16 x59 | s18 => DD x16 x60 | s19 => DD x16 x61 | s20 => DD x16 x62 | s21 => DD x16 x63 | s22 => DD x17 x0 | s23 => DD x17 x1 | s24 => DD x17 x2 | s25 => DD x17 x3 | s26 => DD x17 x4 | s27 => DD x17 x5 | s28 => DD x17 x6 | s29 => DD x17 x7 | s30 => DD x17 x8 | s31 => DD x17 x9 | s32 => DD x17 x10 | s33 => DD x17 x11 | s34 => DD x17 x12 | s35 => DD x17 x13 | s36 => DD x17 x14 | s37 => DD x17 x15 | s38 => DD x17 x16 | s39 => DD x17 x17 | s40 => DD x17 x18 | s41 => DD x17 x19 | s42 => DD x17 x20 | s43 => DD x17 x21 | s44 => DD x17 x22 | s45 => DD x17 x23 | s46 => DD x17 x24 | s47 => DD x17 x25 | s48 => DD x17 x26 | s49 => DD x17 x27 | s50 => DD x17 x28 | s51 => DD x17 x29 | s52 => DD x17 x30 | s53 => DD x17 x31 | s54 => DD x17 x32 | s55 => DD x17 x33 | s56 => DD x17 x34 | s57 => DD x17 x35 | s58 => DD x17 x36 | s59 => DD x17 x37 | s60 => DD x17 x38 | s61 => DD x17 x39 | s62 => DD x17 x40 | s63 => DD x17 x41 | s64 => DD x17 x42 | s65 => DD x17 x43 | s66 => DD x17 x44 | s67 => DD x17 x45 | s68 => DD x17 x46 | s69 => DD x17 x47 | s70 => DD x17 x48 | s71 => DD x17 x49 | s72 => DD x17 x50 | s73 => DD x17 x51 | s74 => DD x17 x52 | s75 => DD x17 x53 | s76 => DD x17 x54 | s77 => DD x17 x55 | s78 => DD x17 x56 | s79 => DD x17 x57 | s80 => DD x17 x58 | s81 => DD x17 x59 | s82 => DD x17 x60 | s83 => DD x17 x61 | s84 => DD x17 x62 | s85 => DD x17 x63 | s86 => DD x18 x0 | s87 => DD x18 x1 | s88 => DD x18 x2 | s89 => DD x18 x3 | s90 => DD x18 x4 | s91 => DD x18 x5 | s92 => DD x18 x6 | s93 => DD x18 x7 | s94 => DD x18 x8 | s95 => DD x18 x9 | s96 => DD x18 x10 | s97 => DD x18 x11 | s98 => DD x18 x12 | s99 => DD x18 x13 | s100 => DD x18 x14 | s101 => DD x18 x15 | s102 => DD x18 x16 | s103 => DD x18 x17 | s104 => DD x18 x18 | s105 => DD x18 x19 | s106 => DD x18 x20 | s107 => DD x18 x21 | s108 => DD x18 x22 | s109 => DD x18 x23 | s110 => DD x18 x24 | s111 => DD x18 x25 | s112 => DD x18 x26 | s113 => DD x18 x27 | s114 => DD x18 x28 | s115 => DD x18 x29 | s116 => DD x18 x30 | s117 => DD x18 x31 | s118 => DD x18 x32 | s119 => DD x18 x33 | s120 => DD x18 x34 | s121 => DD x18 x35 | s122 => DD x18 x36 | s123 => DD x18 x37 | s124 => DD x18 x38 | s125 => DD x18 x39 | s126 => DD x18 x40 end.
Definition m1071 (c : sum2) : dd := match c with s0 => DD x16 x47 | s1 => DD x16 x48 | s2 => DD x16 x49 | s3 => DD x16 x50 | s4 => DD x16 x51 | s5 => DD x16 x52 | s6 => DD x16 x53 | s7 => DD x16 x54 | s8 => DD x16 x55 | s9 => DD x16 x56 | s10 => DD x16 x57 | s11 => DD x16 x58 | s12 => DD x16 x59 | s13 => DD x16 x60 | s14 => DD x16 x61 | s15 => DD x16 x62 | s16 => DD x16 x63 | s17 => DD x17 x0 | s18 => DD x17 x1 | s19 => DD x17 x2 | s20 => DD x17 x3 | s21 => DD x17 x4 | s22 => DD x17 x5 | s23 => DD x17 x6 | s24 => DD x17 x7 | s25 => DD x17 x8 | s26 => DD x17 x9 | s27 => DD x17 x10 | s28 => DD x17 x11 | s29 => DD x17 x12 | s30 => DD x17 x13 | s31 => DD x17 x14 | s32 => DD x17 x15 | s33 => DD x17 x16 | s34 => DD x17 x17 | s35 => DD x17 x18 | s36 => DD x17 x19 | s37 => DD x17 x20 | s38 => DD x17 x21 | s39 => DD x17 x22 | s40 => DD x17 x23 | s41 => DD x17 x24 | s42 => DD x17 x25 | s43 => DD x17 x26 | s44 => DD x17 x27 | s45 => DD x17 x28 | s46 => DD x17 x29 | s47 => DD x17 x30 | s48 => DD x17 x31 | s49 => DD x17 x32 | s50 => DD x17 x33 | s51 => DD x17 x34 | s52 => DD x17 x35 | s53 => DD x17 x36 | s54 => DD x17 x37 | s55 => DD x17 x38 | s56 => DD x17 x39 | s57 => DD x17 x40 | s58 => DD x17 x41 | s59 => DD x17 x42 | s60 => DD x17 x43 | s61 => DD x17 x44 | s62 => DD x17 x45 | s63 => DD x17 x46 | s64 => DD x17 x47 | s65 => DD x17 x48 | s66 => DD x17 x49 | s67 => DD x17 x50 | s68 => DD x17 x51 | s69 => DD x17 x52 | s70 => DD x17 x53 | s71 => DD x17 x54 | s72 => DD x17 x55 | s73 => DD x17 x56 | s74 => DD x17 x57 | s75 => DD x17 x58 | s76 => DD x17 x59 | s77 => DD x17 x60 | s78 => DD x17 x61 | s79 => DD x17 x62 | s80 => DD x17 x63 | s81 => DD x18 x0 | s82 => DD x18 x1 | s83 => DD x18 x2 | s84 => DD x18 x3 | s85 => DD x18 x4 | s86 => DD x18 x5 | s87 => DD x18 x6 | s88 => DD x18 x7 | s89 => DD x18 x8 | s90 => DD x18 x9 | s91 => DD x18 x10 | s92 => DD x18 x11 | s93 => DD x18 x12 | s94 => DD x18 x13 | s95 => DD x18 x14 | s96 => DD x18 x15 | s97 => DD x18 x16 | s98 => DD x18 x17 | s99 => DD x18 x18 | s100 => DD x18 x19 | s101 => DD x18 x20 | s102 => DD x18 x21 | s103 => DD x18 x22 | s104 => DD x18 x23 | s105 => DD x18 x24 | s106 => DD x18 x25 | s107 => DD x18 x26 | s108 => DD x18 x27 | s109 => DD x18 x28 | s110 => DD x18 x29 | s111 => DD x18 x30 | s112 => DD x18 x31 | s113 => DD x18 x32 | s114 => DD x18 x33 | s115 => DD x18 x34 | s116 => DD x18 x35 | s117 => DD x18 x36 | s118 => DD x18 x37 | s119 => DD x18 x38 | s120 => DD x18 x39 | s121 => DD x18 x40 | s122 => DD x18 x41 | s123 => DD x18 x42 | s124 => DD x18 x43 | s125 => DD x18 x44 | s126 => DD x18 x45 end.
Definition m1073 (c : sum2) : dd := match c with s0 => DD x16 x49 | s1 => DD x16 x50 | s2 => DD x16 x51 | s3 => DD x16 x52 | s4 => DD x16 x53 | s5 => DD x16 x54 | s6 => DD x16 x55 | s7 => DD x16 x56 | s8 => DD x16 x57 | s9 => DD x16 x58 | s10 => DD x16 x59 | s11 => DD x16 x60 | s12 => DD x16 x61 | s13 => DD x16 x62 | s14 => DD x16 x63 | s15 => DD x17 x0 | s16 => DD x17 x1 | s17 => DD x17 x2 | s18 => DD x17 x3 | s19 => DD x17 x4 | s20 => DD x17 x5 | s21 => DD x17 x6 | s22 => DD x17 x7 | s23 => DD x17 x8 | s24 => DD x17 x9 | s25 => DD x17 x10 | s26 => DD x17 x11 | s27 => DD x17 x12 | s28 => DD x17 x13 | s29 => DD x17 x14 | s30 => DD x17 x15 | s31 => DD x17 x16 | s32 => DD x17 x17 | s33 => DD x17 x18 | s34 => DD x17 x19 | s35 => DD x17 x20 | s36 => DD x17 x21 | s37 => DD x17 x22 | s38 => DD x17 x23 | s39 => DD x17 x24 | s40 => DD x17 x25 | s41 => DD x17 x26 | s42 => DD x17 x27 | s43 => DD x17 x28 | s44 => DD x17 x29 | s45 => DD x17 x30 | s46 => DD x17 x31 | s47 => DD x17 x32 | s48 => DD x17 x33 | s49 => DD x17 x34 | s50 => DD x17 x35 | s51 => DD x17 x36 | s52 => DD x17 x37 | s53 => DD x17 x38 | s54 => DD x17 x39 | s55 => DD x17 x40 | s56 => DD x17 x41 | s57 => DD x17 x42 | s58 => DD x17 x43 | s59 => DD x17 x44 | s60 => DD x17 x45 | s61 => DD x17 x46 | s62 => DD x17 x47 | s63 => DD x17 x48 | s64 => DD x17 x49 | s65 => DD x17 x50 | s66 => DD x17 x51 | s67 => DD x17 x52 | s68 => DD x17 x53 | s69 => DD x17 x54 | s70 => DD x17 x55 | s71 => DD x17 x56 | s72 => DD x17 x57 | s73 => DD x17 x58 | s74 => DD x17 x59 | s75 => DD x17 x60 | s76 => DD x17 x61 | s77 => DD x17 x62 | s78 => DD x17 x63 | s79 => DD x18 x0 | s80 => DD x18 x1 | s81 => DD x18 x2 | s82 => DD x18 x3 | s83 => DD x18 x4 | s84 => DD x18 x5 | s85 => DD x18 x6 | s86 => DD x18 x7 | s87 => DD x18 x8 | s88 => DD x18 x9 | s89 => DD x18 x10 | s90 => DD x18 x11 | s91 => DD x18 x12 | s92 => DD x18 x13 | s93 => DD x18 x14 | s94 => DD x18 x15 | s95 => DD x18 x16 | s96 => DD x18 x17 | s97 => DD x18 x18 | s98 => DD x18 x19 | s99 => DD x18 x20 | s100 => DD x18 x21 | s101 => DD x18 x22 | s102 => DD x18 x23 | s103 => DD x18 x24 | s104 => DD x18 x25 | s105 => DD x18 x26 | s106 => DD x18 x27 | s107 => DD x18 x28 | s108 => DD x18 x29 | s109 => DD x18 x30 | s110 => DD x18 x31 | s111 => DD x18 x32 | s112 => DD x18 x33 | s113 => DD x18 x34 | s114 => DD x18 x35 | s115 => DD x18 x36 | s116 => DD x18 x37 | s117 => DD x18 x38 | s118 => DD x18 x39 | s119 => DD x18 x40 | s120 => DD x18 x41 | s121 => DD x18 x42 | s122 => DD x18 x43 | s123 => DD x18 x44 | s124 => DD x18 x45 | s125 => DD x18 x46 | s126 => DD x18 x47 end.
Definition m1075 (c : sum2) : dd := match c with s0 => DD x16 x51 | s1 => DD x16 x52 | s2 => DD x16 x53 | s3 => DD x16 x54 | s4 => DD x16 x55 | s5 => DD x16 x56 | s6 => DD x16 x57 | s7 => DD x16 x58 | s8 => DD x16 x59 | s9 => DD x16 x60 | s10 => DD x16 x61 | s11 => DD x16 x62 | s12 => DD x16 x63 | s13 => DD x17 x0 | s14 => DD x17 x1 | s15 => DD x17 x2 | s16 => DD x17 x3 | s17 => DD x17 x4 | s18 => DD x17 x5 | s19 => DD x17 x6 | s20 => DD x17 x7 | s21 => DD x17 x8 | s22 => DD x17 x9 | s23 => DD x17 x10 | s24 => DD x17 x11 | s25 => DD x17 x12 | s26 => DD x17 x13 | s27 => DD x17 x14 | s28 => DD x17 x15 | s29 => DD x17 x16 | s30 => DD x17 x17 | s31 => DD x17 x18 | s32 => DD x17 x19 | s33 => DD x17 x20 | s34 => DD x17 x21 | s35 => DD x17 x22 | s36 => DD x17 x23 | s37 => DD x17 x24 | s38 => DD x17 x25 | s39 => DD x17 x26 | s40 => DD x17 x27 | s41 => DD x17 x28 | s42 => DD x17 x29 | s43 => DD x17 x30 | s44 => DD x17 x31 | s45 => DD x17 x32 | s46 => DD x17 x33 | s47 => DD x17 x34 | s48 => DD x17 x35 | s49 => DD x17 x36 | s50 => DD x17 x37 | s51 => DD x17 x38 | s52 => DD x17 x39 | s53 => DD x17 x40 | s54 => DD x17 x41 | s55 => DD x17 x42 | s56 => DD x17 x43 | s57 => DD x17 x44 | s58 => DD x17 x45 | s59 => DD x17 x46 | s60 => DD x17 x47 | s61 => DD x17 x48 | s62 => DD x17 x49 | s63 => DD x17 x50 | s64 => DD x17 x51 | s65 => DD x17 x52 | s66 => DD x17 x53 | s67 => DD x17 x54 | s68 => DD x17 x55 | s69 => DD x17 x56 | s70 => DD x17 x57 | s71 => DD x17 x58 | s72 => DD x17 x59 | s73 => DD x17 x60 | s74 => DD x17 x61 | s75 => DD x17 x62 | s76 => DD x17 x63 | s77 => DD x18 x0 | s78 => DD x18 x1 | s79 => DD x18 x2 | s80 => DD x18 x3 | s81 => DD x18 x4 | s82 => DD x18 x5 | s83 => DD x18 x6 | s84 => DD x18 x7 | s85 => DD x18 x8 | s86 => DD x18 x9 | s87 => DD x18 x10 | s88 => DD x18 x11 | s89 => DD x18 x12 | s90 => DD x18 x13 | s91 => DD x18 x14 | s92 => DD x18 x15 | s93 => DD x18 x16 | s94 => DD x18 x17 | s95 => DD x18 x18 | s96 => DD x18 x19 | s97 => DD x18 x20 | s98 => DD x18 x21 | s99 => DD x18 x22 | s100 => DD x18 x23 | s101 => DD x18 x24 | s102 => DD x18 x25 | s103 => DD x18 x26 | s104 => DD x18 x27 | s105 => DD x18 x28 | s106 => DD x18 x29 | s107 => DD x18 x30 | s108 => DD x18 x31 | s109 => DD x18 x32 | s110 => DD x18 x33 | s111 => DD x18 x34 | s112 => DD x18 x35 | s113 => DD x18 x36 | s114 => DD x18 x37 | s115 => DD x18 x38 | s116 => DD x18 x39 | s117 => DD x18 x40 | s118 => DD x18 x41 | s119 => DD x18 x42 | s120 => DD x18 x43 | s121 => DD x18 x44 | s122 => DD x18 x45 | s123 => DD x18 x46 | s124 => DD x18 x47 | s125 => DD x18 x48 | s126 => DD x18 x49 end.
Definition m1078 (c : sum2) : dd := match c with s0 => DD x16 x54 | s1 => DD x16 x55 | s2 => DD x16 x56 | s3 => DD x16 x57 | s4 => DD x16 x58 | s5 => DD x16 x59 | s6 => DD x16 x60 | s7 => DD x16 x61 | s8 => DD x16 x62 | s9 => DD x16 x63 | s10 => DD x17 x0 | s11 => DD x17 x1 | s12 => DD x17 x2 | s13 => DD x17 x3 | s14 => DD x17 x4 | s15 => DD x17 x5 | s16 => DD x17 x6 | s17 => DD x17 x7 | s18 => DD x17 x8 | s19 => DD x17 x9 | s20 => DD x17 x10 | s21 => DD x17 x11 | s22 => DD x17 x12 | s23 => DD x17 x13 | s24 => DD x17 x14 | s25 => DD x17 x15 | s26 => DD x17 x16 | s27 => DD x17 x17 | s28 => DD x17 x18 | s29 => DD x17 x19 | s30 => DD x17 x20 | s31 => DD x17 x21 | s32 => DD x17 x22 | s33 => DD x17 x23 | s34 => DD x17 x24 | s35 => DD x17 x25 | s36 => DD x17 x26 | s37 => DD x17 x27 | s38 => DD x17 x28 | s39 => DD x17 x29 | s40 => DD x17 x30 | s41 => DD x17 x31 | s42 => DD x17 x32 | s43 => DD x17 x33 | s44 => DD x17 x34 | s45 => DD x17 x35 | s46 => DD x17 x36 | s47 => DD x17 x37 | s48 => DD x17 x38 | s49 => DD x17 x39 | s50 => DD x17 x40 | s51 => DD x17 x41 | s52 => DD x17 x42 | s53 => DD x17 x43 | s54 => DD x17 x44 | s55 => DD x17 x45 | s56 => DD x17 x46 | s57 => DD x17 x47 | s58 => DD x17 x48 | s59 => DD x17 x49 | s60 => DD x17 x50 | s61 => DD x17 x51 | s62 => DD x17 x52 | s63 => DD x17 x53 | s64 => DD x17 x54 | s65 => DD x17 x55 | s66 => DD x17 x56 | s67 => DD x17 x57 | s68 => DD x17 x58 | s69 => DD x17 x59 | s70 => DD x17 x60 | s71 => DD x17 x61 | s72 => DD x17 x62 | s73 => DD x17 x63 | s74 => DD x18 x0 | s75 => DD x18 x1 | s76 => DD x18 x2 | s77 => DD x18 x3 | s78 => DD x18 x4 | s79 => DD x18 x5 | s80 => DD x18 x6 | s81 => DD x18 x7 | s82 => DD x18 x8 | s83 => DD x18 x9 | s84 => DD x18 x10 | s85 => DD x18 x11 | s86 => DD x18 x12 | s87 => DD x18 x13 | s88 => DD x18 x14 | s89 => DD x18 x15 | s90 => DD x18 x16 | s91 => DD x18 x17 | s92 => DD x18 x18 | s93 => DD x18 x19 | s94 => DD x18 x20 | s95 => DD x18 x21 | s96 => DD x18 x22 | s97 => DD x18 x23 | s98 => DD x18 x24 | s99 => DD x18 x25 | s100 => DD x18 x26 | s101 => DD x18 x27 | s102 => DD x18 x28 | s103 => DD x18 x29 | s104 => DD x18 x30 | s105 => DD x18 x31 | s106 => DD x18 x32 | s107 => DD x18 x33 | s108 => DD x18 x34 | s109 => DD x18 x35 | s110 => DD x18 x36 | s111 => DD x18 x37 | s112 => DD x18 x38 | s113 => DD x18 x39 | s114 => DD x18 x40 | s115 => DD x18 x41 | s116 => DD x18 x42 | s117 => DD x18 x43 | s118 => DD x18 x44 | s119 => DD x18 x45 | s120 => DD x18 x46 | s121 => DD x18 x47 | s122 => DD x18 x48 | s123 => DD x18 x49 | s124 => DD x18 x50 | s125 => DD x18 x51 | s126 => DD x18 x52 end.
Definition m1080 (c : sum2) : dd := match c with s0 => DD x16 x56 | s1 => DD x16 x57 | s2 => DD x16 x58 | s3 => DD x16 x59 | s4 => DD x16 x60 | s5 => DD x16 x61 | s6 => DD x16 x62 | s7 => DD x16 x63 | s8 => DD x17 x0 | s9 => DD x17 x1 | s10 => DD x17 x2 | s11 => DD x17 x3 | s12 => DD x17 x4 | s13 => DD x17 x5 | s14 => DD x17 x6 | s15 => DD x17 x7 | s16 => DD x17 x8 | s17 => DD x17 x9 | s18 => DD x17 x10 | s19 => DD x17 x11 | s20 => DD x17 x12 | s21 => DD x17 x13 | s22 => DD x17 x14 | s23 => DD x17 x15 | s24 => DD x17 x16 | s25 => DD x17 x17 | s26 => DD x17 x18 | s27 => DD x17 x19 | s28 => DD x17 x20 | s29 => DD x17 x21 | s30 => DD x17 x22 | s31 => DD x17 x23 | s32 => DD x17 x24 | s33 => DD x17 x25 | s34 => DD x17 x26 | s35 => DD x17 x27 | s36 => DD x17 x28 | s37 => DD x17 x29 | s38 => DD x17 x30 | s39 => DD x17 x31 | s40 => DD x17 x32 | s41 => DD x17 x33 | s42 => DD x17 x34 | s43 => DD x17 x35 | s44 => DD x17 x36 | s45 => DD x17 x37 | s46 => DD x17 x38 | s47 => DD x17 x39 | s48 => DD x17 x40 | s49 => DD x17 x41 | s50 => DD x17 x42 | s51 => DD x17 x43 | s52 => DD x17 x44 | s53 => DD x17 x45 | s54 => DD x17 x46 | s55 => DD x17 x47 | s56 => DD x17 x48 | s57 => DD x17 x49 | s58 => DD x17 x50 | s59 => DD x17 x51 | s60 => DD x17 x52 | s61 => DD x17 x53 | s62 => DD x17 x54 | s63 => DD x17 x55 | s64 => DD x17 x56 | s65 => DD x17 x57 | s66 => DD x17 x58 | s67 => DD x17 x59 | s68 => DD x17 x60 | s69 => DD x17 x61 | s70 => DD x17 x62 | s71 => DD x17 x63 | s72 => DD x18 x0 | s73 => DD x18 x1 | s74 => DD x18 x2 | s75 => DD x18 x3 | s76 => DD x18 x4 | s77 => DD x18 x5 | s78 => DD x18 x6 | s79 => DD x18 x7 | s80 => DD x18 x8 | s81 => DD x18 x9 | s82 => DD x18 x10 | s83 => DD x18 x11 | s84 => DD x18 x12 | s85 => DD x18 x13 | s86 => DD x18 x14 | s87 => DD x18 x15 | s88 => DD x18 x16 | s89 => DD x18 x17 | s90 => DD x18 x18 | s91 => DD x18 x19 | s92 => DD x18 x20 | s93 => DD x18 x21 | s94 => DD x18 x22 | s95 => DD x18 x23 | s96 => DD x18 x24 | s97 => DD x18 x25 | s98 => DD x18 x26 | s99 => DD x18 x27 | s100 => DD x18 x28 | s101 => DD x18 x29 | s102 => DD x18 x30 | s103 => DD x18 x31 | s104 => DD x18 x32 | s105 => DD x18 x33 | s106 => DD x18 x34 | s107 => DD x18 x35 | s108 => DD x18 x36 | s109 => DD x18 x37 | s110 => DD x18 x38 | s111 => DD x18 x39 | s112 => DD x18 x40 | s113 => DD x18 x41 | s114 => DD x18 x42 | s115 => DD x18 x43 | s116 => DD x18 x44 | s117 => DD x18 x45 | s118 => DD x18 x46 | s119 => DD x18 x47 | s120 => DD x18 x48 | s121 => DD x18 x49 | s122 => DD x18 x50 | s123 => DD x18 x51 | s124 => DD x18 x52 | s125 => DD x18 x53 | s126 => DD x18 x54 end.
Definition m1081 (c : sum2) : dd := match c with s0 => DD x16 x57 | s1 => DD x16 x58 | s2 => DD x16 x59 | s3 => DD x16 x60 | s4 => DD x16 x61 | s5 => DD x16 x62 | s6 => DD x16 x63 | s7 => DD x17 x0 | s8 => DD x17 x1 | s9 => DD x17 x2 | s10 => DD x17 x3 | s11 => DD x17 x4 | s12 => DD x17 x5 | s13 => DD x17 x6 | s14 => DD x17 x7 | s15 => DD x17 x8 | s16 => DD x17 x9 | s17 => DD x17 x10 | s18 => DD x17 x11 | s19 => DD x17 x12 | s20 => DD x17 x13 | s21 => DD x17 x14 | s22 => DD x17 x15 | s23 => DD x17 x16 | s24 => DD x17 x17 | s25 => DD x17 x18 | s26 => DD x17 x19 | s27 => DD x17 x20 | s28 => DD x17 x21 | s29 => DD x17 x22 | s30 => DD x17 x23 | s31 => DD x17 x24 | s32 => DD x17 x25 | s33 => DD x17 x26 | s34 => DD x17 x27 | s35 => DD x17 x28 | s36 => DD x17 x29 | s37 => DD x17 x30 | s38 => DD x17 x31 | s39 => DD x17 x32 | s40 => DD x17 x33 | s41 => DD x17 x34 | s42 => DD x17 x35 | s43 => DD x17 x36 | s44 => DD x17 x37 | s45 => DD x17 x38 | s46 => DD x17 x39 | s47 => DD x17 x40 | s48 => DD x17 x41 | s49 => DD x17 x42 | s50 => DD x17 x43 | s51 => DD x17 x44 | s52 => DD x17 x45 | s53 => DD x17 x46 | s54 => DD x17 x47 | s55 => DD x17 x48 | s56 => DD x17 x49 | s57 => DD x17 x50 | s58 => DD x17 x51 | s59 => DD x17 x52 | s60 => DD x17 x53 | s61 => DD x17 x54 | s62 => DD x17 x55 | s63 => DD x17 x56 | s64 => DD x17 x57 | s65 => DD x17 x58 | s66 => DD x17 x59 | s67 => DD x17 x60 | s68 => DD x17 x61 | s69 => DD x17 x62 | s70 => DD x17 x63 | s71 => DD x18 x0 | s72 => DD x18 x1 | s73 => DD x18 x2 | s74 => DD x18 x3 | s75 => DD x18 x4 | s76 => DD x18 x5 | s77 => DD x18 x6 | s78 => DD x18 x7 | s79 => DD x18 x8 | s80 => DD x18 x9 | s81 => DD x18 x10 | s82 => DD x18 x11 | s83 => DD x18 x12 | s84 => DD x18 x13 | s85 => DD x18 x14 | s86 => DD x18 x15 | s87 => DD x18 x16 | s88 => DD x18 x17 | s89 => DD x18 x18 | s90 => DD x18 x19 | s91 => DD x18 x20 | s92 => DD x18 x21 | s93 => DD x18 x22 | s94 => DD x18 x23 | s95 => DD x18 x24 | s96 => DD x18 x25 | s97 => DD x18 x26 | s98 => DD x18 x27 | s99 => DD x18 x28 | s100 => DD x18 x29 | s101 => DD x18 x30 | s102 => DD x18 x31 | s103 => DD x18 x32 | s104 => DD x18 x33 | s105 => DD x18 x34 | s106 => DD x18 x35 | s107 => DD x18 x36 | s108 => DD x18 x37 | s109 => DD x18 x38 | s110 => DD x18 x39 | s111 => DD x18 x40 | s112 => DD x18 x41 | s113 => DD x18 x42 | s114 => DD x18 x43 | s115 => DD x18 x44 | s116 => DD x18 x45 | s117 => DD x18 x46 | s118 => DD x18 x47 | s119 => DD x18 x48 | s120 => DD x18 x49 | s121 => DD x18 x50 | s122 => DD x18 x51 | s123 => DD x18 x52 | s124 => DD x18 x53 | s125 => DD x18 x54 | s126 => DD x18 x55 end.
Definition m1083 (c : sum2) : dd := match c with s0 => DD x16 x59 | s1 => DD x16 x60 | s2 => DD x16 x61 | s3 => DD x16 x62 | s4 => DD x16 x63 | s5 => DD x17 x0 | s6 => DD x17 x1 | s7 => DD x17 x2 | s8 => DD x17 x3 | s9 => DD x17 x4 | s10 => DD x17 x5 | s11 => DD x17 x6 | s12 => DD x17 x7 | s13 => DD x17 x8 | s14 => DD x17 x9 | s15 => DD x17 x10 | s16 => DD x17 x11 | s17 => DD x17 x12 | s18 => DD x17 x13 | s19 => DD x17 x14 | s20 => DD x17 x15 | s21 => DD x17 x16 | s22 => DD x17 x17 | s23 => DD x17 x18 | s24 => DD x17 x19 | s25 => DD x17 x20 | s26 => DD x17 x21 | s27 => DD x17 x22 | s28 => DD x17 x23 | s29 => DD x17 x24 | s30 => DD x17 x25 | s31 => DD x17 x26 | s32 => DD x17 x27 | s33 => DD x17 x28 | s34 => DD x17 x29 | s35 => DD x17 x30 | s36 => DD x17 x31 | s37 => DD x17 x32 | s38 => DD x17 x33 | s39 => DD x17 x34 | s40 => DD x17 x35 | s41 => DD x17 x36 | s42 => DD x17 x37 | s43 => DD x17 x38 | s44 => DD x17 x39 | s45 => DD x17 x40 | s46 => DD x17 x41 | s47 => DD x17 x42 | s48 => DD x17 x43 | s49 => DD x17 x44 | s50 => DD x17 x45 | s51 => DD x17 x46 | s52 => DD x17 x47 | s53 => DD x17 x48 | s54 => DD x17 x49 | s55 => DD x17 x50 | s56 => DD x17 x51 | s57 => DD x17 x52 | s58 => DD x17 x53 | s59 => DD x17 x54 | s60 => DD x17 x55 | s61 => DD x17 x56 | s62 => DD x17 x57 | s63 => DD x17 x58 | s64 => DD x17 x59 | s65 => DD x17 x60 | s66 => DD x17 x61 | s67 => DD x17 x62 | s68 => DD x17 x63 | s69 => DD x18 x0 | s70 => DD x18 x1 | s71 => DD x18 x2 | s72 => DD x18 x3 | s73 => DD x18 x4 | s74 => DD x18 x5 | s75 => DD x18 x6 | s76 => DD x18 x7 | s77 => DD x18 x8 | s78 => DD x18 x9 | s79 => DD x18 x10 | s80 => DD x18 x11 | s81 => DD x18 x12 | s82 => DD x18 x13 | s83 => DD x18 x14 | s84 => DD x18 x15 | s85 => DD x18 x16 | s86 => DD x18 x17 | s87 => DD x18 x18 | s88 => DD x18 x19 | s89 => DD x18 x20 | s90 => DD x18 x21 | s91 => DD x18 x22 | s92 => DD x18 x23 | s93 => DD x18 x24 | s94 => DD x18 x25 | s95 => DD x18 x26 | s96 => DD x18 x27 | s97 => DD x18 x28 | s98 => DD x18 x29 | s99 => DD x18 x30 | s100 => DD x18 x31 | s101 => DD x18 x32 | s102 => DD x18 x33 | s103 => DD x18 x34 | s104 => DD x18 x35 | s105 => DD x18 x36 | s106 => DD x18 x37 | s107 => DD x18 x38 | s108 => DD x18 x39 | s109 => DD x18 x40 | s110 => DD x18 x41 | s111 => DD x18 x42 | s112 => DD x18 x43 | s113 => DD x18 x44 | s114 => DD x18 x45 | s115 => DD x18 x46 | s116 => DD x18 x47 | s117 => DD x18 x48 | s118 => DD x18 x49 | s119 => DD x18 x50 | s120 => DD x18 x51 | s121 => DD x18 x52 | s122 => DD x18 x53 | s123 => DD x18 x54 | s124 => DD x18 x55 | s125 => DD x18 x56 | s126 => DD x18 x57 end.
Definition m1085 (c : sum2) : dd := match c with s0 => DD x16 x61 | s1 => DD x16 x62 | s2 => DD x16 x63 | s3 => DD x17 x0 | s4 => DD x17 x1 | s5 => DD x17 x2 | s6 => DD x17 x3 | s7 => DD x17 x4 | s8 => DD x17 x5 | s9 => DD x17 x6 | s10 => DD x17 x7 | s11 => DD x17 x8 | s12 => DD x17 x9 | s13 => DD x17 x10 | s14 => DD x17 x11 | s15 => DD x17 x12 | s16 => DD x17 x13 | s17 => DD x17 x14 | s18 => DD x17 x15 | s19 => DD x17 x16 | s20 => DD x17 x17 | s21 => DD x17 x18 | s22 => DD x17 x19 | s23 => DD x17 x20 | s24 => DD x17 x21 | s25 => DD x17 x22 | s26 => DD x17 x23 | s27 => DD x17 x24 | s28 => DD x17 x25 | s29 => DD x17 x26 | s30 => DD x17 x27 | s31 => DD x17 x28 | s32 => DD x17 x29 | s33 => DD x17 x30 | s34 => DD x17 x31 | s35 => DD x17 x32 | s36 => DD x17 x33 | s37 => DD x17 x34 | s38 => DD x17 x35 | s39 => DD x17 x36 | s40 => DD x17 x37 | s41 => DD x17 x38 | s42 => DD x17 x39 | s43 => DD x17 x40 | s44 => DD x17 x41 | s45 => DD x17 x42 | s46 => DD x17 x43 | s47 => DD x17 x44 | s48 => DD x17 x45 | s49 => DD x17 x46 | s50 => DD x17 x47 | s51 => DD x17 x48 | s52 => DD x17 x49 | s53 => DD x17 x50 | s54 => DD x17 x51 | s55 => DD x17 x52 | s56 => DD x17 x53 | s57 => DD x17 x54 | s58 => DD x17 x55 | s59 => DD x17 x56 | s60 => DD x17 x57 | s61 => DD x17 x58 | s62 => DD x17 x59 | s63 => DD x17 x60 | s64 => DD x17 x61 | s65 => DD x17 x62 | s66 => DD x17 x63 | s67 => DD x18 x0 | s68 => DD x18 x1 | s69 => DD x18 x2 | s70 => DD x18 x3 | s71 => DD x18 x4 | s72 => DD x18 x5 | s73 => DD x18 x6 | s74 => DD x18 x7 | s75 => DD x18 x8 | s76 => DD x18 x9 | s77 => DD x18 x10 | s78 => DD x18 x11 | s79 => DD x18 x12 | s80 => DD x18 x13 | s81 => DD x18 x14 | s82 => DD x18 x15 | s83 => DD x18 x16 | s84 => DD x18 x17 | s85 => DD x18 x18 | s86 => DD x18 x19 | s87 => DD x18 x20 | s88 => DD x18 x21 | s89 => DD x18 x22 | s90 => DD x18 x23 | s91 => DD x18 x24 | s92 => DD x18 x25 | s93 => DD x18 x26 | s94 => DD x18 x27 | s95 => DD x18 x28 | s96 => DD x18 x29 | s97 => DD x18 x30 | s98 => DD x18 x31 | s99 => DD x18 x32 | s100 => DD x18 x33 | s101 => DD x18 x34 | s102 => DD x18 x35 | s103 => DD x18 x36 | s104 => DD x18 x37 | s105 => DD x18 x38 | s106 => DD x18 x39 | s107 => DD x18 x40 | s108 => DD x18 x41 | s109 => DD x18 x42 | s110 => DD x18 x43 | s111 => DD x18 x44 | s112 => DD x18 x45 | s113 => DD x18 x46 | s114 => DD x18 x47 | s115 => DD x18 x48 | s116 => DD x18 x49 | s117 => DD x18 x50 | s118 => DD x18 x51 | s119 => DD x18 x52 | s120 => DD x18 x53 | s121 => DD x18 x54 | s122 => DD x18 x55 | s123 => DD x18 x56 | s124 => DD x18 x57 | s125 => DD x18 x58 | s126 => DD x18 x59 end.
Definition m1088 (c : sum2) : dd := match c with s0 => DD x17 x0 | s1 => DD x17 x1 | s2 => DD x17 x2 | s3 => DD x17 x3 | s4 => DD x17 x4 | s5 => DD x17 x5 | s6 => DD x17 x6 | s7 => DD x17 x7 | s8 => DD x17 x8 | s9 => DD x17 x9 | s10 => DD x17 x10 | s11 => DD x17 x11 | s12 => DD x17 x12 | s13 => DD x17 x13 | s14 => DD x17 x14 | s15 => DD x17 x15 | s16 => DD x17 x16 | s17 => DD x17 x17 | s18 => DD x17 x18 | s19 => DD x17 x19 | s20 => DD x17 x20 | s21 => DD x17 x21 | s22 => DD x17 x22 | s23 => DD x17 x23 | s24 => DD x17 x24 | s25 => DD x17 x25 | s26 => DD x17 x26 | s27 => DD x17 x27 | s28 => DD x17 x28 | s29 => DD x17 x29 | s30 => DD x17 x30 | s31 => DD x17 x31 | s32 => DD x17 x32 | s33 => DD x17 x33 | s34 => DD x17 x34 | s35 => DD x17 x35 | s36 => DD x17 x36 | s37 => DD x17 x37 | s38 => DD x17 x38 | s39 => DD x17 x39 | s40 => DD x17 x40 | s41 => DD x17 x41 | s42 => DD x17 x42 | s43 => DD x17 x43 | s44 => DD x17 x44 | s45 => DD x17 x45 | s46 => DD x17 x46 | s47 => DD x17 x47 | s48 => DD x17 x48 | s49 => DD x17 x49 | s50 => DD x17 x50 | s51 => DD x17 x51 | s52 => DD x17 x52 | s53 => DD x17 x53 | s54 => DD x17 x54 | s55 => DD x17 x55 | s56 => DD x17 x56 | s57 => DD x17 x57 | s58 => DD x17 x58 | s59 => DD x17 x59 | s60 => DD x17 x60 | s61 => DD x17 x61 | s62 => DD x17 x62 | s63 => DD x17 x63 | s64 => DD x18 x0 | s65 => DD x18 x1 | s66 => DD x18 x2 | s67 => DD x18 x3 | s68 => DD x18 x4 | s69 => DD x18 x5 | s70 => DD x18 x6 | s71 => DD x18 x7 | s72 => DD x18 x8 | s73 => DD x18 x9 | s74 => DD x18 x10 | s75 => DD x18 x11 | s76 => DD x18 x12 | s77 => DD x18 x13 | s78 => DD x18 x14 | s79 => DD x18 x15 | s80 => DD x18 x16 | s81 => DD x18 x17 | s82 => DD x18 x18 | s83 => DD x18 x19 | s84 => DD x18 x20 | s85 => DD x18 x21 | s86 => DD x18 x22 | s87 => DD x18 x23 | s88 => DD x18 x24 | s89 => DD x18 x25 | s90 => DD x18 x26 | s91 => DD x18 x27 | s92 => DD x18 x28 | s93 => DD x18 x29 | s94 => DD x18 x30 | s95 => DD x18 x31 | s96 => DD x18 x32 | s97 => DD x18 x33 | s98 => DD x18 x34 | s99 => DD x18 x35 | s100 => DD x18 x36 | s101 => DD x18 x37 | s102 => DD x18 x38 | s103 => DD x18 x39 | s104 => DD x18 x40 | s105 => DD x18 x41 | s106 => DD x18 x42 | s107 => DD x18 x43 | s108 => DD x18 x44 | s109 => DD x18 x45 | s110 => DD x18 x46 | s111 => DD x18 x47 | s112 => DD x18 x48 | s113 => DD x18 x49 | s114 => DD x18 x50 | s115 => DD x18 x51 | s116 => DD x18 x52 | s117 => DD x18 x53 | s118 => DD x18 x54 | s119 => DD x18 x55 | s120 => DD x18 x56 | s121 => DD x18 x57 | s122 => DD x18 x58 | s123 => DD x18 x59 | s124 => DD x18 x60 | s125 => DD x18 x61 | s126 => DD x18 x62 end.
Definition m1089 (c : sum2) : dd := match c with s0 => DD x17 x1 | s1 => DD x17 x2 | s2 => DD x17 x3 | s3 => DD x17 x4 | s4 => DD x17 x5 | s5 => DD x17 x6 | s6 => DD x17 x7 | s7 => DD x17 x8 | s8 => DD x17 x9 | s9 => DD x17 x10 | s10 => DD x17 x11 | s11 => DD x17 x12 | s12 => DD x17 x13 | s13 => DD x17 x14 | s14 => DD x17 x15 | s15 => DD x17 x16 | s16 => DD x17 x17 | s17 => DD x17 x18 | s18 => DD x17 x19 | s19 => DD x17 x20 | s20 => DD x17 x21 | s21 => DD x17 x22 | s22 => DD x17 x23 | s23 => DD x17 x24 | s24 => DD x17 x25 | s25 => DD x17 x26 | s26 => DD x17 x27 | s27 => DD x17 x28 | s28 => DD x17 x29 | s29 => DD x17 x30 | s30 => DD x17 x31 | s31 => DD x17 x32 | s32 => DD x17 x33 | s33 => DD x17 x34 | s34 => DD x17 x35 | s35 => DD x17 x36 | s36 => DD x17 x37 | s37 => DD x17 x38 | s38 => DD x17 x39 | s39 => DD x17 x40 | s40 => DD x17 x41 | s41 => DD x17 x42 | s42 => DD x17 x43 | s43 => DD x17 x44 | s44 => DD x17 x45 | s45 => DD x17 x46 | s46 => DD x17 x47 | s47 => DD x17 x48 | s48 => DD x17 x49 | s49 => DD x17 x50 | s50 => DD x17 x51 | s51 => DD x17 x52 | s52 => DD x17 x53 | s53 => DD x17 x54 | s54 => DD x17 x55 | s55 => DD x17 x56 | s56 => DD x17 x57 | s57 => DD x17 x58 | s58 => DD x17 x59 | s59 => DD x17 x60 | s60 => DD x17 x61 | s61 => DD x17 x62 | s62 => DD x17 x63 | s63 => DD x18 x0 | s64 => DD x18 x1 | s65 => DD x18 x2 | s66 => DD x18 x3 | s67 => DD x18 x4 | s68 => DD x18 x5 | s69 => DD x18 x6 | s70 => DD x18 x7 | s71 => DD x18 x8 | s72 => DD x18 x9 | s73 => DD x18 x10 | s74 => DD x18 x11 | s75 => DD x18 x12 | s76 => DD x18 x13 | s77 => DD x18 x14 | s78 => DD x18 x15 | s79 => DD x18 x16 | s80 => DD x18 x17 | s81 => DD x18 x18 | s82 => DD x18 x19 | s83 => DD x18 x20 | s84 => DD x18 x21 | s85 => DD x18 x22 | s86 => DD x18 x23 | s87 => DD x18 x24 | s88 => DD x18 x25 | s89 => DD x18 x26 | s90 => DD x18 x27 | s91 => DD x18 x28 | s92 => DD x18 x29 | s93 => DD x18 x30 | s94 => DD x18 x31 | s95 => DD x18 x32 | s96 => DD x18 x33 | s97 => DD x18 x34 | s98 => DD x18 x35 | s99 => DD x18 x36 | s100 => DD x18 x37 | s101 => DD x18 x38 | s102 => DD x18 x39 | s103 => DD x18 x40 | s104 => DD x18 x41 | s105 => DD x18 x42 | s106 => DD x18 x43 | s107 => DD x18 x44 | s108 => DD x18 x45 | s109 => DD x18 x46 | s110 => DD x18 x47 | s111 => DD x18 x48 | s112 => DD x18 x49 | s113 => DD x18 x50 | s114 => DD x18 x51 | s115 => DD x18 x52 | s116 => DD x18 x53 | s117 => DD x18 x54 | s118 => DD x18 x55 | s119 => DD x18 x56 | s120 => DD x18 x57 | s121 => DD x18 x58 | s122 => DD x18 x59 | s123 => DD x18 x60 | s124 => DD x18 x61 | s125 => DD x18 x62 | s126 => DD x18 x63 end.
Definition m1092 (c : sum2) : dd := match c with s0 => DD x17 x4 | s1 => DD x17 x5 | s2 => DD x17 x6 | s3 => DD x17 x7 | s4 => DD x17 x8 | s5 => DD x17 x9 | s6 => DD x17 x10 | s7 => DD x17 x11 | s8 => DD x17 x12 | s9 => DD x17 x13 | s10 => DD x17 x14 | s11 => DD x17 x15 | s12 => DD x17 x16 | s13 => DD x17 x17 | s14 => DD x17 x18 | s15 => DD x17 x19 | s16 => DD x17 x20 | s17 => DD x17 x21 | s18 => DD x17 x22 | s19 => DD x17 x23 | s20 => DD x17 x24 | s21 => DD x17 x25 | s22 => DD x17 x26 | s23 => DD x17 x27 | s24 => DD x17 x28 | s25 => DD x17 x29 | s26 => DD x17 x30 | s27 => DD x17 x31 | s28 => DD x17 x32 | s29 => DD x17 x33 | s30 => DD x17 x34 | s31 => DD x17 x35 | s32 => DD x17 x36 | s33 => DD x17 x37 | s34 => DD x17 x38 | s35 => DD x17 x39 | s36 => DD x17 x40 | s37 => DD x17 x41 | s38 => DD x17 x42 | s39 => DD x17 x43 | s40 => DD x17 x44 | s41 => DD x17 x45 | s42 => DD x17 x46 | s43 => DD x17 x47 | s44 => DD x17 x48 | s45 => DD x17 x49 | s46 => DD x17 x50 | s47 => DD x17 x51 | s48 => DD x17 x52 | s49 => DD x17 x53 | s50 => DD x17 x54 | s51 => DD x17 x55 | s52 => DD x17 x56 | s53 => DD x17 x57 | s54 => DD x17 x58 | s55 => DD x17 x59 | s56 => DD x17 x60 | s57 => DD x17 x61 | s58 => DD x17 x62 | s59 => DD x17 x63 | s60 => DD x18 x0 | s61 => DD x18 x1 | s62 => DD x18 x2 | s63 => DD x18 x3 | s64 => DD x18 x4 | s65 => DD x18 x5 | s66 => DD x18 x6 | s67 => DD x18 x7 | s68 => DD x18 x8 | s69 => DD x18 x9 | s70 => DD x18 x10 | s71 => DD x18 x11 | s72 => DD x18 x12 | s73 => DD x18 x13 | s74 => DD x18 x14 | s75 => DD x18 x15 | s76 => DD x18 x16 | s77 => DD x18 x17 | s78 => DD x18 x18 | s79 => DD x18 x19 | s80 => DD x18 x20 | s81 => DD x18 x21 | s82 => DD x18 x22 | s83 => DD x18 x23 | s84 => DD x18 x24 | s85 => DD x18 x25 | s86 => DD x18 x26 | s87 => DD x18 x27 | s88 => DD x18 x28 | s89 => DD x18 x29 | s90 => DD x18 x30 | s91 => DD x18 x31 | s92 => DD x18 x32 | s93 => DD x18 x33 | s94 => DD x18 x34 | s95 => DD x18 x35 | s96 => DD x18 x36 | s97 => DD x18 x37 | s98 => DD x18 x38 | s99 => DD x18 x39 | s100 => DD x18 x40 | s101 => DD x18 x41 | s102 => DD x18 x42 | s103 => DD x18 x43 | s104 => DD x18 x44 | s105 => DD x18 x45 | s106 => DD x18 x46 | s107 => DD x18 x47 | s108 => DD x18 x48 | s109 => DD x18 x49 | s110 => DD x18 x50 | s111 => DD x18 x51 | s112 => DD x18 x52 | s113 => DD x18 x53 | s114 => DD x18 x54 | s115 => DD x18 x55 | s116 => DD x18 x56 | s117 => DD x18 x57 | s118 => DD x18 x58 | s119 => DD x18 x59 | s120 => DD x18 x60 | s121 => DD x18 x61 | s122 => DD x18 x62 | s123 => DD x18 x63 | s124 => DD x19 x0 | s125 => DD x19 x1 | s126 => DD x19 x2 end.
Definition m1098 (c : sum2) : dd := match c with s0 => DD x17 x10 | s1 => DD x17 x11 | s2 => DD x17 x12 | s3 => DD x17 x13 | s4 => DD x17 x14 | s5 => DD x17 x15 | s6 => DD x17 x16 | s7 => DD x17 x17 | s8 => DD x17 x18 | s9 => DD x17 x19 | s10 => DD x17 x20 | s11 => DD x17 x21 | s12 => DD x17 x22 | s13 => DD x17 x23 | s14 => DD x17 x24 | s15 => DD x17 x25 | s16 => DD x17 x26 | s17 => DD x17 x27 | s18 => DD x17 x28 | s19 => DD x17 x29 | s20 => DD x17 x30 | s21 => DD x17 x31 | s22 => DD x17 x32 | s23 => DD x17 x33 | s24 => DD x17 x34 | s25 => DD x17 x35 | s26 => DD x17 x36 | s27 => DD x17 x37 | s28 => DD x17 x38 | s29 => DD x17 x39 | s30 => DD x17 x40 | s31 => DD x17 x41 | s32 => DD x17 x42 | s33 => DD x17 x43 | s34 => DD x17 x44 | s35 => DD x17 x45 | s36 => DD x17 x46 | s37 => DD x17 x47 | s38 => DD x17 x48 | s39 => DD x17 x49 | s40 => DD x17 x50 | s41 => DD x17 x51 | s42 => DD x17 x52 | s43 => DD x17 x53 | s44 => DD x17 x54 | s45 => DD x17 x55 | s46 => DD x17 x56 | s47 => DD x17 x57 | s48 => DD x17 x58 | s49 => DD x17 x59 | s50 => DD x17 x60 | s51 => DD x17 x61 | s52 => DD x17 x62 | s53 => DD x17 x63 | s54 => DD x18 x0 | s55 => DD x18 x1 | s56 => DD x18 x2 | s57 => DD x18 x3 | s58 => DD x18 x4 | s59 => DD x18 x5 | s60 => DD x18 x6 | s61 => DD x18 x7 | s62 => DD x18 x8 | s63 => DD x18 x9 | s64 => DD x18 x10 | s65 => DD x18 x11 | s66 => DD x18 x12 | s67 => DD x18 x13 | s68 => DD x18 x14 | s69 => DD x18 x15 | s70 => DD x18 x16 | s71 => DD x18 x17 | s72 => DD x18 x18 | s73 => DD x18 x19 | s74 => DD x18 x20 | s75 => DD x18 x21 | s76 => DD x18 x22 | s77 => DD x18 x23 | s78 => DD x18 x24 | s79 => DD x18 x25 | s80 => DD x18 x26 | s81 => DD x18 x27 | s82 => DD x18 x28 | s83 => DD x18 x29 | s84 => DD x18 x30 | s85 => DD x18 x31 | s86 => DD x18 x32 | s87 => DD x18 x33 | s88 => DD x18 x34 | s89 => DD x18 x35 | s90 => DD x18 x36 | s91 => DD x18 x37 | s92 => DD x18 x38 | s93 => DD x18 x39 | s94 => DD x18 x40 | s95 => DD x18 x41 | s96 => DD x18 x42 | s97 => DD x18 x43 | s98 => DD x18 x44 | s99 => DD x18 x45 | s100 => DD x18 x46 | s101 => DD x18 x47 | s102 => DD x18 x48 | s103 => DD x18 x49 | s104 => DD x18 x50 | s105 => DD x18 x51 | s106 => DD x18 x52 | s107 => DD x18 x53 | s108 => DD x18 x54 | s109 => DD x18 x55 | s110 => DD x18 x56 | s111 => DD x18 x57 | s112 => DD x18 x58 | s113 => DD x18 x59 | s114 => DD x18 x60 | s115 => DD x18 x61 | s116 => DD x18 x62 | s117 => DD x18 x63 | s118 => DD x19 x0 | s119 => DD x19 x1 | s120 => DD x19 x2 | s121 => DD x19 x3 | s122 => DD x19 x4 | s123 => DD x19 x5 | s124 => DD x19 x6 | s125 => DD x19 x7 | s126 => DD x19 x8 end.
Definition m1100 (c : sum2) : dd := match c with s0 => DD x17 x12 | s1 => DD x17 x13 | s2 => DD x17 x14 | s3 => DD x17 x15 | s4 => DD x17 x16 | s5 => DD x17 x17 | s6 => DD x17 x18 | s7 => DD x17 x19 | s8 => DD x17 x20 | s9 => DD x17 x21 | s10 => DD x17 x22 | s11 => DD x17 x23 | s12 => DD x17 x24 | s13 => DD x17 x25 | s14 => DD x17 x26 | s15 => DD x17 x27 | s16 => DD x17 x28 | s17 => DD x17 x29 | s18 => DD x17 x30 | s19 => DD x17 x31 | s20 => DD x17 x32 | s21 => DD x17 x33 | s22 => DD x17 x34 | s23 => DD x17 x35 | s24 => DD x17 x36 | s25 => DD x17 x37 | s26 => DD x17 x38 | s27 => DD x17 x39 | s28 => DD x17 x40 | s29 => DD x17 x41 | s30 => DD x17 x42 | s31 => DD x17 x43 | s32 => DD x17 x44 | s33 => DD x17 x45 | s34 => DD x17 x46 | s35 => DD x17 x47 | s36 => DD x17 x48 | s37 => DD x17 x49 | s38 => DD x17 x50 | s39 => DD x17 x51 | s40 => DD x17 x52 | s41 => DD x17 x53 | s42 => DD x17 x54 | s43 => DD x17 x55 | s44 => DD x17 x56 | s45 => DD x17 x57 | s46 => DD x17 x58 | s47 => DD x17 x59 | s48 => DD x17 x60 | s49 => DD x17 x61 | s50 => DD x17 x62 | s51 => DD x17 x63 | s52 => DD x18 x0 | s53 => DD x18 x1 | s54 => DD x18 x2 | s55 => DD x18 x3 | s56 => DD x18 x4 | s57 => DD x18 x5 | s58 => DD x18 x6 | s59 => DD x18 x7 | s60 => DD x18 x8 | s61 => DD x18 x9 | s62 => DD x18 x10 | s63 => DD x18 x11 | s64 => DD x18 x12 | s65 => DD x18 x13 | s66 => DD x18 x14 | s67 => DD x18 x15 | s68 => DD x18 x16 | s69 => DD x18 x17 | s70 => DD x18 x18 | s71 => DD x18 x19 | s72 => DD x18 x20 | s73 => DD x18 x21 | s74 => DD x18 x22 | s75 => DD x18 x23 | s76 => DD x18 x24 | s77 => DD x18 x25 | s78 => DD x18 x26 | s79 => DD x18 x27 | s80 => DD x18 x28 | s81 => DD x18 x29 | s82 => DD x18 x30 | s83 => DD x18 x31 | s84 => DD x18 x32 | s85 => DD x18 x33 | s86 => DD x18 x34 | s87 => DD x18 x35 | s88 => DD x18 x36 | s89 => DD x18 x37 | s90 => DD x18 x38 | s91 => DD x18 x39 | s92 => DD x18 x40 | s93 => DD x18 x41 | s94 => DD x18 x42 | s95 => DD x18 x43 | s96 => DD x18 x44 | s97 => DD x18 x45 | s98 => DD x18 x46 | s99 => DD x18 x47 | s100 => DD x18 x48 | s101 => DD x18 x49 | s102 => DD x18 x50 | s103 => DD x18 x51 | s104 => DD x18 x52 | s105 => DD x18 x53 | s106 => DD x18 x54 | s107 => DD x18 x55 | s108 => DD x18 x56 | s109 => DD x18 x57 | s110 => DD x18 x58 | s111 => DD x18 x59 | s112 => DD x18 x60 | s113 => DD x18 x61 | s114 => DD x18 x62 | s115 => DD x18 x63 | s116 => DD x19 x0 | s117 => DD x19 x1 | s118 => DD x19 x2 | s119 => DD x19 x3 | s120 => DD x19 x4 | s121 => DD x19 x5 | s122 => DD x19 x6 | s123 => DD x19 x7 | s124 => DD x19 x8 | s125 => DD x19 x9 | s126 => DD x19 x10 end.
Definition m1102 (c : sum2) : dd := match c with s0 => DD x17 x14 | s1 => DD x17 x15 | s2 => DD x17 x16 | s3 => DD x17 x17 | s4 => DD x17 x18 | s5 => DD x17 x19 | s6 => DD x17 x20 | s7 => DD x17 x21 | s8 => DD x17 x22 | s9 => DD x17 x23 | s10 => DD x17 x24 | s11 => DD x17 x25 | s12 => DD x17 x26 | s13 => DD x17 x27 | s14 => DD x17 x28 | s15 => DD x17 x29 | s16 => DD x17 x30 | s17 => DD x17 x31 | s18 => DD x17 x32 | s19 => DD x17 x33 | s20 => DD x17 x34 | s21 => DD x17 x35 | s22 => DD x17 x36 | s23 => DD x17 x37 | s24 => DD x17 x38 | s25 => DD x17 x39 | s26 => DD x17 x40 | s27 => DD x17 x41 | s28 => DD x17 x42 | s29 => DD x17 x43 | s30 => DD x17 x44 | s31 => DD x17 x45 | s32 => DD x17 x46 | s33 => DD x17 x47 | s34 => DD x17 x48 | s35 => DD x17 x49 | s36 => DD x17 x50 | s37 => DD x17 x51 | s38 => DD x17 x52 | s39 => DD x17 x53 | s40 => DD x17 x54 | s41 => DD x17 x55 | s42 => DD x17 x56 | s43 => DD x17 x57 | s44 => DD x17 x58 | s45 => DD x17 x59 | s46 => DD x17 x60 | s47 => DD x17 x61 | s48 => DD x17 x62 | s49 => DD x17 x63 | s50 => DD x18 x0 | s51 => DD x18 x1 | s52 => DD x18 x2 | s53 => DD x18 x3 | s54 => DD x18 x4 | s55 => DD x18 x5 | s56 => DD x18 x6 | s57 => DD x18 x7 | s58 => DD x18 x8 | s59 => DD x18 x9 | s60 => DD x18 x10 | s61 => DD x18 x11 | s62 => DD x18 x12 | s63 => DD x18 x13 | s64 => DD x18 x14 | s65 => DD x18 x15 | s66 => DD x18 x16 | s67 => DD x18 x17 | s68 => DD x18 x18 | s69 => DD x18 x19 | s70 => DD x18 x20 | s71 => DD x18 x21 | s72 => DD x18 x22 | s73 => DD x18 x23 | s74 => DD x18 x24 | s75 => DD x18 x25 | s76 => DD x18 x26 | s77 => DD x18 x27 | s78 => DD x18 x28 | s79 => DD x18 x29 | s80 => DD x18 x30 | s81 => DD x18 x31 | s82 => DD x18 x32 | s83 => DD x18 x33 | s84 => DD x18 x34 | s85 => DD x18 x35 | s86 => DD x18 x36 | s87 => DD x18 x37 | s88 => DD x18 x38 | s89 => DD x18 x39 | s90 => DD x18 x40 | s91 => DD x18 x41 | s92 => DD x18 x42 | s93 => DD x18 x43 | s94 => DD x18 x44 | s95 => DD x18 x45 | s96 => DD x18 x46 | s97 => DD x18 x47 | s98 => DD x18 x48 | s99 => DD x18 x49 | s100 => DD x18 x50 | s101 => DD x18 x51 | s102 => DD x18 x52 | s103 => DD x18 x53 | s104 => DD x18 x54 | s105 => DD x18 x55 | s106 => DD x18 x56 | s107 => DD x18 x57 | s108 => DD x18 x58 | s109 => DD x18 x59 | s110 => DD x18 x60 | s111 => DD x18 x61 | s112 => DD x18 x62 | s113 => DD x18 x63 | s114 => DD x19 x0 | s115 => DD x19 x1 | s116 => DD x19 x2 | s117 => DD x19 x3 | s118 => DD x19 x4 | s119 => DD x19 x5 | s120 => DD x19 x6 | s121 => DD x19 x7 | s122 => DD x19 x8 | s123 => DD x19 x9 | s124 => DD x19 x10 | s125 => DD x19 x11 | s126 => DD x19 x12 end.
Definition m1104 (c : sum2) : dd := match c with s0 => DD x17 x16 | s1 => DD x17 x17 | s2 => DD x17 x18 | s3 => DD x17 x19 | s4 => DD x17 x20 | s5 => DD x17 x21 | s6 => DD x17 x22 | s7 => DD x17 x23 | s8 => DD x17 x24 | s9 => DD x17 x25 | s10 => DD x17 x26 | s11 => DD x17 x27 | s12 => DD x17 x28 | s13 => DD x17 x29 | s14 => DD x17 x30 | s15 => DD x17 x31 | s16 => DD x17 x32 | s17 => DD x17 x33 | s18 => DD x17 x34 | s19 => DD x17 x35 | s20 => DD x17 x36 | s21 => DD x17 x37 | s22 => DD x17 x38 | s23 => DD x17 x39 | s24 => DD x17 x40 | s25 => DD x17 x41 | s26 => DD x17 x42 | s27 => DD x17 x43 | s28 => DD x17 x44 | s29 => DD x17 x45 | s30 => DD x17 x46 | s31 => DD x17 x47 | s32 => DD x17 x48 | s33 => DD x17 x49 | s34 => DD x17 x50 | s35 => DD x17 x51 | s36 => DD x17 x52 | s37 => DD x17 x53 | s38 => DD x17 x54 | s39 => DD x17 x55 | s40 => DD x17 x56 | s41 => DD x17 x57 | s42 => DD x17 x58 | s43 => DD x17 x59 | s44 => DD x17 x60 | s45 => DD x17 x61 | s46 => DD x17 x62 | s47 => DD x17 x63 | s48 => DD x18 x0 | s49 => DD x18 x1 | s50 => DD x18 x2 | s51 => DD x18 x3 | s52 => DD x18 x4 | s53 => DD x18 x5 | s54 => DD x18 x6 | s55 => DD x18 x7 | s56 => DD x18 x8 | s57 => DD x18 x9 | s58 => DD x18 x10 | s59 => DD x18 x11 | s60 => DD x18 x12 | s61 => DD x18 x13 | s62 => DD x18 x14 | s63 => DD x18 x15 | s64 => DD x18 x16 | s65 => DD x18 x17 | s66 => DD x18 x18 | s67 => DD x18 x19 | s68 => DD x18 x20 | s69 => DD x18 x21 | s70 => DD x18 x22 | s71 => DD x18 x23 | s72 => DD x18 x24 | s73 => DD x18 x25 | s74 => DD x18 x26 | s75 => DD x18 x27 | s76 => DD x18 x28 | s77 => DD x18 x29 | s78 => DD x18 x30 | s79 => DD x18 x31 | s80 => DD x18 x32 | s81 => DD x18 x33 | s82 => DD x18 x34 | s83 => DD x18 x35 | s84 => DD x18 x36 | s85 => DD x18 x37 | s86 => DD x18 x38 | s87 => DD x18 x39 | s88 => DD x18 x40 | s89 => DD x18 x41 | s90 => DD x18 x42 | s91 => DD x18 x43 | s92 => DD x18 x44 | s93 => DD x18 x45 | s94 => DD x18 x46 | s95 => DD x18 x47 | s96 => DD x18 x48 | s97 => DD x18 x49 | s98 => DD x18 x50 | s99 => DD x18 x51 | s100 => DD x18 x52 | s101 => DD x18 x53 | s102 => DD x18 x54 | s103 => DD x18 x55 | s104 => DD x18 x56 | s105 => DD x18 x57 | s106 => DD x18 x58 | s107 => DD x18 x59 | s108 => DD x18 x60 | s109 => DD x18 x61 | s110 => DD x18 x62 | s111 => DD x18 x63 | s112 => DD x19 x0 | s113 => DD x19 x1 | s114 => DD x19 x2 | s115 => DD x19 x3 | s116 => DD x19 x4 | s117 => DD x19 x5 | s118 => DD x19 x6 | s119 => DD x19 x7 | s120 => DD x19 x8 | s121 => DD x19 x9 | s122 => DD x19 x10 | s123 => DD x19 x11 | s124 => DD x19 x12 | s125 => DD x19 x13 | s126 => DD x19 x14 end.
Definition m1107 (c : sum2) : dd := match c with s0 => DD x17 x19 | s1 => DD x17 x20 | s2 => DD x17 x21 | s3 => DD x17 x22 | s4 => DD x17 x23 | s5 => DD x17 x24 | s6 => DD x17 x25 | s7 => DD x17 x26 | s8 => DD x17 x27 | s9 => DD x17 x28 | s10 => DD x17 x29 | s11 => DD x17 x30 | s12 => DD x17 x31 | s13 => DD x17 x32 | s14 => DD x17 x33 | s15 => DD x17 x34 | s16 => DD x17 x35 | s17 => DD x17 x36 | s18 => DD x17 x37 | s19 => DD x17 x38 | s20 => DD x17 x39 | s21 => DD x17 x40 | s22 => DD x17 x41 | s23 => DD x17 x42 | s24 => DD x17 x43 | s25 => DD x17 x44 | s26 => DD x17 x45 | s27 => DD x17 x46 | s28 => DD x17 x47 | s29 => DD x17 x48 | s30 => DD x17 x49 | s31 => DD x17 x50 | s32 => DD x17 x51 | s33 => DD x17 x52 | s34 => DD x17 x53 | s35 => DD x17 x54 | s36 => DD x17 x55 | s37 => DD x17 x56 | s38 => DD x17 x57 | s39 => DD x17 x58 | s40 => DD x17 x59 | s41 => DD x17 x60 | s42 => DD x17 x61 | s43 => DD x17 x62 | s44 => DD x17 x63 | s45 => DD x18 x0 | s46 => DD x18 x1 | s47 => DD x18 x2 | s48 => DD x18 x3 | s49 => DD x18 x4 | s50 => DD x18 x5 | s51 => DD x18 x6 | s52 => DD x18 x7 | s53 => DD x18 x8 | s54 => DD x18 x9 | s55 => DD x18 x10 | s56 => DD x18 x11 | s57 => DD x18 x12 | s58 => DD x18 x13 | s59 => DD x18 x14 | s60 => DD x18 x15 | s61 => DD x18 x16 | s62 => DD x18 x17 | s63 => DD x18 x18 | s64 => DD x18 x19 | s65 => DD x18 x20 | s66 => DD x18 x21 | s67 => DD x18 x22 | s68 => DD x18 x23 | s69 => DD x18 x24 | s70 => DD x18 x25 | s71 => DD x18 x26 | s72 => DD x18 x27 | s73 => DD x18 x28 | s74 => DD x18 x29 | s75 => DD x18 x30 | s76 => DD x18 x31 | s77 => DD x18 x32 | s78 => DD x18 x33 | s79 => DD x18 x34 | s80 => DD x18 x35 | s81 => DD x18 x36 | s82 => DD x18 x37 | s83 => DD x18 x38 | s84 => DD x18 x39 | s85 => DD x18 x40 | s86 => DD x18 x41 | s87 => DD x18 x42 | s88 => DD x18 x43 | s89 => DD x18 x44 | s90 => DD x18 x45 | s91 => DD x18 x46 | s92 => DD x18 x47 | s93 => DD x18 x48 | s94 => DD x18 x49 | s95 => DD x18 x50 | s96 => DD x18 x51 | s97 => DD x18 x52 | s98 => DD x18 x53 | s99 => DD x18 x54 | s100 => DD x18 x55 | s101 => DD x18 x56 | s102 => DD x18 x57 | s103 => DD x18 x58 | s104 => DD x18 x59 | s105 => DD x18 x60 | s106 => DD x18 x61 | s107 => DD x18 x62 | s108 => DD x18 x63 | s109 => DD x19 x0 | s110 => DD x19 x1 | s111 => DD x19 x2 | s112 => DD x19 x3 | s113 => DD x19 x4 | s114 => DD x19 x5 | s115 => DD x19 x6 | s116 => DD x19 x7 | s117 => DD x19 x8 | s118 => DD x19 x9 | s119 => DD x19 x10 | s120 => DD x19 x11 | s121 => DD x19 x12 | s122 => DD x19 x13 | s123 => DD x19 x14 | s124 => DD x19 x15 | s125 => DD x19 x16 | s126 => DD x19 x17 end.
Definition m1110 (c : sum2) : dd := match c with s0 => DD x17 x22 | s1 => DD x17 x23 | s2 => DD x17 x24 | s3 => DD x17 x25 | s4 => DD x17 x26 | s5 => DD x17 x27 | s6 => DD x17 x28 | s7 => DD x17 x29 | s8 => DD x17 x30 | s9 => DD x17 x31 | s10 => DD x17 x32 | s11 => DD x17 x33 | s12 => DD x17 x34 | s13 => DD x17 x35 | s14 => DD x17 x36 | s15 => DD x17 x37 | s16 => DD x17 x38 | s17 => DD x17 x39 | s18 => DD x17 x40 | s19 => DD x17 x41 | s20 => DD x17 x42 | s21 => DD x17 x43 | s22 => DD x17 x44 | s23 => DD x17 x45 | s24 => DD x17 x46 | s25 => DD x17 x47 | s26 => DD x17 x48 | s27 => DD x17 x49 | s28 => DD x17 x50 | s29 => DD x17 x51 | s30 => DD x17 x52 | s31 => DD x17 x53 | s32 => DD x17 x54 | s33 => DD x17 x55 | s34 => DD x17 x56 | s35 => DD x17 x57 | s36 => DD x17 x58 | s37 => DD x17 x59 | s38 => DD x17 x60 | s39 => DD x17 x61 | s40 => DD x17 x62 | s41 => DD x17 x63 | s42 => DD x18 x0 | s43 => DD x18 x1 | s44 => DD x18 x2 | s45 => DD x18 x3 | s46 => DD x18 x4 | s47 => DD x18 x5 | s48 => DD x18 x6 | s49 => DD x18 x7 | s50 => DD x18 x8 | s51 => DD x18 x9 | s52 => DD x18 x10 | s53 => DD x18 x11 | s54 => DD x18 x12 | s55 => DD x18 x13 | s56 => DD x18 x14 | s57 => DD x18 x15 | s58 => DD x18 x16 | s59 => DD x18 x17 | s60 => DD x18 x18 | s61 => DD x18 x19 | s62 => DD x18 x20 | s63 => DD x18 x21 | s64 => DD x18 x22 | s65 => DD x18 x23 | s66 => DD x18 x24 | s67 => DD x18 x25 | s68 => DD x18 x26 | s69 => DD x18 x27 | s70 => DD x18 x28 | s71 => DD x18 x29 | s72 => DD x18 x30 | s73 => DD x18 x31 | s74 => DD x18 x32 | s75 => DD x18 x33 | s76 => DD x18 x34 | s77 => DD x18 x35 | s78 => DD x18 x36 | s79 => DD x18 x37 | s80 => DD x18 x38 | s81 => DD x18 x39 | s82 => DD x18 x40 | s83 => DD x18 x41 | s84 => DD x18 x42 | s85 => DD x18 x43 | s86 => DD x18 x44 | s87 => DD x18 x45 | s88 => DD x18 x46 | s89 => DD x18 x47 | s90 => DD x18 x48 | s91 => DD x18 x49 | s92 => DD x18 x50 | s93 => DD x18 x51 | s94 => DD x18 x52 | s95 => DD x18 x53 | s96 => DD x18 x54 | s97 => DD x18 x55 | s98 => DD x18 x56 | s99 => DD x18 x57 | s100 => DD x18 x58 | s101 => DD x18 x59 | s102 => DD x18 x60 | s103 => DD x18 x61 | s104 => DD x18 x62 | s105 => DD x18 x63 | s106 => DD x19 x0 | s107 => DD x19 x1 | s108 => DD x19 x2 | s109 => DD x19 x3 | s110 => DD x19 x4 | s111 => DD x19 x5 | s112 => DD x19 x6 | s113 => DD x19 x7 | s114 => DD x19 x8 | s115 => DD x19 x9 | s116 => DD x19 x10 | s117 => DD x19 x11 | s118 => DD x19 x12 | s119 => DD x19 x13 | s120 => DD x19 x14 | s121 => DD x19 x15 | s122 => DD x19 x16 | s123 => DD x19 x17 | s124 => DD x19 x18 | s125 => DD x19 x19 | s126 => DD x19 x20 end.
Definition m1113 (c : sum2) : dd := match c with s0 => DD x17 x25 | s1 => DD x17 x26 | s2 => DD x17 x27 | s3 => DD x17 x28 | s4 => DD x17 x29 | s5 => DD x17 x30 | s6 => DD x17 x31 | s7 => DD x17 x32 | s8 => DD x17 x33 | s9 => DD x17 x34 | s10 => DD x17 x35 | s11 => DD x17 x36 | s12 => DD x17 x37 | s13 => DD x17 x38 | s14 => DD x17 x39 | s15 => DD x17 x40 | s16 => DD x17 x41 | s17 => DD x17 x42 | s18 => DD x17 x43 | s19 => DD x17 x44 | s20 => DD x17 x45 | s21 => DD x17 x46 | s22 => DD x17 x47 | s23 => DD x17 x48 | s24 => DD x17 x49 | s25 => DD x17 x50 | s26 => DD x17 x51 | s27 => DD x17 x52 | s28 => DD x17 x53 | s29 => DD x17 x54 | s30 => DD x17 x55 | s31 => DD x17 x56 | s32 => DD x17 x57 | s33 => DD x17 x58 | s34 => DD x17 x59 | s35 => DD x17 x60 | s36 => DD x17 x61 | s37 => DD x17 x62 | s38 => DD x17 x63 | s39 => DD x18 x0 | s40 => DD x18 x1 | s41 => DD x18 x2 | s42 => DD x18 x3 | s43 => DD x18 x4 | s44 => DD x18 x5 | s45 => DD x18 x6 | s46 => DD x18 x7 | s47 => DD x18 x8 | s48 => DD x18 x9 | s49 => DD x18 x10 | s50 => DD x18 x11 | s51 => DD x18 x12 | s52 => DD x18 x13 | s53 => DD x18 x14 | s54 => DD x18 x15 | s55 => DD x18 x16 | s56 => DD x18 x17 | s57 => DD x18 x18 | s58 => DD x18 x19 | s59 => DD x18 x20 | s60 => DD x18 x21 | s61 => DD x18 x22 | s62 => DD x18 x23 | s63 => DD x18 x24 | s64 => DD x18 x25 | s65 => DD x18 x26 | s66 => DD x18 x27 | s67 => DD x18 x28 | s68 => DD x18 x29 | s69 => DD x18 x30 | s70 => DD x18 x31 | s71 => DD x18 x32 | s72 => DD x18 x33 | s73 => DD x18 x34 | s74 => DD x18 x35 | s75 => DD x18 x36 | s76 => DD x18 x37 | s77 => DD x18 x38 | s78 => DD x18 x39 | s79 => DD x18 x40 | s80 => DD x18 x41 | s81 => DD x18 x42 | s82 => DD x18 x43 | s83 => DD x18 x44 | s84 => DD x18 x45 | s85 => DD x18 x46 | s86 => DD x18 x47 | s87 => DD x18 x48 | s88 => DD x18 x49 | s89 => DD x18 x50 | s90 => DD x18 x51 | s91 => DD x18 x52 | s92 => DD x18 x53 | s93 => DD x18 x54 | s94 => DD x18 x55 | s95 => DD x18 x56 | s96 => DD x18 x57 | s97 => DD x18 x58 | s98 => DD x18 x59 | s99 => DD x18 x60 | s100 => DD x18 x61 | s101 => DD x18 x62 | s102 => DD x18 x63 | s103 => DD x19 x0 | s104 => DD x19 x1 | s105 => DD x19 x2 | s106 => DD x19 x3 | s107 => DD x19 x4 | s108 => DD x19 x5 | s109 => DD x19 x6 | s110 => DD x19 x7 | s111 => DD x19 x8 | s112 => DD x19 x9 | s113 => DD x19 x10 | s114 => DD x19 x11 | s115 => DD x19 x12 | s116 => DD x19 x13 | s117 => DD x19 x14 | s118 => DD x19 x15 | s119 => DD x19 x16 | s120 => DD x19 x17 | s121 => DD x19 x18 | s122 => DD x19 x19 | s123 => DD x19 x20 | s124 => DD x19 x21 | s125 => DD x19 x22 | s126 => DD x19 x23 end.
Definition m1116 (c : sum2) : dd := match c with s0 => DD x17 x28 | s1 => DD x17 x29 | s2 => DD x17 x30 | s3 => DD x17 x31 | s4 => DD x17 x32 | s5 => DD x17 x33 | s6 => DD x17 x34 | s7 => DD x17 x35 | s8 => DD x17 x36 | s9 => DD x17 x37 | s10 => DD x17 x38 | s11 => DD x17 x39 | s12 => DD x17 x40 | s13 => DD x17 x41 | s14 => DD x17 x42 | s15 => DD x17 x43 | s16 => DD x17 x44 | s17 => DD x17 x45 | s18 => DD x17 x46 | s19 => DD x17 x47 | s20 => DD x17 x48 | s21 => DD x17 x49 | s22 => DD x17 x50 | s23 => DD x17 x51 | s24 => DD x17 x52 | s25 => DD x17 x53 | s26 => DD x17 x54 | s27 => DD x17 x55 | s28 => DD x17 x56 | s29 => DD x17 x57 | s30 => DD x17 x58 | s31 => DD x17 x59 | s32 => DD x17 x60 | s33 => DD x17 x61 | s34 => DD x17 x62 | s35 => DD x17 x63 | s36 => DD x18 x0 | s37 => DD x18 x1 | s38 => DD x18 x2 | s39 => DD x18 x3 | s40 => DD x18 x4 | s41 => DD x18 x5 | s42 => DD x18 x6 | s43 => DD x18 x7 | s44 => DD x18 x8 | s45 => DD x18 x9 | s46 => DD x18 x10 | s47 => DD x18 x11 | s48 => DD x18 x12 | s49 => DD x18 x13 | s50 => DD x18 x14 | s51 => DD x18 x15 | s52 => DD x18 x16 | s53 => DD x18 x17 | s54 => DD x18 x18 | s55 => DD x18 x19 | s56 => DD x18 x20 | s57 => DD x18 x21 | s58 => DD x18 x22 | s59 => DD x18 x23 | s60 => DD x18 x24 | s61 => DD x18 x25 | s62 => DD x18 x26 | s63 => DD x18 x27 | s64 => DD x18 x28 | s65 => DD x18 x29 | s66 => DD x18 x30 | s67 => DD x18 x31 | s68 => DD x18 x32 | s69 => DD x18 x33 | s70 => DD x18 x34 | s71 => DD x18 x35 | s72 => DD x18 x36 | s73 => DD x18 x37 | s74 => DD x18 x38 | s75 => DD x18 x39 | s76 => DD x18 x40 | s77 => DD x18 x41 | s78 => DD x18 x42 | s79 => DD x18 x43 | s80 => DD x18 x44 | s81 => DD x18 x45 | s82 => DD x18 x46 | s83 => DD x18 x47 | s84 => DD x18 x48 | s85 => DD x18 x49 | s86 => DD x18 x50 | s87 => DD x18 x51 | s88 => DD x18 x52 | s89 => DD x18 x53 | s90 => DD x18 x54 | s91 => DD x18 x55 | s92 => DD x18 x56 | s93 => DD x18 x57 | s94 => DD x18 x58 | s95 => DD x18 x59 | s96 => DD x18 x60 | s97 => DD x18 x61 | s98 => DD x18 x62 | s99 => DD x18 x63 | s100 => DD x19 x0 | s101 => DD x19 x1 | s102 => DD x19 x2 | s103 => DD x19 x3 | s104 => DD x19 x4 | s105 => DD x19 x5 | s106 => DD x19 x6 | s107 => DD x19 x7 | s108 => DD x19 x8 | s109 => DD x19 x9 | s110 => DD x19 x10 | s111 => DD x19 x11 | s112 => DD x19 x12 | s113 => DD x19 x13 | s114 => DD x19 x14 | s115 => DD x19 x15 | s116 => DD x19 x16 | s117 => DD x19 x17 | s118 => DD x19 x18 | s119 => DD x19 x19 | s120 => DD x19 x20 | s121 => DD x19 x21 | s122 => DD x19 x22 | s123 => DD x19 x23 | s124 => DD x19 x24 | s125 => DD x19 x25 | s126 => DD x19 x26 end.
Definition m1118 (c : sum2) : dd := match c with s0 => DD x17 x30 | s1 => DD x17 x31 | s2 => DD x17 x32 | s3 => DD x17 x33 | s4 => DD x17 x34 | s5 => DD x17 x35 | s6 => DD x17 x36 | s7 => DD x17 x37 | s8 => DD x17 x38 | s9 => DD x17 x39 | s10 => DD x17 x40 | s11 => DD x17 x41 | s12 => DD x17 x42 | s13 => DD x17 x43 | s14 => DD x17 x44 | s15 => DD x17 x45 | s16 => DD x17 x46 | s17 => DD x17 x47 | s18 => DD x17 x48 | s19 => DD x17 x49 | s20 => DD x17 x50 | s21 => DD x17 x51 | s22 => DD x17 x52 | s23 => DD x17 x53 | s24 => DD x17 x54 | s25 => DD x17 x55 | s26 => DD x17 x56 | s27 => DD x17 x57 | s28 => DD x17 x58 | s29 => DD x17 x59 | s30 => DD x17 x60 | s31 => DD x17 x61 | s32 => DD x17 x62 | s33 => DD x17 x63 | s34 => DD x18 x0 | s35 => DD x18 x1 | s36 => DD x18 x2 | s37 => DD x18 x3 | s38 => DD x18 x4 | s39 => DD x18 x5 | s40 => DD x18 x6 | s41 => DD x18 x7 | s42 => DD x18 x8 | s43 => DD x18 x9 | s44 => DD x18 x10 | s45 => DD x18 x11 | s46 => DD x18 x12 | s47 => DD x18 x13 | s48 => DD x18 x14 | s49 => DD x18 x15 | s50 => DD x18 x16 | s51 => DD x18 x17 | s52 => DD x18 x18 | s53 => DD x18 x19 | s54 => DD x18 x20 | s55 => DD x18 x21 | s56 => DD x18 x22 | s57 => DD x18 x23 | s58 => DD x18 x24 | s59 => DD x18 x25 | s60 => DD x18 x26 | s61 => DD x18 x27 | s62 => DD x18 x28 | s63 => DD x18 x29 | s64 => DD x18 x30 | s65 => DD x18 x31 | s66 => DD x18 x32 | s67 => DD x18 x33 | s68 => DD x18 x34 | s69 => DD x18 x35 | s70 => DD x18 x36 | s71 => DD x18 x37 | s72 => DD x18 x38 | s73 => DD x18 x39 | s74 => DD x18 x40 | s75 => DD x18 x41 | s76 => DD x18 x42 | s77 => DD x18 x43 | s78 => DD x18 x44 | s79 => DD x18 x45 | s80 => DD x18 x46 | s81 => DD x18 x47 | s82 => DD x18 x48 | s83 => DD x18 x49 | s84 => DD x18 x50 | s85 => DD x18 x51 | s86 => DD x18 x52 | s87 => DD x18 x53 | s88 => DD x18 x54 | s89 => DD x18 x55 | s90 => DD x18 x56 | s91 => DD x18 x57 | s92 => DD x18 x58 | s93 => DD x18 x59 | s94 => DD x18 x60 | s95 => DD x18 x61 | s96 => DD x18 x62 | s97 => DD x18 x63 | s98 => DD x19 x0 | s99 => DD x19 x1 | s100 => DD x19 x2 | s101 => DD x19 x3 | s102 => DD x19 x4 | s103 => DD x19 x5 | s104 => DD x19 x6 | s105 => DD x19 x7 | s106 => DD x19 x8 | s107 => DD x19 x9 | s108 => DD x19 x10 | s109 => DD x19 x11 | s110 => DD x19 x12 | s111 => DD x19 x13 | s112 => DD x19 x14 | s113 => DD x19 x15 | s114 => DD x19 x16 | s115 => DD x19 x17 | s116 => DD x19 x18 | s117 => DD x19 x19 | s118 => DD x19 x20 | s119 => DD x19 x21 | s120 => DD x19 x22 | s121 => DD x19 x23 | s122 => DD x19 x24 | s123 => DD x19 x25 | s124 => DD x19 x26 | s125 => DD x19 x27 | s126 => DD x19 x28 end.
Definition m1120 (c : sum2) : dd := match c with s0 => DD x17 x32 | s1 => DD x17 x33 | s2 => DD x17 x34 | s3 => DD x17 x35 | s4 => DD x17 x36 | s5 => DD x17 x37 | s6 => DD x17 x38 | s7 => DD x17 x39 | s8 => DD x17 x40 | s9 => DD x17 x41 | s10 => DD x17 x42 | s11 => DD x17 x43 | s12 => DD x17 x44 | s13 => DD x17 x45 | s14 => DD x17 x46 | s15 => DD x17 x47 | s16 => DD x17 x48 | s17 => DD x17 x49 | s18 => DD x17 x50 | s19 => DD x17 x51 | s20 => DD x17 x52 | s21 => DD x17 x53 | s22 => DD x17 x54 | s23 => DD x17 x55 | s24 => DD x17 x56 | s25 => DD x17 x57 | s26 => DD x17 x58 | s27 => DD x17 x59 | s28 => DD x17 x60 | s29 => DD x17 x61 | s30 => DD x17 x62 | s31 => DD x17 x63 | s32 => DD x18 x0 | s33 => DD x18 x1 | s34 => DD x18 x2 | s35 => DD x18 x3 | s36 => DD x18 x4 | s37 => DD x18 x5 | s38 => DD x18 x6 | s39 => DD x18 x7 | s40 => DD x18 x8 | s41 => DD x18 x9 | s42 => DD x18 x10 | s43 => DD x18 x11 | s44 => DD x18 x12 | s45 => DD x18 x13 | s46 => DD x18 x14 | s47 => DD x18 x15 | s48 => DD x18 x16 | s49 => DD x18 x17 | s50 => DD x18 x18 | s51 => DD x18 x19 | s52 => DD x18 x20 | s53 => DD x18 x21 | s54 => DD x18 x22 | s55 => DD x18 x23 | s56 => DD x18 x24 | s57 => DD x18 x25 | s58 => DD x18 x26 | s59 => DD x18 x27 | s60 => DD x18 x28 | s61 => DD x18 x29 | s62 => DD x18 x30 | s63 => DD x18 x31 | s64 => DD x18 x32 | s65 => DD x18 x33 | s66 => DD x18 x34 | s67 => DD x18 x35 | s68 => DD x18 x36 | s69 => DD x18 x37 | s70 => DD x18 x38 | s71 => DD x18 x39 | s72 => DD x18 x40 | s73 => DD x18 x41 | s74 => DD x18 x42 | s75 => DD x18 x43 | s76 => DD x18 x44 | s77 => DD x18 x45 | s78 => DD x18 x46 | s79 => DD x18 x47 | s80 => DD x18 x48 | s81 => DD x18 x49 | s82 => DD x18 x50 | s83 => DD x18 x51 | s84 => DD x18 x52 | s85 => DD x18 x53 | s86 => DD x18 x54 | s87 => DD x18 x55 | s88 => DD x18 x56 | s89 => DD x18 x57 | s90 => DD x18 x58 | s91 => DD x18 x59 | s92 => DD x18 x60 | s93 => DD x18 x61 | s94 => DD x18 x62 | s95 => DD x18 x63 | s96 => DD x19 x0 | s97 => DD x19 x1 | s98 => DD x19 x2 | s99 => DD x19 x3 | s100 => DD x19 x4 | s101 => DD x19 x5 | s102 => DD x19 x6 | s103 => DD x19 x7 | s104 => DD x19 x8 | s105 => DD x19 x9 | s106 => DD x19 x10 | s107 => DD x19 x11 | s108 => DD x19 x12 | s109 => DD x19 x13 | s110 => DD x19 x14 | s111 => DD x19 x15 | s112 => DD x19 x16 | s113 => DD x19 x17 | s114 => DD x19 x18 | s115 => DD x19 x19 | s116 => DD x19 x20 | s117 => DD x19 x21 | s118 => DD x19 x22 | s119 => DD x19 x23 | s120 => DD x19 x24 | s121 => DD x19 x25 | s122 => DD x19 x26 | s123 => DD x19 x27 | s124 => DD x19 x28 | s125 => DD x19 x29 | s126 => DD x19 x30 end.
Definition m1121 (c : sum2) : dd := match c with s0 => DD x17 x33 | s1 => DD x17 x34 | s2 => DD x17 x35 | s3 => DD x17 x36 | s4 => DD x17 x37 | s5 => DD x17 x38 | s6 => DD x17 x39 | s7 => DD x17 x40 | s8 => DD x17 x41 | s9 => DD x17 x42 | s10 => DD x17 x43 | s11 => DD x17 x44 | s12 => DD x17 x45 | s13 => DD x17 x46 | s14 => DD x17 x47 | s15 => DD x17 x48 | s16 => DD x17 x49 | s17 => DD x17 x50 | s18 => DD x17 x51 | s19 => DD x17 x52 | s20 => DD x17 x53 | s21 => DD x17 x54 | s22 => DD x17 x55 | s23 => DD x17 x56 | s24 => DD x17 x57 | s25 => DD x17 x58 | s26 => DD x17 x59 | s27 => DD x17 x60 | s28 => DD x17 x61 | s29 => DD x17 x62 | s30 => DD x17 x63 | s31 => DD x18 x0 | s32 => DD x18 x1 | s33 => DD x18 x2 | s34 => DD x18 x3 | s35 => DD x18 x4 | s36 => DD x18 x5 | s37 => DD x18 x6 | s38 => DD x18 x7 | s39 => DD x18 x8 | s40 => DD x18 x9 | s41 => DD x18 x10 | s42 => DD x18 x11 | s43 => DD x18 x12 | s44 => DD x18 x13 | s45 => DD x18 x14 | s46 => DD x18 x15 | s47 => DD x18 x16 | s48 => DD x18 x17 | s49 => DD x18 x18 | s50 => DD x18 x19 | s51 => DD x18 x20 | s52 => DD x18 x21 | s53 => DD x18 x22 | s54 => DD x18 x23 | s55 => DD x18 x24 | s56 => DD x18 x25 | s57 => DD x18 x26 | s58 => DD x18 x27 | s59 => DD x18 x28 | s60 => DD x18 x29 | s61 => DD x18 x30 | s62 => DD x18 x31 | s63 => DD x18 x32 | s64 => DD x18 x33 | s65 => DD x18 x34 | s66 => DD x18 x35 | s67 => DD x18 x36 | s68 => DD x18 x37 | s69 => DD x18 x38 | s70 => DD x18 x39 | s71 => DD x18 x40 | s72 => DD x18 x41 | s73 => DD x18 x42 | s74 => DD x18 x43 | s75 => DD x18 x44 | s76 => DD x18 x45 | s77 => DD x18 x46 | s78 => DD x18 x47 | s79 => DD x18 x48 | s80 => DD x18 x49 | s81 => DD x18 x50 | s82 => DD x18 x51 | s83 => DD x18 x52 | s84 => DD x18 x53 | s85 => DD x18 x54 | s86 => DD x18 x55 | s87 => DD x18 x56 | s88 => DD x18 x57 | s89 => DD x18 x58 | s90 => DD x18 x59 | s91 => DD x18 x60 | s92 => DD x18 x61 | s93 => DD x18 x62 | s94 => DD x18 x63 | s95 => DD x19 x0 | s96 => DD x19 x1 | s97 => DD x19 x2 | s98 => DD x19 x3 | s99 => DD x19 x4 | s100 => DD x19 x5 | s101 => DD x19 x6 | s102 => DD x19 x7 | s103 => DD x19 x8 | s104 => DD x19 x9 | s105 => DD x19 x10 | s106 => DD x19 x11 | s107 => DD x19 x12 | s108 => DD x19 x13 | s109 => DD x19 x14 | s110 => DD x19 x15 | s111 => DD x19 x16 | s112 => DD x19 x17 | s113 => DD x19 x18 | s114 => DD x19 x19 | s115 => DD x19 x20 | s116 => DD x19 x21 | s117 => DD x19 x22 | s118 => DD x19 x23 | s119 => DD x19 x24 | s120 => DD x19 x25 | s121 => DD x19 x26 | s122 => DD x19 x27 | s123 => DD x19 x28 | s124 => DD x19 x29 | s125 => DD x19 x30 | s126 => DD x19 x31 end.
Definition m1122 (c : sum2) : dd := match c with s0 => DD x17 x34 | s1 => DD x17 x35 | s2 => DD x17 x36 | s3 => DD x17 x37 | s4 => DD x17 x38 | s5 => DD x17 x39 | s6 => DD x17 x40 | s7 => DD x17 x41 | s8 => DD x17 x42 | s9 => DD x17 x43 | s10 => DD x17 x44 | s11 => DD x17 x45 | s12 => DD x17 x46 | s13 => DD x17 x47 | s14 => DD x17 x48 | s15 => DD x17 x49 | s16 => DD x17 x50 | s17 => DD x17 x51 | s18 => DD x17 x52 | s19 => DD x17 x53 | s20 => DD x17 x54 | s21 => DD x17 x55 | s22 => DD x17 x56 | s23 => DD x17 x57 | s24 => DD x17 x58 | s25 => DD x17 x59 | s26 => DD x17 x60 | s27 => DD x17 x61 | s28 => DD x17 x62 | s29 => DD x17 x63 | s30 => DD x18 x0 | s31 => DD x18 x1 | s32 => DD x18 x2 | s33 => DD x18 x3 | s34 => DD x18 x4 | s35 => DD x18 x5 | s36 => DD x18 x6 | s37 => DD x18 x7 | s38 => DD x18 x8 | s39 => DD x18 x9 | s40 => DD x18 x10 | s41 => DD x18 x11 | s42 => DD x18 x12 | s43 => DD x18 x13 | s44 => DD x18 x14 | s45 => DD x18 x15 | s46 => DD x18 x16 | s47 => DD x18 x17 | s48 => DD x18 x18 | s49 => DD x18 x19 | s50 => DD x18 x20 | s51 => DD x18 x21 | s52 => DD x18 x22 | s53 => DD x18 x23 | s54 => DD x18 x24 | s55 => DD x18 x25 | s56 => DD x18 x26 | s57 => DD x18 x27 | s58 => DD x18 x28 | s59 => DD x18 x29 | s60 => DD x18 x30 | s61 => DD x18 x31 | s62 => DD x18 x32 | s63 => DD x18 x33 | s64 => DD x18 x34 | s65 => DD x18 x35 | s66 => DD x18 x36 | s67 => DD x18 x37 | s68 => DD x18 x38 | s69 => DD x18 x39 | s70 => DD x18 x40 | s71 => DD x18 x41 | s72 => DD x18 x42 | s73 => DD x18 x43 | s74 => DD x18 x44 | s75 => DD x18 x45 | s76 => DD x18 x46 | s77 => DD x18 x47 | s78 => DD x18 x48 | s79 => DD x18 x49 | s80 => DD x18 x50 | s81 => DD x18 x51 | s82 => DD x18 x52 | s83 => DD x18 x53 | s84 => DD x18 x54 | s85 => DD x18 x55 | s86 => DD x18 x56 | s87 => DD x18 x57 | s88 => DD x18 x58 | s89 => DD x18 x59 | s90 => DD x18 x60 | s91 => DD x18 x61 | s92 => DD x18 x62 | s93 => DD x18 x63 | s94 => DD x19 x0 | s95 => DD x19 x1 | s96 => DD x19 x2 | s97 => DD x19 x3 | s98 => DD x19 x4 | s99 => DD x19 x5 | s100 => DD x19 x6 | s101 => DD x19 x7 | s102 => DD x19 x8 | s103 => DD x19 x9 | s104 => DD x19 x10 | s105 => DD x19 x11 | s106 => DD x19 x12 | s107 => DD x19 x13 | s108 => DD x19 x14 | s109 => DD x19 x15 | s110 => DD x19 x16 | s111 => DD x19 x17 | s112 => DD x19 x18 | s113 => DD x19 x19 | s114 => DD x19 x20 | s115 => DD x19 x21 | s116 => DD x19 x22 | s117 => DD x19 x23 | s118 => DD x19 x24 | s119 => DD x19 x25 | s120 => DD x19 x26 | s121 => DD x19 x27 | s122 => DD x19 x28 | s123 => DD x19 x29 | s124 => DD x19 x30 | s125 => DD x19 x31 | s126 => DD x19 x32 end.
Definition m1125 (c : sum2) : dd := match c with s0 => DD x17 x37 | s1 => DD x17 x38 | s2 => DD x17 x39 | s3 => DD x17 x40 | s4 => DD x17 x41 | s5 => DD x17 x42 | s6 => DD x17 x43 | s7 => DD x17 x44 | s8 => DD x17 x45 | s9 => DD x17 x46 | s10 => DD x17 x47 | s11 => DD x17 x48 | s12 => DD x17 x49 | s13 => DD x17 x50 | s14 => DD x17 x51 | s15 => DD x17 x52 | s16 => DD x17 x53 | s17 => DD x17 x54 | s18 => DD x17 x55 | s19 => DD x17 x56 | s20 => DD x17 x57 | s21 => DD x17 x58 | s22 => DD x17 x59 | s23 => DD x17 x60 | s24 => DD x17 x61 | s25 => DD x17 x62 | s26 => DD x17 x63 | s27 => DD x18 x0 | s28 => DD x18 x1 | s29 => DD x18 x2 | s30 => DD x18 x3 | s31 => DD x18 x4 | s32 => DD x18 x5 | s33 => DD x18 x6 | s34 => DD x18 x7 | s35 => DD x18 x8 | s36 => DD x18 x9 | s37 => DD x18 x10 | s38 => DD x18 x11 | s39 => DD x18 x12 | s40 => DD x18 x13 | s41 => DD x18 x14 | s42 => DD x18 x15 | s43 => DD x18 x16 | s44 => DD x18 x17 | s45 => DD x18 x18 | s46 => DD x18 x19 | s47 => DD x18 x20 | s48 => DD x18 x21 | s49 => DD x18 x22 | s50 => DD x18 x23 | s51 => DD x18 x24 | s52 => DD x18 x25 | s53 => DD x18 x26 | s54 => DD x18 x27 | s55 => DD x18 x28 | s56 => DD x18 x29 | s57 => DD x18 x30 | s58 => DD x18 x31 | s59 => DD x18 x32 | s60 => DD x18 x33 | s61 => DD x18 x34 | s62 => DD x18 x35 | s63 => DD x18 x36 | s64 => DD x18 x37 | s65 => DD x18 x38 | s66 => DD x18 x39 | s67 => DD x18 x40 | s68 => DD x18 x41 | s69 => DD x18 x42 | s70 => DD x18 x43 | s71 => DD x18 x44 | s72 => DD x18 x45 | s73 => DD x18 x46 | s74 => DD x18 x47 | s75 => DD x18 x48 | s76 => DD x18 x49 | s77 => DD x18 x50 | s78 => DD x18 x51 | s79 => DD x18 x52 | s80 => DD x18 x53 | s81 => DD x18 x54 | s82 => DD x18 x55 | s83 => DD x18 x56 | s84 => DD x18 x57 | s85 => DD x18 x58 | s86 => DD x18 x59 | s87 => DD x18 x60 | s88 => DD x18 x61 | s89 => DD x18 x62 | s90 => DD x18 x63 | s91 => DD x19 x0 | s92 => DD x19 x1 | s93 => DD x19 x2 | s94 => DD x19 x3 | s95 => DD x19 x4 | s96 => DD x19 x5 | s97 => DD x19 x6 | s98 => DD x19 x7 | s99 => DD x19 x8 | s100 => DD x19 x9 | s101 => DD x19 x10 | s102 => DD x19 x11 | s103 => DD x19 x12 | s104 => DD x19 x13 | s105 => DD x19 x14 | s106 => DD x19 x15 | s107 => DD x19 x16 | s108 => DD x19 x17 | s109 => DD x19 x18 | s110 => DD x19 x19 | s111 => DD x19 x20 | s112 => DD x19 x21 | s113 => DD x19 x22 | s114 => DD x19 x23 | s115 => DD x19 x24 | s116 => DD x19 x25 | s117 => DD x19 x26 | s118 => DD x19 x27 | s119 => DD x19 x28 | s120 => DD x19 x29 | s121 => DD x19 x30 | s122 => DD x19 x31 | s123 => DD x19 x32 | s124 => DD x19 x33 | s125 => DD x19 x34 | s126 => DD x19 x35 end.
Definition m1127 (c : sum2) : dd := match c with s0 => DD x17 x39 | s1 => DD x17 x40 | s2 => DD x17 x41 | s3 => DD x17 x42 | s4 => DD x17 x43 | s5 => DD x17 x44 | s6 => DD x17 x45 | s7 => DD x17 x46 | s8 => DD x17 x47 | s9 => DD x17 x48 | s10 => DD x17 x49 | s11 => DD x17 x50 | s12 => DD x17 x51 | s13 => DD x17 x52 | s14 => DD x17 x53 | s15 => DD x17 x54 | s16 => DD x17 x55 | s17 => DD x17 x56 | s18 => DD x17 x57 | s19 => DD x17 x58 | s20 => DD x17 x59 | s21 => DD x17 x60 | s22 => DD x17 x61 | s23 => DD x17 x62 | s24 => DD x17 x63 | s25 => DD x18 x0 | s26 => DD x18 x1 | s27 => DD x18 x2 | s28 => DD x18 x3 | s29 => DD x18 x4 | s30 => DD x18 x5 | s31 => DD x18 x6 | s32 => DD x18 x7 | s33 => DD x18 x8 | s34 => DD x18 x9 | s35 => DD x18 x10 | s36 => DD x18 x11 | s37 => DD x18 x12 | s38 => DD x18 x13 | s39 => DD x18 x14 | s40 => DD x18 x15 | s41 => DD x18 x16 | s42 => DD x18 x17 | s43 => DD x18 x18 | s44 => DD x18 x19 | s45 => DD x18 x20 | s46 => DD x18 x21 | s47 => DD x18 x22 | s48 => DD x18 x23 | s49 => DD x18 x24 | s50 => DD x18 x25 | s51 => DD x18 x26 | s52 => DD x18 x27 | s53 => DD x18 x28 | s54 => DD x18 x29 | s55 => DD x18 x30 | s56 => DD x18 x31 | s57 => DD x18 x32 | s58 => DD x18 x33 | s59 => DD x18 x34 | s60 => DD x18 x35 | s61 => DD x18 x36 | s62 => DD x18 x37 | s63 => DD x18 x38 | s64 => DD x18 x39 | s65 => DD x18 x40 | s66 => DD x18 x41 | s67 => DD x18 x42 | s68 => DD x18 x43 | s69 => DD x18 x44 | s70 => DD x18 x45 | s71 => DD x18 x46 | s72 => DD x18 x47 | s73 => DD x18 x48 | s74 => DD x18 x49 | s75 => DD x18 x50 | s76 => DD x18 x51 | s77 => DD x18 x52 | s78 => DD x18 x53 | s79 => DD x18 x54 | s80 => DD x18 x55 | s81 => DD x18 x56 | s82 => DD x18 x57 | s83 => DD x18 x58 | s84 => DD x18 x59 | s85 => DD x18 x60 | s86 => DD x18 x61 | s87 => DD x18 x62 | s88 => DD x18 x63 | s89 => DD x19 x0 | s90 => DD x19 x1 | s91 => DD x19 x2 | s92 => DD x19 x3 | s93 => DD x19 x4 | s94 => DD x19 x5 | s95 => DD x19 x6 | s96 => DD x19 x7 | s97 => DD x19 x8 | s98 => DD x19 x9 | s99 => DD x19 x10 | s100 => DD x19 x11 | s101 => DD x19 x12 | s102 => DD x19 x13 | s103 => DD x19 x14 | s104 => DD x19 x15 | s105 => DD x19 x16 | s106 => DD x19 x17 | s107 => DD x19 x18 | s108 => DD x19 x19 | s109 => DD x19 x20 | s110 => DD x19 x21 | s111 => DD x19 x22 | s112 => DD x19 x23 | s113 => DD x19 x24 | s114 => DD x19 x25 | s115 => DD x19 x26 | s116 => DD x19 x27 | s117 => DD x19 x28 | s118 => DD x19 x29 | s119 => DD x19 x30 | s120 => DD x19 x31 | s121 => DD x19 x32 | s122 => DD x19 x33 | s123 => DD x19 x34 | s124 => DD x19 x35 | s125 => DD x19 x36 | s126 => DD x19 x37 end.
Definition m1128 (c : sum2) : dd := match c with s0 => DD x17 x40 | s1 => DD x17 x41 | s2 => DD x17 x42 | s3 => DD x17 x43 | s4 => DD x17 x44 | s5 => DD x17 x45 | s6 => DD x17 x46 | s7 => DD x17 x47 | s8 => DD x17 x48 | s9 => DD x17 x49 | s10 => DD x17 x50 | s11 => DD x17 x51 | s12 => DD x17 x52 | s13 => DD x17 x53 | s14 => DD x17 x54 | s15 => DD x17 x55 | s16 => DD x17 x56 | s17 => DD x17 x57 | s18 => DD x17 x58 | s19 => DD x17 x59 | s20 => DD x17 x60 | s21 => DD x17 x61 | s22 => DD x17 x62 | s23 => DD x17 x63 | s24 => DD x18 x0 | s25 => DD x18 x1 | s26 => DD x18 x2 | s27 => DD x18 x3 | s28 => DD x18 x4 | s29 => DD x18 x5 | s30 => DD x18 x6 | s31 => DD x18 x7 | s32 => DD x18 x8 | s33 => DD x18 x9 | s34 => DD x18 x10 | s35 => DD x18 x11 | s36 => DD x18 x12 | s37 => DD x18 x13 | s38 => DD x18 x14 | s39 => DD x18 x15 | s40 => DD x18 x16 | s41 => DD x18 x17 | s42 => DD x18 x18 | s43 => DD x18 x19 | s44 => DD x18 x20 | s45 => DD x18 x21 | s46 => DD x18 x22 | s47 => DD x18 x23 | s48 => DD x18 x24 | s49 => DD x18 x25 | s50 => DD x18 x26 | s51 => DD x18 x27 | s52 => DD x18 x28 | s53 => DD x18 x29 | s54 => DD x18 x30 | s55 => DD x18 x31 | s56 => DD x18 x32 | s57 => DD x18 x33 | s58 => DD x18 x34 | s59 => DD x18 x35 | s60 => DD x18 x36 | s61 => DD x18 x37 | s62 => DD x18 x38 | s63 => DD x18 x39 | s64 => DD x18 x40 | s65 => DD x18 x41 | s66 => DD x18 x42 | s67 => DD x18 x43 | s68 => DD x18 x44 | s69 => DD x18 x45 | s70 => DD x18 x46 | s71 => DD x18 x47 | s72 => DD x18 x48 | s73 => DD x18 x49 | s74 => DD x18 x50 | s75 => DD x18 x51 | s76 => DD x18 x52 | s77 => DD x18 x53 | s78 => DD x18 x54 | s79 => DD x18 x55 | s80 => DD x18 x56 | s81 => DD x18 x57 | s82 => DD x18 x58 | s83 => DD x18 x59 | s84 => DD x18 x60 | s85 => DD x18 x61 | s86 => DD x18 x62 | s87 => DD x18 x63 | s88 => DD x19 x0 | s89 => DD x19 x1 | s90 => DD x19 x2 | s91 => DD x19 x3 | s92 => DD x19 x4 | s93 => DD x19 x5 | s94 => DD x19 x6 | s95 => DD x19 x7 | s96 => DD x19 x8 | s97 => DD x19 x9 | s98 => DD x19 x10 | s99 => DD x19 x11 | s100 => DD x19 x12 | s101 => DD x19 x13 | s102 => DD x19 x14 | s103 => DD x19 x15 | s104 => DD x19 x16 | s105 => DD x19 x17 | s106 => DD x19 x18 | s107 => DD x19 x19 | s108 => DD x19 x20 | s109 => DD x19 x21 | s110 => DD x19 x22 | s111 => DD x19 x23 | s112 => DD x19 x24 | s113 => DD x19 x25 | s114 => DD x19 x26 | s115 => DD x19 x27 | s116 => DD x19 x28 | s117 => DD x19 x29 | s118 => DD x19 x30 | s119 => DD x19 x31 | s120 => DD x19 x32 | s121 => DD x19 x33 | s122 => DD x19 x34 | s123 => DD x19 x35 | s124 => DD x19 x36 | s125 => DD x19 x37 | s126 => DD x19 x38 end.
Definition m1131 (c : sum2) : dd := match c with s0 => DD x17 x43 | s1 => DD x17 x44 | s2 => DD x17 x45 | s3 => DD x17 x46 | s4 => DD x17 x47 | s5 => DD x17 x48 | s6 => DD x17 x49 | s7 => DD x17 x50 | s8 => DD x17 x51 | s9 => DD x17 x52 | s10 => DD x17 x53 | s11 => DD x17 x54 | s12 => DD x17 x55 | s13 => DD x17 x56 | s14 => DD x17 x57 | s15 => DD x17 x58 | s16 => DD x17 x59 | s17 => DD x17 x60 | s18 => DD x17 x61 | s19 => DD x17 x62 | s20 => DD x17 x63 | s21 => DD x18 x0 | s22 => DD x18 x1 | s23 => DD x18 x2 | s24 => DD x18 x3 | s25 => DD x18 x4 | s26 => DD x18 x5 | s27 => DD x18 x6 | s28 => DD x18 x7 | s29 => DD x18 x8 | s30 => DD x18 x9 | s31 => DD x18 x10 | s32 => DD x18 x11 | s33 => DD x18 x12 | s34 => DD x18 x13 | s35 => DD x18 x14 | s36 => DD x18 x15 | s37 => DD x18 x16 | s38 => DD x18 x17 | s39 => DD x18 x18 | s40 => DD x18 x19 | s41 => DD x18 x20 | s42 => DD x18 x21 | s43 => DD x18 x22 | s44 => DD x18 x23 | s45 => DD x18 x24 | s46 => DD x18 x25 | s47 => DD x18 x26 | s48 => DD x18 x27 | s49 => DD x18 x28 | s50 => DD x18 x29 | s51 => DD x18 x30 | s52 => DD x18 x31 | s53 => DD x18 x32 | s54 => DD x18 x33 | s55 => DD x18 x34 | s56 => DD x18 x35 | s57 => DD x18 x36 | s58 => DD x18 x37 | s59 => DD x18 x38 | s60 => DD x18 x39 | s61 => DD x18 x40 | s62 => DD x18 x41 | s63 => DD x18 x42 | s64 => DD x18 x43 | s65 => DD x18 x44 | s66 => DD x18 x45 | s67 => DD x18 x46 | s68 => DD x18 x47 | s69 => DD x18 x48 | s70 => DD x18 x49 | s71 => DD x18 x50 | s72 => DD x18 x51 | s73 => DD x18 x52 | s74 => DD x18 x53 | s75 => DD x18 x54 | s76 => DD x18 x55 | s77 => DD x18 x56 | s78 => DD x18 x57 | s79 => DD x18 x58 | s80 => DD x18 x59 | s81 => DD x18 x60 | s82 => DD x18 x61 | s83 => DD x18 x62 | s84 => DD x18 x63 | s85 => DD x19 x0 | s86 => DD x19 x1 | s87 => DD x19 x2 | s88 => DD x19 x3 | s89 => DD x19 x4 | s90 => DD x19 x5 | s91 => DD x19 x6 | s92 => DD x19 x7 | s93 => DD x19 x8 | s94 => DD x19 x9 | s95 => DD x19 x10 | s96 => DD x19 x11 | s97 => DD x19 x12 | s98 => DD x19 x13 | s99 => DD x19 x14 | s100 => DD x19 x15 | s101 => DD x19 x16 | s102 => DD x19 x17 | s103 => DD x19 x18 | s104 => DD x19 x19 | s105 => DD x19 x20 | s106 => DD x19 x21 | s107 => DD x19 x22 | s108 => DD x19 x23 | s109 => DD x19 x24 | s110 => DD x19 x25 | s111 => DD x19 x26 | s112 => DD x19 x27 | s113 => DD x19 x28 | s114 => DD x19 x29 | s115 => DD x19 x30 | s116 => DD x19 x31 | s117 => DD x19 x32 | s118 => DD x19 x33 | s119 => DD x19 x34 | s120 => DD x19 x35 | s121 => DD x19 x36 | s122 => DD x19 x37 | s123 => DD x19 x38 | s124 => DD x19 x39 | s125 => DD x19 x40 | s126 => DD x19 x41 end.
Definition m1134 (c : sum2) : dd := match c with s0 => DD x17 x46 | s1 => DD x17 x47 | s2 => DD x17 x48 | s3 => DD x17 x49 | s4 => DD x17 x50 | s5 => DD x17 x51 | s6 => DD x17 x52 | s7 => DD x17 x53 | s8 => DD x17 x54 | s9 => DD x17 x55 | s10 => DD x17 x56 | s11 => DD x17 x57 | s12 => DD x17 x58 | s13 => DD x17 x59 | s14 => DD x17 x60 | s15 => DD x17 x61 | s16 => DD x17 x62 | s17 => DD x17 x63 | s18 => DD x18 x0 | s19 => DD x18 x1 | s20 => DD x18 x2 | s21 => DD x18 x3 | s22 => DD x18 x4 | s23 => DD x18 x5 | s24 => DD x18 x6 | s25 => DD x18 x7 | s26 => DD x18 x8 | s27 => DD x18 x9 | s28 => DD x18 x10 | s29 => DD x18 x11 | s30 => DD x18 x12 | s31 => DD x18 x13 | s32 => DD x18 x14 | s33 => DD x18 x15 | s34 => DD x18 x16 | s35 => DD x18 x17 | s36 => DD x18 x18 | s37 => DD x18 x19 | s38 => DD x18 x20 | s39 => DD x18 x21 | s40 => DD x18 x22 | s41 => DD x18 x23 | s42 => DD x18 x24 | s43 => DD x18 x25 | s44 => DD x18 x26 | s45 => DD x18 x27 | s46 => DD x18 x28 | s47 => DD x18 x29 | s48 => DD x18 x30 | s49 => DD x18 x31 | s50 => DD x18 x32 | s51 => DD x18 x33 | s52 => DD x18 x34 | s53 => DD x18 x35 | s54 => DD x18 x36 | s55 => DD x18 x37 | s56 => DD x18 x38 | s57 => DD x18 x39 | s58 => DD x18 x40 | s59 => DD x18 x41 | s60 => DD x18 x42 | s61 => DD x18 x43 | s62 => DD x18 x44 | s63 => DD x18 x45 | s64 => DD x18 x46 | s65 => DD x18 x47 | s66 => DD x18 x48 | s67 => DD x18 x49 | s68 => DD x18 x50 | s69 => DD x18 x51 | s70 => DD x18 x52 | s71 => DD x18 x53 | s72 => DD x18 x54 | s73 => DD x18 x55 | s74 => DD x18 x56 | s75 => DD x18 x57 | s76 => DD x18 x58 | s77 => DD x18 x59 | s78 => DD x18 x60 | s79 => DD x18 x61 | s80 => DD x18 x62 | s81 => DD x18 x63 | s82 => DD x19 x0 | s83 => DD x19 x1 | s84 => DD x19 x2 | s85 => DD x19 x3 | s86 => DD x19 x4 | s87 => DD x19 x5 | s88 => DD x19 x6 | s89 => DD x19 x7 | s90 => DD x19 x8 | s91 => DD x19 x9 | s92 => DD x19 x10 | s93 => DD x19 x11 | s94 => DD x19 x12 | s95 => DD x19 x13 | s96 => DD x19 x14 | s97 => DD x19 x15 | s98 => DD x19 x16 | s99 => DD x19 x17 | s100 => DD x19 x18 | s101 => DD x19 x19 | s102 => DD x19 x20 | s103 => DD x19 x21 | s104 => DD x19 x22 | s105 => DD x19 x23 | s106 => DD x19 x24 | s107 => DD x19 x25 | s108 => DD x19 x26 | s109 => DD x19 x27 | s110 => DD x19 x28 | s111 => DD x19 x29 | s112 => DD x19 x30 | s113 => DD x19 x31 | s114 => DD x19 x32 | s115 => DD x19 x33 | s116 => DD x19 x34 | s117 => DD x19 x35 | s118 => DD x19 x36 | s119 => DD x19 x37 | s120 => DD x19 x38 | s121 => DD x19 x39 | s122 => DD x19 x40 | s123 => DD x19 x41 | s124 => DD x19 x42 | s125 => DD x19 x43 | s126 => DD x19 x44 end.
Definition m1140 (c : sum2) : dd := match c with s0 => DD x17 x52 | s1 => DD x17 x53 | s2 => DD x17 x54 | s3 => DD x17 x55 | s4 => DD x17 x56 | s5 => DD x17 x57 | s6 => DD x17 x58 | s7 => DD x17 x59 | s8 => DD x17 x60 | s9 => DD x17 x61 | s10 => DD x17 x62 | s11 => DD x17 x63 | s12 => DD x18 x0 | s13 => DD x18 x1 | s14 => DD x18 x2 | s15 => DD x18 x3 | s16 => DD x18 x4 | s17 => DD x18 x5 | s18 => DD x18 x6 | s19 => DD x18 x7 | s20 => DD x18 x8 | s21 => DD x18 x9 | s22 => DD x18 x10 | s23 => DD x18 x11 | s24 => DD x18 x12 | s25 => DD x18 x13 | s26 => DD x18 x14 | s27 => DD x18 x15 | s28 => DD x18 x16 | s29 => DD x18 x17 | s30 => DD x18 x18 | s31 => DD x18 x19 | s32 => DD x18 x20 | s33 => DD x18 x21 | s34 => DD x18 x22 | s35 => DD x18 x23 | s36 => DD x18 x24 | s37 => DD x18 x25 | s38 => DD x18 x26 | s39 => DD x18 x27 | s40 => DD x18 x28 | s41 => DD x18 x29 | s42 => DD x18 x30 | s43 => DD x18 x31 | s44 => DD x18 x32 | s45 => DD x18 x33 | s46 => DD x18 x34 | s47 => DD x18 x35 | s48 => DD x18 x36 | s49 => DD x18 x37 | s50 => DD x18 x38 | s51 => DD x18 x39 | s52 => DD x18 x40 | s53 => DD x18 x41 | s54 => DD x18 x42 | s55 => DD x18 x43 | s56 => DD x18 x44 | s57 => DD x18 x45 | s58 => DD x18 x46 | s59 => DD x18 x47 | s60 => DD x18 x48 | s61 => DD x18 x49 | s62 => DD x18 x50 | s63 => DD x18 x51 | s64 => DD x18 x52 | s65 => DD x18 x53 | s66 => DD x18 x54 | s67 => DD x18 x55 | s68 => DD x18 x56 | s69 => DD x18 x57 | s70 => DD x18 x58 | s71 => DD x18 x59 | s72 => DD x18 x60 | s73 => DD x18 x61 | s74 => DD x18 x62 | s75 => DD x18 x63 | s76 => DD x19 x0 | s77 => DD x19 x1 | s78 => DD x19 x2 | s79 => DD x19 x3 | s80 => DD x19 x4 | s81 => DD x19 x5 | s82 => DD x19 x6 | s83 => DD x19 x7 | s84 => DD x19 x8 | s85 => DD x19 x9 | s86 => DD x19 x10 | s87 => DD x19 x11 | s88 => DD x19 x12 | s89 => DD x19 x13 | s90 => DD x19 x14 | s91 => DD x19 x15 | s92 => DD x19 x16 | s93 => DD x19 x17 | s94 => DD x19 x18 | s95 => DD x19 x19 | s96 => DD x19 x20 | s97 => DD x19 x21 | s98 => DD x19 x22 | s99 => DD x19 x23 | s100 => DD x19 x24 | s101 => DD x19 x25 | s102 => DD x19 x26 | s103 => DD x19 x27 | s104 => DD x19 x28 | s105 => DD x19 x29 | s106 => DD x19 x30 | s107 => DD x19 x31 | s108 => DD x19 x32 | s109 => DD x19 x33 | s110 => DD x19 x34 | s111 => DD x19 x35 | s112 => DD x19 x36 | s113 => DD x19 x37 | s114 => DD x19 x38 | s115 => DD x19 x39 | s116 => DD x19 x40 | s117 => DD x19 x41 | s118 => DD x19 x42 | s119 => DD x19 x43 | s120 => DD x19 x44 | s121 => DD x19 x45 | s122 => DD x19 x46 | s123 => DD x19 x47 | s124 => DD x19 x48 | s125 => DD x19 x49 | s126 => DD x19 x50 end.
Definition m1144 (c : sum2) : dd := match c with s0 => DD x17 x56 | s1 => DD x17 x57 | s2 => DD x17 x58 | s3 => DD x17 x59 | s4 => DD x17 x60 | s5 => DD x17 x61 | s6 => DD x17 x62 | s7 => DD x17 x63 | s8 => DD x18 x0 | s9 => DD x18 x1 | s10 => DD x18 x2 | s11 => DD x18 x3 | s12 => DD x18 x4 | s13 => DD x18 x5 | s14 => DD x18 x6 | s15 => DD x18 x7 | s16 => DD x18 x8 | s17 => DD x18 x9 | s18 => DD x18 x10 | s19 => DD x18 x11 | s20 => DD x18 x12 | s21 => DD x18 x13 | s22 => DD x18 x14 | s23 => DD x18 x15 | s24 => DD x18 x16 | s25 => DD x18 x17 | s26 => DD x18 x18 | s27 => DD x18 x19 | s28 => DD x18 x20 | s29 => DD x18 x21 | s30 => DD x18 x22 | s31 => DD x18 x23 | s32 => DD x18 x24 | s33 => DD x18 x25 | s34 => DD x18 x26 | s35 => DD x18 x27 | s36 => DD x18 x28 | s37 => DD x18 x29 | s38 => DD x18 x30 | s39 => DD x18 x31 | s40 => DD x18 x32 | s41 => DD x18 x33 | s42 => DD x18 x34 | s43 => DD x18 x35 | s44 => DD x18 x36 | s45 => DD x18 x37 | s46 => DD x18 x38 | s47 => DD x18 x39 | s48 => DD x18 x40 | s49 => DD x18 x41 | s50 => DD x18 x42 | s51 => DD x18 x43 | s52 => DD x18 x44 | s53 => DD x18 x45 | s54 => DD x18 x46 | s55 => DD x18 x47 | s56 => DD x18 x48 | s57 => DD x18 x49 | s58 => DD x18 x50 | s59 => DD x18 x51 | s60 => DD x18 x52 | s61 => DD x18 x53 | s62 => DD x18 x54 | s63 => DD x18 x55 | s64 => DD x18 x56 | s65 => DD x18 x57 | s66 => DD x18 x58 | s67 => DD x18 x59 | s68 => DD x18 x60 | s69 => DD x18 x61 | s70 => DD x18 x62 | s71 => DD x18 x63 | s72 => DD x19 x0 | s73 => DD x19 x1 | s74 => DD x19 x2 | s75 => DD x19 x3 | s76 => DD x19 x4 | s77 => DD x19 x5 | s78 => DD x19 x6 | s79 => DD x19 x7 | s80 => DD x19 x8 | s81 => DD x19 x9 | s82 => DD x19 x10 | s83 => DD x19 x11 | s84 => DD x19 x12 | s85 => DD x19 x13 | s86 => DD x19 x14 | s87 => DD x19 x15 | s88 => DD x19 x16 | s89 => DD x19 x17 | s90 => DD x19 x18 | s91 => DD x19 x19 | s92 => DD x19 x20 | s93 => DD x19 x21 | s94 => DD x19 x22 | s95 => DD x19 x23 | s96 => DD x19 x24 | s97 => DD x19 x25 | s98 => DD x19 x26 | s99 => DD x19 x27 | s100 => DD x19 x28 | s101 => DD x19 x29 | s102 => DD x19 x30 | s103 => DD x19 x31 | s104 => DD x19 x32 | s105 => DD x19 x33 | s106 => DD x19 x34 | s107 => DD x19 x35 | s108 => DD x19 x36 | s109 => DD x19 x37 | s110 => DD x19 x38 | s111 => DD x19 x39 | s112 => DD x19 x40 | s113 => DD x19 x41 | s114 => DD x19 x42 | s115 => DD x19 x43 | s116 => DD x19 x44 | s117 => DD x19 x45 | s118 => DD x19 x46 | s119 => DD x19 x47 | s120 => DD x19 x48 | s121 => DD x19 x49 | s122 => DD x19 x50 | s123 => DD x19 x51 | s124 => DD x19 x52 | s125 => DD x19 x53 | s126 => DD x19 x54 end.
Definition m1147 (c : sum2) : dd := match c with s0 => DD x17 x59 | s1 => DD x17 x60 | s2 => DD x17 x61 | s3 => DD x17 x62 | s4 => DD x17 x63 | s5 => DD x18 x0 | s6 => DD x18 x1 | s7 => DD x18 x2 | s8 => DD x18 x3 | s9 => DD x18 x4 | s10 => DD x18 x5 | s11 => DD x18 x6 | s12 => DD x18 x7 | s13 => DD x18 x8 | s14 => DD x18 x9 | s15 => DD x18 x10 | s16 => DD x18 x11 | s17 => DD x18 x12 | s18 => DD x18 x13 | s19 => DD x18 x14 | s20 => DD x18 x15 | s21 => DD x18 x16 | s22 => DD x18 x17 | s23 => DD x18 x18 | s24 => DD x18 x19 | s25 => DD x18 x20 | s26 => DD x18 x21 | s27 => DD x18 x22 | s28 => DD x18 x23 | s29 => DD x18 x24 | s30 => DD x18 x25 | s31 => DD x18 x26 | s32 => DD x18 x27 | s33 => DD x18 x28 | s34 => DD x18 x29 | s35 => DD x18 x30 | s36 => DD x18 x31 | s37 => DD x18 x32 | s38 => DD x18 x33 | s39 => DD x18 x34 | s40 => DD x18 x35 | s41 => DD x18 x36 | s42 => DD x18 x37 | s43 => DD x18 x38 | s44 => DD x18 x39 | s45 => DD x18 x40 | s46 => DD x18 x41 | s47 => DD x18 x42 | s48 => DD x18 x43 | s49 => DD x18 x44 | s50 => DD x18 x45 | s51 => DD x18 x46 | s52 => DD x18 x47 | s53 => DD x18 x48 | s54 => DD x18 x49 | s55 => DD x18 x50 | s56 => DD x18 x51 | s57 => DD x18 x52 | s58 => DD x18 x53 | s59 => DD x18 x54 | s60 => DD x18 x55 | s61 => DD x18 x56 | s62 => DD x18 x57 | s63 => DD x18 x58 | s64 => DD x18 x59 | s65 => DD x18 x60 | s66 => DD x18 x61 | s67 => DD x18 x62 | s68 => DD x18 x63 | s69 => DD x19 x0 | s70 => DD x19 x1 | s71 => DD x19 x2 | s72 => DD x19 x3 | s73 => DD x19 x4 | s74 => DD x19 x5 | s75 => DD x19 x6 | s76 => DD x19 x7 | s77 => DD x19 x8 | s78 => DD x19 x9 | s79 => DD x19 x10 | s80 => DD x19 x11 | s81 => DD x19 x12 | s82 => DD x19 x13 | s83 => DD x19 x14 | s84 => DD x19 x15 | s85 => DD x19 x16 | s86 => DD x19 x17 | s87 => DD x19 x18 | s88 => DD x19 x19 | s89 => DD x19 x20 | s90 => DD x19 x21 | s91 => DD x19 x22 | s92 => DD x19 x23 | s93 => DD x19 x24 | s94 => DD x19 x25 | s95 => DD x19 x26 | s96 => DD x19 x27 | s97 => DD x19 x28 | s98 => DD x19 x29 | s99 => DD x19 x30 | s100 => DD x19 x31 | s101 => DD x19 x32 | s102 => DD x19 x33 | s103 => DD x19 x34 | s104 => DD x19 x35 | s105 => DD x19 x36 | s106 => DD x19 x37 | s107 => DD x19 x38 | s108 => DD x19 x39 | s109 => DD x19 x40 | s110 => DD x19 x41 | s111 => DD x19 x42 | s112 => DD x19 x43 | s113 => DD x19 x44 | s114 => DD x19 x45 | s115 => DD x19 x46 | s116 => DD x19 x47 | s117 => DD x19 x48 | s118 => DD x19 x49 | s119 => DD x19 x50 | s120 => DD x19 x51 | s121 => DD x19 x52 | s122 => DD x19 x53 | s123 => DD x19 x54 | s124 => DD x19 x55 | s125 => DD x19 x56 | s126 => DD x19 x57 end.
Definition m1148 (c : sum2) : dd := match c with s0 => DD x17 x60 | s1 => DD x17 x61 | s2 => DD x17 x62 | s3 => DD x17 x63 | s4 => DD x18 x0 | s5 => DD x18 x1 | s6 => DD x18 x2 | s7 => DD x18 x3 | s8 => DD x18 x4 | s9 => DD x18 x5 | s10 => DD x18 x6 | s11 => DD x18 x7 | s12 => DD x18 x8 | s13 => DD x18 x9 | s14 => DD x18 x10 | s15 => DD x18 x11 | s16 => DD x18 x12 | s17 => DD x18 x13 | s18 => DD x18 x14 | s19 => DD x18 x15 | s20 => DD x18 x16 | s21 => DD x18 x17 | s22 => DD x18 x18 | s23 => DD x18 x19 | s24 => DD x18 x20 | s25 => DD x18 x21 | s26 => DD x18 x22 | s27 => DD x18 x23 | s28 => DD x18 x24 | s29 => DD x18 x25 | s30 => DD x18 x26 | s31 => DD x18 x27 | s32 => DD x18 x28 | s33 => DD x18 x29 | s34 => DD x18 x30 | s35 => DD x18 x31 | s36 => DD x18 x32 | s37 => DD x18 x33 | s38 => DD x18 x34 | s39 => DD x18 x35 | s40 => DD x18 x36 | s41 => DD x18 x37 | s42 => DD x18 x38 | s43 => DD x18 x39 | s44 => DD x18 x40 | s45 => DD x18 x41 | s46 => DD x18 x42 | s47 => DD x18 x43 | s48 => DD x18 x44 | s49 => DD x18 x45 | s50 => DD x18 x46 | s51 => DD x18 x47 | s52 => DD x18 x48 | s53 => DD x18 x49 | s54 => DD x18 x50 | s55 => DD x18 x51 | s56 => DD x18 x52 | s57 => DD x18 x53 | s58 => DD x18 x54 | s59 => DD x18 x55 | s60 => DD x18 x56 | s61 => DD x18 x57 | s62 => DD x18 x58 | s63 => DD x18 x59 | s64 => DD x18 x60 | s65 => DD x18 x61 | s66 => DD x18 x62 | s67 => DD x18 x63 | s68 => DD x19 x0 | s69 => DD x19 x1 | s70 => DD x19 x2 | s71 => DD x19 x3 | s72 => DD x19 x4 | s73 => DD x19 x5 | s74 => DD x19 x6 | s75 => DD x19 x7 | s76 => DD x19 x8 | s77 => DD x19 x9 | s78 => DD x19 x10 | s79 => DD x19 x11 | s80 => DD x19 x12 | s81 => DD x19 x13 | s82 => DD x19 x14 | s83 => DD x19 x15 | s84 => DD x19 x16 | s85 => DD x19 x17 | s86 => DD x19 x18 | s87 => DD x19 x19 | s88 => DD x19 x20 | s89 => DD x19 x21 | s90 => DD x19 x22 | s91 => DD x19 x23 | s92 => DD x19 x24 | s93 => DD x19 x25 | s94 => DD x19 x26 | s95 => DD x19 x27 | s96 => DD x19 x28 | s97 => DD x19 x29 | s98 => DD x19 x30 | s99 => DD x19 x31 | s100 => DD x19 x32 | s101 => DD x19 x33 | s102 => DD x19 x34 | s103 => DD x19 x35 | s104 => DD x19 x36 | s105 => DD x19 x37 | s106 => DD x19 x38 | s107 => DD x19 x39 | s108 => DD x19 x40 | s109 => DD x19 x41 | s110 => DD x19 x42 | s111 => DD x19 x43 | s112 => DD x19 x44 | s113 => DD x19 x45 | s114 => DD x19 x46 | s115 => DD x19 x47 | s116 => DD x19 x48 | s117 => DD x19 x49 | s118 => DD x19 x50 | s119 => DD x19 x51 | s120 => DD x19 x52 | s121 => DD x19 x53 | s122 => DD x19 x54 | s123 => DD x19 x55 | s124 => DD x19 x56 | s125 => DD x19 x57 | s126 => DD x19 x58 end.
Definition m1150 (c : sum2) : dd := match c with s0 => DD x17 x62 | s1 => DD x17 x63 | s2 => DD x18 x0 | s3 => DD x18 x1 | s4 => DD x18 x2 | s5 => DD x18 x3 | s6 => DD x18 x4 | s7 => DD x18 x5 | s8 => DD x18 x6 | s9 => DD x18 x7 | s10 => DD x18 x8 | s11 => DD x18 x9 | s12 => DD x18 x10 | s13 => DD x18 x11 | s14 => DD x18 x12 | s15 => DD x18 x13 | s16 => DD x18 x14 | s17 => DD x18 x15 | s18 => DD x18 x16 | s19 => DD x18 x17 | s20 => DD x18 x18 | s21 => DD x18 x19 | s22 => DD x18 x20 | s23 => DD x18 x21 | s24 => DD x18 x22 | s25 => DD x18 x23 | s26 => DD x18 x24 | s27 => DD x18 x25 | s28 => DD x18 x26 | s29 => DD x18 x27 | s30 => DD x18 x28 | s31 => DD x18 x29 | s32 => DD x18 x30 | s33 => DD x18 x31 | s34 => DD x18 x32 | s35 => DD x18 x33 | s36 => DD x18 x34 | s37 => DD x18 x35 | s38 => DD x18 x36 | s39 => DD x18 x37 | s40 => DD x18 x38 | s41 => DD x18 x39 | s42 => DD x18 x40 | s43 => DD x18 x41 | s44 => DD x18 x42 | s45 => DD x18 x43 | s46 => DD x18 x44 | s47 => DD x18 x45 | s48 => DD x18 x46 | s49 => DD x18 x47 | s50 => DD x18 x48 | s51 => DD x18 x49 | s52 => DD x18 x50 | s53 => DD x18 x51 | s54 => DD x18 x52 | s55 => DD x18 x53 | s56 => DD x18 x54 | s57 => DD x18 x55 | s58 => DD x18 x56 | s59 => DD x18 x57 | s60 => DD x18 x58 | s61 => DD x18 x59 | s62 => DD x18 x60 | s63 => DD x18 x61 | s64 => DD x18 x62 | s65 => DD x18 x63 | s66 => DD x19 x0 | s67 => DD x19 x1 | s68 => DD x19 x2 | s69 => DD x19 x3 | s70 => DD x19 x4 | s71 => DD x19 x5 | s72 => DD x19 x6 | s73 => DD x19 x7 | s74 => DD x19 x8 | s75 => DD x19 x9 | s76 => DD x19 x10 | s77 => DD x19 x11 | s78 => DD x19 x12 | s79 => DD x19 x13 | s80 => DD x19 x14 | s81 => DD x19 x15 | s82 => DD x19 x16 | s83 => DD x19 x17 | s84 => DD x19 x18 | s85 => DD x19 x19 | s86 => DD x19 x20 | s87 => DD x19 x21 | s88 => DD x19 x22 | s89 => DD x19 x23 | s90 => DD x19 x24 | s91 => DD x19 x25 | s92 => DD x19 x26 | s93 => DD x19 x27 | s94 => DD x19 x28 | s95 => DD x19 x29 | s96 => DD x19 x30 | s97 => DD x19 x31 | s98 => DD x19 x32 | s99 => DD x19 x33 | s100 => DD x19 x34 | s101 => DD x19 x35 | s102 => DD x19 x36 | s103 => DD x19 x37 | s104 => DD x19 x38 | s105 => DD x19 x39 | s106 => DD x19 x40 | s107 => DD x19 x41 | s108 => DD x19 x42 | s109 => DD x19 x43 | s110 => DD x19 x44 | s111 => DD x19 x45 | s112 => DD x19 x46 | s113 => DD x19 x47 | s114 => DD x19 x48 | s115 => DD x19 x49 | s116 => DD x19 x50 | s117 => DD x19 x51 | s118 => DD x19 x52 | s119 => DD x19 x53 | s120 => DD x19 x54 | s121 => DD x19 x55 | s122 => DD x19 x56 | s123 => DD x19 x57 | s124 => DD x19 x58 | s125 => DD x19 x59 | s126 => DD x19 x60 end.
Definition m1152 (c : sum2) : dd := match c with s0 => DD x18 x0 | s1 => DD x18 x1 | s2 => DD x18 x2 | s3 => DD x18 x3 | s4 => DD x18 x4 | s5 => DD x18 x5 | s6 => DD x18 x6 | s7 => DD x18 x7 | s8 => DD x18 x8 | s9 => DD x18 x9 | s10 => DD x18 x10 | s11 => DD x18 x11 | s12 => DD x18 x12 | s13 => DD x18 x13 | s14 => DD x18 x14 | s15 => DD x18 x15 | s16 => DD x18 x16 | s17 => DD x18 x17 | s18 => DD x18 x18 | s19 => DD x18 x19 | s20 => DD x18 x20 | s21 => DD x18 x21 | s22 => DD x18 x22 | s23 => DD x18 x23 | s24 => DD x18 x24 | s25 => DD x18 x25 | s26 => DD x18 x26 | s27 => DD x18 x27 | s28 => DD x18 x28 | s29 => DD x18 x29 | s30 => DD x18 x30 | s31 => DD x18 x31 | s32 => DD x18 x32 | s33 => DD x18 x33 | s34 => DD x18 x34 | s35 => DD x18 x35 | s36 => DD x18 x36 | s37 => DD x18 x37 | s38 => DD x18 x38 | s39 => DD x18 x39 | s40 => DD x18 x40 | s41 => DD x18 x41 | s42 => DD x18 x42 | s43 => DD x18 x43 | s44 => DD x18 x44 | s45 => DD x18 x45 | s46 => DD x18 x46 | s47 => DD x18 x47 | s48 => DD x18 x48 | s49 => DD x18 x49 | s50 => DD x18 x50 | s51 => DD x18 x51 | s52 => DD x18 x52 | s53 => DD x18 x53 | s54 => DD x18 x54 | s55 => DD x18 x55 | s56 => DD x18 x56 | s57 => DD x18 x57 | s58 => DD x18 x58 | s59 => DD x18 x59 | s60 => DD x18 x60 | s61 => DD x18 x61 | s62 => DD x18 x62 | s63 => DD x18 x63 | s64 => DD x19 x0 | s65 => DD x19 x1 | s66 => DD x19 x2 | s67 => DD x19 x3 | s68 => DD x19 x4 | s69 => DD x19 x5 | s70 => DD x19 x6 | s71 => DD x19 x7 | s72 => DD x19 x8 | s73 => DD x19 x9 | s74 => DD x19 x10 | s75 => DD x19 x11 | s76 => DD x19 x12 | s77 => DD x19 x13 | s78 => DD x19 x14 | s79 => DD x19 x15 | s80 => DD x19 x16 | s81 => DD x19 x17 | s82 => DD x19 x18 | s83 => DD x19 x19 | s84 => DD x19 x20 | s85 => DD x19 x21 | s86 => DD x19 x22 | s87 => DD x19 x23 | s88 => DD x19 x24 | s89 => DD x19 x25 | s90 => DD x19 x26 | s91 => DD x19 x27 | s92 => DD x19 x28 | s93 => DD x19 x29 | s94 => DD x19 x30 | s95 => DD x19 x31 | s96 => DD x19 x32 | s97 => DD x19 x33 | s98 => DD x19 x34 | s99 => DD x19 x35 | s100 => DD x19 x36 | s101 => DD x19 x37 | s102 => DD x19 x38 | s103 => DD x19 x39 | s104 => DD x19 x40 | s105 => DD x19 x41 | s106 => DD x19 x42 | s107 => DD x19 x43 | s108 => DD x19 x44 | s109 => DD x19 x45 | s110 => DD x19 x46 | s111 => DD x19 x47 | s112 => DD x19 x48 | s113 => DD x19 x49 | s114 => DD x19 x50 | s115 => DD x19 x51 | s116 => DD x19 x52 | s117 => DD x19 x53 | s118 => DD x19 x54 | s119 => DD x19 x55 | s120 => DD x19 x56 | s121 => DD x19 x57 | s122 => DD x19 x58 | s123 => DD x19 x59 | s124 => DD x19 x60 | s125 => DD x19 x61 | s126 => DD x19 x62 end.
Definition m1155 (c : sum2) : dd := match c with s0 => DD x18 x3 | s1 => DD x18 x4 | s2 => DD x18 x5 | s3 => DD x18 x6 | s4 => DD x18 x7 | s5 => DD x18 x8 | s6 => DD x18 x9 | s7 => DD x18 x10 | s8 => DD x18 x11 | s9 => DD x18 x12 | s10 => DD x18 x13 | s11 => DD x18 x14 | s12 => DD x18 x15 | s13 => DD x18 x16 | s14 => DD x18 x17 | s15 => DD x18 x18 | s16 => DD x18 x19 | s17 => DD x18 x20 | s18 => DD x18 x21 | s19 => DD x18 x22 | s20 => DD x18 x23 | s21 => DD x18 x24 | s22 => DD x18 x25 | s23 => DD x18 x26 | s24 => DD x18 x27 | s25 => DD x18 x28 | s26 => DD x18 x29 | s27 => DD x18 x30 | s28 => DD x18 x31 | s29 => DD x18 x32 | s30 => DD x18 x33 | s31 => DD x18 x34 | s32 => DD x18 x35 | s33 => DD x18 x36 | s34 => DD x18 x37 | s35 => DD x18 x38 | s36 => DD x18 x39 | s37 => DD x18 x40 | s38 => DD x18 x41 | s39 => DD x18 x42 | s40 => DD x18 x43 | s41 => DD x18 x44 | s42 => DD x18 x45 | s43 => DD x18 x46 | s44 => DD x18 x47 | s45 => DD x18 x48 | s46 => DD x18 x49 | s47 => DD x18 x50 | s48 => DD x18 x51 | s49 => DD x18 x52 | s50 => DD x18 x53 | s51 => DD x18 x54 | s52 => DD x18 x55 | s53 => DD x18 x56 | s54 => DD x18 x57 | s55 => DD x18 x58 | s56 => DD x18 x59 | s57 => DD x18 x60 | s58 => DD x18 x61 | s59 => DD x18 x62 | s60 => DD x18 x63 | s61 => DD x19 x0 | s62 => DD x19 x1 | s63 => DD x19 x2 | s64 => DD x19 x3 | s65 => DD x19 x4 | s66 => DD x19 x5 | s67 => DD x19 x6 | s68 => DD x19 x7 | s69 => DD x19 x8 | s70 => DD x19 x9 | s71 => DD x19 x10 | s72 => DD x19 x11 | s73 => DD x19 x12 | s74 => DD x19 x13 | s75 => DD x19 x14 | s76 => DD x19 x15 | s77 => DD x19 x16 | s78 => DD x19 x17 | s79 => DD x19 x18 | s80 => DD x19 x19 | s81 => DD x19 x20 | s82 => DD x19 x21 | s83 => DD x19 x22 | s84 => DD x19 x23 | s85 => DD x19 x24 | s86 => DD x19 x25 | s87 => DD x19 x26 | s88 => DD x19 x27 | s89 => DD x19 x28 | s90 => DD x19 x29 | s91 => DD x19 x30 | s92 => DD x19 x31 | s93 => DD x19 x32 | s94 => DD x19 x33 | s95 => DD x19 x34 | s96 => DD x19 x35 | s97 => DD x19 x36 | s98 => DD x19 x37 | s99 => DD x19 x38 | s100 => DD x19 x39 | s101 => DD x19 x40 | s102 => DD x19 x41 | s103 => DD x19 x42 | s104 => DD x19 x43 | s105 => DD x19 x44 | s106 => DD x19 x45 | s107 => DD x19 x46 | s108 => DD x19 x47 | s109 => DD x19 x48 | s110 => DD x19 x49 | s111 => DD x19 x50 | s112 => DD x19 x51 | s113 => DD x19 x52 | s114 => DD x19 x53 | s115 => DD x19 x54 | s116 => DD x19 x55 | s117 => DD x19 x56 | s118 => DD x19 x57 | s119 => DD x19 x58 | s120 => DD x19 x59 | s121 => DD x19 x60 | s122 => DD x19 x61 | s123 => DD x19 x62 | s124 => DD x19 x63 | s125 => DD x20 x0 | s126 => DD x20 x1 end.
Definition m1156 (c : sum2) : dd := match c with s0 => DD x18 x4 | s1 => DD x18 x5 | s2 => DD x18 x6 | s3 => DD x18 x7 | s4 => DD x18 x8 | s5 => DD x18 x9 | s6 => DD x18 x10 | s7 => DD x18 x11 | s8 => DD x18 x12 | s9 => DD x18 x13 | s10 => DD x18 x14 | s11 => DD x18 x15 | s12 => DD x18 x16 | s13 => DD x18 x17 | s14 => DD x18 x18 | s15 => DD x18 x19 | s16 => DD x18 x20 | s17 => DD x18 x21 | s18 => DD x18 x22 | s19 => DD x18 x23 | s20 => DD x18 x24 | s21 => DD x18 x25 | s22 => DD x18 x26 | s23 => DD x18 x27 | s24 => DD x18 x28 | s25 => DD x18 x29 | s26 => DD x18 x30 | s27 => DD x18 x31 | s28 => DD x18 x32 | s29 => DD x18 x33 | s30 => DD x18 x34 | s31 => DD x18 x35 | s32 => DD x18 x36 | s33 => DD x18 x37 | s34 => DD x18 x38 | s35 => DD x18 x39 | s36 => DD x18 x40 | s37 => DD x18 x41 | s38 => DD x18 x42 | s39 => DD x18 x43 | s40 => DD x18 x44 | s41 => DD x18 x45 | s42 => DD x18 x46 | s43 => DD x18 x47 | s44 => DD x18 x48 | s45 => DD x18 x49 | s46 => DD x18 x50 | s47 => DD x18 x51 | s48 => DD x18 x52 | s49 => DD x18 x53 | s50 => DD x18 x54 | s51 => DD x18 x55 | s52 => DD x18 x56 | s53 => DD x18 x57 | s54 => DD x18 x58 | s55 => DD x18 x59 | s56 => DD x18 x60 | s57 => DD x18 x61 | s58 => DD x18 x62 | s59 => DD x18 x63 | s60 => DD x19 x0 | s61 => DD x19 x1 | s62 => DD x19 x2 | s63 => DD x19 x3 | s64 => DD x19 x4 | s65 => DD x19 x5 | s66 => DD x19 x6 | s67 => DD x19 x7 | s68 => DD x19 x8 | s69 => DD x19 x9 | s70 => DD x19 x10 | s71 => DD x19 x11 | s72 => DD x19 x12 | s73 => DD x19 x13 | s74 => DD x19 x14 | s75 => DD x19 x15 | s76 => DD x19 x16 | s77 => DD x19 x17 | s78 => DD x19 x18 | s79 => DD x19 x19 | s80 => DD x19 x20 | s81 => DD x19 x21 | s82 => DD x19 x22 | s83 => DD x19 x23 | s84 => DD x19 x24 | s85 => DD x19 x25 | s86 => DD x19 x26 | s87 => DD x19 x27 | s88 => DD x19 x28 | s89 => DD x19 x29 | s90 => DD x19 x30 | s91 => DD x19 x31 | s92 => DD x19 x32 | s93 => DD x19 x33 | s94 => DD x19 x34 | s95 => DD x19 x35 | s96 => DD x19 x36 | s97 => DD x19 x37 | s98 => DD x19 x38 | s99 => DD x19 x39 | s100 => DD x19 x40 | s101 => DD x19 x41 | s102 => DD x19 x42 | s103 => DD x19 x43 | s104 => DD x19 x44 | s105 => DD x19 x45 | s106 => DD x19 x46 | s107 => DD x19 x47 | s108 => DD x19 x48 | s109 => DD x19 x49 | s110 => DD x19 x50 | s111 => DD x19 x51 | s112 => DD x19 x52 | s113 => DD x19 x53 | s114 => DD x19 x54 | s115 => DD x19 x55 | s116 => DD x19 x56 | s117 => DD x19 x57 | s118 => DD x19 x58 | s119 => DD x19 x59 | s120 => DD x19 x60 | s121 => DD x19 x61 | s122 => DD x19 x62 | s123 => DD x19 x63 | s124 => DD x20 x0 | s125 => DD x20 x1 | s126 => DD x20 x2 end.
Definition m1159 (c : sum2) : dd := match c with s0 => DD x18 x7 | s1 => DD x18 x8 | s2 => DD x18 x9 | s3 => DD x18 x10 | s4 => DD x18 x11 | s5 => DD x18 x12 | s6 => DD x18 x13 | s7 => DD x18 x14 | s8 => DD x18 x15 | s9 => DD x18 x16 | s10 => DD x18 x17 | s11 => DD x18 x18 | s12 => DD x18 x19 | s13 => DD x18 x20 | s14 => DD x18 x21 | s15 => DD x18 x22 | s16 => DD x18 x23 | s17 => DD x18 x24 | s18 => DD x18 x25 | s19 => DD x18 x26 | s20 => DD x18 x27 | s21 => DD x18 x28 | s22 => DD x18 x29 | s23 => DD x18 x30 | s24 => DD x18 x31 | s25 => DD x18 x32 | s26 => DD x18 x33 | s27 => DD x18 x34 | s28 => DD x18 x35 | s29 => DD x18 x36 | s30 => DD x18 x37 | s31 => DD x18 x38 | s32 => DD x18 x39 | s33 => DD x18 x40 | s34 => DD x18 x41 | s35 => DD x18 x42 | s36 => DD x18 x43 | s37 => DD x18 x44 | s38 => DD x18 x45 | s39 => DD x18 x46 | s40 => DD x18 x47 | s41 => DD x18 x48 | s42 => DD x18 x49 | s43 => DD x18 x50 | s44 => DD x18 x51 | s45 => DD x18 x52 | s46 => DD x18 x53 | s47 => DD x18 x54 | s48 => DD x18 x55 | s49 => DD x18 x56 | s50 => DD x18 x57 | s51 => DD x18 x58 | s52 => DD x18 x59 | s53 => DD x18 x60 | s54 => DD x18 x61 | s55 => DD x18 x62 | s56 => DD x18 x63 | s57 => DD x19 x0 | s58 => DD x19 x1 | s59 => DD x19 x2 | s60 => DD x19 x3 | s61 => DD x19 x4 | s62 => DD x19 x5 | s63 => DD x19 x6 | s64 => DD x19 x7 | s65 => DD x19 x8 | s66 => DD x19 x9 | s67 => DD x19 x10 | s68 => DD x19 x11 | s69 => DD x19 x12 | s70 => DD x19 x13 | s71 => DD x19 x14 | s72 => DD x19 x15 | s73 => DD x19 x16 | s74 => DD x19 x17 | s75 => DD x19 x18 | s76 => DD x19 x19 | s77 => DD x19 x20 | s78 => DD x19 x21 | s79 => DD x19 x22 | s80 => DD x19 x23 | s81 => DD x19 x24 | s82 => DD x19 x25 | s83 => DD x19 x26 | s84 => DD x19 x27 | s85 => DD x19 x28 | s86 => DD x19 x29 | s87 => DD x19 x30 | s88 => DD x19 x31 | s89 => DD x19 x32 | s90 => DD x19 x33 | s91 => DD x19 x34 | s92 => DD x19 x35 | s93 => DD x19 x36 | s94 => DD x19 x37 | s95 => DD x19 x38 | s96 => DD x19 x39 | s97 => DD x19 x40 | s98 => DD x19 x41 | s99 => DD x19 x42 | s100 => DD x19 x43 | s101 => DD x19 x44 | s102 => DD x19 x45 | s103 => DD x19 x46 | s104 => DD x19 x47 | s105 => DD x19 x48 | s106 => DD x19 x49 | s107 => DD x19 x50 | s108 => DD x19 x51 | s109 => DD x19 x52 | s110 => DD x19 x53 | s111 => DD x19 x54 | s112 => DD x19 x55 | s113 => DD x19 x56 | s114 => DD x19 x57 | s115 => DD x19 x58 | s116 => DD x19 x59 | s117 => DD x19 x60 | s118 => DD x19 x61 | s119 => DD x19 x62 | s120 => DD x19 x63 | s121 => DD x20 x0 | s122 => DD x20 x1 | s123 => DD x20 x2 | s124 => DD x20 x3 | s125 => DD x20 x4 | s126 => DD x20 x5 end.
Definition m1160 (c : sum2) : dd := match c with s0 => DD x18 x8 | s1 => DD x18 x9 | s2 => DD x18 x10 | s3 => DD x18 x11 | s4 => DD x18 x12 | s5 => DD x18 x13 | s6 => DD x18 x14 | s7 => DD x18 x15 | s8 => DD x18 x16 | s9 => DD x18 x17 | s10 => DD x18 x18 | s11 => DD x18 x19 | s12 => DD x18 x20 | s13 => DD x18 x21 | s14 => DD x18 x22 | s15 => DD x18 x23 | s16 => DD x18 x24 | s17 => DD x18 x25 | s18 => DD x18 x26 | s19 => DD x18 x27 | s20 => DD x18 x28 | s21 => DD x18 x29 | s22 => DD x18 x30 | s23 => DD x18 x31 | s24 => DD x18 x32 | s25 => DD x18 x33 | s26 => DD x18 x34 | s27 => DD x18 x35 | s28 => DD x18 x36 | s29 => DD x18 x37 | s30 => DD x18 x38 | s31 => DD x18 x39 | s32 => DD x18 x40 | s33 => DD x18 x41 | s34 => DD x18 x42 | s35 => DD x18 x43 | s36 => DD x18 x44 | s37 => DD x18 x45 | s38 => DD x18 x46 | s39 => DD x18 x47 | s40 => DD x18 x48 | s41 => DD x18 x49 | s42 => DD x18 x50 | s43 => DD x18 x51 | s44 => DD x18 x52 | s45 => DD x18 x53 | s46 => DD x18 x54 | s47 => DD x18 x55 | s48 => DD x18 x56 | s49 => DD x18 x57 | s50 => DD x18 x58 | s51 => DD x18 x59 | s52 => DD x18 x60 | s53 => DD x18 x61 | s54 => DD x18 x62 | s55 => DD x18 x63 | s56 => DD x19 x0 | s57 => DD x19 x1 | s58 => DD x19 x2 | s59 => DD x19 x3 | s60 => DD x19 x4 | s61 => DD x19 x5 | s62 => DD x19 x6 | s63 => DD x19 x7 | s64 => DD x19 x8 | s65 => DD x19 x9 | s66 => DD x19 x10 | s67 => DD x19 x11 | s68 => DD x19 x12 | s69 => DD x19 x13 | s70 => DD x19 x14 | s71 => DD x19 x15 | s72 => DD x19 x16 | s73 => DD x19 x17 | s74 => DD x19 x18 | s75 => DD x19 x19 | s76 => DD x19 x20 | s77 => DD x19 x21 | s78 => DD x19 x22 | s79 => DD x19 x23 | s80 => DD x19 x24 | s81 => DD x19 x25 | s82 => DD x19 x26 | s83 => DD x19 x27 | s84 => DD x19 x28 | s85 => DD x19 x29 | s86 => DD x19 x30 | s87 => DD x19 x31 | s88 => DD x19 x32 | s89 => DD x19 x33 | s90 => DD x19 x34 | s91 => DD x19 x35 | s92 => DD x19 x36 | s93 => DD x19 x37 | s94 => DD x19 x38 | s95 => DD x19 x39 | s96 => DD x19 x40 | s97 => DD x19 x41 | s98 => DD x19 x42 | s99 => DD x19 x43 | s100 => DD x19 x44 | s101 => DD x19 x45 | s102 => DD x19 x46 | s103 => DD x19 x47 | s104 => DD x19 x48 | s105 => DD x19 x49 | s106 => DD x19 x50 | s107 => DD x19 x51 | s108 => DD x19 x52 | s109 => DD x19 x53 | s110 => DD x19 x54 | s111 => DD x19 x55 | s112 => DD x19 x56 | s113 => DD x19 x57 | s114 => DD x19 x58 | s115 => DD x19 x59 | s116 => DD x19 x60 | s117 => DD x19 x61 | s118 => DD x19 x62 | s119 => DD x19 x63 | s120 => DD x20 x0 | s121 => DD x20 x1 | s122 => DD x20 x2 | s123 => DD x20 x3 | s124 => DD x20 x4 | s125 => DD x20 x5 | s126 => DD x20 x6 end.
Definition m1161 (c : sum2) : dd := match c with s0 => DD x18 x9 | s1 => DD x18 x10 | s2 => DD x18 x11 | s3 => DD x18 x12 | s4 => DD x18 x13 | s5 => DD x18 x14 | s6 => DD x18 x15 | s7 => DD x18 x16 | s8 => DD x18 x17 | s9 => DD x18 x18 | s10 => DD x18 x19 | s11 => DD x18 x20 | s12 => DD x18 x21 | s13 => DD x18 x22 | s14 => DD x18 x23 | s15 => DD x18 x24 | s16 => DD x18 x25 | s17 => DD x18 x26 | s18 => DD x18 x27 | s19 => DD x18 x28 | s20 => DD x18 x29 | s21 => DD x18 x30 | s22 => DD x18 x31 | s23 => DD x18 x32 | s24 => DD x18 x33 | s25 => DD x18 x34 | s26 => DD x18 x35 | s27 => DD x18 x36 | s28 => DD x18 x37 | s29 => DD x18 x38 | s30 => DD x18 x39 | s31 => DD x18 x40 | s32 => DD x18 x41 | s33 => DD x18 x42 | s34 => DD x18 x43 | s35 => DD x18 x44 | s36 => DD x18 x45 | s37 => DD x18 x46 | s38 => DD x18 x47 | s39 => DD x18 x48 | s40 => DD x18 x49 | s41 => DD x18 x50 | s42 => DD x18 x51 | s43 => DD x18 x52 | s44 => DD x18 x53 | s45 => DD x18 x54 | s46 => DD x18 x55 | s47 => DD x18 x56 | s48 => DD x18 x57 | s49 => DD x18 x58 | s50 => DD x18 x59 | s51 => DD x18 x60 | s52 => DD x18 x61 | s53 => DD x18 x62 | s54 => DD x18 x63 | s55 => DD x19 x0 | s56 => DD x19 x1 | s57 => DD x19 x2 | s58 => DD x19 x3 | s59 => DD x19 x4 | s60 => DD x19 x5 | s61 => DD x19 x6 | s62 => DD x19 x7 | s63 => DD x19 x8 | s64 => DD x19 x9 | s65 => DD x19 x10 | s66 => DD x19 x11 | s67 => DD x19 x12 | s68 => DD x19 x13 | s69 => DD x19 x14 | s70 => DD x19 x15 | s71 => DD x19 x16 | s72 => DD x19 x17 | s73 => DD x19 x18 | s74 => DD x19 x19 | s75 => DD x19 x20 | s76 => DD x19 x21 | s77 => DD x19 x22 | s78 => DD x19 x23 | s79 => DD x19 x24 | s80 => DD x19 x25 | s81 => DD x19 x26 | s82 => DD x19 x27 | s83 => DD x19 x28 | s84 => DD x19 x29 | s85 => DD x19 x30 | s86 => DD x19 x31 | s87 => DD x19 x32 | s88 => DD x19 x33 | s89 => DD x19 x34 | s90 => DD x19 x35 | s91 => DD x19 x36 | s92 => DD x19 x37 | s93 => DD x19 x38 | s94 => DD x19 x39 | s95 => DD x19 x40 | s96 => DD x19 x41 | s97 => DD x19 x42 | s98 => DD x19 x43 | s99 => DD x19 x44 | s100 => DD x19 x45 | s101 => DD x19 x46 | s102 => DD x19 x47 | s103 => DD x19 x48 | s104 => DD x19 x49 | s105 => DD x19 x50 | s106 => DD x19 x51 | s107 => DD x19 x52 | s108 => DD x19 x53 | s109 => DD x19 x54 | s110 => DD x19 x55 | s111 => DD x19 x56 | s112 => DD x19 x57 | s113 => DD x19 x58 | s114 => DD x19 x59 | s115 => DD x19 x60 | s116 => DD x19 x61 | s117 => DD x19 x62 | s118 => DD x19 x63 | s119 => DD x20 x0 | s120 => DD x20 x1 | s121 => DD x20 x2 | s122 => DD x20 x3 | s123 => DD x20 x4 | s124 => DD x20 x5 | s125 => DD x20 x6 | s126 => DD x20 x7 end.
Definition m1166 (c : sum2) : dd := match c with s0 => DD x18 x14 | s1 => DD x18 x15 | s2 => DD x18 x16 | s3 => DD x18 x17 | s4 => DD x18 x18 | s5 => DD x18 x19 | s6 => DD x18 x20 | s7 => DD x18 x21 | s8 => DD x18 x22 | s9 => DD x18 x23 | s10 => DD x18 x24 | s11 => DD x18 x25 | s12 => DD x18 x26 | s13 => DD x18 x27 | s14 => DD x18 x28 | s15 => DD x18 x29 | s16 => DD x18 x30 | s17 => DD x18 x31 | s18 => DD x18 x32 | s19 => DD x18 x33 | s20 => DD x18 x34 | s21 => DD x18 x35 | s22 => DD x18 x36 | s23 => DD x18 x37 | s24 => DD x18 x38 | s25 => DD x18 x39 | s26 => DD x18 x40 | s27 => DD x18 x41 | s28 => DD x18 x42 | s29 => DD x18 x43 | s30 => DD x18 x44 | s31 => DD x18 x45 | s32 => DD x18 x46 | s33 => DD x18 x47 | s34 => DD x18 x48 | s35 => DD x18 x49 | s36 => DD x18 x50 | s37 => DD x18 x51 | s38 => DD x18 x52 | s39 => DD x18 x53 | s40 => DD x18 x54 | s41 => DD x18 x55 | s42 => DD x18 x56 | s43 => DD x18 x57 | s44 => DD x18 x58 | s45 => DD x18 x59 | s46 => DD x18 x60 | s47 => DD x18 x61 | s48 => DD x18 x62 | s49 => DD x18 x63 | s50 => DD x19 x0 | s51 => DD x19 x1 | s52 => DD x19 x2 | s53 => DD x19 x3 | s54 => DD x19 x4 | s55 => DD x19 x5 | s56 => DD x19 x6 | s57 => DD x19 x7 | s58 => DD x19 x8 | s59 => DD x19 x9 | s60 => DD x19 x10 | s61 => DD x19 x11 | s62 => DD x19 x12 | s63 => DD x19 x13 | s64 => DD x19 x14 | s65 => DD x19 x15 | s66 => DD x19 x16 | s67 => DD x19 x17 | s68 => DD x19 x18 | s69 => DD x19 x19 | s70 => DD x19 x20 | s71 => DD x19 x21 | s72 => DD x19 x22 | s73 => DD x19 x23 | s74 => DD x19 x24 | s75 => DD x19 x25 | s76 => DD x19 x26 | s77 => DD x19 x27 | s78 => DD x19 x28 | s79 => DD x19 x29 | s80 => DD x19 x30 | s81 => DD x19 x31 | s82 => DD x19 x32 | s83 => DD x19 x33 | s84 => DD x19 x34 | s85 => DD x19 x35 | s86 => DD x19 x36 | s87 => DD x19 x37 | s88 => DD x19 x38 | s89 => DD x19 x39 | s90 => DD x19 x40 | s91 => DD x19 x41 | s92 => DD x19 x42 | s93 => DD x19 x43 | s94 => DD x19 x44 | s95 => DD x19 x45 | s96 => DD x19 x46 | s97 => DD x19 x47 | s98 => DD x19 x48 | s99 => DD x19 x49 | s100 => DD x19 x50 | s101 => DD x19 x51 | s102 => DD x19 x52 | s103 => DD x19 x53 | s104 => DD x19 x54 | s105 => DD x19 x55 | s106 => DD x19 x56 | s107 => DD x19 x57 | s108 => DD x19 x58 | s109 => DD x19 x59 | s110 => DD x19 x60 | s111 => DD x19 x61 | s112 => DD x19 x62 | s113 => DD x19 x63 | s114 => DD x20 x0 | s115 => DD x20 x1 | s116 => DD x20 x2 | s117 => DD x20 x3 | s118 => DD x20 x4 | s119 => DD x20 x5 | s120 => DD x20 x6 | s121 => DD x20 x7 | s122 => DD x20 x8 | s123 => DD x20 x9 | s124 => DD x20 x10 | s125 => DD x20 x11 | s126 => DD x20 x12 end.
Definition m1170 (c : sum2) : dd := match c with s0 => DD x18 x18 | s1 => DD x18 x19 | s2 => DD x18 x20 | s3 => DD x18 x21 | s4 => DD x18 x22 | s5 => DD x18 x23 | s6 => DD x18 x24 | s7 => DD x18 x25 | s8 => DD x18 x26 | s9 => DD x18 x27 | s10 => DD x18 x28 | s11 => DD x18 x29 | s12 => DD x18 x30 | s13 => DD x18 x31 | s14 => DD x18 x32 | s15 => DD x18 x33 | s16 => DD x18 x34 | s17 => DD x18 x35 | s18 => DD x18 x36 | s19 => DD x18 x37 | s20 => DD x18 x38 | s21 => DD x18 x39 | s22 => DD x18 x40 | s23 => DD x18 x41 | s24 => DD x18 x42 | s25 => DD x18 x43 | s26 => DD x18 x44 | s27 => DD x18 x45 | s28 => DD x18 x46 | s29 => DD x18 x47 | s30 => DD x18 x48 | s31 => DD x18 x49 | s32 => DD x18 x50 | s33 => DD x18 x51 | s34 => DD x18 x52 | s35 => DD x18 x53 | s36 => DD x18 x54 | s37 => DD x18 x55 | s38 => DD x18 x56 | s39 => DD x18 x57 | s40 => DD x18 x58 | s41 => DD x18 x59 | s42 => DD x18 x60 | s43 => DD x18 x61 | s44 => DD x18 x62 | s45 => DD x18 x63 | s46 => DD x19 x0 | s47 => DD x19 x1 | s48 => DD x19 x2 | s49 => DD x19 x3 | s50 => DD x19 x4 | s51 => DD x19 x5 | s52 => DD x19 x6 | s53 => DD x19 x7 | s54 => DD x19 x8 | s55 => DD x19 x9 | s56 => DD x19 x10 | s57 => DD x19 x11 | s58 => DD x19 x12 | s59 => DD x19 x13 | s60 => DD x19 x14 | s61 => DD x19 x15 | s62 => DD x19 x16 | s63 => DD x19 x17 | s64 => DD x19 x18 | s65 => DD x19 x19 | s66 => DD x19 x20 | s67 => DD x19 x21 | s68 => DD x19 x22 | s69 => DD x19 x23 | s70 => DD x19 x24 | s71 => DD x19 x25 | s72 => DD x19 x26 | s73 => DD x19 x27 | s74 => DD x19 x28 | s75 => DD x19 x29 | s76 => DD x19 x30 | s77 => DD x19 x31 | s78 => DD x19 x32 | s79 => DD x19 x33 | s80 => DD x19 x34 | s81 => DD x19 x35 | s82 => DD x19 x36 | s83 => DD x19 x37 | s84 => DD x19 x38 | s85 => DD x19 x39 | s86 => DD x19 x40 | s87 => DD x19 x41 | s88 => DD x19 x42 | s89 => DD x19 x43 | s90 => DD x19 x44 | s91 => DD x19 x45 | s92 => DD x19 x46 | s93 => DD x19 x47 | s94 => DD x19 x48 | s95 => DD x19 x49 | s96 => DD x19 x50 | s97 => DD x19 x51 | s98 => DD x19 x52 | s99 => DD x19 x53 | s100 => DD x19 x54 | s101 => DD x19 x55 | s102 => DD x19 x56 | s103 => DD x19 x57 | s104 => DD x19 x58 | s105 => DD x19 x59 | s106 => DD x19 x60 | s107 => DD x19 x61 | s108 => DD x19 x62 | s109 => DD x19 x63 | s110 => DD x20 x0 | s111 => DD x20 x1 | s112 => DD x20 x2 | s113 => DD x20 x3 | s114 => DD x20 x4 | s115 => DD x20 x5 | s116 => DD x20 x6 | s117 => DD x20 x7 | s118 => DD x20 x8 | s119 => DD x20 x9 | s120 => DD x20 x10 | s121 => DD x20 x11 | s122 => DD x20 x12 | s123 => DD x20 x13 | s124 => DD x20 x14 | s125 => DD x20 x15 | s126 => DD x20 x16 end.
Definition m1173 (c : sum2) : dd := match c with s0 => DD x18 x21 | s1 => DD x18 x22 | s2 => DD x18 x23 | s3 => DD x18 x24 | s4 => DD x18 x25 | s5 => DD x18 x26 | s6 => DD x18 x27 | s7 => DD x18 x28 | s8 => DD x18 x29 | s9 => DD x18 x30 | s10 => DD x18 x31 | s11 => DD x18 x32 | s12 => DD x18 x33 | s13 => DD x18 x34 | s14 => DD x18 x35 | s15 => DD x18 x36 | s16 => DD x18 x37 | s17 => DD x18 x38 | s18 => DD x18 x39 | s19 => DD x18 x40 | s20 => DD x18 x41 | s21 => DD x18 x42 | s22 => DD x18 x43 | s23 => DD x18 x44 | s24 => DD x18 x45 | s25 => DD x18 x46 | s26 => DD x18 x47 | s27 => DD x18 x48 | s28 => DD x18 x49 | s29 => DD x18 x50 | s30 => DD x18 x51 | s31 => DD x18 x52 | s32 => DD x18 x53 | s33 => DD x18 x54 | s34 => DD x18 x55 | s35 => DD x18 x56 | s36 => DD x18 x57 | s37 => DD x18 x58 | s38 => DD x18 x59 | s39 => DD x18 x60 | s40 => DD x18 x61 | s41 => DD x18 x62 | s42 => DD x18 x63 | s43 => DD x19 x0 | s44 => DD x19 x1 | s45 => DD x19 x2 | s46 => DD x19 x3 | s47 => DD x19 x4 | s48 => DD x19 x5 | s49 => DD x19 x6 | s50 => DD x19 x7 | s51 => DD x19 x8 | s52 => DD x19 x9 | s53 => DD x19 x10 | s54 => DD x19 x11 | s55 => DD x19 x12 | s56 => DD x19 x13 | s57 => DD x19 x14 | s58 => DD x19 x15 | s59 => DD x19 x16 | s60 => DD x19 x17 | s61 => DD x19 x18 | s62 => DD x19 x19 | s63 => DD x19 x20 | s64 => DD x19 x21 | s65 => DD x19 x22 | s66 => DD x19 x23 | s67 => DD x19 x24 | s68 => DD x19 x25 | s69 => DD x19 x26 | s70 => DD x19 x27 | s71 => DD x19 x28 | s72 => DD x19 x29 | s73 => DD x19 x30 | s74 => DD x19 x31 | s75 => DD x19 x32 | s76 => DD x19 x33 | s77 => DD x19 x34 | s78 => DD x19 x35 | s79 => DD x19 x36 | s80 => DD x19 x37 | s81 => DD x19 x38 | s82 => DD x19 x39 | s83 => DD x19 x40 | s84 => DD x19 x41 | s85 => DD x19 x42 | s86 => DD x19 x43 | s87 => DD x19 x44 | s88 => DD x19 x45 | s89 => DD x19 x46 | s90 => DD x19 x47 | s91 => DD x19 x48 | s92 => DD x19 x49 | s93 => DD x19 x50 | s94 => DD x19 x51 | s95 => DD x19 x52 | s96 => DD x19 x53 | s97 => DD x19 x54 | s98 => DD x19 x55 | s99 => DD x19 x56 | s100 => DD x19 x57 | s101 => DD x19 x58 | s102 => DD x19 x59 | s103 => DD x19 x60 | s104 => DD x19 x61 | s105 => DD x19 x62 | s106 => DD x19 x63 | s107 => DD x20 x0 | s108 => DD x20 x1 | s109 => DD x20 x2 | s110 => DD x20 x3 | s111 => DD x20 x4 | s112 => DD x20 x5 | s113 => DD x20 x6 | s114 => DD x20 x7 | s115 => DD x20 x8 | s116 => DD x20 x9 | s117 => DD x20 x10 | s118 => DD x20 x11 | s119 => DD x20 x12 | s120 => DD x20 x13 | s121 => DD x20 x14 | s122 => DD x20 x15 | s123 => DD x20 x16 | s124 => DD x20 x17 | s125 => DD x20 x18 | s126 => DD x20 x19 end.
Definition m1175 (c : sum2) : dd := match c with s0 => DD x18 x23 | s1 => DD x18 x24 | s2 => DD x18 x25 | s3 => DD x18 x26 | s4 => DD x18 x27 | s5 => DD x18 x28 | s6 => DD x18 x29 | s7 => DD x18 x30 | s8 => DD x18 x31 | s9 => DD x18 x32 | s10 => DD x18 x33 | s11 => DD x18 x34 | s12 => DD x18 x35 | s13 => DD x18 x36 | s14 => DD x18 x37 | s15 => DD x18 x38 | s16 => DD x18 x39 | s17 => DD x18 x40 | s18 => DD x18 x41 | s19 => DD x18 x42 | s20 => DD x18 x43 | s21 => DD x18 x44 | s22 => DD x18 x45 | s23 => DD x18 x46 | s24 => DD x18 x47 | s25 => DD x18 x48 | s26 => DD x18 x49 | s27 => DD x18 x50 | s28 => DD x18 x51 | s29 => DD x18 x52 | s30 => DD x18 x53 | s31 => DD x18 x54 | s32 => DD x18 x55 | s33 => DD x18 x56 | s34 => DD x18 x57 | s35 => DD x18 x58 | s36 => DD x18 x59 | s37 => DD x18 x60 | s38 => DD x18 x61 | s39 => DD x18 x62 | s40 => DD x18 x63 | s41 => DD x19 x0 | s42 => DD x19 x1 | s43 => DD x19 x2 | s44 => DD x19 x3 | s45 => DD x19 x4 | s46 => DD x19 x5 | s47 => DD x19 x6 | s48 => DD x19 x7 | s49 => DD x19 x8 | s50 => DD x19 x9 | s51 => DD x19 x10 | s52 => DD x19 x11 | s53 => DD x19 x12 | s54 => DD x19 x13 | s55 => DD x19 x14 | s56 => DD x19 x15 | s57 => DD x19 x16 | s58 => DD x19 x17 | s59 => DD x19 x18 | s60 => DD x19 x19 | s61 => DD x19 x20 | s62 => DD x19 x21 | s63 => DD x19 x22 | s64 => DD x19 x23 | s65 => DD x19 x24 | s66 => DD x19 x25 | s67 => DD x19 x26 | s68 => DD x19 x27 | s69 => DD x19 x28 | s70 => DD x19 x29 | s71 => DD x19 x30 | s72 => DD x19 x31 | s73 => DD x19 x32 | s74 => DD x19 x33 | s75 => DD x19 x34 | s76 => DD x19 x35 | s77 => DD x19 x36 | s78 => DD x19 x37 | s79 => DD x19 x38 | s80 => DD x19 x39 | s81 => DD x19 x40 | s82 => DD x19 x41 | s83 => DD x19 x42 | s84 => DD x19 x43 | s85 => DD x19 x44 | s86 => DD x19 x45 | s87 => DD x19 x46 | s88 => DD x19 x47 | s89 => DD x19 x48 | s90 => DD x19 x49 | s91 => DD x19 x50 | s92 => DD x19 x51 | s93 => DD x19 x52 | s94 => DD x19 x53 | s95 => DD x19 x54 | s96 => DD x19 x55 | s97 => DD x19 x56 | s98 => DD x19 x57 | s99 => DD x19 x58 | s100 => DD x19 x59 | s101 => DD x19 x60 | s102 => DD x19 x61 | s103 => DD x19 x62 | s104 => DD x19 x63 | s105 => DD x20 x0 | s106 => DD x20 x1 | s107 => DD x20 x2 | s108 => DD x20 x3 | s109 => DD x20 x4 | s110 => DD x20 x5 | s111 => DD x20 x6 | s112 => DD x20 x7 | s113 => DD x20 x8 | s114 => DD x20 x9 | s115 => DD x20 x10 | s116 => DD x20 x11 | s117 => DD x20 x12 | s118 => DD x20 x13 | s119 => DD x20 x14 | s120 => DD x20 x15 | s121 => DD x20 x16 | s122 => DD x20 x17 | s123 => DD x20 x18 | s124 => DD x20 x19 | s125 => DD x20 x20 | s126 => DD x20 x21 end.
Definition m1176 (c : sum2) : dd := match c with s0 => DD x18 x24 | s1 => DD x18 x25 | s2 => DD x18 x26 | s3 => DD x18 x27 | s4 => DD x18 x28 | s5 => DD x18 x29 | s6 => DD x18 x30 | s7 => DD x18 x31 | s8 => DD x18 x32 | s9 => DD x18 x33 | s10 => DD x18 x34 | s11 => DD x18 x35 | s12 => DD x18 x36 | s13 => DD x18 x37 | s14 => DD x18 x38 | s15 => DD x18 x39 | s16 => DD x18 x40 | s17 => DD x18 x41 | s18 => DD x18 x42 | s19 => DD x18 x43 | s20 => DD x18 x44 | s21 => DD x18 x45 | s22 => DD x18 x46 | s23 => DD x18 x47 | s24 => DD x18 x48 | s25 => DD x18 x49 | s26 => DD x18 x50 | s27 => DD x18 x51 | s28 => DD x18 x52 | s29 => DD x18 x53 | s30 => DD x18 x54 | s31 => DD x18 x55 | s32 => DD x18 x56 | s33 => DD x18 x57 | s34 => DD x18 x58 | s35 => DD x18 x59 | s36 => DD x18 x60 | s37 => DD x18 x61 | s38 => DD x18 x62 | s39 => DD x18 x63 | s40 => DD x19 x0 | s41 => DD x19 x1 | s42 => DD x19 x2 | s43 => DD x19 x3 | s44 => DD x19 x4 | s45 => DD x19 x5 | s46 => DD x19 x6 | s47 => DD x19 x7 | s48 => DD x19 x8 | s49 => DD x19 x9 | s50 => DD x19 x10 | s51 => DD x19 x11 | s52 => DD x19 x12 | s53 => DD x19 x13 | s54 => DD x19 x14 | s55 => DD x19 x15 | s56 => DD x19 x16 | s57 => DD x19 x17 | s58 => DD x19 x18 | s59 => DD x19 x19 | s60 => DD x19 x20 | s61 => DD x19 x21 | s62 => DD x19 x22 | s63 => DD x19 x23 | s64 => DD x19 x24 | s65 => DD x19 x25 | s66 => DD x19 x26 | s67 => DD x19 x27 | s68 => DD x19 x28 | s69 => DD x19 x29 | s70 => DD x19 x30 | s71 => DD x19 x31 | s72 => DD x19 x32 | s73 => DD x19 x33 | s74 => DD x19 x34 | s75 => DD x19 x35 | s76 => DD x19 x36 | s77 => DD x19 x37 | s78 => DD x19 x38 | s79 => DD x19 x39 | s80 => DD x19 x40 | s81 => DD x19 x41 | s82 => DD x19 x42 | s83 => DD x19 x43 | s84 => DD x19 x44 | s85 => DD x19 x45 | s86 => DD x19 x46 | s87 => DD x19 x47 | s88 => DD x19 x48 | s89 => DD x19 x49 | s90 => DD x19 x50 | s91 => DD x19 x51 | s92 => DD x19 x52 | s93 => DD x19 x53 | s94 => DD x19 x54 | s95 => DD x19 x55 | s96 => DD x19 x56 | s97 => DD x19 x57 | s98 => DD x19 x58 | s99 => DD x19 x59 | s100 => DD x19 x60 | s101 => DD x19 x61 | s102 => DD x19 x62 | s103 => DD x19 x63 | s104 => DD x20 x0 | s105 => DD x20 x1 | s106 => DD x20 x2 | s107 => DD x20 x3 | s108 => DD x20 x4 | s109 => DD x20 x5 | s110 => DD x20 x6 | s111 => DD x20 x7 | s112 => DD x20 x8 | s113 => DD x20 x9 | s114 => DD x20 x10 | s115 => DD x20 x11 | s116 => DD x20 x12 | s117 => DD x20 x13 | s118 => DD x20 x14 | s119 => DD x20 x15 | s120 => DD x20 x16 | s121 => DD x20 x17 | s122 => DD x20 x18 | s123 => DD x20 x19 | s124 => DD x20 x20 | s125 => DD x20 x21 | s126 => DD x20 x22 end.
Definition m1178 (c : sum2) : dd := match c with s0 => DD x18 x26 | s1 => DD x18 x27 | s2 => DD x18 x28 | s3 => DD x18 x29 | s4 => DD x18 x30 | s5 => DD x18 x31 | s6 => DD x18 x32 | s7 => DD x18 x33 | s8 => DD x18 x34 | s9 => DD x18 x35 | s10 => DD x18 x36 | s11 => DD x18 x37 | s12 => DD x18 x38 | s13 => DD x18 x39 | s14 => DD x18 x40 | s15 => DD x18 x41 | s16 => DD x18 x42 | s17 => DD x18 x43 | s18 => DD x18 x44 | s19 => DD x18 x45 | s20 => DD x18 x46 | s21 => DD x18 x47 | s22 => DD x18 x48 | s23 => DD x18 x49 | s24 => DD x18 x50 | s25 => DD x18 x51 | s26 => DD x18 x52 | s27 => DD x18 x53 | s28 => DD x18 x54 | s29 => DD x18 x55 | s30 => DD x18 x56 | s31 => DD x18 x57 | s32 => DD x18 x58 | s33 => DD x18 x59 | s34 => DD x18 x60 | s35 => DD x18 x61 | s36 => DD x18 x62 | s37 => DD x18 x63 | s38 => DD x19 x0 | s39 => DD x19 x1 | s40 => DD x19 x2 | s41 => DD x19 x3 | s42 => DD x19 x4 | s43 => DD x19 x5 | s44 => DD x19 x6 | s45 => DD x19 x7 | s46 => DD x19 x8 | s47 => DD x19 x9 | s48 => DD x19 x10 | s49 => DD x19 x11 | s50 => DD x19 x12 | s51 => DD x19 x13 | s52 => DD x19 x14 | s53 => DD x19 x15 | s54 => DD x19 x16 | s55 => DD x19 x17 | s56 => DD x19 x18 | s57 => DD x19 x19 | s58 => DD x19 x20 | s59 => DD x19 x21 | s60 => DD x19 x22 | s61 => DD x19 x23 | s62 => DD x19 x24 | s63 => DD x19 x25 | s64 => DD x19 x26 | s65 => DD x19 x27 | s66 => DD x19 x28 | s67 => DD x19 x29 | s68 => DD x19 x30 | s69 => DD x19 x31 | s70 => DD x19 x32 | s71 => DD x19 x33 | s72 => DD x19 x34 | s73 => DD x19 x35 | s74 => DD x19 x36 | s75 => DD x19 x37 | s76 => DD x19 x38 | s77 => DD x19 x39 | s78 => DD x19 x40 | s79 => DD x19 x41 | s80 => DD x19 x42 | s81 => DD x19 x43 | s82 => DD x19 x44 | s83 => DD x19 x45 | s84 => DD x19 x46 | s85 => DD x19 x47 | s86 => DD x19 x48 | s87 => DD x19 x49 | s88 => DD x19 x50 | s89 => DD x19 x51 | s90 => DD x19 x52 | s91 => DD x19 x53 | s92 => DD x19 x54 | s93 => DD x19 x55 | s94 => DD x19 x56 | s95 => DD x19 x57 | s96 => DD x19 x58 | s97 => DD x19 x59 | s98 => DD x19 x60 | s99 => DD x19 x61 | s100 => DD x19 x62 | s101 => DD x19 x63 | s102 => DD x20 x0 | s103 => DD x20 x1 | s104 => DD x20 x2 | s105 => DD x20 x3 | s106 => DD x20 x4 | s107 => DD x20 x5 | s108 => DD x20 x6 | s109 => DD x20 x7 | s110 => DD x20 x8 | s111 => DD x20 x9 | s112 => DD x20 x10 | s113 => DD x20 x11 | s114 => DD x20 x12 | s115 => DD x20 x13 | s116 => DD x20 x14 | s117 => DD x20 x15 | s118 => DD x20 x16 | s119 => DD x20 x17 | s120 => DD x20 x18 | s121 => DD x20 x19 | s122 => DD x20 x20 | s123 => DD x20 x21 | s124 => DD x20 x22 | s125 => DD x20 x23 | s126 => DD x20 x24 end.
Definition m1180 (c : sum2) : dd := match c with s0 => DD x18 x28 | s1 => DD x18 x29 | s2 => DD x18 x30 | s3 => DD x18 x31 | s4 => DD x18 x32 | s5 => DD x18 x33 | s6 => DD x18 x34 | s7 => DD x18 x35 | s8 => DD x18 x36 | s9 => DD x18 x37 | s10 => DD x18 x38 | s11 => DD x18 x39 | s12 => DD x18 x40 | s13 => DD x18 x41 | s14 => DD x18 x42 | s15 => DD x18 x43 | s16 => DD x18 x44 | s17 => DD x18 x45 | s18 => DD x18 x46 | s19 => DD x18 x47 | s20 => DD x18 x48 | s21 => DD x18 x49 | s22 => DD x18 x50 | s23 => DD x18 x51 | s24 => DD x18 x52 | s25 => DD x18 x53 | s26 => DD x18 x54 | s27 => DD x18 x55 | s28 => DD x18 x56 | s29 => DD x18 x57 | s30 => DD x18 x58 | s31 => DD x18 x59 | s32 => DD x18 x60 | s33 => DD x18 x61 | s34 => DD x18 x62 | s35 => DD x18 x63 | s36 => DD x19 x0 | s37 => DD x19 x1 | s38 => DD x19 x2 | s39 => DD x19 x3 | s40 => DD x19 x4 | s41 => DD x19 x5 | s42 => DD x19 x6 | s43 => DD x19 x7 | s44 => DD x19 x8 | s45 => DD x19 x9 | s46 => DD x19 x10 | s47 => DD x19 x11 | s48 => DD x19 x12 | s49 => DD x19 x13 | s50 => DD x19 x14 | s51 => DD x19 x15 | s52 => DD x19 x16 | s53 => DD x19 x17 | s54 => DD x19 x18 | s55 => DD x19 x19 | s56 => DD x19 x20 | s57 => DD x19 x21 | s58 => DD x19 x22 | s59 => DD x19 x23 | s60 => DD x19 x24 | s61 => DD x19 x25 | s62 => DD x19 x26 | s63 => DD x19 x27 | s64 => DD x19 x28 | s65 => DD x19 x29 | s66 => DD x19 x30 | s67 => DD x19 x31 | s68 => DD x19 x32 | s69 => DD x19 x33 | s70 => DD x19 x34 | s71 => DD x19 x35 | s72 => DD x19 x36 | s73 => DD x19 x37 | s74 => DD x19 x38 | s75 => DD x19 x39 | s76 => DD x19 x40 | s77 => DD x19 x41 | s78 => DD x19 x42 | s79 => DD x19 x43 | s80 => DD x19 x44 | s81 => DD x19 x45 | s82 => DD x19 x46 | s83 => DD x19 x47 | s84 => DD x19 x48 | s85 => DD x19 x49 | s86 => DD x19 x50 | s87 => DD x19 x51 | s88 => DD x19 x52 | s89 => DD x19 x53 | s90 => DD x19 x54 | s91 => DD x19 x55 | s92 => DD x19 x56 | s93 => DD x19 x57 | s94 => DD x19 x58 | s95 => DD x19 x59 | s96 => DD x19 x60 | s97 => DD x19 x61 | s98 => DD x19 x62 | s99 => DD x19 x63 | s100 => DD x20 x0 | s101 => DD x20 x1 | s102 => DD x20 x2 | s103 => DD x20 x3 | s104 => DD x20 x4 | s105 => DD x20 x5 | s106 => DD x20 x6 | s107 => DD x20 x7 | s108 => DD x20 x8 | s109 => DD x20 x9 | s110 => DD x20 x10 | s111 => DD x20 x11 | s112 => DD x20 x12 | s113 => DD x20 x13 | s114 => DD x20 x14 | s115 => DD x20 x15 | s116 => DD x20 x16 | s117 => DD x20 x17 | s118 => DD x20 x18 | s119 => DD x20 x19 | s120 => DD x20 x20 | s121 => DD x20 x21 | s122 => DD x20 x22 | s123 => DD x20 x23 | s124 => DD x20 x24 | s125 => DD x20 x25 | s126 => DD x20 x26 end.
Definition m1184 (c : sum2) : dd := match c with s0 => DD x18 x32 | s1 => DD x18 x33 | s2 => DD x18 x34 | s3 => DD x18 x35 | s4 => DD x18 x36 | s5 => DD x18 x37 | s6 => DD x18 x38 | s7 => DD x18 x39 | s8 => DD x18 x40 | s9 => DD x18 x41 | s10 => DD x18 x42 | s11 => DD x18 x43 | s12 => DD x18 x44 | s13 => DD x18 x45 | s14 => DD x18 x46 | s15 => DD x18 x47 | s16 => DD x18 x48 | s17 => DD x18 x49 | s18 => DD x18 x50 | s19 => DD x18 x51 | s20 => DD x18 x52 | s21 => DD x18 x53 | s22 => DD x18 x54 | s23 => DD x18 x55 | s24 => DD x18 x56 | s25 => DD x18 x57 | s26 => DD x18 x58 | s27 => DD x18 x59 | s28 => DD x18 x60 | s29 => DD x18 x61 | s30 => DD x18 x62 | s31 => DD x18 x63 | s32 => DD x19 x0 | s33 => DD x19 x1 | s34 => DD x19 x2 | s35 => DD x19 x3 | s36 => DD x19 x4 | s37 => DD x19 x5 | s38 => DD x19 x6 | s39 => DD x19 x7 | s40 => DD x19 x8 | s41 => DD x19 x9 | s42 => DD x19 x10 | s43 => DD x19 x11 | s44 => DD x19 x12 | s45 => DD x19 x13 | s46 => DD x19 x14 | s47 => DD x19 x15 | s48 => DD x19 x16 | s49 => DD x19 x17 | s50 => DD x19 x18 | s51 => DD x19 x19 | s52 => DD x19 x20 | s53 => DD x19 x21 | s54 => DD x19 x22 | s55 => DD x19 x23 | s56 => DD x19 x24 | s57 => DD x19 x25 | s58 => DD x19 x26 | s59 => DD x19 x27 | s60 => DD x19 x28 | s61 => DD x19 x29 | s62 => DD x19 x30 | s63 => DD x19 x31 | s64 => DD x19 x32 | s65 => DD x19 x33 | s66 => DD x19 x34 | s67 => DD x19 x35 | s68 => DD x19 x36 | s69 => DD x19 x37 | s70 => DD x19 x38 | s71 => DD x19 x39 | s72 => DD x19 x40 | s73 => DD x19 x41 | s74 => DD x19 x42 | s75 => DD x19 x43 | s76 => DD x19 x44 | s77 => DD x19 x45 | s78 => DD x19 x46 | s79 => DD x19 x47 | s80 => DD x19 x48 | s81 => DD x19 x49 | s82 => DD x19 x50 | s83 => DD x19 x51 | s84 => DD x19 x52 | s85 => DD x19 x53 | s86 => DD x19 x54 | s87 => DD x19 x55 | s88 => DD x19 x56 | s89 => DD x19 x57 | s90 => DD x19 x58 | s91 => DD x19 x59 | s92 => DD x19 x60 | s93 => DD x19 x61 | s94 => DD x19 x62 | s95 => DD x19 x63 | s96 => DD x20 x0 | s97 => DD x20 x1 | s98 => DD x20 x2 | s99 => DD x20 x3 | s100 => DD x20 x4 | s101 => DD x20 x5 | s102 => DD x20 x6 | s103 => DD x20 x7 | s104 => DD x20 x8 | s105 => DD x20 x9 | s106 => DD x20 x10 | s107 => DD x20 x11 | s108 => DD x20 x12 | s109 => DD x20 x13 | s110 => DD x20 x14 | s111 => DD x20 x15 | s112 => DD x20 x16 | s113 => DD x20 x17 | s114 => DD x20 x18 | s115 => DD x20 x19 | s116 => DD x20 x20 | s117 => DD x20 x21 | s118 => DD x20 x22 | s119 => DD x20 x23 | s120 => DD x20 x24 | s121 => DD x20 x25 | s122 => DD x20 x26 | s123 => DD x20 x27 | s124 => DD x20 x28 | s125 => DD x20 x29 | s126 => DD x20 x30 end.
Definition m1188 (c : sum2) : dd := match c with s0 => DD x18 x36 | s1 => DD x18 x37 | s2 => DD x18 x38 | s3 => DD x18 x39 | s4 => DD x18 x40 | s5 => DD x18 x41 | s6 => DD x18 x42 | s7 => DD x18 x43 | s8 => DD x18 x44 | s9 => DD x18 x45 | s10 => DD x18 x46 | s11 => DD x18 x47 | s12 => DD x18 x48 | s13 => DD x18 x49 | s14 => DD x18 x50 | s15 => DD x18 x51 | s16 => DD x18 x52 | s17 => DD x18 x53 | s18 => DD x18 x54 | s19 => DD x18 x55 | s20 => DD x18 x56 | s21 => DD x18 x57 | s22 => DD x18 x58 | s23 => DD x18 x59 | s24 => DD x18 x60 | s25 => DD x18 x61 | s26 => DD x18 x62 | s27 => DD x18 x63 | s28 => DD x19 x0 | s29 => DD x19 x1 | s30 => DD x19 x2 | s31 => DD x19 x3 | s32 => DD x19 x4 | s33 => DD x19 x5 | s34 => DD x19 x6 | s35 => DD x19 x7 | s36 => DD x19 x8 | s37 => DD x19 x9 | s38 => DD x19 x10 | s39 => DD x19 x11 | s40 => DD x19 x12 | s41 => DD x19 x13 | s42 => DD x19 x14 | s43 => DD x19 x15 | s44 => DD x19 x16 | s45 => DD x19 x17 | s46 => DD x19 x18 | s47 => DD x19 x19 | s48 => DD x19 x20 | s49 => DD x19 x21 | s50 => DD x19 x22 | s51 => DD x19 x23 | s52 => DD x19 x24 | s53 => DD x19 x25 | s54 => DD x19 x26 | s55 => DD x19 x27 | s56 => DD x19 x28 | s57 => DD x19 x29 | s58 => DD x19 x30 | s59 => DD x19 x31 | s60 => DD x19 x32 | s61 => DD x19 x33 | s62 => DD x19 x34 | s63 => DD x19 x35 | s64 => DD x19 x36 | s65 => DD x19 x37 | s66 => DD x19 x38 | s67 => DD x19 x39 | s68 => DD x19 x40 | s69 => DD x19 x41 | s70 => DD x19 x42 | s71 => DD x19 x43 | s72 => DD x19 x44 | s73 => DD x19 x45 | s74 => DD x19 x46 | s75 => DD x19 x47 | s76 => DD x19 x48 | s77 => DD x19 x49 | s78 => DD x19 x50 | s79 => DD x19 x51 | s80 => DD x19 x52 | s81 => DD x19 x53 | s82 => DD x19 x54 | s83 => DD x19 x55 | s84 => DD x19 x56 | s85 => DD x19 x57 | s86 => DD x19 x58 | s87 => DD x19 x59 | s88 => DD x19 x60 | s89 => DD x19 x61 | s90 => DD x19 x62 | s91 => DD x19 x63 | s92 => DD x20 x0 | s93 => DD x20 x1 | s94 => DD x20 x2 | s95 => DD x20 x3 | s96 => DD x20 x4 | s97 => DD x20 x5 | s98 => DD x20 x6 | s99 => DD x20 x7 | s100 => DD x20 x8 | s101 => DD x20 x9 | s102 => DD x20 x10 | s103 => DD x20 x11 | s104 => DD x20 x12 | s105 => DD x20 x13 | s106 => DD x20 x14 | s107 => DD x20 x15 | s108 => DD x20 x16 | s109 => DD x20 x17 | s110 => DD x20 x18 | s111 => DD x20 x19 | s112 => DD x20 x20 | s113 => DD x20 x21 | s114 => DD x20 x22 | s115 => DD x20 x23 | s116 => DD x20 x24 | s117 => DD x20 x25 | s118 => DD x20 x26 | s119 => DD x20 x27 | s120 => DD x20 x28 | s121 => DD x20 x29 | s122 => DD x20 x30 | s123 => DD x20 x31 | s124 => DD x20 x32 | s125 => DD x20 x33 | s126 => DD x20 x34 end.
Definition m1189 (c : sum2) : dd := match c with s0 => DD x18 x37 | s1 => DD x18 x38 | s2 => DD x18 x39 | s3 => DD x18 x40 | s4 => DD x18 x41 | s5 => DD x18 x42 | s6 => DD x18 x43 | s7 => DD x18 x44 | s8 => DD x18 x45 | s9 => DD x18 x46 | s10 => DD x18 x47 | s11 => DD x18 x48 | s12 => DD x18 x49 | s13 => DD x18 x50 | s14 => DD x18 x51 | s15 => DD x18 x52 | s16 => DD x18 x53 | s17 => DD x18 x54 | s18 => DD x18 x55 | s19 => DD x18 x56 | s20 => DD x18 x57 | s21 => DD x18 x58 | s22 => DD x18 x59 | s23 => DD x18 x60 | s24 => DD x18 x61 | s25 => DD x18 x62 | s26 => DD x18 x63 | s27 => DD x19 x0 | s28 => DD x19 x1 | s29 => DD x19 x2 | s30 => DD x19 x3 | s31 => DD x19 x4 | s32 => DD x19 x5 | s33 => DD x19 x6 | s34 => DD x19 x7 | s35 => DD x19 x8 | s36 => DD x19 x9 | s37 => DD x19 x10 | s38 => DD x19 x11 | s39 => DD x19 x12 | s40 => DD x19 x13 | s41 => DD x19 x14 | s42 => DD x19 x15 | s43 => DD x19 x16 | s44 => DD x19 x17 | s45 => DD x19 x18 | s46 => DD x19 x19 | s47 => DD x19 x20 | s48 => DD x19 x21 | s49 => DD x19 x22 | s50 => DD x19 x23 | s51 => DD x19 x24 | s52 => DD x19 x25 | s53 => DD x19 x26 | s54 => DD x19 x27 | s55 => DD x19 x28 | s56 => DD x19 x29 | s57 => DD x19 x30 | s58 => DD x19 x31 | s59 => DD x19 x32 | s60 => DD x19 x33 | s61 => DD x19 x34 | s62 => DD x19 x35 | s63 => DD x19 x36 | s64 => DD x19 x37 | s65 => DD x19 x38 | s66 => DD x19 x39 | s67 => DD x19 x40 | s68 => DD x19 x41 | s69 => DD x19 x42 | s70 => DD x19 x43 | s71 => DD x19 x44 | s72 => DD x19 x45 | s73 => DD x19 x46 | s74 => DD x19 x47 | s75 => DD x19 x48 | s76 => DD x19 x49 | s77 => DD x19 x50 | s78 => DD x19 x51 | s79 => DD x19 x52 | s80 => DD x19 x53 | s81 => DD x19 x54 | s82 => DD x19 x55 | s83 => DD x19 x56 | s84 => DD x19 x57 | s85 => DD x19 x58 | s86 => DD x19 x59 | s87 => DD x19 x60 | s88 => DD x19 x61 | s89 => DD x19 x62 | s90 => DD x19 x63 | s91 => DD x20 x0 | s92 => DD x20 x1 | s93 => DD x20 x2 | s94 => DD x20 x3 | s95 => DD x20 x4 | s96 => DD x20 x5 | s97 => DD x20 x6 | s98 => DD x20 x7 | s99 => DD x20 x8 | s100 => DD x20 x9 | s101 => DD x20 x10 | s102 => DD x20 x11 | s103 => DD x20 x12 | s104 => DD x20 x13 | s105 => DD x20 x14 | s106 => DD x20 x15 | s107 => DD x20 x16 | s108 => DD x20 x17 | s109 => DD x20 x18 | s110 => DD x20 x19 | s111 => DD x20 x20 | s112 => DD x20 x21 | s113 => DD x20 x22 | s114 => DD x20 x23 | s115 => DD x20 x24 | s116 => DD x20 x25 | s117 => DD x20 x26 | s118 => DD x20 x27 | s119 => DD x20 x28 | s120 => DD x20 x29 | s121 => DD x20 x30 | s122 => DD x20 x31 | s123 => DD x20 x32 | s124 => DD x20 x33 | s125 => DD x20 x34 | s126 => DD x20 x35 end.
Definition m1190 (c : sum2) : dd := match c with s0 => DD x18 x38 | s1 => DD x18 x39 | s2 => DD x18 x40 | s3 => DD x18 x41 | s4 => DD x18 x42 | s5 => DD x18 x43 | s6 => DD x18 x44 | s7 => DD x18 x45 | s8 => DD x18 x46 | s9 => DD x18 x47 | s10 => DD x18 x48 | s11 => DD x18 x49 | s12 => DD x18 x50 | s13 => DD x18 x51 | s14 => DD x18 x52 | s15 => DD x18 x53 | s16 => DD x18 x54 | s17 => DD x18 x55 | s18 => DD x18 x56 | s19 => DD x18 x57 | s20 => DD x18 x58 | s21 => DD x18 x59 | s22 => DD x18 x60 | s23 => DD x18 x61 | s24 => DD x18 x62 | s25 => DD x18 x63 | s26 => DD x19 x0 | s27 => DD x19 x1 | s28 => DD x19 x2 | s29 => DD x19 x3 | s30 => DD x19 x4 | s31 => DD x19 x5 | s32 => DD x19 x6 | s33 => DD x19 x7 | s34 => DD x19 x8 | s35 => DD x19 x9 | s36 => DD x19 x10 | s37 => DD x19 x11 | s38 => DD x19 x12 | s39 => DD x19 x13 | s40 => DD x19 x14 | s41 => DD x19 x15 | s42 => DD x19 x16 | s43 => DD x19 x17 | s44 => DD x19 x18 | s45 => DD x19 x19 | s46 => DD x19 x20 | s47 => DD x19 x21 | s48 => DD x19 x22 | s49 => DD x19 x23 | s50 => DD x19 x24 | s51 => DD x19 x25 | s52 => DD x19 x26 | s53 => DD x19 x27 | s54 => DD x19 x28 | s55 => DD x19 x29 | s56 => DD x19 x30 | s57 => DD x19 x31 | s58 => DD x19 x32 | s59 => DD x19 x33 | s60 => DD x19 x34 | s61 => DD x19 x35 | s62 => DD x19 x36 | s63 => DD x19 x37 | s64 => DD x19 x38 | s65 => DD x19 x39 | s66 => DD x19 x40 | s67 => DD x19 x41 | s68 => DD x19 x42 | s69 => DD x19 x43 | s70 => DD x19 x44 | s71 => DD x19 x45 | s72 => DD x19 x46 | s73 => DD x19 x47 | s74 => DD x19 x48 | s75 => DD x19 x49 | s76 => DD x19 x50 | s77 => DD x19 x51 | s78 => DD x19 x52 | s79 => DD x19 x53 | s80 => DD x19 x54 | s81 => DD x19 x55 | s82 => DD x19 x56 | s83 => DD x19 x57 | s84 => DD x19 x58 | s85 => DD x19 x59 | s86 => DD x19 x60 | s87 => DD x19 x61 | s88 => DD x19 x62 | s89 => DD x19 x63 | s90 => DD x20 x0 | s91 => DD x20 x1 | s92 => DD x20 x2 | s93 => DD x20 x3 | s94 => DD x20 x4 | s95 => DD x20 x5 | s96 => DD x20 x6 | s97 => DD x20 x7 | s98 => DD x20 x8 | s99 => DD x20 x9 | s100 => DD x20 x10 | s101 => DD x20 x11 | s102 => DD x20 x12 | s103 => DD x20 x13 | s104 => DD x20 x14 | s105 => DD x20 x15 | s106 => DD x20 x16 | s107 => DD x20 x17 | s108 => DD x20 x18 | s109 => DD x20 x19 | s110 => DD x20 x20 | s111 => DD x20 x21 | s112 => DD x20 x22 | s113 => DD x20 x23 | s114 => DD x20 x24 | s115 => DD x20 x25 | s116 => DD x20 x26 | s117 => DD x20 x27 | s118 => DD x20 x28 | s119 => DD x20 x29 | s120 => DD x20 x30 | s121 => DD x20 x31 | s122 => DD x20 x32 | s123 => DD x20 x33 | s124 => DD x20 x34 | s125 => DD x20 x35 | s126 => DD x20 x36 end.
Definition m1196 (c : sum2) : dd := match c with s0 => DD x18 x44 | s1 => DD x18 x45 | s2 => DD x18 x46 | s3 => DD x18 x47 | s4 => DD x18 x48 | s5 => DD x18 x49 | s6 => DD x18 x50 | s7 => DD x18 x51 | s8 => DD x18 x52 | s9 => DD x18 x53 | s10 => DD x18 x54 | s11 => DD x18 x55 | s12 => DD x18 x56 | s13 => DD x18 x57 | s14 => DD x18 x58 | s15 => DD x18 x59 | s16 => DD x18 x60 | s17 => DD x18 x61 | s18 => DD x18 x62 | s19 => DD x18 x63 | s20 => DD x19 x0 | s21 => DD x19 x1 | s22 => DD x19 x2 | s23 => DD x19 x3 | s24 => DD x19 x4 | s25 => DD x19 x5 | s26 => DD x19 x6 | s27 => DD x19 x7 | s28 => DD x19 x8 | s29 => DD x19 x9 | s30 => DD x19 x10 | s31 => DD x19 x11 | s32 => DD x19 x12 | s33 => DD x19 x13 | s34 => DD x19 x14 | s35 => DD x19 x15 | s36 => DD x19 x16 | s37 => DD x19 x17 | s38 => DD x19 x18 | s39 => DD x19 x19 | s40 => DD x19 x20 | s41 => DD x19 x21 | s42 => DD x19 x22 | s43 => DD x19 x23 | s44 => DD x19 x24 | s45 => DD x19 x25 | s46 => DD x19 x26 | s47 => DD x19 x27 | s48 => DD x19 x28 | s49 => DD x19 x29 | s50 => DD x19 x30 | s51 => DD x19 x31 | s52 => DD x19 x32 | s53 => DD x19 x33 | s54 => DD x19 x34 | s55 => DD x19 x35 | s56 => DD x19 x36 | s57 => DD x19 x37 | s58 => DD x19 x38 | s59 => DD x19 x39 | s60 => DD x19 x40 | s61 => DD x19 x41 | s62 => DD x19 x42 | s63 => DD x19 x43 | s64 => DD x19 x44 | s65 => DD x19 x45 | s66 => DD x19 x46 | s67 => DD x19 x47 | s68 => DD x19 x48 | s69 => DD x19 x49 | s70 => DD x19 x50 | s71 => DD x19 x51 | s72 => DD x19 x52 | s73 => DD x19 x53 | s74 => DD x19 x54 | s75 => DD x19 x55 | s76 => DD x19 x56 | s77 => DD x19 x57 | s78 => DD x19 x58 | s79 => DD x19 x59 | s80 => DD x19 x60 | s81 => DD x19 x61 | s82 => DD x19 x62 | s83 => DD x19 x63 | s84 => DD x20 x0 | s85 => DD x20 x1 | s86 => DD x20 x2 | s87 => DD x20 x3 | s88 => DD x20 x4 | s89 => DD x20 x5 | s90 => DD x20 x6 | s91 => DD x20 x7 | s92 => DD x20 x8 | s93 => DD x20 x9 | s94 => DD x20 x10 | s95 => DD x20 x11 | s96 => DD x20 x12 | s97 => DD x20 x13 | s98 => DD x20 x14 | s99 => DD x20 x15 | s100 => DD x20 x16 | s101 => DD x20 x17 | s102 => DD x20 x18 | s103 => DD x20 x19 | s104 => DD x20 x20 | s105 => DD x20 x21 | s106 => DD x20 x22 | s107 => DD x20 x23 | s108 => DD x20 x24 | s109 => DD x20 x25 | s110 => DD x20 x26 | s111 => DD x20 x27 | s112 => DD x20 x28 | s113 => DD x20 x29 | s114 => DD x20 x30 | s115 => DD x20 x31 | s116 => DD x20 x32 | s117 => DD x20 x33 | s118 => DD x20 x34 | s119 => DD x20 x35 | s120 => DD x20 x36 | s121 => DD x20 x37 | s122 => DD x20 x38 | s123 => DD x20 x39 | s124 => DD x20 x40 | s125 => DD x20 x41 | s126 => DD x20 x42 end.
Definition m1197 (c : sum2) : dd := match c with s0 => DD x18 x45 | s1 => DD x18 x46 | s2 => DD x18 x47 | s3 => DD x18 x48 | s4 => DD x18 x49 | s5 => DD x18 x50 | s6 => DD x18 x51 | s7 => DD x18 x52 | s8 => DD x18 x53 | s9 => DD x18 x54 | s10 => DD x18 x55 | s11 => DD x18 x56 | s12 => DD x18 x57 | s13 => DD x18 x58 | s14 => DD x18 x59 | s15 => DD x18 x60 | s16 => DD x18 x61 | s17 => DD x18 x62 | s18 => DD x18 x63 | s19 => DD x19 x0 | s20 => DD x19 x1 | s21 => DD x19 x2 | s22 => DD x19 x3 | s23 => DD x19 x4 | s24 => DD x19 x5 | s25 => DD x19 x6 | s26 => DD x19 x7 | s27 => DD x19 x8 | s28 => DD x19 x9 | s29 => DD x19 x10 | s30 => DD x19 x11 | s31 => DD x19 x12 | s32 => DD x19 x13 | s33 => DD x19 x14 | s34 => DD x19 x15 | s35 => DD x19 x16 | s36 => DD x19 x17 | s37 => DD x19 x18 | s38 => DD x19 x19 | s39 => DD x19 x20 | s40 => DD x19 x21 | s41 => DD x19 x22 | s42 => DD x19 x23 | s43 => DD x19 x24 | s44 => DD x19 x25 | s45 => DD x19 x26 | s46 => DD x19 x27 | s47 => DD x19 x28 | s48 => DD x19 x29 | s49 => DD x19 x30 | s50 => DD x19 x31 | s51 => DD x19 x32 | s52 => DD x19 x33 | s53 => DD x19 x34 | s54 => DD x19 x35 | s55 => DD x19 x36 | s56 => DD x19 x37 | s57 => DD x19 x38 | s58 => DD x19 x39 | s59 => DD x19 x40 | s60 => DD x19 x41 | s61 => DD x19 x42 | s62 => DD x19 x43 | s63 => DD x19 x44 | s64 => DD x19 x45 | s65 => DD x19 x46 | s66 => DD x19 x47 | s67 => DD x19 x48 | s68 => DD x19 x49 | s69 => DD x19 x50 | s70 => DD x19 x51 | s71 => DD x19 x52 | s72 => DD x19 x53 | s73 => DD x19 x54 | s74 => DD x19 x55 | s75 => DD x19 x56 | s76 => DD x19 x57 | s77 => DD x19 x58 | s78 => DD x19 x59 | s79 => DD x19 x60 | s80 => DD x19 x61 | s81 => DD x19 x62 | s82 => DD x19 x63 | s83 => DD x20 x0 | s84 => DD x20 x1 | s85 => DD x20 x2 | s86 => DD x20 x3 | s87 => DD x20 x4 | s88 => DD x20 x5 | s89 => DD x20 x6 | s90 => DD x20 x7 | s91 => DD x20 x8 | s92 => DD x20 x9 | s93 => DD x20 x10 | s94 => DD x20 x11 | s95 => DD x20 x12 | s96 => DD x20 x13 | s97 => DD x20 x14 | s98 => DD x20 x15 | s99 => DD x20 x16 | s100 => DD x20 x17 | s101 => DD x20 x18 | s102 => DD x20 x19 | s103 => DD x20 x20 | s104 => DD x20 x21 | s105 => DD x20 x22 | s106 => DD x20 x23 | s107 => DD x20 x24 | s108 => DD x20 x25 | s109 => DD x20 x26 | s110 => DD x20 x27 | s111 => DD x20 x28 | s112 => DD x20 x29 | s113 => DD x20 x30 | s114 => DD x20 x31 | s115 => DD x20 x32 | s116 => DD x20 x33 | s117 => DD x20 x34 | s118 => DD x20 x35 | s119 => DD x20 x36 | s120 => DD x20 x37 | s121 => DD x20 x38 | s122 => DD x20 x39 | s123 => DD x20 x40 | s124 => DD x20 x41 | s125 => DD x20 x42 | s126 => DD x20 x43 end.
Definition m1200 (c : sum2) : dd := match c with s0 => DD x18 x48 | s1 => DD x18 x49 | s2 => DD x18 x50 | s3 => DD x18 x51 | s4 => DD x18 x52 | s5 => DD x18 x53 | s6 => DD x18 x54 | s7 => DD x18 x55 | s8 => DD x18 x56 | s9 => DD x18 x57 | s10 => DD x18 x58 | s11 => DD x18 x59 | s12 => DD x18 x60 | s13 => DD x18 x61 | s14 => DD x18 x62 | s15 => DD x18 x63 | s16 => DD x19 x0 | s17 => DD x19 x1 | s18 => DD x19 x2 | s19 => DD x19 x3 | s20 => DD x19 x4 | s21 => DD x19 x5 | s22 => DD x19 x6 | s23 => DD x19 x7 | s24 => DD x19 x8 | s25 => DD x19 x9 | s26 => DD x19 x10 | s27 => DD x19 x11 | s28 => DD x19 x12 | s29 => DD x19 x13 | s30 => DD x19 x14 | s31 => DD x19 x15 | s32 => DD x19 x16 | s33 => DD x19 x17 | s34 => DD x19 x18 | s35 => DD x19 x19 | s36 => DD x19 x20 | s37 => DD x19 x21 | s38 => DD x19 x22 | s39 => DD x19 x23 | s40 => DD x19 x24 | s41 => DD x19 x25 | s42 => DD x19 x26 | s43 => DD x19 x27 | s44 => DD x19 x28 | s45 => DD x19 x29 | s46 => DD x19 x30 | s47 => DD x19 x31 | s48 => DD x19 x32 | s49 => DD x19 x33 | s50 => DD x19 x34 | s51 => DD x19 x35 | s52 => DD x19 x36 | s53 => DD x19 x37 | s54 => DD x19 x38 | s55 => DD x19 x39 | s56 => DD x19 x40 | s57 => DD x19 x41 | s58 => DD x19 x42 | s59 => DD x19 x43 | s60 => DD x19 x44 | s61 => DD x19 x45 | s62 => DD x19 x46 | s63 => DD x19 x47 | s64 => DD x19 x48 | s65 => DD x19 x49 | s66 => DD x19 x50 | s67 => DD x19 x51 | s68 => DD x19 x52 | s69 => DD x19 x53 | s70 => DD x19 x54 | s71 => DD x19 x55 | s72 => DD x19 x56 | s73 => DD x19 x57 | s74 => DD x19 x58 | s75 => DD x19 x59 | s76 => DD x19 x60 | s77 => DD x19 x61 | s78 => DD x19 x62 | s79 => DD x19 x63 | s80 => DD x20 x0 | s81 => DD x20 x1 | s82 => DD x20 x2 | s83 => DD x20 x3 | s84 => DD x20 x4 | s85 => DD x20 x5 | s86 => DD x20 x6 | s87 => DD x20 x7 | s88 => DD x20 x8 | s89 => DD x20 x9 | s90 => DD x20 x10 | s91 => DD x20 x11 | s92 => DD x20 x12 | s93 => DD x20 x13 | s94 => DD x20 x14 | s95 => DD x20 x15 | s96 => DD x20 x16 | s97 => DD x20 x17 | s98 => DD x20 x18 | s99 => DD x20 x19 | s100 => DD x20 x20 | s101 => DD x20 x21 | s102 => DD x20 x22 | s103 => DD x20 x23 | s104 => DD x20 x24 | s105 => DD x20 x25 | s106 => DD x20 x26 | s107 => DD x20 x27 | s108 => DD x20 x28 | s109 => DD x20 x29 | s110 => DD x20 x30 | s111 => DD x20 x31 | s112 => DD x20 x32 | s113 => DD x20 x33 | s114 => DD x20 x34 | s115 => DD x20 x35 | s116 => DD x20 x36 | s117 => DD x20 x37 | s118 => DD x20 x38 | s119 => DD x20 x39 | s120 => DD x20 x40 | s121 => DD x20 x41 | s122 => DD x20 x42 | s123 => DD x20 x43 | s124 => DD x20 x44 | s125 => DD x20 x45 | s126 => DD x20 x46 end.
Definition m1204 (c : sum2) : dd := match c with s0 => DD x18 x52 | s1 => DD x18 x53 | s2 => DD x18 x54 | s3 => DD x18 x55 | s4 => DD x18 x56 | s5 => DD x18 x57 | s6 => DD x18 x58 | s7 => DD x18 x59 | s8 => DD x18 x60 | s9 => DD x18 x61 | s10 => DD x18 x62 | s11 => DD x18 x63 | s12 => DD x19 x0 | s13 => DD x19 x1 | s14 => DD x19 x2 | s15 => DD x19 x3 | s16 => DD x19 x4 | s17 => DD x19 x5 | s18 => DD x19 x6 | s19 => DD x19 x7 | s20 => DD x19 x8 | s21 => DD x19 x9 | s22 => DD x19 x10 | s23 => DD x19 x11 | s24 => DD x19 x12 | s25 => DD x19 x13 | s26 => DD x19 x14 | s27 => DD x19 x15 | s28 => DD x19 x16 | s29 => DD x19 x17 | s30 => DD x19 x18 | s31 => DD x19 x19 | s32 => DD x19 x20 | s33 => DD x19 x21 | s34 => DD x19 x22 | s35 => DD x19 x23 | s36 => DD x19 x24 | s37 => DD x19 x25 | s38 => DD x19 x26 | s39 => DD x19 x27 | s40 => DD x19 x28 | s41 => DD x19 x29 | s42 => DD x19 x30 | s43 => DD x19 x31 | s44 => DD x19 x32 | s45 => DD x19 x33 | s46 => DD x19 x34 | s47 => DD x19 x35 | s48 => DD x19 x36 | s49 => DD x19 x37 | s50 => DD x19 x38 | s51 => DD x19 x39 | s52 => DD x19 x40 | s53 => DD x19 x41 | s54 => DD x19 x42 | s55 => DD x19 x43 | s56 => DD x19 x44 | s57 => DD x19 x45 | s58 => DD x19 x46 | s59 => DD x19 x47 | s60 => DD x19 x48 | s61 => DD x19 x49 | s62 => DD x19 x50 | s63 => DD x19 x51 | s64 => DD x19 x52 | s65 => DD x19 x53 | s66 => DD x19 x54 | s67 => DD x19 x55 | s68 => DD x19 x56 | s69 => DD x19 x57 | s70 => DD x19 x58 | s71 => DD x19 x59 | s72 => DD x19 x60 | s73 => DD x19 x61 | s74 => DD x19 x62 | s75 => DD x19 x63 | s76 => DD x20 x0 | s77 => DD x20 x1 | s78 => DD x20 x2 | s79 => DD x20 x3 | s80 => DD x20 x4 | s81 => DD x20 x5 | s82 => DD x20 x6 | s83 => DD x20 x7 | s84 => DD x20 x8 | s85 => DD x20 x9 | s86 => DD x20 x10 | s87 => DD x20 x11 | s88 => DD x20 x12 | s89 => DD x20 x13 | s90 => DD x20 x14 | s91 => DD x20 x15 | s92 => DD x20 x16 | s93 => DD x20 x17 | s94 => DD x20 x18 | s95 => DD x20 x19 | s96 => DD x20 x20 | s97 => DD x20 x21 | s98 => DD x20 x22 | s99 => DD x20 x23 | s100 => DD x20 x24 | s101 => DD x20 x25 | s102 => DD x20 x26 | s103 => DD x20 x27 | s104 => DD x20 x28 | s105 => DD x20 x29 | s106 => DD x20 x30 | s107 => DD x20 x31 | s108 => DD x20 x32 | s109 => DD x20 x33 | s110 => DD x20 x34 | s111 => DD x20 x35 | s112 => DD x20 x36 | s113 => DD x20 x37 | s114 => DD x20 x38 | s115 => DD x20 x39 | s116 => DD x20 x40 | s117 => DD x20 x41 | s118 => DD x20 x42 | s119 => DD x20 x43 | s120 => DD x20 x44 | s121 => DD x20 x45 | s122 => DD x20 x46 | s123 => DD x20 x47 | s124 => DD x20 x48 | s125 => DD x20 x49 | s126 => DD x20 x50 end.
Definition m1209 (c : sum2) : dd := match c with s0 => DD x18 x57 | s1 => DD x18 x58 | s2 => DD x18 x59 | s3 => DD x18 x60 | s4 => DD x18 x61 | s5 => DD x18 x62 | s6 => DD x18 x63 | s7 => DD x19 x0 | s8 => DD x19 x1 | s9 => DD x19 x2 | s10 => DD x19 x3 | s11 => DD x19 x4 | s12 => DD x19 x5 | s13 => DD x19 x6 | s14 => DD x19 x7 | s15 => DD x19 x8 | s16 => DD x19 x9 | s17 => DD x19 x10 | s18 => DD x19 x11 | s19 => DD x19 x12 | s20 => DD x19 x13 | s21 => DD x19 x14 | s22 => DD x19 x15 | s23 => DD x19 x16 | s24 => DD x19 x17 | s25 => DD x19 x18 | s26 => DD x19 x19 | s27 => DD x19 x20 | s28 => DD x19 x21 | s29 => DD x19 x22 | s30 => DD x19 x23 | s31 => DD x19 x24 | s32 => DD x19 x25 | s33 => DD x19 x26 | s34 => DD x19 x27 | s35 => DD x19 x28 | s36 => DD x19 x29 | s37 => DD x19 x30 | s38 => DD x19 x31 | s39 => DD x19 x32 | s40 => DD x19 x33 | s41 => DD x19 x34 | s42 => DD x19 x35 | s43 => DD x19 x36 | s44 => DD x19 x37 | s45 => DD x19 x38 | s46 => DD x19 x39 | s47 => DD x19 x40 | s48 => DD x19 x41 | s49 => DD x19 x42 | s50 => DD x19 x43 | s51 => DD x19 x44 | s52 => DD x19 x45 | s53 => DD x19 x46 | s54 => DD x19 x47 | s55 => DD x19 x48 | s56 => DD x19 x49 | s57 => DD x19 x50 | s58 => DD x19 x51 | s59 => DD x19 x52 | s60 => DD x19 x53 | s61 => DD x19 x54 | s62 => DD x19 x55 | s63 => DD x19 x56 | s64 => DD x19 x57 | s65 => DD x19 x58 | s66 => DD x19 x59 | s67 => DD x19 x60 | s68 => DD x19 x61 | s69 => DD x19 x62 | s70 => DD x19 x63 | s71 => DD x20 x0 | s72 => DD x20 x1 | s73 => DD x20 x2 | s74 => DD x20 x3 | s75 => DD x20 x4 | s76 => DD x20 x5 | s77 => DD x20 x6 | s78 => DD x20 x7 | s79 => DD x20 x8 | s80 => DD x20 x9 | s81 => DD x20 x10 | s82 => DD x20 x11 | s83 => DD x20 x12 | s84 => DD x20 x13 | s85 => DD x20 x14 | s86 => DD x20 x15 | s87 => DD x20 x16 | s88 => DD x20 x17 | s89 => DD x20 x18 | s90 => DD x20 x19 | s91 => DD x20 x20 | s92 => DD x20 x21 | s93 => DD x20 x22 | s94 => DD x20 x23 | s95 => DD x20 x24 | s96 => DD x20 x25 | s97 => DD x20 x26 | s98 => DD x20 x27 | s99 => DD x20 x28 | s100 => DD x20 x29 | s101 => DD x20 x30 | s102 => DD x20 x31 | s103 => DD x20 x32 | s104 => DD x20 x33 | s105 => DD x20 x34 | s106 => DD x20 x35 | s107 => DD x20 x36 | s108 => DD x20 x37 | s109 => DD x20 x38 | s110 => DD x20 x39 | s111 => DD x20 x40 | s112 => DD x20 x41 | s113 => DD x20 x42 | s114 => DD x20 x43 | s115 => DD x20 x44 | s116 => DD x20 x45 | s117 => DD x20 x46 | s118 => DD x20 x47 | s119 => DD x20 x48 | s120 => DD x20 x49 | s121 => DD x20 x50 | s122 => DD x20 x51 | s123 => DD x20 x52 | s124 => DD x20 x53 | s125 => DD x20 x54 | s126 => DD x20 x55 end.
Definition m1210 (c : sum2) : dd := match c with s0 => DD x18 x58 | s1 => DD x18 x59 | s2 => DD x18 x60 | s3 => DD x18 x61 | s4 => DD x18 x62 | s5 => DD x18 x63 | s6 => DD x19 x0 | s7 => DD x19 x1 | s8 => DD x19 x2 | s9 => DD x19 x3 | s10 => DD x19 x4 | s11 => DD x19 x5 | s12 => DD x19 x6 | s13 => DD x19 x7 | s14 => DD x19 x8 | s15 => DD x19 x9 | s16 => DD x19 x10 | s17 => DD x19 x11 | s18 => DD x19 x12 | s19 => DD x19 x13 | s20 => DD x19 x14 | s21 => DD x19 x15 | s22 => DD x19 x16 | s23 => DD x19 x17 | s24 => DD x19 x18 | s25 => DD x19 x19 | s26 => DD x19 x20 | s27 => DD x19 x21 | s28 => DD x19 x22 | s29 => DD x19 x23 | s30 => DD x19 x24 | s31 => DD x19 x25 | s32 => DD x19 x26 | s33 => DD x19 x27 | s34 => DD x19 x28 | s35 => DD x19 x29 | s36 => DD x19 x30 | s37 => DD x19 x31 | s38 => DD x19 x32 | s39 => DD x19 x33 | s40 => DD x19 x34 | s41 => DD x19 x35 | s42 => DD x19 x36 | s43 => DD x19 x37 | s44 => DD x19 x38 | s45 => DD x19 x39 | s46 => DD x19 x40 | s47 => DD x19 x41 | s48 => DD x19 x42 | s49 => DD x19 x43 | s50 => DD x19 x44 | s51 => DD x19 x45 | s52 => DD x19 x46 | s53 => DD x19 x47 | s54 => DD x19 x48 | s55 => DD x19 x49 | s56 => DD x19 x50 | s57 => DD x19 x51 | s58 => DD x19 x52 | s59 => DD x19 x53 | s60 => DD x19 x54 | s61 => DD x19 x55 | s62 => DD x19 x56 | s63 => DD x19 x57 | s64 => DD x19 x58 | s65 => DD x19 x59 | s66 => DD x19 x60 | s67 => DD x19 x61 | s68 => DD x19 x62 | s69 => DD x19 x63 | s70 => DD x20 x0 | s71 => DD x20 x1 | s72 => DD x20 x2 | s73 => DD x20 x3 | s74 => DD x20 x4 | s75 => DD x20 x5 | s76 => DD x20 x6 | s77 => DD x20 x7 | s78 => DD x20 x8 | s79 => DD x20 x9 | s80 => DD x20 x10 | s81 => DD x20 x11 | s82 => DD x20 x12 | s83 => DD x20 x13 | s84 => DD x20 x14 | s85 => DD x20 x15 | s86 => DD x20 x16 | s87 => DD x20 x17 | s88 => DD x20 x18 | s89 => DD x20 x19 | s90 => DD x20 x20 | s91 => DD x20 x21 | s92 => DD x20 x22 | s93 => DD x20 x23 | s94 => DD x20 x24 | s95 => DD x20 x25 | s96 => DD x20 x26 | s97 => DD x20 x27 | s98 => DD x20 x28 | s99 => DD x20 x29 | s100 => DD x20 x30 | s101 => DD x20 x31 | s102 => DD x20 x32 | s103 => DD x20 x33 | s104 => DD x20 x34 | s105 => DD x20 x35 | s106 => DD x20 x36 | s107 => DD x20 x37 | s108 => DD x20 x38 | s109 => DD x20 x39 | s110 => DD x20 x40 | s111 => DD x20 x41 | s112 => DD x20 x42 | s113 => DD x20 x43 | s114 => DD x20 x44 | s115 => DD x20 x45 | s116 => DD x20 x46 | s117 => DD x20 x47 | s118 => DD x20 x48 | s119 => DD x20 x49 | s120 => DD x20 x50 | s121 => DD x20 x51 | s122 => DD x20 x52 | s123 => DD x20 x53 | s124 => DD x20 x54 | s125 => DD x20 x55 | s126 => DD x20 x56 end.
Definition m1215 (c : sum2) : dd := match c with s0 => DD x18 x63 | s1 => DD x19 x0 | s2 => DD x19 x1 | s3 => DD x19 x2 | s4 => DD x19 x3 | s5 => DD x19 x4 | s6 => DD x19 x5 | s7 => DD x19 x6 | s8 => DD x19 x7 | s9 => DD x19 x8 | s10 => DD x19 x9 | s11 => DD x19 x10 | s12 => DD x19 x11 | s13 => DD x19 x12 | s14 => DD x19 x13 | s15 => DD x19 x14 | s16 => DD x19 x15 | s17 => DD x19 x16 | s18 => DD x19 x17 | s19 => DD x19 x18 | s20 => DD x19 x19 | s21 => DD x19 x20 | s22 => DD x19 x21 | s23 => DD x19 x22 | s24 => DD x19 x23 | s25 => DD x19 x24 | s26 => DD x19 x25 | s27 => DD x19 x26 | s28 => DD x19 x27 | s29 => DD x19 x28 | s30 => DD x19 x29 | s31 => DD x19 x30 | s32 => DD x19 x31 | s33 => DD x19 x32 | s34 => DD x19 x33 | s35 => DD x19 x34 | s36 => DD x19 x35 | s37 => DD x19 x36 | s38 => DD x19 x37 | s39 => DD x19 x38 | s40 => DD x19 x39 | s41 => DD x19 x40 | s42 => DD x19 x41 | s43 => DD x19 x42 | s44 => DD x19 x43 | s45 => DD x19 x44 | s46 => DD x19 x45 | s47 => DD x19 x46 | s48 => DD x19 x47 | s49 => DD x19 x48 | s50 => DD x19 x49 | s51 => DD x19 x50 | s52 => DD x19 x51 | s53 => DD x19 x52 | s54 => DD x19 x53 | s55 => DD x19 x54 | s56 => DD x19 x55 | s57 => DD x19 x56 | s58 => DD x19 x57 | s59 => DD x19 x58 | s60 => DD x19 x59 | s61 => DD x19 x60 | s62 => DD x19 x61 | s63 => DD x19 x62 | s64 => DD x19 x63 | s65 => DD x20 x0 | s66 => DD x20 x1 | s67 => DD x20 x2 | s68 => DD x20 x3 | s69 => DD x20 x4 | s70 => DD x20 x5 | s71 => DD x20 x6 | s72 => DD x20 x7 | s73 => DD x20 x8 | s74 => DD x20 x9 | s75 => DD x20 x10 | s76 => DD x20 x11 | s77 => DD x20 x12 | s78 => DD x20 x13 | s79 => DD x20 x14 | s80 => DD x20 x15 | s81 => DD x20 x16 | s82 => DD x20 x17 | s83 => DD x20 x18 | s84 => DD x20 x19 | s85 => DD x20 x20 | s86 => DD x20 x21 | s87 => DD x20 x22 | s88 => DD x20 x23 | s89 => DD x20 x24 | s90 => DD x20 x25 | s91 => DD x20 x26 | s92 => DD x20 x27 | s93 => DD x20 x28 | s94 => DD x20 x29 | s95 => DD x20 x30 | s96 => DD x20 x31 | s97 => DD x20 x32 | s98 => DD x20 x33 | s99 => DD x20 x34 | s100 => DD x20 x35 | s101 => DD x20 x36 | s102 => DD x20 x37 | s103 => DD x20 x38 | s104 => DD x20 x39 | s105 => DD x20 x40 | s106 => DD x20 x41 | s107 => DD x20 x42 | s108 => DD x20 x43 | s109 => DD x20 x44 | s110 => DD x20 x45 | s111 => DD x20 x46 | s112 => DD x20 x47 | s113 => DD x20 x48 | s114 => DD x20 x49 | s115 => DD x20 x50 | s116 => DD x20 x51 | s117 => DD x20 x52 | s118 => DD x20 x53 | s119 => DD x20 x54 | s120 => DD x20 x55 | s121 => DD x20 x56 | s122 => DD x20 x57 | s123 => DD x20 x58 | s124 => DD x20 x59 | s125 => DD x20 x60 | s126 => DD x20 x61 end.
Definition m1216 (c : sum2) : dd := match c with s0 => DD x19 x0 | s1 => DD x19 x1 | s2 => DD x19 x2 | s3 => DD x19 x3 | s4 => DD x19 x4 | s5 => DD x19 x5 | s6 => DD x19 x6 | s7 => DD x19 x7 | s8 => DD x19 x8 | s9 => DD x19 x9 | s10 => DD x19 x10 | s11 => DD x19 x11 | s12 => DD x19 x12 | s13 => DD x19 x13 | s14 => DD x19 x14 | s15 => DD x19 x15 | s16 => DD x19 x16 | s17 => DD x19 x17 | s18 => DD x19 x18 | s19 => DD x19 x19 | s20 => DD x19 x20 | s21 => DD x19 x21 | s22 => DD x19 x22 | s23 => DD x19 x23 | s24 => DD x19 x24 | s25 => DD x19 x25 | s26 => DD x19 x26 | s27 => DD x19 x27 | s28 => DD x19 x28 | s29 => DD x19 x29 | s30 => DD x19 x30 | s31 => DD x19 x31 | s32 => DD x19 x32 | s33 => DD x19 x33 | s34 => DD x19 x34 | s35 => DD x19 x35 | s36 => DD x19 x36 | s37 => DD x19 x37 | s38 => DD x19 x38 | s39 => DD x19 x39 | s40 => DD x19 x40 | s41 => DD x19 x41 | s42 => DD x19 x42 | s43 => DD x19 x43 | s44 => DD x19 x44 | s45 => DD x19 x45 | s46 => DD x19 x46 | s47 => DD x19 x47 | s48 => DD x19 x48 | s49 => DD x19 x49 | s50 => DD x19 x50 | s51 => DD x19 x51 | s52 => DD x19 x52 | s53 => DD x19 x53 | s54 => DD x19 x54 | s55 => DD x19 x55 | s56 => DD x19 x56 | s57 => DD x19 x57 | s58 => DD x19 x58 | s59 => DD x19 x59 | s60 => DD x19 x60 | s61 => DD x19 x61 | s62 => DD x19 x62 | s63 => DD x19 x63 | s64 => DD x20 x0 | s65 => DD x20 x1 | s66 => DD x20 x2 | s67 => DD x20 x3 | s68 => DD x20 x4 | s69 => DD x20 x5 | s70 => DD x20 x6 | s71 => DD x20 x7 | s72 => DD x20 x8 | s73 => DD x20 x9 | s74 => DD x20 x10 | s75 => DD x20 x11 | s76 => DD x20 x12 | s77 => DD x20 x13 | s78 => DD x20 x14 | s79 => DD x20 x15 | s80 => DD x20 x16 | s81 => DD x20 x17 | s82 => DD x20 x18 | s83 => DD x20 x19 | s84 => DD x20 x20 | s85 => DD x20 x21 | s86 => DD x20 x22 | s87 => DD x20 x23 | s88 => DD x20 x24 | s89 => DD x20 x25 | s90 => DD x20 x26 | s91 => DD x20 x27 | s92 => DD x20 x28 | s93 => DD x20 x29 | s94 => DD x20 x30 | s95 => DD x20 x31 | s96 => DD x20 x32 | s97 => DD x20 x33 | s98 => DD x20 x34 | s99 => DD x20 x35 | s100 => DD x20 x36 | s101 => DD x20 x37 | s102 => DD x20 x38 | s103 => DD x20 x39 | s104 => DD x20 x40 | s105 => DD x20 x41 | s106 => DD x20 x42 | s107 => DD x20 x43 | s108 => DD x20 x44 | s109 => DD x20 x45 | s110 => DD x20 x46 | s111 => DD x20 x47 | s112 => DD x20 x48 | s113 => DD x20 x49 | s114 => DD x20 x50 | s115 => DD x20 x51 | s116 => DD x20 x52 | s117 => DD x20 x53 | s118 => DD x20 x54 | s119 => DD x20 x55 | s120 => DD x20 x56 | s121 => DD x20 x57 | s122 => DD x20 x58 | s123 => DD x20 x59 | s124 => DD x20 x60 | s125 => DD x20 x61 | s126 => DD x20 x62 end.
Definition m1218 (c : sum2) : dd := match c with s0 => DD x19 x2 | s1 => DD x19 x3 | s2 => DD x19 x4 | s3 => DD x19 x5 | s4 => DD x19 x6 | s5 => DD x19 x7 | s6 => DD x19 x8 | s7 => DD x19 x9 | s8 => DD x19 x10 | s9 => DD x19 x11 | s10 => DD x19 x12 | s11 => DD x19 x13 | s12 => DD x19 x14 | s13 => DD x19 x15 | s14 => DD x19 x16 | s15 => DD x19 x17 | s16 => DD x19 x18 | s17 => DD x19 x19 | s18 => DD x19 x20 | s19 => DD x19 x21 | s20 => DD x19 x22 | s21 => DD x19 x23 | s22 => DD x19 x24 | s23 => DD x19 x25 | s24 => DD x19 x26 | s25 => DD x19 x27 | s26 => DD x19 x28 | s27 => DD x19 x29 | s28 => DD x19 x30 | s29 => DD x19 x31 | s30 => DD x19 x32 | s31 => DD x19 x33 | s32 => DD x19 x34 | s33 => DD x19 x35 | s34 => DD x19 x36 | s35 => DD x19 x37 | s36 => DD x19 x38 | s37 => DD x19 x39 | s38 => DD x19 x40 | s39 => DD x19 x41 | s40 => DD x19 x42 | s41 => DD x19 x43 | s42 => DD x19 x44 | s43 => DD x19 x45 | s44 => DD x19 x46 | s45 => DD x19 x47 | s46 => DD x19 x48 | s47 => DD x19 x49 | s48 => DD x19 x50 | s49 => DD x19 x51 | s50 => DD x19 x52 | s51 => DD x19 x53 | s52 => DD x19 x54 | s53 => DD x19 x55 | s54 => DD x19 x56 | s55 => DD x19 x57 | s56 => DD x19 x58 | s57 => DD x19 x59 | s58 => DD x19 x60 | s59 => DD x19 x61 | s60 => DD x19 x62 | s61 => DD x19 x63 | s62 => DD x20 x0 | s63 => DD x20 x1 | s64 => DD x20 x2 | s65 => DD x20 x3 | s66 => DD x20 x4 | s67 => DD x20 x5 | s68 => DD x20 x6 | s69 => DD x20 x7 | s70 => DD x20 x8 | s71 => DD x20 x9 | s72 => DD x20 x10 | s73 => DD x20 x11 | s74 => DD x20 x12 | s75 => DD x20 x13 | s76 => DD x20 x14 | s77 => DD x20 x15 | s78 => DD x20 x16 | s79 => DD x20 x17 | s80 => DD x20 x18 | s81 => DD x20 x19 | s82 => DD x20 x20 | s83 => DD x20 x21 | s84 => DD x20 x22 | s85 => DD x20 x23 | s86 => DD x20 x24 | s87 => DD x20 x25 | s88 => DD x20 x26 | s89 => DD x20 x27 | s90 => DD x20 x28 | s91 => DD x20 x29 | s92 => DD x20 x30 | s93 => DD x20 x31 | s94 => DD x20 x32 | s95 => DD x20 x33 | s96 => DD x20 x34 | s97 => DD x20 x35 | s98 => DD x20 x36 | s99 => DD x20 x37 | s100 => DD x20 x38 | s101 => DD x20 x39 | s102 => DD x20 x40 | s103 => DD x20 x41 | s104 => DD x20 x42 | s105 => DD x20 x43 | s106 => DD x20 x44 | s107 => DD x20 x45 | s108 => DD x20 x46 | s109 => DD x20 x47 | s110 => DD x20 x48 | s111 => DD x20 x49 | s112 => DD x20 x50 | s113 => DD x20 x51 | s114 => DD x20 x52 | s115 => DD x20 x53 | s116 => DD x20 x54 | s117 => DD x20 x55 | s118 => DD x20 x56 | s119 => DD x20 x57 | s120 => DD x20 x58 | s121 => DD x20 x59 | s122 => DD x20 x60 | s123 => DD x20 x61 | s124 => DD x20 x62 | s125 => DD x20 x63 | s126 => DD x21 x0 end.
Definition m1219 (c : sum2) : dd := match c with s0 => DD x19 x3 | s1 => DD x19 x4 | s2 => DD x19 x5 | s3 => DD x19 x6 | s4 => DD x19 x7 | s5 => DD x19 x8 | s6 => DD x19 x9 | s7 => DD x19 x10 | s8 => DD x19 x11 | s9 => DD x19 x12 | s10 => DD x19 x13 | s11 => DD x19 x14 | s12 => DD x19 x15 | s13 => DD x19 x16 | s14 => DD x19 x17 | s15 => DD x19 x18 | s16 => DD x19 x19 | s17 => DD x19 x20 | s18 => DD x19 x21 | s19 => DD x19 x22 | s20 => DD x19 x23 | s21 => DD x19 x24 | s22 => DD x19 x25 | s23 => DD x19 x26 | s24 => DD x19 x27 | s25 => DD x19 x28 | s26 => DD x19 x29 | s27 => DD x19 x30 | s28 => DD x19 x31 | s29 => DD x19 x32 | s30 => DD x19 x33 | s31 => DD x19 x34 | s32 => DD x19 x35 | s33 => DD x19 x36 | s34 => DD x19 x37 | s35 => DD x19 x38 | s36 => DD x19 x39 | s37 => DD x19 x40 | s38 => DD x19 x41 | s39 => DD x19 x42 | s40 => DD x19 x43 | s41 => DD x19 x44 | s42 => DD x19 x45 | s43 => DD x19 x46 | s44 => DD x19 x47 | s45 => DD x19 x48 | s46 => DD x19 x49 | s47 => DD x19 x50 | s48 => DD x19 x51 | s49 => DD x19 x52 | s50 => DD x19 x53 | s51 => DD x19 x54 | s52 => DD x19 x55 | s53 => DD x19 x56 | s54 => DD x19 x57 | s55 => DD x19 x58 | s56 => DD x19 x59 | s57 => DD x19 x60 | s58 => DD x19 x61 | s59 => DD x19 x62 | s60 => DD x19 x63 | s61 => DD x20 x0 | s62 => DD x20 x1 | s63 => DD x20 x2 | s64 => DD x20 x3 | s65 => DD x20 x4 | s66 => DD x20 x5 | s67 => DD x20 x6 | s68 => DD x20 x7 | s69 => DD x20 x8 | s70 => DD x20 x9 | s71 => DD x20 x10 | s72 => DD x20 x11 | s73 => DD x20 x12 | s74 => DD x20 x13 | s75 => DD x20 x14 | s76 => DD x20 x15 | s77 => DD x20 x16 | s78 => DD x20 x17 | s79 => DD x20 x18 | s80 => DD x20 x19 | s81 => DD x20 x20 | s82 => DD x20 x21 | s83 => DD x20 x22 | s84 => DD x20 x23 | s85 => DD x20 x24 | s86 => DD x20 x25 | s87 => DD x20 x26 | s88 => DD x20 x27 | s89 => DD x20 x28 | s90 => DD x20 x29 | s91 => DD x20 x30 | s92 => DD x20 x31 | s93 => DD x20 x32 | s94 => DD x20 x33 | s95 => DD x20 x34 | s96 => DD x20 x35 | s97 => DD x20 x36 | s98 => DD x20 x37 | s99 => DD x20 x38 | s100 => DD x20 x39 | s101 => DD x20 x40 | s102 => DD x20 x41 | s103 => DD x20 x42 | s104 => DD x20 x43 | s105 => DD x20 x44 | s106 => DD x20 x45 | s107 => DD x20 x46 | s108 => DD x20 x47 | s109 => DD x20 x48 | s110 => DD x20 x49 | s111 => DD x20 x50 | s112 => DD x20 x51 | s113 => DD x20 x52 | s114 => DD x20 x53 | s115 => DD x20 x54 | s116 => DD x20 x55 | s117 => DD x20 x56 | s118 => DD x20 x57 | s119 => DD x20 x58 | s120 => DD x20 x59 | s121 => DD x20 x60 | s122 => DD x20 x61 | s123 => DD x20 x62 | s124 => DD x20 x63 | s125 => DD x21 x0 | s126 => DD x21 x1 end.
Definition m1220 (c : sum2) : dd := match c with s0 => DD x19 x4 | s1 => DD x19 x5 | s2 => DD x19 x6 | s3 => DD x19 x7 | s4 => DD x19 x8 | s5 => DD x19 x9 | s6 => DD x19 x10 | s7 => DD x19 x11 | s8 => DD x19 x12 | s9 => DD x19 x13 | s10 => DD x19 x14 | s11 => DD x19 x15 | s12 => DD x19 x16 | s13 => DD x19 x17 | s14 => DD x19 x18 | s15 => DD x19 x19 | s16 => DD x19 x20 | s17 => DD x19 x21 | s18 => DD x19 x22 | s19 => DD x19 x23 | s20 => DD x19 x24 | s21 => DD x19 x25 | s22 => DD x19 x26 | s23 => DD x19 x27 | s24 => DD x19 x28 | s25 => DD x19 x29 | s26 => DD x19 x30 | s27 => DD x19 x31 | s28 => DD x19 x32 | s29 => DD x19 x33 | s30 => DD x19 x34 | s31 => DD x19 x35 | s32 => DD x19 x36 | s33 => DD x19 x37 | s34 => DD x19 x38 | s35 => DD x19 x39 | s36 => DD x19 x40 | s37 => DD x19 x41 | s38 => DD x19 x42 | s39 => DD x19 x43 | s40 => DD x19 x44 | s41 => DD x19 x45 | s42 => DD x19 x46 | s43 => DD x19 x47 | s44 => DD x19 x48 | s45 => DD x19 x49 | s46 => DD x19 x50 | s47 => DD x19 x51 | s48 => DD x19 x52 | s49 => DD x19 x53 | s50 => DD x19 x54 | s51 => DD x19 x55 | s52 => DD x19 x56 | s53 => DD x19 x57 | s54 => DD x19 x58 | s55 => DD x19 x59 | s56 => DD x19 x60 | s57 => DD x19 x61 | s58 => DD x19 x62 | s59 => DD x19 x63 | s60 => DD x20 x0 | s61 => DD x20 x1 | s62 => DD x20 x2 | s63 => DD x20 x3 | s64 => DD x20 x4 | s65 => DD x20 x5 | s66 => DD x20 x6 | s67 => DD x20 x7 | s68 => DD x20 x8 | s69 => DD x20 x9 | s70 => DD x20 x10 | s71 => DD x20 x11 | s72 => DD x20 x12 | s73 => DD x20 x13 | s74 => DD x20 x14 | s75 => DD x20 x15 | s76 => DD x20 x16 | s77 => DD x20 x17 | s78 => DD x20 x18 | s79 => DD x20 x19 | s80 => DD x20 x20 | s81 => DD x20 x21 | s82 => DD x20 x22 | s83 => DD x20 x23 | s84 => DD x20 x24 | s85 => DD x20 x25 | s86 => DD x20 x26 | s87 => DD x20 x27 | s88 => DD x20 x28 | s89 => DD x20 x29 | s90 => DD x20 x30 | s91 => DD x20 x31 | s92 => DD x20 x32 | s93 => DD x20 x33 | s94 => DD x20 x34 | s95 => DD x20 x35 | s96 => DD x20 x36 | s97 => DD x20 x37 | s98 => DD x20 x38 | s99 => DD x20 x39 | s100 => DD x20 x40 | s101 => DD x20 x41 | s102 => DD x20 x42 | s103 => DD x20 x43 | s104 => DD x20 x44 | s105 => DD x20 x45 | s106 => DD x20 x46 | s107 => DD x20 x47 | s108 => DD x20 x48 | s109 => DD x20 x49 | s110 => DD x20 x50 | s111 => DD x20 x51 | s112 => DD x20 x52 | s113 => DD x20 x53 | s114 => DD x20 x54 | s115 => DD x20 x55 | s116 => DD x20 x56 | s117 => DD x20 x57 | s118 => DD x20 x58 | s119 => DD x20 x59 | s120 => DD x20 x60 | s121 => DD x20 x61 | s122 => DD x20 x62 | s123 => DD x20 x63 | s124 => DD x21 x0 | s125 => DD x21 x1 | s126 => DD x21 x2 end.
Definition m1221 (c : sum2) : dd := match c with s0 => DD x19 x5 | s1 => DD x19 x6 | s2 => DD x19 x7 | s3 => DD x19 x8 | s4 => DD x19 x9 | s5 => DD x19 x10 | s6 => DD x19 x11 | s7 => DD x19 x12 | s8 => DD x19 x13 | s9 => DD x19 x14 | s10 => DD x19 x15 | s11 => DD x19 x16 | s12 => DD x19 x17 | s13 => DD x19 x18 | s14 => DD x19 x19 | s15 => DD x19 x20 | s16 => DD x19 x21 | s17 => DD x19 x22 | s18 => DD x19 x23 | s19 => DD x19 x24 | s20 => DD x19 x25 | s21 => DD x19 x26 | s22 => DD x19 x27 | s23 => DD x19 x28 | s24 => DD x19 x29 | s25 => DD x19 x30 | s26 => DD x19 x31 | s27 => DD x19 x32 | s28 => DD x19 x33 | s29 => DD x19 x34 | s30 => DD x19 x35 | s31 => DD x19 x36 | s32 => DD x19 x37 | s33 => DD x19 x38 | s34 => DD x19 x39 | s35 => DD x19 x40 | s36 => DD x19 x41 | s37 => DD x19 x42 | s38 => DD x19 x43 | s39 => DD x19 x44 | s40 => DD x19 x45 | s41 => DD x19 x46 | s42 => DD x19 x47 | s43 => DD x19 x48 | s44 => DD x19 x49 | s45 => DD x19 x50 | s46 => DD x19 x51 | s47 => DD x19 x52 | s48 => DD x19 x53 | s49 => DD x19 x54 | s50 => DD x19 x55 | s51 => DD x19 x56 | s52 => DD x19 x57 | s53 => DD x19 x58 | s54 => DD x19 x59 | s55 => DD x19 x60 | s56 => DD x19 x61 | s57 => DD x19 x62 | s58 => DD x19 x63 | s59 => DD x20 x0 | s60 => DD x20 x1 | s61 => DD x20 x2 | s62 => DD x20 x3 | s63 => DD x20 x4 | s64 => DD x20 x5 | s65 => DD x20 x6 | s66 => DD x20 x7 | s67 => DD x20 x8 | s68 => DD x20 x9 | s69 => DD x20 x10 | s70 => DD x20 x11 | s71 => DD x20 x12 | s72 => DD x20 x13 | s73 => DD x20 x14 | s74 => DD x20 x15 | s75 => DD x20 x16 | s76 => DD x20 x17 | s77 => DD x20 x18 | s78 => DD x20 x19 | s79 => DD x20 x20 | s80 => DD x20 x21 | s81 => DD x20 x22 | s82 => DD x20 x23 | s83 => DD x20 x24 | s84 => DD x20 x25 | s85 => DD x20 x26 | s86 => DD x20 x27 | s87 => DD x20 x28 | s88 => DD x20 x29 | s89 => DD x20 x30 | s90 => DD x20 x31 | s91 => DD x20 x32 | s92 => DD x20 x33 | s93 => DD x20 x34 | s94 => DD x20 x35 | s95 => DD x20 x36 | s96 => DD x20 x37 | s97 => DD x20 x38 | s98 => DD x20 x39 | s99 => DD x20 x40 | s100 => DD x20 x41 | s101 => DD x20 x42 | s102 => DD x20 x43 | s103 => DD x20 x44 | s104 => DD x20 x45 | s105 => DD x20 x46 | s106 => DD x20 x47 | s107 => DD x20 x48 | s108 => DD x20 x49 | s109 => DD x20 x50 | s110 => DD x20 x51 | s111 => DD x20 x52 | s112 => DD x20 x53 | s113 => DD x20 x54 | s114 => DD x20 x55 | s115 => DD x20 x56 | s116 => DD x20 x57 | s117 => DD x20 x58 | s118 => DD x20 x59 | s119 => DD x20 x60 | s120 => DD x20 x61 | s121 => DD x20 x62 | s122 => DD x20 x63 | s123 => DD x21 x0 | s124 => DD x21 x1 | s125 => DD x21 x2 | s126 => DD x21 x3 end.
Definition m1222 (c : sum2) : dd := match c with s0 => DD x19 x6 | s1 => DD x19 x7 | s2 => DD x19 x8 | s3 => DD x19 x9 | s4 => DD x19 x10 | s5 => DD x19 x11 | s6 => DD x19 x12 | s7 => DD x19 x13 | s8 => DD x19 x14 | s9 => DD x19 x15 | s10 => DD x19 x16 | s11 => DD x19 x17 | s12 => DD x19 x18 | s13 => DD x19 x19 | s14 => DD x19 x20 | s15 => DD x19 x21 | s16 => DD x19 x22 | s17 => DD x19 x23 | s18 => DD x19 x24 | s19 => DD x19 x25 | s20 => DD x19 x26 | s21 => DD x19 x27 | s22 => DD x19 x28 | s23 => DD x19 x29 | s24 => DD x19 x30 | s25 => DD x19 x31 | s26 => DD x19 x32 | s27 => DD x19 x33 | s28 => DD x19 x34 | s29 => DD x19 x35 | s30 => DD x19 x36 | s31 => DD x19 x37 | s32 => DD x19 x38 | s33 => DD x19 x39 | s34 => DD x19 x40 | s35 => DD x19 x41 | s36 => DD x19 x42 | s37 => DD x19 x43 | s38 => DD x19 x44 | s39 => DD x19 x45 | s40 => DD x19 x46 | s41 => DD x19 x47 | s42 => DD x19 x48 | s43 => DD x19 x49 | s44 => DD x19 x50 | s45 => DD x19 x51 | s46 => DD x19 x52 | s47 => DD x19 x53 | s48 => DD x19 x54 | s49 => DD x19 x55 | s50 => DD x19 x56 | s51 => DD x19 x57 | s52 => DD x19 x58 | s53 => DD x19 x59 | s54 => DD x19 x60 | s55 => DD x19 x61 | s56 => DD x19 x62 | s57 => DD x19 x63 | s58 => DD x20 x0 | s59 => DD x20 x1 | s60 => DD x20 x2 | s61 => DD x20 x3 | s62 => DD x20 x4 | s63 => DD x20 x5 | s64 => DD x20 x6 | s65 => DD x20 x7 | s66 => DD x20 x8 | s67 => DD x20 x9 | s68 => DD x20 x10 | s69 => DD x20 x11 | s70 => DD x20 x12 | s71 => DD x20 x13 | s72 => DD x20 x14 | s73 => DD x20 x15 | s74 => DD x20 x16 | s75 => DD x20 x17 | s76 => DD x20 x18 | s77 => DD x20 x19 | s78 => DD x20 x20 | s79 => DD x20 x21 | s80 => DD x20 x22 | s81 => DD x20 x23 | s82 => DD x20 x24 | s83 => DD x20 x25 | s84 => DD x20 x26 | s85 => DD x20 x27 | s86 => DD x20 x28 | s87 => DD x20 x29 | s88 => DD x20 x30 | s89 => DD x20 x31 | s90 => DD x20 x32 | s91 => DD x20 x33 | s92 => DD x20 x34 | s93 => DD x20 x35 | s94 => DD x20 x36 | s95 => DD x20 x37 | s96 => DD x20 x38 | s97 => DD x20 x39 | s98 => DD x20 x40 | s99 => DD x20 x41 | s100 => DD x20 x42 | s101 => DD x20 x43 | s102 => DD x20 x44 | s103 => DD x20 x45 | s104 => DD x20 x46 | s105 => DD x20 x47 | s106 => DD x20 x48 | s107 => DD x20 x49 | s108 => DD x20 x50 | s109 => DD x20 x51 | s110 => DD x20 x52 | s111 => DD x20 x53 | s112 => DD x20 x54 | s113 => DD x20 x55 | s114 => DD x20 x56 | s115 => DD x20 x57 | s116 => DD x20 x58 | s117 => DD x20 x59 | s118 => DD x20 x60 | s119 => DD x20 x61 | s120 => DD x20 x62 | s121 => DD x20 x63 | s122 => DD x21 x0 | s123 => DD x21 x1 | s124 => DD x21 x2 | s125 => DD x21 x3 | s126 => DD x21 x4 end.
Definition m1224 (c : sum2) : dd := match c with s0 => DD x19 x8 | s1 => DD x19 x9 | s2 => DD x19 x10 | s3 => DD x19 x11 | s4 => DD x19 x12 | s5 => DD x19 x13 | s6 => DD x19 x14 | s7 => DD x19 x15 | s8 => DD x19 x16 | s9 => DD x19 x17 | s10 => DD x19 x18 | s11 => DD x19 x19 | s12 => DD x19 x20 | s13 => DD x19 x21 | s14 => DD x19 x22 | s15 => DD x19 x23 | s16 => DD x19 x24 | s17 => DD x19 x25 | s18 => DD x19 x26 | s19 => DD x19 x27 | s20 => DD x19 x28 | s21 => DD x19 x29 | s22 => DD x19 x30 | s23 => DD x19 x31 | s24 => DD x19 x32 | s25 => DD x19 x33 | s26 => DD x19 x34 | s27 => DD x19 x35 | s28 => DD x19 x36 | s29 => DD x19 x37 | s30 => DD x19 x38 | s31 => DD x19 x39 | s32 => DD x19 x40 | s33 => DD x19 x41 | s34 => DD x19 x42 | s35 => DD x19 x43 | s36 => DD x19 x44 | s37 => DD x19 x45 | s38 => DD x19 x46 | s39 => DD x19 x47 | s40 => DD x19 x48 | s41 => DD x19 x49 | s42 => DD x19 x50 | s43 => DD x19 x51 | s44 => DD x19 x52 | s45 => DD x19 x53 | s46 => DD x19 x54 | s47 => DD x19 x55 | s48 => DD x19 x56 | s49 => DD x19 x57 | s50 => DD x19 x58 | s51 => DD x19 x59 | s52 => DD x19 x60 | s53 => DD x19 x61 | s54 => DD x19 x62 | s55 => DD x19 x63 | s56 => DD x20 x0 | s57 => DD x20 x1 | s58 => DD x20 x2 | s59 => DD x20 x3 | s60 => DD x20 x4 | s61 => DD x20 x5 | s62 => DD x20 x6 | s63 => DD x20 x7 | s64 => DD x20 x8 | s65 => DD x20 x9 | s66 => DD x20 x10 | s67 => DD x20 x11 | s68 => DD x20 x12 | s69 => DD x20 x13 | s70 => DD x20 x14 | s71 => DD x20 x15 | s72 => DD x20 x16 | s73 => DD x20 x17 | s74 => DD x20 x18 | s75 => DD x20 x19 | s76 => DD x20 x20 | s77 => DD x20 x21 | s78 => DD x20 x22 | s79 => DD x20 x23 | s80 => DD x20 x24 | s81 => DD x20 x25 | s82 => DD x20 x26 | s83 => DD x20 x27 | s84 => DD x20 x28 | s85 => DD x20 x29 | s86 => DD x20 x30 | s87 => DD x20 x31 | s88 => DD x20 x32 | s89 => DD x20 x33 | s90 => DD x20 x34 | s91 => DD x20 x35 | s92 => DD x20 x36 | s93 => DD x20 x37 | s94 => DD x20 x38 | s95 => DD x20 x39 | s96 => DD x20 x40 | s97 => DD x20 x41 | s98 => DD x20 x42 | s99 => DD x20 x43 | s100 => DD x20 x44 | s101 => DD x20 x45 | s102 => DD x20 x46 | s103 => DD x20 x47 | s104 => DD x20 x48 | s105 => DD x20 x49 | s106 => DD x20 x50 | s107 => DD x20 x51 | s108 => DD x20 x52 | s109 => DD x20 x53 | s110 => DD x20 x54 | s111 => DD x20 x55 | s112 => DD x20 x56 | s113 => DD x20 x57 | s114 => DD x20 x58 | s115 => DD x20 x59 | s116 => DD x20 x60 | s117 => DD x20 x61 | s118 => DD x20 x62 | s119 => DD x20 x63 | s120 => DD x21 x0 | s121 => DD x21 x1 | s122 => DD x21 x2 | s123 => DD x21 x3 | s124 => DD x21 x4 | s125 => DD x21 x5 | s126 => DD x21 x6 end.
Definition m1225 (c : sum2) : dd := match c with s0 => DD x19 x9 | s1 => DD x19 x10 | s2 => DD x19 x11 | s3 => DD x19 x12 | s4 => DD x19 x13 | s5 => DD x19 x14 | s6 => DD x19 x15 | s7 => DD x19 x16 | s8 => DD x19 x17 | s9 => DD x19 x18 | s10 => DD x19 x19 | s11 => DD x19 x20 | s12 => DD x19 x21 | s13 => DD x19 x22 | s14 => DD x19 x23 | s15 => DD x19 x24 | s16 => DD x19 x25 | s17 => DD x19 x26 | s18 => DD x19 x27 | s19 => DD x19 x28 | s20 => DD x19 x29 | s21 => DD x19 x30 | s22 => DD x19 x31 | s23 => DD x19 x32 | s24 => DD x19 x33 | s25 => DD x19 x34 | s26 => DD x19 x35 | s27 => DD x19 x36 | s28 => DD x19 x37 | s29 => DD x19 x38 | s30 => DD x19 x39 | s31 => DD x19 x40 | s32 => DD x19 x41 | s33 => DD x19 x42 | s34 => DD x19 x43 | s35 => DD x19 x44 | s36 => DD x19 x45 | s37 => DD x19 x46 | s38 => DD x19 x47 | s39 => DD x19 x48 | s40 => DD x19 x49 | s41 => DD x19 x50 | s42 => DD x19 x51 | s43 => DD x19 x52 | s44 => DD x19 x53 | s45 => DD x19 x54 | s46 => DD x19 x55 | s47 => DD x19 x56 | s48 => DD x19 x57 | s49 => DD x19 x58 | s50 => DD x19 x59 | s51 => DD x19 x60 | s52 => DD x19 x61 | s53 => DD x19 x62 | s54 => DD x19 x63 | s55 => DD x20 x0 | s56 => DD x20 x1 | s57 => DD x20 x2 | s58 => DD x20 x3 | s59 => DD x20 x4 | s60 => DD x20 x5 | s61 => DD x20 x6 | s62 => DD x20 x7 | s63 => DD x20 x8 | s64 => DD x20 x9 | s65 => DD x20 x10 | s66 => DD x20 x11 | s67 => DD x20 x12 | s68 => DD x20 x13 | s69 => DD x20 x14 | s70 => DD x20 x15 | s71 => DD x20 x16 | s72 => DD x20 x17 | s73 => DD x20 x18 | s74 => DD x20 x19 | s75 => DD x20 x20 | s76 => DD x20 x21 | s77 => DD x20 x22 | s78 => DD x20 x23 | s79 => DD x20 x24 | s80 => DD x20 x25 | s81 => DD x20 x26 | s82 => DD x20 x27 | s83 => DD x20 x28 | s84 => DD x20 x29 | s85 => DD x20 x30 | s86 => DD x20 x31 | s87 => DD x20 x32 | s88 => DD x20 x33 | s89 => DD x20 x34 | s90 => DD x20 x35 | s91 => DD x20 x36 | s92 => DD x20 x37 | s93 => DD x20 x38 | s94 => DD x20 x39 | s95 => DD x20 x40 | s96 => DD x20 x41 | s97 => DD x20 x42 | s98 => DD x20 x43 | s99 => DD x20 x44 | s100 => DD x20 x45 | s101 => DD x20 x46 | s102 => DD x20 x47 | s103 => DD x20 x48 | s104 => DD x20 x49 | s105 => DD x20 x50 | s106 => DD x20 x51 | s107 => DD x20 x52 | s108 => DD x20 x53 | s109 => DD x20 x54 | s110 => DD x20 x55 | s111 => DD x20 x56 | s112 => DD x20 x57 | s113 => DD x20 x58 | s114 => DD x20 x59 | s115 => DD x20 x60 | s116 => DD x20 x61 | s117 => DD x20 x62 | s118 => DD x20 x63 | s119 => DD x21 x0 | s120 => DD x21 x1 | s121 => DD x21 x2 | s122 => DD x21 x3 | s123 => DD x21 x4 | s124 => DD x21 x5 | s125 => DD x21 x6 | s126 => DD x21 x7 end.
Definition m1230 (c : sum2) : dd := match c with s0 => DD x19 x14 | s1 => DD x19 x15 | s2 => DD x19 x16 | s3 => DD x19 x17 | s4 => DD x19 x18 | s5 => DD x19 x19 | s6 => DD x19 x20 | s7 => DD x19 x21 | s8 => DD x19 x22 | s9 => DD x19 x23 | s10 => DD x19 x24 | s11 => DD x19 x25 | s12 => DD x19 x26 | s13 => DD x19 x27 | s14 => DD x19 x28 | s15 => DD x19 x29 | s16 => DD x19 x30 | s17 => DD x19 x31 | s18 => DD x19 x32 | s19 => DD x19 x33 | s20 => DD x19 x34 | s21 => DD x19 x35 | s22 => DD x19 x36 | s23 => DD x19 x37 | s24 => DD x19 x38 | s25 => DD x19 x39 | s26 => DD x19 x40 | s27 => DD x19 x41 | s28 => DD x19 x42 | s29 => DD x19 x43 | s30 => DD x19 x44 | s31 => DD x19 x45 | s32 => DD x19 x46 | s33 => DD x19 x47 | s34 => DD x19 x48 | s35 => DD x19 x49 | s36 => DD x19 x50 | s37 => DD x19 x51 | s38 => DD x19 x52 | s39 => DD x19 x53 | s40 => DD x19 x54 | s41 => DD x19 x55 | s42 => DD x19 x56 | s43 => DD x19 x57 | s44 => DD x19 x58 | s45 => DD x19 x59 | s46 => DD x19 x60 | s47 => DD x19 x61 | s48 => DD x19 x62 | s49 => DD x19 x63 | s50 => DD x20 x0 | s51 => DD x20 x1 | s52 => DD x20 x2 | s53 => DD x20 x3 | s54 => DD x20 x4 | s55 => DD x20 x5 | s56 => DD x20 x6 | s57 => DD x20 x7 | s58 => DD x20 x8 | s59 => DD x20 x9 | s60 => DD x20 x10 | s61 => DD x20 x11 | s62 => DD x20 x12 | s63 => DD x20 x13 | s64 => DD x20 x14 | s65 => DD x20 x15 | s66 => DD x20 x16 | s67 => DD x20 x17 | s68 => DD x20 x18 | s69 => DD x20 x19 | s70 => DD x20 x20 | s71 => DD x20 x21 | s72 => DD x20 x22 | s73 => DD x20 x23 | s74 => DD x20 x24 | s75 => DD x20 x25 | s76 => DD x20 x26 | s77 => DD x20 x27 | s78 => DD x20 x28 | s79 => DD x20 x29 | s80 => DD x20 x30 | s81 => DD x20 x31 | s82 => DD x20 x32 | s83 => DD x20 x33 | s84 => DD x20 x34 | s85 => DD x20 x35 | s86 => DD x20 x36 | s87 => DD x20 x37 | s88 => DD x20 x38 | s89 => DD x20 x39 | s90 => DD x20 x40 | s91 => DD x20 x41 | s92 => DD x20 x42 | s93 => DD x20 x43 | s94 => DD x20 x44 | s95 => DD x20 x45 | s96 => DD x20 x46 | s97 => DD x20 x47 | s98 => DD x20 x48 | s99 => DD x20 x49 | s100 => DD x20 x50 | s101 => DD x20 x51 | s102 => DD x20 x52 | s103 => DD x20 x53 | s104 => DD x20 x54 | s105 => DD x20 x55 | s106 => DD x20 x56 | s107 => DD x20 x57 | s108 => DD x20 x58 | s109 => DD x20 x59 | s110 => DD x20 x60 | s111 => DD x20 x61 | s112 => DD x20 x62 | s113 => DD x20 x63 | s114 => DD x21 x0 | s115 => DD x21 x1 | s116 => DD x21 x2 | s117 => DD x21 x3 | s118 => DD x21 x4 | s119 => DD x21 x5 | s120 => DD x21 x6 | s121 => DD x21 x7 | s122 => DD x21 x8 | s123 => DD x21 x9 | s124 => DD x21 x10 | s125 => DD x21 x11 | s126 => DD x21 x12 end.
Definition m1232 (c : sum2) : dd := match c with s0 => DD x19 x16 | s1 => DD x19 x17 | s2 => DD x19 x18 | s3 => DD x19 x19 | s4 => DD x19 x20 | s5 => DD x19 x21 | s6 => DD x19 x22 | s7 => DD x19 x23 | s8 => DD x19 x24 | s9 => DD x19 x25 | s10 => DD x19 x26 | s11 => DD x19 x27 | s12 => DD x19 x28 | s13 => DD x19 x29 | s14 => DD x19 x30 | s15 => DD x19 x31 | s16 => DD x19 x32 | s17 => DD x19 x33 | s18 => DD x19 x34 | s19 => DD x19 x35 | s20 => DD x19 x36 | s21 => DD x19 x37 | s22 => DD x19 x38 | s23 => DD x19 x39 | s24 => DD x19 x40 | s25 => DD x19 x41 | s26 => DD x19 x42 | s27 => DD x19 x43 | s28 => DD x19 x44 | s29 => DD x19 x45 | s30 => DD x19 x46 | s31 => DD x19 x47 | s32 => DD x19 x48 | s33 => DD x19 x49 | s34 => DD x19 x50 | s35 => DD x19 x51 | s36 => DD x19 x52 | s37 => DD x19 x53 | s38 => DD x19 x54 | s39 => DD x19 x55 | s40 => DD x19 x56 | s41 => DD x19 x57 | s42 => DD x19 x58 | s43 => DD x19 x59 | s44 => DD x19 x60 | s45 => DD x19 x61 | s46 => DD x19 x62 | s47 => DD x19 x63 | s48 => DD x20 x0 | s49 => DD x20 x1 | s50 => DD x20 x2 | s51 => DD x20 x3 | s52 => DD x20 x4 | s53 => DD x20 x5 | s54 => DD x20 x6 | s55 => DD x20 x7 | s56 => DD x20 x8 | s57 => DD x20 x9 | s58 => DD x20 x10 | s59 => DD x20 x11 | s60 => DD x20 x12 | s61 => DD x20 x13 | s62 => DD x20 x14 | s63 => DD x20 x15 | s64 => DD x20 x16 | s65 => DD x20 x17 | s66 => DD x20 x18 | s67 => DD x20 x19 | s68 => DD x20 x20 | s69 => DD x20 x21 | s70 => DD x20 x22 | s71 => DD x20 x23 | s72 => DD x20 x24 | s73 => DD x20 x25 | s74 => DD x20 x26 | s75 => DD x20 x27 | s76 => DD x20 x28 | s77 => DD x20 x29 | s78 => DD x20 x30 | s79 => DD x20 x31 | s80 => DD x20 x32 | s81 => DD x20 x33 | s82 => DD x20 x34 | s83 => DD x20 x35 | s84 => DD x20 x36 | s85 => DD x20 x37 | s86 => DD x20 x38 | s87 => DD x20 x39 | s88 => DD x20 x40 | s89 => DD x20 x41 | s90 => DD x20 x42 | s91 => DD x20 x43 | s92 => DD x20 x44 | s93 => DD x20 x45 | s94 => DD x20 x46 | s95 => DD x20 x47 | s96 => DD x20 x48 | s97 => DD x20 x49 | s98 => DD x20 x50 | s99 => DD x20 x51 | s100 => DD x20 x52 | s101 => DD x20 x53 | s102 => DD x20 x54 | s103 => DD x20 x55 | s104 => DD x20 x56 | s105 => DD x20 x57 | s106 => DD x20 x58 | s107 => DD x20 x59 | s108 => DD x20 x60 | s109 => DD x20 x61 | s110 => DD x20 x62 | s111 => DD x20 x63 | s112 => DD x21 x0 | s113 => DD x21 x1 | s114 => DD x21 x2 | s115 => DD x21 x3 | s116 => DD x21 x4 | s117 => DD x21 x5 | s118 => DD x21 x6 | s119 => DD x21 x7 | s120 => DD x21 x8 | s121 => DD x21 x9 | s122 => DD x21 x10 | s123 => DD x21 x11 | s124 => DD x21 x12 | s125 => DD x21 x13 | s126 => DD x21 x14 end.
Definition m1239 (c : sum2) : dd := match c with s0 => DD x19 x23 | s1 => DD x19 x24 | s2 => DD x19 x25 | s3 => DD x19 x26 | s4 => DD x19 x27 | s5 => DD x19 x28 | s6 => DD x19 x29 | s7 => DD x19 x30 | s8 => DD x19 x31 | s9 => DD x19 x32 | s10 => DD x19 x33 | s11 => DD x19 x34 | s12 => DD x19 x35 | s13 => DD x19 x36 | s14 => DD x19 x37 | s15 => DD x19 x38 | s16 => DD x19 x39 | s17 => DD x19 x40 | s18 => DD x19 x41 | s19 => DD x19 x42 | s20 => DD x19 x43 | s21 => DD x19 x44 | s22 => DD x19 x45 | s23 => DD x19 x46 | s24 => DD x19 x47 | s25 => DD x19 x48 | s26 => DD x19 x49 | s27 => DD x19 x50 | s28 => DD x19 x51 | s29 => DD x19 x52 | s30 => DD x19 x53 | s31 => DD x19 x54 | s32 => DD x19 x55 | s33 => DD x19 x56 | s34 => DD x19 x57 | s35 => DD x19 x58 | s36 => DD x19 x59 | s37 => DD x19 x60 | s38 => DD x19 x61 | s39 => DD x19 x62 | s40 => DD x19 x63 | s41 => DD x20 x0 | s42 => DD x20 x1 | s43 => DD x20 x2 | s44 => DD x20 x3 | s45 => DD x20 x4 | s46 => DD x20 x5 | s47 => DD x20 x6 | s48 => DD x20 x7 | s49 => DD x20 x8 | s50 => DD x20 x9 | s51 => DD x20 x10 | s52 => DD x20 x11 | s53 => DD x20 x12 | s54 => DD x20 x13 | s55 => DD x20 x14 | s56 => DD x20 x15 | s57 => DD x20 x16 | s58 => DD x20 x17 | s59 => DD x20 x18 | s60 => DD x20 x19 | s61 => DD x20 x20 | s62 => DD x20 x21 | s63 => DD x20 x22 | s64 => DD x20 x23 | s65 => DD x20 x24 | s66 => DD x20 x25 | s67 => DD x20 x26 | s68 => DD x20 x27 | s69 => DD x20 x28 | s70 => DD x20 x29 | s71 => DD x20 x30 | s72 => DD x20 x31 | s73 => DD x20 x32 | s74 => DD x20 x33 | s75 => DD x20 x34 | s76 => DD x20 x35 | s77 => DD x20 x36 | s78 => DD x20 x37 | s79 => DD x20 x38 | s80 => DD x20 x39 | s81 => DD x20 x40 | s82 => DD x20 x41 | s83 => DD x20 x42 | s84 => DD x20 x43 | s85 => DD x20 x44 | s86 => DD x20 x45 | s87 => DD x20 x46 | s88 => DD x20 x47 | s89 => DD x20 x48 | s90 => DD x20 x49 | s91 => DD x20 x50 | s92 => DD x20 x51 | s93 => DD x20 x52 | s94 => DD x20 x53 | s95 => DD x20 x54 | s96 => DD x20 x55 | s97 => DD x20 x56 | s98 => DD x20 x57 | s99 => DD x20 x58 | s100 => DD x20 x59 | s101 => DD x20 x60 | s102 => DD x20 x61 | s103 => DD x20 x62 | s104 => DD x20 x63 | s105 => DD x21 x0 | s106 => DD x21 x1 | s107 => DD x21 x2 | s108 => DD x21 x3 | s109 => DD x21 x4 | s110 => DD x21 x5 | s111 => DD x21 x6 | s112 => DD x21 x7 | s113 => DD x21 x8 | s114 => DD x21 x9 | s115 => DD x21 x10 | s116 => DD x21 x11 | s117 => DD x21 x12 | s118 => DD x21 x13 | s119 => DD x21 x14 | s120 => DD x21 x15 | s121 => DD x21 x16 | s122 => DD x21 x17 | s123 => DD x21 x18 | s124 => DD x21 x19 | s125 => DD x21 x20 | s126 => DD x21 x21 end.
Definition m1240 (c : sum2) : dd := match c with s0 => DD x19 x24 | s1 => DD x19 x25 | s2 => DD x19 x26 | s3 => DD x19 x27 | s4 => DD x19 x28 | s5 => DD x19 x29 | s6 => DD x19 x30 | s7 => DD x19 x31 | s8 => DD x19 x32 | s9 => DD x19 x33 | s10 => DD x19 x34 | s11 => DD x19 x35 | s12 => DD x19 x36 | s13 => DD x19 x37 | s14 => DD x19 x38 | s15 => DD x19 x39 | s16 => DD x19 x40 | s17 => DD x19 x41 | s18 => DD x19 x42 | s19 => DD x19 x43 | s20 => DD x19 x44 | s21 => DD x19 x45 | s22 => DD x19 x46 | s23 => DD x19 x47 | s24 => DD x19 x48 | s25 => DD x19 x49 | s26 => DD x19 x50 | s27 => DD x19 x51 | s28 => DD x19 x52 | s29 => DD x19 x53 | s30 => DD x19 x54 | s31 => DD x19 x55 | s32 => DD x19 x56 | s33 => DD x19 x57 | s34 => DD x19 x58 | s35 => DD x19 x59 | s36 => DD x19 x60 | s37 => DD x19 x61 | s38 => DD x19 x62 | s39 => DD x19 x63 | s40 => DD x20 x0 | s41 => DD x20 x1 | s42 => DD x20 x2 | s43 => DD x20 x3 | s44 => DD x20 x4 | s45 => DD x20 x5 | s46 => DD x20 x6 | s47 => DD x20 x7 | s48 => DD x20 x8 | s49 => DD x20 x9 | s50 => DD x20 x10 | s51 => DD x20 x11 | s52 => DD x20 x12 | s53 => DD x20 x13 | s54 => DD x20 x14 | s55 => DD x20 x15 | s56 => DD x20 x16 | s57 => DD x20 x17 | s58 => DD x20 x18 | s59 => DD x20 x19 | s60 => DD x20 x20 | s61 => DD x20 x21 | s62 => DD x20 x22 | s63 => DD x20 x23 | s64 => DD x20 x24 | s65 => DD x20 x25 | s66 => DD x20 x26 | s67 => DD x20 x27 | s68 => DD x20 x28 | s69 => DD x20 x29 | s70 => DD x20 x30 | s71 => DD x20 x31 | s72 => DD x20 x32 | s73 => DD x20 x33 | s74 => DD x20 x34 | s75 => DD x20 x35 | s76 => DD x20 x36 | s77 => DD x20 x37 | s78 => DD x20 x38 | s79 => DD x20 x39 | s80 => DD x20 x40 | s81 => DD x20 x41 | s82 => DD x20 x42 | s83 => DD x20 x43 | s84 => DD x20 x44 | s85 => DD x20 x45 | s86 => DD x20 x46 | s87 => DD x20 x47 | s88 => DD x20 x48 | s89 => DD x20 x49 | s90 => DD x20 x50 | s91 => DD x20 x51 | s92 => DD x20 x52 | s93 => DD x20 x53 | s94 => DD x20 x54 | s95 => DD x20 x55 | s96 => DD x20 x56 | s97 => DD x20 x57 | s98 => DD x20 x58 | s99 => DD x20 x59 | s100 => DD x20 x60 | s101 => DD x20 x61 | s102 => DD x20 x62 | s103 => DD x20 x63 | s104 => DD x21 x0 | s105 => DD x21 x1 | s106 => DD x21 x2 | s107 => DD x21 x3 | s108 => DD x21 x4 | s109 => DD x21 x5 | s110 => DD x21 x6 | s111 => DD x21 x7 | s112 => DD x21 x8 | s113 => DD x21 x9 | s114 => DD x21 x10 | s115 => DD x21 x11 | s116 => DD x21 x12 | s117 => DD x21 x13 | s118 => DD x21 x14 | s119 => DD x21 x15 | s120 => DD x21 x16 | s121 => DD x21 x17 | s122 => DD x21 x18 | s123 => DD x21 x19 | s124 => DD x21 x20 | s125 => DD x21 x21 | s126 => DD x21 x22 end.
Definition m1242 (c : sum2) : dd := match c with s0 => DD x19 x26 | s1 => DD x19 x27 | s2 => DD x19 x28 | s3 => DD x19 x29 | s4 => DD x19 x30 | s5 => DD x19 x31 | s6 => DD x19 x32 | s7 => DD x19 x33 | s8 => DD x19 x34 | s9 => DD x19 x35 | s10 => DD x19 x36 | s11 => DD x19 x37 | s12 => DD x19 x38 | s13 => DD x19 x39 | s14 => DD x19 x40 | s15 => DD x19 x41 | s16 => DD x19 x42 | s17 => DD x19 x43 | s18 => DD x19 x44 | s19 => DD x19 x45 | s20 => DD x19 x46 | s21 => DD x19 x47 | s22 => DD x19 x48 | s23 => DD x19 x49 | s24 => DD x19 x50 | s25 => DD x19 x51 | s26 => DD x19 x52 | s27 => DD x19 x53 | s28 => DD x19 x54 | s29 => DD x19 x55 | s30 => DD x19 x56 | s31 => DD x19 x57 | s32 => DD x19 x58 | s33 => DD x19 x59 | s34 => DD x19 x60 | s35 => DD x19 x61 | s36 => DD x19 x62 | s37 => DD x19 x63 | s38 => DD x20 x0 | s39 => DD x20 x1 | s40 => DD x20 x2 | s41 => DD x20 x3 | s42 => DD x20 x4 | s43 => DD x20 x5 | s44 => DD x20 x6 | s45 => DD x20 x7 | s46 => DD x20 x8 | s47 => DD x20 x9 | s48 => DD x20 x10 | s49 => DD x20 x11 | s50 => DD x20 x12 | s51 => DD x20 x13 | s52 => DD x20 x14 | s53 => DD x20 x15 | s54 => DD x20 x16 | s55 => DD x20 x17 | s56 => DD x20 x18 | s57 => DD x20 x19 | s58 => DD x20 x20 | s59 => DD x20 x21 | s60 => DD x20 x22 | s61 => DD x20 x23 | s62 => DD x20 x24 | s63 => DD x20 x25 | s64 => DD x20 x26 | s65 => DD x20 x27 | s66 => DD x20 x28 | s67 => DD x20 x29 | s68 => DD x20 x30 | s69 => DD x20 x31 | s70 => DD x20 x32 | s71 => DD x20 x33 | s72 => DD x20 x34 | s73 => DD x20 x35 | s74 => DD x20 x36 | s75 => DD x20 x37 | s76 => DD x20 x38 | s77 => DD x20 x39 | s78 => DD x20 x40 | s79 => DD x20 x41 | s80 => DD x20 x42 | s81 => DD x20 x43 | s82 => DD x20 x44 | s83 => DD x20 x45 | s84 => DD x20 x46 | s85 => DD x20 x47 | s86 => DD x20 x48 | s87 => DD x20 x49 | s88 => DD x20 x50 | s89 => DD x20 x51 | s90 => DD x20 x52 | s91 => DD x20 x53 | s92 => DD x20 x54 | s93 => DD x20 x55 | s94 => DD x20 x56 | s95 => DD x20 x57 | s96 => DD x20 x58 | s97 => DD x20 x59 | s98 => DD x20 x60 | s99 => DD x20 x61 | s100 => DD x20 x62 | s101 => DD x20 x63 | s102 => DD x21 x0 | s103 => DD x21 x1 | s104 => DD x21 x2 | s105 => DD x21 x3 | s106 => DD x21 x4 | s107 => DD x21 x5 | s108 => DD x21 x6 | s109 => DD x21 x7 | s110 => DD x21 x8 | s111 => DD x21 x9 | s112 => DD x21 x10 | s113 => DD x21 x11 | s114 => DD x21 x12 | s115 => DD x21 x13 | s116 => DD x21 x14 | s117 => DD x21 x15 | s118 => DD x21 x16 | s119 => DD x21 x17 | s120 => DD x21 x18 | s121 => DD x21 x19 | s122 => DD x21 x20 | s123 => DD x21 x21 | s124 => DD x21 x22 | s125 => DD x21 x23 | s126 => DD x21 x24 end.
Definition m1247 (c : sum2) : dd := match c with s0 => DD x19 x31 | s1 => DD x19 x32 | s2 => DD x19 x33 | s3 => DD x19 x34 | s4 => DD x19 x35 | s5 => DD x19 x36 | s6 => DD x19 x37 | s7 => DD x19 x38 | s8 => DD x19 x39 | s9 => DD x19 x40 | s10 => DD x19 x41 | s11 => DD x19 x42 | s12 => DD x19 x43 | s13 => DD x19 x44 | s14 => DD x19 x45 | s15 => DD x19 x46 | s16 => DD x19 x47 | s17 => DD x19 x48 | s18 => DD x19 x49 | s19 => DD x19 x50 | s20 => DD x19 x51 | s21 => DD x19 x52 | s22 => DD x19 x53 | s23 => DD x19 x54 | s24 => DD x19 x55 | s25 => DD x19 x56 | s26 => DD x19 x57 | s27 => DD x19 x58 | s28 => DD x19 x59 | s29 => DD x19 x60 | s30 => DD x19 x61 | s31 => DD x19 x62 | s32 => DD x19 x63 | s33 => DD x20 x0 | s34 => DD x20 x1 | s35 => DD x20 x2 | s36 => DD x20 x3 | s37 => DD x20 x4 | s38 => DD x20 x5 | s39 => DD x20 x6 | s40 => DD x20 x7 | s41 => DD x20 x8 | s42 => DD x20 x9 | s43 => DD x20 x10 | s44 => DD x20 x11 | s45 => DD x20 x12 | s46 => DD x20 x13 | s47 => DD x20 x14 | s48 => DD x20 x15 | s49 => DD x20 x16 | s50 => DD x20 x17 | s51 => DD x20 x18 | s52 => DD x20 x19 | s53 => DD x20 x20 | s54 => DD x20 x21 | s55 => DD x20 x22 | s56 => DD x20 x23 | s57 => DD x20 x24 | s58 => DD x20 x25 | s59 => DD x20 x26 | s60 => DD x20 x27 | s61 => DD x20 x28 | s62 => DD x20 x29 | s63 => DD x20 x30 | s64 => DD x20 x31 | s65 => DD x20 x32 | s66 => DD x20 x33 | s67 => DD x20 x34 | s68 => DD x20 x35 | s69 => DD x20 x36 | s70 => DD x20 x37 | s71 => DD x20 x38 | s72 => DD x20 x39 | s73 => DD x20 x40 | s74 => DD x20 x41 | s75 => DD x20 x42 | s76 => DD x20 x43 | s77 => DD x20 x44 | s78 => DD x20 x45 | s79 => DD x20 x46 | s80 => DD x20 x47 | s81 => DD x20 x48 | s82 => DD x20 x49 | s83 => DD x20 x50 | s84 => DD x20 x51 | s85 => DD x20 x52 | s86 => DD x20 x53 | s87 => DD x20 x54 | s88 => DD x20 x55 | s89 => DD x20 x56 | s90 => DD x20 x57 | s91 => DD x20 x58 | s92 => DD x20 x59 | s93 => DD x20 x60 | s94 => DD x20 x61 | s95 => DD x20 x62 | s96 => DD x20 x63 | s97 => DD x21 x0 | s98 => DD x21 x1 | s99 => DD x21 x2 | s100 => DD x21 x3 | s101 => DD x21 x4 | s102 => DD x21 x5 | s103 => DD x21 x6 | s104 => DD x21 x7 | s105 => DD x21 x8 | s106 => DD x21 x9 | s107 => DD x21 x10 | s108 => DD x21 x11 | s109 => DD x21 x12 | s110 => DD x21 x13 | s111 => DD x21 x14 | s112 => DD x21 x15 | s113 => DD x21 x16 | s114 => DD x21 x17 | s115 => DD x21 x18 | s116 => DD x21 x19 | s117 => DD x21 x20 | s118 => DD x21 x21 | s119 => DD x21 x22 | s120 => DD x21 x23 | s121 => DD x21 x24 | s122 => DD x21 x25 | s123 => DD x21 x26 | s124 => DD x21 x27 | s125 => DD x21 x28 | s126 => DD x21 x29 end.
Definition m1248 (c : sum2) : dd := match c with s0 => DD x19 x32 | s1 => DD x19 x33 | s2 => DD x19 x34 | s3 => DD x19 x35 | s4 => DD x19 x36 | s5 => DD x19 x37 | s6 => DD x19 x38 | s7 => DD x19 x39 | s8 => DD x19 x40 | s9 => DD x19 x41 | s10 => DD x19 x42 | s11 => DD x19 x43 | s12 => DD x19 x44 | s13 => DD x19 x45 | s14 => DD x19 x46 | s15 => DD x19 x47 | s16 => DD x19 x48 | s17 => DD x19 x49 | s18 => DD x19 x50 | s19 => DD x19 x51 | s20 => DD x19 x52 | s21 => DD x19 x53 | s22 => DD x19 x54 | s23 => DD x19 x55 | s24 => DD x19 x56 | s25 => DD x19 x57 | s26 => DD x19 x58 | s27 => DD x19 x59 | s28 => DD x19 x60 | s29 => DD x19 x61 | s30 => DD x19 x62 | s31 => DD x19 x63 | s32 => DD x20 x0 | s33 => DD x20 x1 | s34 => DD x20 x2 | s35 => DD x20 x3 | s36 => DD x20 x4 | s37 => DD x20 x5 | s38 => DD x20 x6 | s39 => DD x20 x7 | s40 => DD x20 x8 | s41 => DD x20 x9 | s42 => DD x20 x10 | s43 => DD x20 x11 | s44 => DD x20 x12 | s45 => DD x20 x13 | s46 => DD x20 x14 | s47 => DD x20 x15 | s48 => DD x20 x16 | s49 => DD x20 x17 | s50 => DD x20 x18 | s51 => DD x20 x19 | s52 => DD x20 x20 | s53 => DD x20 x21 | s54 => DD x20 x22 | s55 => DD x20 x23 | s56 => DD x20 x24 | s57 => DD x20 x25 | s58 => DD x20 x26 | s59 => DD x20 x27 | s60 => DD x20 x28 | s61 => DD x20 x29 | s62 => DD x20 x30 | s63 => DD x20 x31 | s64 => DD x20 x32 | s65 => DD x20 x33 | s66 => DD x20 x34 | s67 => DD x20 x35 | s68 => DD x20 x36 | s69 => DD x20 x37 | s70 => DD x20 x38 | s71 => DD x20 x39 | s72 => DD x20 x40 | s73 => DD x20 x41 | s74 => DD x20 x42 | s75 => DD x20 x43 | s76 => DD x20 x44 | s77 => DD x20 x45 | s78 => DD x20 x46 | s79 => DD x20 x47 | s80 => DD x20 x48 | s81 => DD x20 x49 | s82 => DD x20 x50 | s83 => DD x20 x51 | s84 => DD x20 x52 | s85 => DD x20 x53 | s86 => DD x20 x54 | s87 => DD x20 x55 | s88 => DD x20 x56 | s89 => DD x20 x57 | s90 => DD x20 x58 | s91 => DD x20 x59 | s92 => DD x20 x60 | s93 => DD x20 x61 | s94 => DD x20 x62 | s95 => DD x20 x63 | s96 => DD x21 x0 | s97 => DD x21 x1 | s98 => DD x21 x2 | s99 => DD x21 x3 | s100 => DD x21 x4 | s101 => DD x21 x5 | s102 => DD x21 x6 | s103 => DD x21 x7 | s104 => DD x21 x8 | s105 => DD x21 x9 | s106 => DD x21 x10 | s107 => DD x21 x11 | s108 => DD x21 x12 | s109 => DD x21 x13 | s110 => DD x21 x14 | s111 => DD x21 x15 | s112 => DD x21 x16 | s113 => DD x21 x17 | s114 => DD x21 x18 | s115 => DD x21 x19 | s116 => DD x21 x20 | s117 => DD x21 x21 | s118 => DD x21 x22 | s119 => DD x21 x23 | s120 => DD x21 x24 | s121 => DD x21 x25 | s122 => DD x21 x26 | s123 => DD x21 x27 | s124 => DD x21 x28 | s125 => DD x21 x29 | s126 => DD x21 x30 end.
Definition m1250 (c : sum2) : dd := match c with s0 => DD x19 x34 | s1 => DD x19 x35 | s2 => DD x19 x36 | s3 => DD x19 x37 | s4 => DD x19 x38 | s5 => DD x19 x39 | s6 => DD x19 x40 | s7 => DD x19 x41 | s8 => DD x19 x42 | s9 => DD x19 x43 | s10 => DD x19 x44 | s11 => DD x19 x45 | s12 => DD x19 x46 | s13 => DD x19 x47 | s14 => DD x19 x48 | s15 => DD x19 x49 | s16 => DD x19 x50 | s17 => DD x19 x51 | s18 => DD x19 x52 | s19 => DD x19 x53 | s20 => DD x19 x54 | s21 => DD x19 x55 | s22 => DD x19 x56 | s23 => DD x19 x57 | s24 => DD x19 x58 | s25 => DD x19 x59 | s26 => DD x19 x60 | s27 => DD x19 x61 | s28 => DD x19 x62 | s29 => DD x19 x63 | s30 => DD x20 x0 | s31 => DD x20 x1 | s32 => DD x20 x2 | s33 => DD x20 x3 | s34 => DD x20 x4 | s35 => DD x20 x5 | s36 => DD x20 x6 | s37 => DD x20 x7 | s38 => DD x20 x8 | s39 => DD x20 x9 | s40 => DD x20 x10 | s41 => DD x20 x11 | s42 => DD x20 x12 | s43 => DD x20 x13 | s44 => DD x20 x14 | s45 => DD x20 x15 | s46 => DD x20 x16 | s47 => DD x20 x17 | s48 => DD x20 x18 | s49 => DD x20 x19 | s50 => DD x20 x20 | s51 => DD x20 x21 | s52 => DD x20 x22 | s53 => DD x20 x23 | s54 => DD x20 x24 | s55 => DD x20 x25 | s56 => DD x20 x26 | s57 => DD x20 x27 | s58 => DD x20 x28 | s59 => DD x20 x29 | s60 => DD x20 x30 | s61 => DD x20 x31 | s62 => DD x20 x32 | s63 => DD x20 x33 | s64 => DD x20 x34 | s65 => DD x20 x35 | s66 => DD x20 x36 | s67 => DD x20 x37 | s68 => DD x20 x38 | s69 => DD x20 x39 | s70 => DD x20 x40 | s71 => DD x20 x41 | s72 => DD x20 x42 | s73 => DD x20 x43 | s74 => DD x20 x44 | s75 => DD x20 x45 | s76 => DD x20 x46 | s77 => DD x20 x47 | s78 => DD x20 x48 | s79 => DD x20 x49 | s80 => DD x20 x50 | s81 => DD x20 x51 | s82 => DD x20 x52 | s83 => DD x20 x53 | s84 => DD x20 x54 | s85 => DD x20 x55 | s86 => DD x20 x56 | s87 => DD x20 x57 | s88 => DD x20 x58 | s89 => DD x20 x59 | s90 => DD x20 x60 | s91 => DD x20 x61 | s92 => DD x20 x62 | s93 => DD x20 x63 | s94 => DD x21 x0 | s95 => DD x21 x1 | s96 => DD x21 x2 | s97 => DD x21 x3 | s98 => DD x21 x4 | s99 => DD x21 x5 | s100 => DD x21 x6 | s101 => DD x21 x7 | s102 => DD x21 x8 | s103 => DD x21 x9 | s104 => DD x21 x10 | s105 => DD x21 x11 | s106 => DD x21 x12 | s107 => DD x21 x13 | s108 => DD x21 x14 | s109 => DD x21 x15 | s110 => DD x21 x16 | s111 => DD x21 x17 | s112 => DD x21 x18 | s113 => DD x21 x19 | s114 => DD x21 x20 | s115 => DD x21 x21 | s116 => DD x21 x22 | s117 => DD x21 x23 | s118 => DD x21 x24 | s119 => DD x21 x25 | s120 => DD x21 x26 | s121 => DD x21 x27 | s122 => DD x21 x28 | s123 => DD x21 x29 | s124 => DD x21 x30 | s125 => DD x21 x31 | s126 => DD x21 x32 end.
Definition m1254 (c : sum2) : dd := match c with s0 => DD x19 x38 | s1 => DD x19 x39 | s2 => DD x19 x40 | s3 => DD x19 x41 | s4 => DD x19 x42 | s5 => DD x19 x43 | s6 => DD x19 x44 | s7 => DD x19 x45 | s8 => DD x19 x46 | s9 => DD x19 x47 | s10 => DD x19 x48 | s11 => DD x19 x49 | s12 => DD x19 x50 | s13 => DD x19 x51 | s14 => DD x19 x52 | s15 => DD x19 x53 | s16 => DD x19 x54 | s17 => DD x19 x55 | s18 => DD x19 x56 | s19 => DD x19 x57 | s20 => DD x19 x58 | s21 => DD x19 x59 | s22 => DD x19 x60 | s23 => DD x19 x61 | s24 => DD x19 x62 | s25 => DD x19 x63 | s26 => DD x20 x0 | s27 => DD x20 x1 | s28 => DD x20 x2 | s29 => DD x20 x3 | s30 => DD x20 x4 | s31 => DD x20 x5 | s32 => DD x20 x6 | s33 => DD x20 x7 | s34 => DD x20 x8 | s35 => DD x20 x9 | s36 => DD x20 x10 | s37 => DD x20 x11 | s38 => DD x20 x12 | s39 => DD x20 x13 | s40 => DD x20 x14 | s41 => DD x20 x15 | s42 => DD x20 x16 | s43 => DD x20 x17 | s44 => DD x20 x18 | s45 => DD x20 x19 | s46 => DD x20 x20 | s47 => DD x20 x21 | s48 => DD x20 x22 | s49 => DD x20 x23 | s50 => DD x20 x24 | s51 => DD x20 x25 | s52 => DD x20 x26 | s53 => DD x20 x27 | s54 => DD x20 x28 | s55 => DD x20 x29 | s56 => DD x20 x30 | s57 => DD x20 x31 | s58 => DD x20 x32 | s59 => DD x20 x33 | s60 => DD x20 x34 | s61 => DD x20 x35 | s62 => DD x20 x36 | s63 => DD x20 x37 | s64 => DD x20 x38 | s65 => DD x20 x39 | s66 => DD x20 x40 | s67 => DD x20 x41 | s68 => DD x20 x42 | s69 => DD x20 x43 | s70 => DD x20 x44 | s71 => DD x20 x45 | s72 => DD x20 x46 | s73 => DD x20 x47 | s74 => DD x20 x48 | s75 => DD x20 x49 | s76 => DD x20 x50 | s77 => DD x20 x51 | s78 => DD x20 x52 | s79 => DD x20 x53 | s80 => DD x20 x54 | s81 => DD x20 x55 | s82 => DD x20 x56 | s83 => DD x20 x57 | s84 => DD x20 x58 | s85 => DD x20 x59 | s86 => DD x20 x60 | s87 => DD x20 x61 | s88 => DD x20 x62 | s89 => DD x20 x63 | s90 => DD x21 x0 | s91 => DD x21 x1 | s92 => DD x21 x2 | s93 => DD x21 x3 | s94 => DD x21 x4 | s95 => DD x21 x5 | s96 => DD x21 x6 | s97 => DD x21 x7 | s98 => DD x21 x8 | s99 => DD x21 x9 | s100 => DD x21 x10 | s101 => DD x21 x11 | s102 => DD x21 x12 | s103 => DD x21 x13 | s104 => DD x21 x14 | s105 => DD x21 x15 | s106 => DD x21 x16 | s107 => DD x21 x17 | s108 => DD x21 x18 | s109 => DD x21 x19 | s110 => DD x21 x20 | s111 => DD x21 x21 | s112 => DD x21 x22 | s113 => DD x21 x23 | s114 => DD x21 x24 | s115 => DD x21 x25 | s116 => DD x21 x26 | s117 => DD x21 x27 | s118 => DD x21 x28 | s119 => DD x21 x29 | s120 => DD x21 x30 | s121 => DD x21 x31 | s122 => DD x21 x32 | s123 => DD x21 x33 | s124 => DD x21 x34 | s125 => DD x21 x35 | s126 => DD x21 x36 end.
Definition m1258 (c : sum2) : dd := match c with s0 => DD x19 x42 | s1 => DD x19 x43 | s2 => DD x19 x44 | s3 => DD x19 x45 | s4 => DD x19 x46 | s5 => DD x19 x47 | s6 => DD x19 x48 | s7 => DD x19 x49 | s8 => DD x19 x50 | s9 => DD x19 x51 | s10 => DD x19 x52 | s11 => DD x19 x53 | s12 => DD x19 x54 | s13 => DD x19 x55 | s14 => DD x19 x56 | s15 => DD x19 x57 | s16 => DD x19 x58 | s17 => DD x19 x59 | s18 => DD x19 x60 | s19 => DD x19 x61 | s20 => DD x19 x62 | s21 => DD x19 x63 | s22 => DD x20 x0 | s23 => DD x20 x1 | s24 => DD x20 x2 | s25 => DD x20 x3 | s26 => DD x20 x4 | s27 => DD x20 x5 | s28 => DD x20 x6 | s29 => DD x20 x7 | s30 => DD x20 x8 | s31 => DD x20 x9 | s32 => DD x20 x10 | s33 => DD x20 x11 | s34 => DD x20 x12 | s35 => DD x20 x13 | s36 => DD x20 x14 | s37 => DD x20 x15 | s38 => DD x20 x16 | s39 => DD x20 x17 | s40 => DD x20 x18 | s41 => DD x20 x19 | s42 => DD x20 x20 | s43 => DD x20 x21 | s44 => DD x20 x22 | s45 => DD x20 x23 | s46 => DD x20 x24 | s47 => DD x20 x25 | s48 => DD x20 x26 | s49 => DD x20 x27 | s50 => DD x20 x28 | s51 => DD x20 x29 | s52 => DD x20 x30 | s53 => DD x20 x31 | s54 => DD x20 x32 | s55 => DD x20 x33 | s56 => DD x20 x34 | s57 => DD x20 x35 | s58 => DD x20 x36 | s59 => DD x20 x37 | s60 => DD x20 x38 | s61 => DD x20 x39 | s62 => DD x20 x40 | s63 => DD x20 x41 | s64 => DD x20 x42 | s65 => DD x20 x43 | s66 => DD x20 x44 | s67 => DD x20 x45 | s68 => DD x20 x46 | s69 => DD x20 x47 | s70 => DD x20 x48 | s71 => DD x20 x49 | s72 => DD x20 x50 | s73 => DD x20 x51 | s74 => DD x20 x52 | s75 => DD x20 x53 | s76 => DD x20 x54 | s77 => DD x20 x55 | s78 => DD x20 x56 | s79 => DD x20 x57 | s80 => DD x20 x58 | s81 => DD x20 x59 | s82 => DD x20 x60 | s83 => DD x20 x61 | s84 => DD x20 x62 | s85 => DD x20 x63 | s86 => DD x21 x0 | s87 => DD x21 x1 | s88 => DD x21 x2 | s89 => DD x21 x3 | s90 => DD x21 x4 | s91 => DD x21 x5 | s92 => DD x21 x6 | s93 => DD x21 x7 | s94 => DD x21 x8 | s95 => DD x21 x9 | s96 => DD x21 x10 | s97 => DD x21 x11 | s98 => DD x21 x12 | s99 => DD x21 x13 | s100 => DD x21 x14 | s101 => DD x21 x15 | s102 => DD x21 x16 | s103 => DD x21 x17 | s104 => DD x21 x18 | s105 => DD x21 x19 | s106 => DD x21 x20 | s107 => DD x21 x21 | s108 => DD x21 x22 | s109 => DD x21 x23 | s110 => DD x21 x24 | s111 => DD x21 x25 | s112 => DD x21 x26 | s113 => DD x21 x27 | s114 => DD x21 x28 | s115 => DD x21 x29 | s116 => DD x21 x30 | s117 => DD x21 x31 | s118 => DD x21 x32 | s119 => DD x21 x33 | s120 => DD x21 x34 | s121 => DD x21 x35 | s122 => DD x21 x36 | s123 => DD x21 x37 | s124 => DD x21 x38 | s125 => DD x21 x39 | s126 => DD x21 x40 end.
Definition m1260 (c : sum2) : dd := match c with s0 => DD x19 x44 | s1 => DD x19 x45 | s2 => DD x19 x46 | s3 => DD x19 x47 | s4 => DD x19 x48 | s5 => DD x19 x49 | s6 => DD x19 x50 | s7 => DD x19 x51 | s8 => DD x19 x52 | s9 => DD x19 x53 | s10 => DD x19 x54 | s11 => DD x19 x55 | s12 => DD x19 x56 | s13 => DD x19 x57 | s14 => DD x19 x58 | s15 => DD x19 x59 | s16 => DD x19 x60 | s17 => DD x19 x61 | s18 => DD x19 x62 | s19 => DD x19 x63 | s20 => DD x20 x0 | s21 => DD x20 x1 | s22 => DD x20 x2 | s23 => DD x20 x3 | s24 => DD x20 x4 | s25 => DD x20 x5 | s26 => DD x20 x6 | s27 => DD x20 x7 | s28 => DD x20 x8 | s29 => DD x20 x9 | s30 => DD x20 x10 | s31 => DD x20 x11 | s32 => DD x20 x12 | s33 => DD x20 x13 | s34 => DD x20 x14 | s35 => DD x20 x15 | s36 => DD x20 x16 | s37 => DD x20 x17 | s38 => DD x20 x18 | s39 => DD x20 x19 | s40 => DD x20 x20 | s41 => DD x20 x21 | s42 => DD x20 x22 | s43 => DD x20 x23 | s44 => DD x20 x24 | s45 => DD x20 x25 | s46 => DD x20 x26 | s47 => DD x20 x27 | s48 => DD x20 x28 | s49 => DD x20 x29 | s50 => DD x20 x30 | s51 => DD x20 x31 | s52 => DD x20 x32 | s53 => DD x20 x33 | s54 => DD x20 x34 | s55 => DD x20 x35 | s56 => DD x20 x36 | s57 => DD x20 x37 | s58 => DD x20 x38 | s59 => DD x20 x39 | s60 => DD x20 x40 | s61 => DD x20 x41 | s62 => DD x20 x42 | s63 => DD x20 x43 | s64 => DD x20 x44 | s65 => DD x20 x45 | s66 => DD x20 x46 | s67 => DD x20 x47 | s68 => DD x20 x48 | s69 => DD x20 x49 | s70 => DD x20 x50 | s71 => DD x20 x51 | s72 => DD x20 x52 | s73 => DD x20 x53 | s74 => DD x20 x54 | s75 => DD x20 x55 | s76 => DD x20 x56 | s77 => DD x20 x57 | s78 => DD x20 x58 | s79 => DD x20 x59 | s80 => DD x20 x60 | s81 => DD x20 x61 | s82 => DD x20 x62 | s83 => DD x20 x63 | s84 => DD x21 x0 | s85 => DD x21 x1 | s86 => DD x21 x2 | s87 => DD x21 x3 | s88 => DD x21 x4 | s89 => DD x21 x5 | s90 => DD x21 x6 | s91 => DD x21 x7 | s92 => DD x21 x8 | s93 => DD x21 x9 | s94 => DD x21 x10 | s95 => DD x21 x11 | s96 => DD x21 x12 | s97 => DD x21 x13 | s98 => DD x21 x14 | s99 => DD x21 x15 | s100 => DD x21 x16 | s101 => DD x21 x17 | s102 => DD x21 x18 | s103 => DD x21 x19 | s104 => DD x21 x20 | s105 => DD x21 x21 | s106 => DD x21 x22 | s107 => DD x21 x23 | s108 => DD x21 x24 | s109 => DD x21 x25 | s110 => DD x21 x26 | s111 => DD x21 x27 | s112 => DD x21 x28 | s113 => DD x21 x29 | s114 => DD x21 x30 | s115 => DD x21 x31 | s116 => DD x21 x32 | s117 => DD x21 x33 | s118 => DD x21 x34 | s119 => DD x21 x35 | s120 => DD x21 x36 | s121 => DD x21 x37 | s122 => DD x21 x38 | s123 => DD x21 x39 | s124 => DD x21 x40 | s125 => DD x21 x41 | s126 => DD x21 x42 end.
Definition m1265 (c : sum2) : dd := match c with s0 => DD x19 x49 | s1 => DD x19 x50 | s2 => DD x19 x51 | s3 => DD x19 x52 | s4 => DD x19 x53 | s5 => DD x19 x54 | s6 => DD x19 x55 | s7 => DD x19 x56 | s8 => DD x19 x57 | s9 => DD x19 x58 | s10 => DD x19 x59 | s11 => DD x19 x60 | s12 => DD x19 x61 | s13 => DD x19 x62 | s14 => DD x19 x63 | s15 => DD x20 x0 | s16 => DD x20 x1 | s17 => DD x20 x2 | s18 => DD x20 x3 | s19 => DD x20 x4 | s20 => DD x20 x5 | s21 => DD x20 x6 | s22 => DD x20 x7 | s23 => DD x20 x8 | s24 => DD x20 x9 | s25 => DD x20 x10 | s26 => DD x20 x11 | s27 => DD x20 x12 | s28 => DD x20 x13 | s29 => DD x20 x14 | s30 => DD x20 x15 | s31 => DD x20 x16 | s32 => DD x20 x17 | s33 => DD x20 x18 | s34 => DD x20 x19 | s35 => DD x20 x20 | s36 => DD x20 x21 | s37 => DD x20 x22 | s38 => DD x20 x23 | s39 => DD x20 x24 | s40 => DD x20 x25 | s41 => DD x20 x26 | s42 => DD x20 x27 | s43 => DD x20 x28 | s44 => DD x20 x29 | s45 => DD x20 x30 | s46 => DD x20 x31 | s47 => DD x20 x32 | s48 => DD x20 x33 | s49 => DD x20 x34 | s50 => DD x20 x35 | s51 => DD x20 x36 | s52 => DD x20 x37 | s53 => DD x20 x38 | s54 => DD x20 x39 | s55 => DD x20 x40 | s56 => DD x20 x41 | s57 => DD x20 x42 | s58 => DD x20 x43 | s59 => DD x20 x44 | s60 => DD x20 x45 | s61 => DD x20 x46 | s62 => DD x20 x47 | s63 => DD x20 x48 | s64 => DD x20 x49 | s65 => DD x20 x50 | s66 => DD x20 x51 | s67 => DD x20 x52 | s68 => DD x20 x53 | s69 => DD x20 x54 | s70 => DD x20 x55 | s71 => DD x20 x56 | s72 => DD x20 x57 | s73 => DD x20 x58 | s74 => DD x20 x59 | s75 => DD x20 x60 | s76 => DD x20 x61 | s77 => DD x20 x62 | s78 => DD x20 x63 | s79 => DD x21 x0 | s80 => DD x21 x1 | s81 => DD x21 x2 | s82 => DD x21 x3 | s83 => DD x21 x4 | s84 => DD x21 x5 | s85 => DD x21 x6 | s86 => DD x21 x7 | s87 => DD x21 x8 | s88 => DD x21 x9 | s89 => DD x21 x10 | s90 => DD x21 x11 | s91 => DD x21 x12 | s92 => DD x21 x13 | s93 => DD x21 x14 | s94 => DD x21 x15 | s95 => DD x21 x16 | s96 => DD x21 x17 | s97 => DD x21 x18 | s98 => DD x21 x19 | s99 => DD x21 x20 | s100 => DD x21 x21 | s101 => DD x21 x22 | s102 => DD x21 x23 | s103 => DD x21 x24 | s104 => DD x21 x25 | s105 => DD x21 x26 | s106 => DD x21 x27 | s107 => DD x21 x28 | s108 => DD x21 x29 | s109 => DD x21 x30 | s110 => DD x21 x31 | s111 => DD x21 x32 | s112 => DD x21 x33 | s113 => DD x21 x34 | s114 => DD x21 x35 | s115 => DD x21 x36 | s116 => DD x21 x37 | s117 => DD x21 x38 | s118 => DD x21 x39 | s119 => DD x21 x40 | s120 => DD x21 x41 | s121 => DD x21 x42 | s122 => DD x21 x43 | s123 => DD x21 x44 | s124 => DD x21 x45 | s125 => DD x21 x46 | s126 => DD x21 x47 end.
Definition m1269 (c : sum2) : dd := match c with s0 => DD x19 x53 | s1 => DD x19 x54 | s2 => DD x19 x55 | s3 => DD x19 x56 | s4 => DD x19 x57 | s5 => DD x19 x58 | s6 => DD x19 x59 | s7 => DD x19 x60 | s8 => DD x19 x61 | s9 => DD x19 x62 | s10 => DD x19 x63 | s11 => DD x20 x0 | s12 => DD x20 x1 | s13 => DD x20 x2 | s14 => DD x20 x3 | s15 => DD x20 x4 | s16 => DD x20 x5 | s17 => DD x20 x6 | s18 => DD x20 x7 | s19 => DD x20 x8 | s20 => DD x20 x9 | s21 => DD x20 x10 | s22 => DD x20 x11 | s23 => DD x20 x12 | s24 => DD x20 x13 | s25 => DD x20 x14 | s26 => DD x20 x15 | s27 => DD x20 x16 | s28 => DD x20 x17 | s29 => DD x20 x18 | s30 => DD x20 x19 | s31 => DD x20 x20 | s32 => DD x20 x21 | s33 => DD x20 x22 | s34 => DD x20 x23 | s35 => DD x20 x24 | s36 => DD x20 x25 | s37 => DD x20 x26 | s38 => DD x20 x27 | s39 => DD x20 x28 | s40 => DD x20 x29 | s41 => DD x20 x30 | s42 => DD x20 x31 | s43 => DD x20 x32 | s44 => DD x20 x33 | s45 => DD x20 x34 | s46 => DD x20 x35 | s47 => DD x20 x36 | s48 => DD x20 x37 | s49 => DD x20 x38 | s50 => DD x20 x39 | s51 => DD x20 x40 | s52 => DD x20 x41 | s53 => DD x20 x42 | s54 => DD x20 x43 | s55 => DD x20 x44 | s56 => DD x20 x45 | s57 => DD x20 x46 | s58 => DD x20 x47 | s59 => DD x20 x48 | s60 => DD x20 x49 | s61 => DD x20 x50 | s62 => DD x20 x51 | s63 => DD x20 x52 | s64 => DD x20 x53 | s65 => DD x20 x54 | s66 => DD x20 x55 | s67 => DD x20 x56 | s68 => DD x20 x57 | s69 => DD x20 x58 | s70 => DD x20 x59 | s71 => DD x20 x60 | s72 => DD x20 x61 | s73 => DD x20 x62 | s74 => DD x20 x63 | s75 => DD x21 x0 | s76 => DD x21 x1 | s77 => DD x21 x2 | s78 => DD x21 x3 | s79 => DD x21 x4 | s80 => DD x21 x5 | s81 => DD x21 x6 | s82 => DD x21 x7 | s83 => DD x21 x8 | s84 => DD x21 x9 | s85 => DD x21 x10 | s86 => DD x21 x11 | s87 => DD x21 x12 | s88 => DD x21 x13 | s89 => DD x21 x14 | s90 => DD x21 x15 | s91 => DD x21 x16 | s92 => DD x21 x17 | s93 => DD x21 x18 | s94 => DD x21 x19 | s95 => DD x21 x20 | s96 => DD x21 x21 | s97 => DD x21 x22 | s98 => DD x21 x23 | s99 => DD x21 x24 | s100 => DD x21 x25 | s101 => DD x21 x26 | s102 => DD x21 x27 | s103 => DD x21 x28 | s104 => DD x21 x29 | s105 => DD x21 x30 | s106 => DD x21 x31 | s107 => DD x21 x32 | s108 => DD x21 x33 | s109 => DD x21 x34 | s110 => DD x21 x35 | s111 => DD x21 x36 | s112 => DD x21 x37 | s113 => DD x21 x38 | s114 => DD x21 x39 | s115 => DD x21 x40 | s116 => DD x21 x41 | s117 => DD x21 x42 | s118 => DD x21 x43 | s119 => DD x21 x44 | s120 => DD x21 x45 | s121 => DD x21 x46 | s122 => DD x21 x47 | s123 => DD x21 x48 | s124 => DD x21 x49 | s125 => DD x21 x50 | s126 => DD x21 x51 end.
Definition m1271 (c : sum2) : dd := match c with s0 => DD x19 x55 | s1 => DD x19 x56 | s2 => DD x19 x57 | s3 => DD x19 x58 | s4 => DD x19 x59 | s5 => DD x19 x60 | s6 => DD x19 x61 | s7 => DD x19 x62 | s8 => DD x19 x63 | s9 => DD x20 x0 | s10 => DD x20 x1 | s11 => DD x20 x2 | s12 => DD x20 x3 | s13 => DD x20 x4 | s14 => DD x20 x5 | s15 => DD x20 x6 | s16 => DD x20 x7 | s17 => DD x20 x8 | s18 => DD x20 x9 | s19 => DD x20 x10 | s20 => DD x20 x11 | s21 => DD x20 x12 | s22 => DD x20 x13 | s23 => DD x20 x14 | s24 => DD x20 x15 | s25 => DD x20 x16 | s26 => DD x20 x17 | s27 => DD x20 x18 | s28 => DD x20 x19 | s29 => DD x20 x20 | s30 => DD x20 x21 | s31 => DD x20 x22 | s32 => DD x20 x23 | s33 => DD x20 x24 | s34 => DD x20 x25 | s35 => DD x20 x26 | s36 => DD x20 x27 | s37 => DD x20 x28 | s38 => DD x20 x29 | s39 => DD x20 x30 | s40 => DD x20 x31 | s41 => DD x20 x32 | s42 => DD x20 x33 | s43 => DD x20 x34 | s44 => DD x20 x35 | s45 => DD x20 x36 | s46 => DD x20 x37 | s47 => DD x20 x38 | s48 => DD x20 x39 | s49 => DD x20 x40 | s50 => DD x20 x41 | s51 => DD x20 x42 | s52 => DD x20 x43 | s53 => DD x20 x44 | s54 => DD x20 x45 | s55 => DD x20 x46 | s56 => DD x20 x47 | s57 => DD x20 x48 | s58 => DD x20 x49 | s59 => DD x20 x50 | s60 => DD x20 x51 | s61 => DD x20 x52 | s62 => DD x20 x53 | s63 => DD x20 x54 | s64 => DD x20 x55 | s65 => DD x20 x56 | s66 => DD x20 x57 | s67 => DD x20 x58 | s68 => DD x20 x59 | s69 => DD x20 x60 | s70 => DD x20 x61 | s71 => DD x20 x62 | s72 => DD x20 x63 | s73 => DD x21 x0 | s74 => DD x21 x1 | s75 => DD x21 x2 | s76 => DD x21 x3 | s77 => DD x21 x4 | s78 => DD x21 x5 | s79 => DD x21 x6 | s80 => DD x21 x7 | s81 => DD x21 x8 | s82 => DD x21 x9 | s83 => DD x21 x10 | s84 => DD x21 x11 | s85 => DD x21 x12 | s86 => DD x21 x13 | s87 => DD x21 x14 | s88 => DD x21 x15 | s89 => DD x21 x16 | s90 => DD x21 x17 | s91 => DD x21 x18 | s92 => DD x21 x19 | s93 => DD x21 x20 | s94 => DD x21 x21 | s95 => DD x21 x22 | s96 => DD x21 x23 | s97 => DD x21 x24 | s98 => DD x21 x25 | s99 => DD x21 x26 | s100 => DD x21 x27 | s101 => DD x21 x28 | s102 => DD x21 x29 | s103 => DD x21 x30 | s104 => DD x21 x31 | s105 => DD x21 x32 | s106 => DD x21 x33 | s107 => DD x21 x34 | s108 => DD x21 x35 | s109 => DD x21 x36 | s110 => DD x21 x37 | s111 => DD x21 x38 | s112 => DD x21 x39 | s113 => DD x21 x40 | s114 => DD x21 x41 | s115 => DD x21 x42 | s116 => DD x21 x43 | s117 => DD x21 x44 | s118 => DD x21 x45 | s119 => DD x21 x46 | s120 => DD x21 x47 | s121 => DD x21 x48 | s122 => DD x21 x49 | s123 => DD x21 x50 | s124 => DD x21 x51 | s125 => DD x21 x52 | s126 => DD x21 x53 end.
Definition m1272 (c : sum2) : dd := match c with s0 => DD x19 x56 | s1 => DD x19 x57 | s2 => DD x19 x58 | s3 => DD x19 x59 | s4 => DD x19 x60 | s5 => DD x19 x61 | s6 => DD x19 x62 | s7 => DD x19 x63 | s8 => DD x20 x0 | s9 => DD x20 x1 | s10 => DD x20 x2 | s11 => DD x20 x3 | s12 => DD x20 x4 | s13 => DD x20 x5 | s14 => DD x20 x6 | s15 => DD x20 x7 | s16 => DD x20 x8 | s17 => DD x20 x9 | s18 => DD x20 x10 | s19 => DD x20 x11 | s20 => DD x20 x12 | s21 => DD x20 x13 | s22 => DD x20 x14 | s23 => DD x20 x15 | s24 => DD x20 x16 | s25 => DD x20 x17 | s26 => DD x20 x18 | s27 => DD x20 x19 | s28 => DD x20 x20 | s29 => DD x20 x21 | s30 => DD x20 x22 | s31 => DD x20 x23 | s32 => DD x20 x24 | s33 => DD x20 x25 | s34 => DD x20 x26 | s35 => DD x20 x27 | s36 => DD x20 x28 | s37 => DD x20 x29 | s38 => DD x20 x30 | s39 => DD x20 x31 | s40 => DD x20 x32 | s41 => DD x20 x33 | s42 => DD x20 x34 | s43 => DD x20 x35 | s44 => DD x20 x36 | s45 => DD x20 x37 | s46 => DD x20 x38 | s47 => DD x20 x39 | s48 => DD x20 x40 | s49 => DD x20 x41 | s50 => DD x20 x42 | s51 => DD x20 x43 | s52 => DD x20 x44 | s53 => DD x20 x45 | s54 => DD x20 x46 | s55 => DD x20 x47 | s56 => DD x20 x48 | s57 => DD x20 x49 | s58 => DD x20 x50 | s59 => DD x20 x51 | s60 => DD x20 x52 | s61 => DD x20 x53 | s62 => DD x20 x54 | s63 => DD x20 x55 | s64 => DD x20 x56 | s65 => DD x20 x57 | s66 => DD x20 x58 | s67 => DD x20 x59 | s68 => DD x20 x60 | s69 => DD x20 x61 | s70 => DD x20 x62 | s71 => DD x20 x63 | s72 => DD x21 x0 | s73 => DD x21 x1 | s74 => DD x21 x2 | s75 => DD x21 x3 | s76 => DD x21 x4 | s77 => DD x21 x5 | s78 => DD x21 x6 | s79 => DD x21 x7 | s80 => DD x21 x8 | s81 => DD x21 x9 | s82 => DD x21 x10 | s83 => DD x21 x11 | s84 => DD x21 x12 | s85 => DD x21 x13 | s86 => DD x21 x14 | s87 => DD x21 x15 | s88 => DD x21 x16 | s89 => DD x21 x17 | s90 => DD x21 x18 | s91 => DD x21 x19 | s92 => DD x21 x20 | s93 => DD x21 x21 | s94 => DD x21 x22 | s95 => DD x21 x23 | s96 => DD x21 x24 | s97 => DD x21 x25 | s98 => DD x21 x26 | s99 => DD x21 x27 | s100 => DD x21 x28 | s101 => DD x21 x29 | s102 => DD x21 x30 | s103 => DD x21 x31 | s104 => DD x21 x32 | s105 => DD x21 x33 | s106 => DD x21 x34 | s107 => DD x21 x35 | s108 => DD x21 x36 | s109 => DD x21 x37 | s110 => DD x21 x38 | s111 => DD x21 x39 | s112 => DD x21 x40 | s113 => DD x21 x41 | s114 => DD x21 x42 | s115 => DD x21 x43 | s116 => DD x21 x44 | s117 => DD x21 x45 | s118 => DD x21 x46 | s119 => DD x21 x47 | s120 => DD x21 x48 | s121 => DD x21 x49 | s122 => DD x21 x50 | s123 => DD x21 x51 | s124 => DD x21 x52 | s125 => DD x21 x53 | s126 => DD x21 x54 end.
Definition m1274 (c : sum2) : dd := match c with s0 => DD x19 x58 | s1 => DD x19 x59 | s2 => DD x19 x60 | s3 => DD x19 x61 | s4 => DD x19 x62 | s5 => DD x19 x63 | s6 => DD x20 x0 | s7 => DD x20 x1 | s8 => DD x20 x2 | s9 => DD x20 x3 | s10 => DD x20 x4 | s11 => DD x20 x5 | s12 => DD x20 x6 | s13 => DD x20 x7 | s14 => DD x20 x8 | s15 => DD x20 x9 | s16 => DD x20 x10 | s17 => DD x20 x11 | s18 => DD x20 x12 | s19 => DD x20 x13 | s20 => DD x20 x14 | s21 => DD x20 x15 | s22 => DD x20 x16 | s23 => DD x20 x17 | s24 => DD x20 x18 | s25 => DD x20 x19 | s26 => DD x20 x20 | s27 => DD x20 x21 | s28 => DD x20 x22 | s29 => DD x20 x23 | s30 => DD x20 x24 | s31 => DD x20 x25 | s32 => DD x20 x26 | s33 => DD x20 x27 | s34 => DD x20 x28 | s35 => DD x20 x29 | s36 => DD x20 x30 | s37 => DD x20 x31 | s38 => DD x20 x32 | s39 => DD x20 x33 | s40 => DD x20 x34 | s41 => DD x20 x35 | s42 => DD x20 x36 | s43 => DD x20 x37 | s44 => DD x20 x38 | s45 => DD x20 x39 | s46 => DD x20 x40 | s47 => DD x20 x41 | s48 => DD x20 x42 | s49 => DD x20 x43 | s50 => DD x20 x44 | s51 => DD x20 x45 | s52 => DD x20 x46 | s53 => DD x20 x47 | s54 => DD x20 x48 | s55 => DD x20 x49 | s56 => DD x20 x50 | s57 => DD x20 x51 | s58 => DD x20 x52 | s59 => DD x20 x53 | s60 => DD x20 x54 | s61 => DD x20 x55 | s62 => DD x20 x56 | s63 => DD x20 x57 | s64 => DD x20 x58 | s65 => DD x20 x59 | s66 => DD x20 x60 | s67 => DD x20 x61 | s68 => DD x20 x62 | s69 => DD x20 x63 | s70 => DD x21 x0 | s71 => DD x21 x1 | s72 => DD x21 x2 | s73 => DD x21 x3 | s74 => DD x21 x4 | s75 => DD x21 x5 | s76 => DD x21 x6 | s77 => DD x21 x7 | s78 => DD x21 x8 | s79 => DD x21 x9 | s80 => DD x21 x10 | s81 => DD x21 x11 | s82 => DD x21 x12 | s83 => DD x21 x13 | s84 => DD x21 x14 | s85 => DD x21 x15 | s86 => DD x21 x16 | s87 => DD x21 x17 | s88 => DD x21 x18 | s89 => DD x21 x19 | s90 => DD x21 x20 | s91 => DD x21 x21 | s92 => DD x21 x22 | s93 => DD x21 x23 | s94 => DD x21 x24 | s95 => DD x21 x25 | s96 => DD x21 x26 | s97 => DD x21 x27 | s98 => DD x21 x28 | s99 => DD x21 x29 | s100 => DD x21 x30 | s101 => DD x21 x31 | s102 => DD x21 x32 | s103 => DD x21 x33 | s104 => DD x21 x34 | s105 => DD x21 x35 | s106 => DD x21 x36 | s107 => DD x21 x37 | s108 => DD x21 x38 | s109 => DD x21 x39 | s110 => DD x21 x40 | s111 => DD x21 x41 | s112 => DD x21 x42 | s113 => DD x21 x43 | s114 => DD x21 x44 | s115 => DD x21 x45 | s116 => DD x21 x46 | s117 => DD x21 x47 | s118 => DD x21 x48 | s119 => DD x21 x49 | s120 => DD x21 x50 | s121 => DD x21 x51 | s122 => DD x21 x52 | s123 => DD x21 x53 | s124 => DD x21 x54 | s125 => DD x21 x55 | s126 => DD x21 x56 end.
Definition m1275 (c : sum2) : dd := match c with s0 => DD x19 x59 | s1 => DD x19 x60 | s2 => DD x19 x61 | s3 => DD x19 x62 | s4 => DD x19 x63 | s5 => DD x20 x0 | s6 => DD x20 x1 | s7 => DD x20 x2 | s8 => DD x20 x3 | s9 => DD x20 x4 | s10 => DD x20 x5 | s11 => DD x20 x6 | s12 => DD x20 x7 | s13 => DD x20 x8 | s14 => DD x20 x9 | s15 => DD x20 x10 | s16 => DD x20 x11 | s17 => DD x20 x12 | s18 => DD x20 x13 | s19 => DD x20 x14 | s20 => DD x20 x15 | s21 => DD x20 x16 | s22 => DD x20 x17 | s23 => DD x20 x18 | s24 => DD x20 x19 | s25 => DD x20 x20 | s26 => DD x20 x21 | s27 => DD x20 x22 | s28 => DD x20 x23 | s29 => DD x20 x24 | s30 => DD x20 x25 | s31 => DD x20 x26 | s32 => DD x20 x27 | s33 => DD x20 x28 | s34 => DD x20 x29 | s35 => DD x20 x30 | s36 => DD x20 x31 | s37 => DD x20 x32 | s38 => DD x20 x33 | s39 => DD x20 x34 | s40 => DD x20 x35 | s41 => DD x20 x36 | s42 => DD x20 x37 | s43 => DD x20 x38 | s44 => DD x20 x39 | s45 => DD x20 x40 | s46 => DD x20 x41 | s47 => DD x20 x42 | s48 => DD x20 x43 | s49 => DD x20 x44 | s50 => DD x20 x45 | s51 => DD x20 x46 | s52 => DD x20 x47 | s53 => DD x20 x48 | s54 => DD x20 x49 | s55 => DD x20 x50 | s56 => DD x20 x51 | s57 => DD x20 x52 | s58 => DD x20 x53 | s59 => DD x20 x54 | s60 => DD x20 x55 | s61 => DD x20 x56 | s62 => DD x20 x57 | s63 => DD x20 x58 | s64 => DD x20 x59 | s65 => DD x20 x60 | s66 => DD x20 x61 | s67 => DD x20 x62 | s68 => DD x20 x63 | s69 => DD x21 x0 | s70 => DD x21 x1 | s71 => DD x21 x2 | s72 => DD x21 x3 | s73 => DD x21 x4 | s74 => DD x21 x5 | s75 => DD x21 x6 | s76 => DD x21 x7 | s77 => DD x21 x8 | s78 => DD x21 x9 | s79 => DD x21 x10 | s80 => DD x21 x11 | s81 => DD x21 x12 | s82 => DD x21 x13 | s83 => DD x21 x14 | s84 => DD x21 x15 | s85 => DD x21 x16 | s86 => DD x21 x17 | s87 => DD x21 x18 | s88 => DD x21 x19 | s89 => DD x21 x20 | s90 => DD x21 x21 | s91 => DD x21 x22 | s92 => DD x21 x23 | s93 => DD x21 x24 | s94 => DD x21 x25 | s95 => DD x21 x26 | s96 => DD x21 x27 | s97 => DD x21 x28 | s98 => DD x21 x29 | s99 => DD x21 x30 | s100 => DD x21 x31 | s101 => DD x21 x32 | s102 => DD x21 x33 | s103 => DD x21 x34 | s104 => DD x21 x35 | s105 => DD x21 x36 | s106 => DD x21 x37 | s107 => DD x21 x38 | s108 => DD x21 x39 | s109 => DD x21 x40 | s110 => DD x21 x41 | s111 => DD x21 x42 | s112 => DD x21 x43 | s113 => DD x21 x44 | s114 => DD x21 x45 | s115 => DD x21 x46 | s116 => DD x21 x47 | s117 => DD x21 x48 | s118 => DD x21 x49 | s119 => DD x21 x50 | s120 => DD x21 x51 | s121 => DD x21 x52 | s122 => DD x21 x53 | s123 => DD x21 x54 | s124 => DD x21 x55 | s125 => DD x21 x56 | s126 => DD x21 x57 end.
Definition m1276 (c : sum2) : dd := match c with s0 => DD x19 x60 | s1 => DD x19 x61 | s2 => DD x19 x62 | s3 => DD x19 x63 | s4 => DD x20 x0 | s5 => DD x20 x1 | s6 => DD x20 x2 | s7 => DD x20 x3 | s8 => DD x20 x4 | s9 => DD x20 x5 | s10 => DD x20 x6 | s11 => DD x20 x7 | s12 => DD x20 x8 | s13 => DD x20 x9 | s14 => DD x20 x10 | s15 => DD x20 x11 | s16 => DD x20 x12 | s17 => DD x20 x13 | s18 => DD x20 x14 | s19 => DD x20 x15 | s20 => DD x20 x16 | s21 => DD x20 x17 | s22 => DD x20 x18 | s23 => DD x20 x19 | s24 => DD x20 x20 | s25 => DD x20 x21 | s26 => DD x20 x22 | s27 => DD x20 x23 | s28 => DD x20 x24 | s29 => DD x20 x25 | s30 => DD x20 x26 | s31 => DD x20 x27 | s32 => DD x20 x28 | s33 => DD x20 x29 | s34 => DD x20 x30 | s35 => DD x20 x31 | s36 => DD x20 x32 | s37 => DD x20 x33 | s38 => DD x20 x34 | s39 => DD x20 x35 | s40 => DD x20 x36 | s41 => DD x20 x37 | s42 => DD x20 x38 | s43 => DD x20 x39 | s44 => DD x20 x40 | s45 => DD x20 x41 | s46 => DD x20 x42 | s47 => DD x20 x43 | s48 => DD x20 x44 | s49 => DD x20 x45 | s50 => DD x20 x46 | s51 => DD x20 x47 | s52 => DD x20 x48 | s53 => DD x20 x49 | s54 => DD x20 x50 | s55 => DD x20 x51 | s56 => DD x20 x52 | s57 => DD x20 x53 | s58 => DD x20 x54 | s59 => DD x20 x55 | s60 => DD x20 x56 | s61 => DD x20 x57 | s62 => DD x20 x58 | s63 => DD x20 x59 | s64 => DD x20 x60 | s65 => DD x20 x61 | s66 => DD x20 x62 | s67 => DD x20 x63 | s68 => DD x21 x0 | s69 => DD x21 x1 | s70 => DD x21 x2 | s71 => DD x21 x3 | s72 => DD x21 x4 | s73 => DD x21 x5 | s74 => DD x21 x6 | s75 => DD x21 x7 | s76 => DD x21 x8 | s77 => DD x21 x9 | s78 => DD x21 x10 | s79 => DD x21 x11 | s80 => DD x21 x12 | s81 => DD x21 x13 | s82 => DD x21 x14 | s83 => DD x21 x15 | s84 => DD x21 x16 | s85 => DD x21 x17 | s86 => DD x21 x18 | s87 => DD x21 x19 | s88 => DD x21 x20 | s89 => DD x21 x21 | s90 => DD x21 x22 | s91 => DD x21 x23 | s92 => DD x21 x24 | s93 => DD x21 x25 | s94 => DD x21 x26 | s95 => DD x21 x27 | s96 => DD x21 x28 | s97 => DD x21 x29 | s98 => DD x21 x30 | s99 => DD x21 x31 | s100 => DD x21 x32 | s101 => DD x21 x33 | s102 => DD x21 x34 | s103 => DD x21 x35 | s104 => DD x21 x36 | s105 => DD x21 x37 | s106 => DD x21 x38 | s107 => DD x21 x39 | s108 => DD x21 x40 | s109 => DD x21 x41 | s110 => DD x21 x42 | s111 => DD x21 x43 | s112 => DD x21 x44 | s113 => DD x21 x45 | s114 => DD x21 x46 | s115 => DD x21 x47 | s116 => DD x21 x48 | s117 => DD x21 x49 | s118 => DD x21 x50 | s119 => DD x21 x51 | s120 => DD x21 x52 | s121 => DD x21 x53 | s122 => DD x21 x54 | s123 => DD x21 x55 | s124 => DD x21 x56 | s125 => DD x21 x57 | s126 => DD x21 x58 end.
Definition m1280 (c : sum2) : dd := match c with s0 => DD x20 x0 | s1 => DD x20 x1 | s2 => DD x20 x2 | s3 => DD x20 x3 | s4 => DD x20 x4 | s5 => DD x20 x5 | s6 => DD x20 x6 | s7 => DD x20 x7 | s8 => DD x20 x8 | s9 => DD x20 x9 | s10 => DD x20 x10 | s11 => DD x20 x11 | s12 => DD x20 x12 | s13 => DD x20 x13 | s14 => DD x20 x14 | s15 => DD x20 x15 | s16 => DD x20 x16 | s17 => DD x20 x17 | s18 => DD x20 x18 | s19 => DD x20 x19 | s20 => DD x20 x20 | s21 => DD x20 x21 | s22 => DD x20 x22 | s23 => DD x20 x23 | s24 => DD x20 x24 | s25 => DD x20 x25 | s26 => DD x20 x26 | s27 => DD x20 x27 | s28 => DD x20 x28 | s29 => DD x20 x29 | s30 => DD x20 x30 | s31 => DD x20 x31 | s32 => DD x20 x32 | s33 => DD x20 x33 | s34 => DD x20 x34 | s35 => DD x20 x35 | s36 => DD x20 x36 | s37 => DD x20 x37 | s38 => DD x20 x38 | s39 => DD x20 x39 | s40 => DD x20 x40 | s41 => DD x20 x41 | s42 => DD x20 x42 | s43 => DD x20 x43 | s44 => DD x20 x44 | s45 => DD x20 x45 | s46 => DD x20 x46 | s47 => DD x20 x47 | s48 => DD x20 x48 | s49 => DD x20 x49 | s50 => DD x20 x50 | s51 => DD x20 x51 | s52 => DD x20 x52 | s53 => DD x20 x53 | s54 => DD x20 x54 | s55 => DD x20 x55 | s56 => DD x20 x56 | s57 => DD x20 x57 | s58 => DD x20 x58 | s59 => DD x20 x59 | s60 => DD x20 x60 | s61 => DD x20 x61 | s62 => DD x20 x62 | s63 => DD x20 x63 | s64 => DD x21 x0 | s65 => DD x21 x1 | s66 => DD x21 x2 | s67 => DD x21 x3 | s68 => DD x21 x4 | s69 => DD x21 x5 | s70 => DD x21 x6 | s71 => DD x21 x7 | s72 => DD x21 x8 | s73 => DD x21 x9 | s74 => DD x21 x10 | s75 => DD x21 x11 | s76 => DD x21 x12 | s77 => DD x21 x13 | s78 => DD x21 x14 | s79 => DD x21 x15 | s80 => DD x21 x16 | s81 => DD x21 x17 | s82 => DD x21 x18 | s83 => DD x21 x19 | s84 => DD x21 x20 | s85 => DD x21 x21 | s86 => DD x21 x22 | s87 => DD x21 x23 | s88 => DD x21 x24 | s89 => DD x21 x25 | s90 => DD x21 x26 | s91 => DD x21 x27 | s92 => DD x21 x28 | s93 => DD x21 x29 | s94 => DD x21 x30 | s95 => DD x21 x31 | s96 => DD x21 x32 | s97 => DD x21 x33 | s98 => DD x21 x34 | s99 => DD x21 x35 | s100 => DD x21 x36 | s101 => DD x21 x37 | s102 => DD x21 x38 | s103 => DD x21 x39 | s104 => DD x21 x40 | s105 => DD x21 x41 | s106 => DD x21 x42 | s107 => DD x21 x43 | s108 => DD x21 x44 | s109 => DD x21 x45 | s110 => DD x21 x46 | s111 => DD x21 x47 | s112 => DD x21 x48 | s113 => DD x21 x49 | s114 => DD x21 x50 | s115 => DD x21 x51 | s116 => DD x21 x52 | s117 => DD x21 x53 | s118 => DD x21 x54 | s119 => DD x21 x55 | s120 => DD x21 x56 | s121 => DD x21 x57 | s122 => DD x21 x58 | s123 => DD x21 x59 | s124 => DD x21 x60 | s125 => DD x21 x61 | s126 => DD x21 x62 end.
Definition m1281 (c : sum2) : dd := match c with s0 => DD x20 x1 | s1 => DD x20 x2 | s2 => DD x20 x3 | s3 => DD x20 x4 | s4 => DD x20 x5 | s5 => DD x20 x6 | s6 => DD x20 x7 | s7 => DD x20 x8 | s8 => DD x20 x9 | s9 => DD x20 x10 | s10 => DD x20 x11 | s11 => DD x20 x12 | s12 => DD x20 x13 | s13 => DD x20 x14 | s14 => DD x20 x15 | s15 => DD x20 x16 | s16 => DD x20 x17 | s17 => DD x20 x18 | s18 => DD x20 x19 | s19 => DD x20 x20 | s20 => DD x20 x21 | s21 => DD x20 x22 | s22 => DD x20 x23 | s23 => DD x20 x24 | s24 => DD x20 x25 | s25 => DD x20 x26 | s26 => DD x20 x27 | s27 => DD x20 x28 | s28 => DD x20 x29 | s29 => DD x20 x30 | s30 => DD x20 x31 | s31 => DD x20 x32 | s32 => DD x20 x33 | s33 => DD x20 x34 | s34 => DD x20 x35 | s35 => DD x20 x36 | s36 => DD x20 x37 | s37 => DD x20 x38 | s38 => DD x20 x39 | s39 => DD x20 x40 | s40 => DD x20 x41 | s41 => DD x20 x42 | s42 => DD x20 x43 | s43 => DD x20 x44 | s44 => DD x20 x45 | s45 => DD x20 x46 | s46 => DD x20 x47 | s47 => DD x20 x48 | s48 => DD x20 x49 | s49 => DD x20 x50 | s50 => DD x20 x51 | s51 => DD x20 x52 | s52 => DD x20 x53 | s53 => DD x20 x54 | s54 => DD x20 x55 | s55 => DD x20 x56 | s56 => DD x20 x57 | s57 => DD x20 x58 | s58 => DD x20 x59 | s59 => DD x20 x60 | s60 => DD x20 x61 | s61 => DD x20 x62 | s62 => DD x20 x63 | s63 => DD x21 x0 | s64 => DD x21 x1 | s65 => DD x21 x2 | s66 => DD x21 x3 | s67 => DD x21 x4 | s68 => DD x21 x5 | s69 => DD x21 x6 | s70 => DD x21 x7 | s71 => DD x21 x8 | s72 => DD x21 x9 | s73 => DD x21 x10 | s74 => DD x21 x11 | s75 => DD x21 x12 | s76 => DD x21 x13 | s77 => DD x21 x14 | s78 => DD x21 x15 | s79 => DD x21 x16 | s80 => DD x21 x17 | s81 => DD x21 x18 | s82 => DD x21 x19 | s83 => DD x21 x20 | s84 => DD x21 x21 | s85 => DD x21 x22 | s86 => DD x21 x23 | s87 => DD x21 x24 | s88 => DD x21 x25 | s89 => DD x21 x26 | s90 => DD x21 x27 | s91 => DD x21 x28 | s92 => DD x21 x29 | s93 => DD x21 x30 | s94 => DD x21 x31 | s95 => DD x21 x32 | s96 => DD x21 x33 | s97 => DD x21 x34 | s98 => DD x21 x35 | s99 => DD x21 x36 | s100 => DD x21 x37 | s101 => DD x21 x38 | s102 => DD x21 x39 | s103 => DD x21 x40 | s104 => DD x21 x41 | s105 => DD x21 x42 | s106 => DD x21 x43 | s107 => DD x21 x44 | s108 => DD x21 x45 | s109 => DD x21 x46 | s110 => DD x21 x47 | s111 => DD x21 x48 | s112 => DD x21 x49 | s113 => DD x21 x50 | s114 => DD x21 x51 | s115 => DD x21 x52 | s116 => DD x21 x53 | s117 => DD x21 x54 | s118 => DD x21 x55 | s119 => DD x21 x56 | s120 => DD x21 x57 | s121 => DD x21 x58 | s122 => DD x21 x59 | s123 => DD x21 x60 | s124 => DD x21 x61 | s125 => DD x21 x62 | s126 => DD x21 x63 end.
Definition m1287 (c : sum2) : dd := match c with s0 => DD x20 x7 | s1 => DD x20 x8 | s2 => DD x20 x9 | s3 => DD x20 x10 | s4 => DD x20 x11 | s5 => DD x20 x12 | s6 => DD x20 x13 | s7 => DD x20 x14 | s8 => DD x20 x15 | s9 => DD x20 x16 | s10 => DD x20 x17 | s11 => DD x20 x18 | s12 => DD x20 x19 | s13 => DD x20 x20 | s14 => DD x20 x21 | s15 => DD x20 x22 | s16 => DD x20 x23 | s17 => DD x20 x24 | s18 => DD x20 x25 | s19 => DD x20 x26 | s20 => DD x20 x27 | s21 => DD x20 x28 | s22 => DD x20 x29 | s23 => DD x20 x30 | s24 => DD x20 x31 | s25 => DD x20 x32 | s26 => DD x20 x33 | s27 => DD x20 x34 | s28 => DD x20 x35 | s29 => DD x20 x36 | s30 => DD x20 x37 | s31 => DD x20 x38 | s32 => DD x20 x39 | s33 => DD x20 x40 | s34 => DD x20 x41 | s35 => DD x20 x42 | s36 => DD x20 x43 | s37 => DD x20 x44 | s38 => DD x20 x45 | s39 => DD x20 x46 | s40 => DD x20 x47 | s41 => DD x20 x48 | s42 => DD x20 x49 | s43 => DD x20 x50 | s44 => DD x20 x51 | s45 => DD x20 x52 | s46 => DD x20 x53 | s47 => DD x20 x54 | s48 => DD x20 x55 | s49 => DD x20 x56 | s50 => DD x20 x57 | s51 => DD x20 x58 | s52 => DD x20 x59 | s53 => DD x20 x60 | s54 => DD x20 x61 | s55 => DD x20 x62 | s56 => DD x20 x63 | s57 => DD x21 x0 | s58 => DD x21 x1 | s59 => DD x21 x2 | s60 => DD x21 x3 | s61 => DD x21 x4 | s62 => DD x21 x5 | s63 => DD x21 x6 | s64 => DD x21 x7 | s65 => DD x21 x8 | s66 => DD x21 x9 | s67 => DD x21 x10 | s68 => DD x21 x11 | s69 => DD x21 x12 | s70 => DD x21 x13 | s71 => DD x21 x14 | s72 => DD x21 x15 | s73 => DD x21 x16 | s74 => DD x21 x17 | s75 => DD x21 x18 | s76 => DD x21 x19 | s77 => DD x21 x20 | s78 => DD x21 x21 | s79 => DD x21 x22 | s80 => DD x21 x23 | s81 => DD x21 x24 | s82 => DD x21 x25 | s83 => DD x21 x26 | s84 => DD x21 x27 | s85 => DD x21 x28 | s86 => DD x21 x29 | s87 => DD x21 x30 | s88 => DD x21 x31 | s89 => DD x21 x32 | s90 => DD x21 x33 | s91 => DD x21 x34 | s92 => DD x21 x35 | s93 => DD x21 x36 | s94 => DD x21 x37 | s95 => DD x21 x38 | s96 => DD x21 x39 | s97 => DD x21 x40 | s98 => DD x21 x41 | s99 => DD x21 x42 | s100 => DD x21 x43 | s101 => DD x21 x44 | s102 => DD x21 x45 | s103 => DD x21 x46 | s104 => DD x21 x47 | s105 => DD x21 x48 | s106 => DD x21 x49 | s107 => DD x21 x50 | s108 => DD x21 x51 | s109 => DD x21 x52 | s110 => DD x21 x53 | s111 => DD x21 x54 | s112 => DD x21 x55 | s113 => DD x21 x56 | s114 => DD x21 x57 | s115 => DD x21 x58 | s116 => DD x21 x59 | s117 => DD x21 x60 | s118 => DD x21 x61 | s119 => DD x21 x62 | s120 => DD x21 x63 | s121 => DD x22 x0 | s122 => DD x22 x1 | s123 => DD x22 x2 | s124 => DD x22 x3 | s125 => DD x22 x4 | s126 => DD x22 x5 end.
Definition m1288 (c : sum2) : dd := match c with s0 => DD x20 x8 | s1 => DD x20 x9 | s2 => DD x20 x10 | s3 => DD x20 x11 | s4 => DD x20 x12 | s5 => DD x20 x13 | s6 => DD x20 x14 | s7 => DD x20 x15 | s8 => DD x20 x16 | s9 => DD x20 x17 | s10 => DD x20 x18 | s11 => DD x20 x19 | s12 => DD x20 x20 | s13 => DD x20 x21 | s14 => DD x20 x22 | s15 => DD x20 x23 | s16 => DD x20 x24 | s17 => DD x20 x25 | s18 => DD x20 x26 | s19 => DD x20 x27 | s20 => DD x20 x28 | s21 => DD x20 x29 | s22 => DD x20 x30 | s23 => DD x20 x31 | s24 => DD x20 x32 | s25 => DD x20 x33 | s26 => DD x20 x34 | s27 => DD x20 x35 | s28 => DD x20 x36 | s29 => DD x20 x37 | s30 => DD x20 x38 | s31 => DD x20 x39 | s32 => DD x20 x40 | s33 => DD x20 x41 | s34 => DD x20 x42 | s35 => DD x20 x43 | s36 => DD x20 x44 | s37 => DD x20 x45 | s38 => DD x20 x46 | s39 => DD x20 x47 | s40 => DD x20 x48 | s41 => DD x20 x49 | s42 => DD x20 x50 | s43 => DD x20 x51 | s44 => DD x20 x52 | s45 => DD x20 x53 | s46 => DD x20 x54 | s47 => DD x20 x55 | s48 => DD x20 x56 | s49 => DD x20 x57 | s50 => DD x20 x58 | s51 => DD x20 x59 | s52 => DD x20 x60 | s53 => DD x20 x61 | s54 => DD x20 x62 | s55 => DD x20 x63 | s56 => DD x21 x0 | s57 => DD x21 x1 | s58 => DD x21 x2 | s59 => DD x21 x3 | s60 => DD x21 x4 | s61 => DD x21 x5 | s62 => DD x21 x6 | s63 => DD x21 x7 | s64 => DD x21 x8 | s65 => DD x21 x9 | s66 => DD x21 x10 | s67 => DD x21 x11 | s68 => DD x21 x12 | s69 => DD x21 x13 | s70 => DD x21 x14 | s71 => DD x21 x15 | s72 => DD x21 x16 | s73 => DD x21 x17 | s74 => DD x21 x18 | s75 => DD x21 x19 | s76 => DD x21 x20 | s77 => DD x21 x21 | s78 => DD x21 x22 | s79 => DD x21 x23 | s80 => DD x21 x24 | s81 => DD x21 x25 | s82 => DD x21 x26 | s83 => DD x21 x27 | s84 => DD x21 x28 | s85 => DD x21 x29 | s86 => DD x21 x30 | s87 => DD x21 x31 | s88 => DD x21 x32 | s89 => DD x21 x33 | s90 => DD x21 x34 | s91 => DD x21 x35 | s92 => DD x21 x36 | s93 => DD x21 x37 | s94 => DD x21 x38 | s95 => DD x21 x39 | s96 => DD x21 x40 | s97 => DD x21 x41 | s98 => DD x21 x42 | s99 => DD x21 x43 | s100 => DD x21 x44 | s101 => DD x21 x45 | s102 => DD x21 x46 | s103 => DD x21 x47 | s104 => DD x21 x48 | s105 => DD x21 x49 | s106 => DD x21 x50 | s107 => DD x21 x51 | s108 => DD x21 x52 | s109 => DD x21 x53 | s110 => DD x21 x54 | s111 => DD x21 x55 | s112 => DD x21 x56 | s113 => DD x21 x57 | s114 => DD x21 x58 | s115 => DD x21 x59 | s116 => DD x21 x60 | s117 => DD x21 x61 | s118 => DD x21 x62 | s119 => DD x21 x63 | s120 => DD x22 x0 | s121 => DD x22 x1 | s122 => DD x22 x2 | s123 => DD x22 x3 | s124 => DD x22 x4 | s125 => DD x22 x5 | s126 => DD x22 x6 end.
Definition m1290 (c : sum2) : dd := match c with s0 => DD x20 x10 | s1 => DD x20 x11 | s2 => DD x20 x12 | s3 => DD x20 x13 | s4 => DD x20 x14 | s5 => DD x20 x15 | s6 => DD x20 x16 | s7 => DD x20 x17 | s8 => DD x20 x18 | s9 => DD x20 x19 | s10 => DD x20 x20 | s11 => DD x20 x21 | s12 => DD x20 x22 | s13 => DD x20 x23 | s14 => DD x20 x24 | s15 => DD x20 x25 | s16 => DD x20 x26 | s17 => DD x20 x27 | s18 => DD x20 x28 | s19 => DD x20 x29 | s20 => DD x20 x30 | s21 => DD x20 x31 | s22 => DD x20 x32 | s23 => DD x20 x33 | s24 => DD x20 x34 | s25 => DD x20 x35 | s26 => DD x20 x36 | s27 => DD x20 x37 | s28 => DD x20 x38 | s29 => DD x20 x39 | s30 => DD x20 x40 | s31 => DD x20 x41 | s32 => DD x20 x42 | s33 => DD x20 x43 | s34 => DD x20 x44 | s35 => DD x20 x45 | s36 => DD x20 x46 | s37 => DD x20 x47 | s38 => DD x20 x48 | s39 => DD x20 x49 | s40 => DD x20 x50 | s41 => DD x20 x51 | s42 => DD x20 x52 | s43 => DD x20 x53 | s44 => DD x20 x54 | s45 => DD x20 x55 | s46 => DD x20 x56 | s47 => DD x20 x57 | s48 => DD x20 x58 | s49 => DD x20 x59 | s50 => DD x20 x60 | s51 => DD x20 x61 | s52 => DD x20 x62 | s53 => DD x20 x63 | s54 => DD x21 x0 | s55 => DD x21 x1 | s56 => DD x21 x2 | s57 => DD x21 x3 | s58 => DD x21 x4 | s59 => DD x21 x5 | s60 => DD x21 x6 | s61 => DD x21 x7 | s62 => DD x21 x8 | s63 => DD x21 x9 | s64 => DD x21 x10 | s65 => DD x21 x11 | s66 => DD x21 x12 | s67 => DD x21 x13 | s68 => DD x21 x14 | s69 => DD x21 x15 | s70 => DD x21 x16 | s71 => DD x21 x17 | s72 => DD x21 x18 | s73 => DD x21 x19 | s74 => DD x21 x20 | s75 => DD x21 x21 | s76 => DD x21 x22 | s77 => DD x21 x23 | s78 => DD x21 x24 | s79 => DD x21 x25 | s80 => DD x21 x26 | s81 => DD x21 x27 | s82 => DD x21 x28 | s83 => DD x21 x29 | s84 => DD x21 x30 | s85 => DD x21 x31 | s86 => DD x21 x32 | s87 => DD x21 x33 | s88 => DD x21 x34 | s89 => DD x21 x35 | s90 => DD x21 x36 | s91 => DD x21 x37 | s92 => DD x21 x38 | s93 => DD x21 x39 | s94 => DD x21 x40 | s95 => DD x21 x41 | s96 => DD x21 x42 | s97 => DD x21 x43 | s98 => DD x21 x44 | s99 => DD x21 x45 | s100 => DD x21 x46 | s101 => DD x21 x47 | s102 => DD x21 x48 | s103 => DD x21 x49 | s104 => DD x21 x50 | s105 => DD x21 x51 | s106 => DD x21 x52 | s107 => DD x21 x53 | s108 => DD x21 x54 | s109 => DD x21 x55 | s110 => DD x21 x56 | s111 => DD x21 x57 | s112 => DD x21 x58 | s113 => DD x21 x59 | s114 => DD x21 x60 | s115 => DD x21 x61 | s116 => DD x21 x62 | s117 => DD x21 x63 | s118 => DD x22 x0 | s119 => DD x22 x1 | s120 => DD x22 x2 | s121 => DD x22 x3 | s122 => DD x22 x4 | s123 => DD x22 x5 | s124 => DD x22 x6 | s125 => DD x22 x7 | s126 => DD x22 x8 end.
Definition m1292 (c : sum2) : dd := match c with s0 => DD x20 x12 | s1 => DD x20 x13 | s2 => DD x20 x14 | s3 => DD x20 x15 | s4 => DD x20 x16 | s5 => DD x20 x17 | s6 => DD x20 x18 | s7 => DD x20 x19 | s8 => DD x20 x20 | s9 => DD x20 x21 | s10 => DD x20 x22 | s11 => DD x20 x23 | s12 => DD x20 x24 | s13 => DD x20 x25 | s14 => DD x20 x26 | s15 => DD x20 x27 | s16 => DD x20 x28 | s17 => DD x20 x29 | s18 => DD x20 x30 | s19 => DD x20 x31 | s20 => DD x20 x32 | s21 => DD x20 x33 | s22 => DD x20 x34 | s23 => DD x20 x35 | s24 => DD x20 x36 | s25 => DD x20 x37 | s26 => DD x20 x38 | s27 => DD x20 x39 | s28 => DD x20 x40 | s29 => DD x20 x41 | s30 => DD x20 x42 | s31 => DD x20 x43 | s32 => DD x20 x44 | s33 => DD x20 x45 | s34 => DD x20 x46 | s35 => DD x20 x47 | s36 => DD x20 x48 | s37 => DD x20 x49 | s38 => DD x20 x50 | s39 => DD x20 x51 | s40 => DD x20 x52 | s41 => DD x20 x53 | s42 => DD x20 x54 | s43 => DD x20 x55 | s44 => DD x20 x56 | s45 => DD x20 x57 | s46 => DD x20 x58 | s47 => DD x20 x59 | s48 => DD x20 x60 | s49 => DD x20 x61 | s50 => DD x20 x62 | s51 => DD x20 x63 | s52 => DD x21 x0 | s53 => DD x21 x1 | s54 => DD x21 x2 | s55 => DD x21 x3 | s56 => DD x21 x4 | s57 => DD x21 x5 | s58 => DD x21 x6 | s59 => DD x21 x7 | s60 => DD x21 x8 | s61 => DD x21 x9 | s62 => DD x21 x10 | s63 => DD x21 x11 | s64 => DD x21 x12 | s65 => DD x21 x13 | s66 => DD x21 x14 | s67 => DD x21 x15 | s68 => DD x21 x16 | s69 => DD x21 x17 | s70 => DD x21 x18 | s71 => DD x21 x19 | s72 => DD x21 x20 | s73 => DD x21 x21 | s74 => DD x21 x22 | s75 => DD x21 x23 | s76 => DD x21 x24 | s77 => DD x21 x25 | s78 => DD x21 x26 | s79 => DD x21 x27 | s80 => DD x21 x28 | s81 => DD x21 x29 | s82 => DD x21 x30 | s83 => DD x21 x31 | s84 => DD x21 x32 | s85 => DD x21 x33 | s86 => DD x21 x34 | s87 => DD x21 x35 | s88 => DD x21 x36 | s89 => DD x21 x37 | s90 => DD x21 x38 | s91 => DD x21 x39 | s92 => DD x21 x40 | s93 => DD x21 x41 | s94 => DD x21 x42 | s95 => DD x21 x43 | s96 => DD x21 x44 | s97 => DD x21 x45 | s98 => DD x21 x46 | s99 => DD x21 x47 | s100 => DD x21 x48 | s101 => DD x21 x49 | s102 => DD x21 x50 | s103 => DD x21 x51 | s104 => DD x21 x52 | s105 => DD x21 x53 | s106 => DD x21 x54 | s107 => DD x21 x55 | s108 => DD x21 x56 | s109 => DD x21 x57 | s110 => DD x21 x58 | s111 => DD x21 x59 | s112 => DD x21 x60 | s113 => DD x21 x61 | s114 => DD x21 x62 | s115 => DD x21 x63 | s116 => DD x22 x0 | s117 => DD x22 x1 | s118 => DD x22 x2 | s119 => DD x22 x3 | s120 => DD x22 x4 | s121 => DD x22 x5 | s122 => DD x22 x6 | s123 => DD x22 x7 | s124 => DD x22 x8 | s125 => DD x22 x9 | s126 => DD x22 x10 end.
Definition m1295 (c : sum2) : dd := match c with s0 => DD x20 x15 | s1 => DD x20 x16 | s2 => DD x20 x17 | s3 => DD x20 x18 | s4 => DD x20 x19 | s5 => DD x20 x20 | s6 => DD x20 x21 | s7 => DD x20 x22 | s8 => DD x20 x23 | s9 => DD x20 x24 | s10 => DD x20 x25 | s11 => DD x20 x26 | s12 => DD x20 x27 | s13 => DD x20 x28 | s14 => DD x20 x29 | s15 => DD x20 x30 | s16 => DD x20 x31 | s17 => DD x20 x32 | s18 => DD x20 x33 | s19 => DD x20 x34 | s20 => DD x20 x35 | s21 => DD x20 x36 | s22 => DD x20 x37 | s23 => DD x20 x38 | s24 => DD x20 x39 | s25 => DD x20 x40 | s26 => DD x20 x41 | s27 => DD x20 x42 | s28 => DD x20 x43 | s29 => DD x20 x44 | s30 => DD x20 x45 | s31 => DD x20 x46 | s32 => DD x20 x47 | s33 => DD x20 x48 | s34 => DD x20 x49 | s35 => DD x20 x50 | s36 => DD x20 x51 | s37 => DD x20 x52 | s38 => DD x20 x53 | s39 => DD x20 x54 | s40 => DD x20 x55 | s41 => DD x20 x56 | s42 => DD x20 x57 | s43 => DD x20 x58 | s44 => DD x20 x59 | s45 => DD x20 x60 | s46 => DD x20 x61 | s47 => DD x20 x62 | s48 => DD x20 x63 | s49 => DD x21 x0 | s50 => DD x21 x1 | s51 => DD x21 x2 | s52 => DD x21 x3 | s53 => DD x21 x4 | s54 => DD x21 x5 | s55 => DD x21 x6 | s56 => DD x21 x7 | s57 => DD x21 x8 | s58 => DD x21 x9 | s59 => DD x21 x10 | s60 => DD x21 x11 | s61 => DD x21 x12 | s62 => DD x21 x13 | s63 => DD x21 x14 | s64 => DD x21 x15 | s65 => DD x21 x16 | s66 => DD x21 x17 | s67 => DD x21 x18 | s68 => DD x21 x19 | s69 => DD x21 x20 | s70 => DD x21 x21 | s71 => DD x21 x22 | s72 => DD x21 x23 | s73 => DD x21 x24 | s74 => DD x21 x25 | s75 => DD x21 x26 | s76 => DD x21 x27 | s77 => DD x21 x28 | s78 => DD x21 x29 | s79 => DD x21 x30 | s80 => DD x21 x31 | s81 => DD x21 x32 | s82 => DD x21 x33 | s83 => DD x21 x34 | s84 => DD x21 x35 | s85 => DD x21 x36 | s86 => DD x21 x37 | s87 => DD x21 x38 | s88 => DD x21 x39 | s89 => DD x21 x40 | s90 => DD x21 x41 | s91 => DD x21 x42 | s92 => DD x21 x43 | s93 => DD x21 x44 | s94 => DD x21 x45 | s95 => DD x21 x46 | s96 => DD x21 x47 | s97 => DD x21 x48 | s98 => DD x21 x49 | s99 => DD x21 x50 | s100 => DD x21 x51 | s101 => DD x21 x52 | s102 => DD x21 x53 | s103 => DD x21 x54 | s104 => DD x21 x55 | s105 => DD x21 x56 | s106 => DD x21 x57 | s107 => DD x21 x58 | s108 => DD x21 x59 | s109 => DD x21 x60 | s110 => DD x21 x61 | s111 => DD x21 x62 | s112 => DD x21 x63 | s113 => DD x22 x0 | s114 => DD x22 x1 | s115 => DD x22 x2 | s116 => DD x22 x3 | s117 => DD x22 x4 | s118 => DD x22 x5 | s119 => DD x22 x6 | s120 => DD x22 x7 | s121 => DD x22 x8 | s122 => DD x22 x9 | s123 => DD x22 x10 | s124 => DD x22 x11 | s125 => DD x22 x12 | s126 => DD x22 x13 end.
Definition m1296 (c : sum2) : dd := match c with s0 => DD x20 x16 | s1 => DD x20 x17 | s2 => DD x20 x18 | s3 => DD x20 x19 | s4 => DD x20 x20 | s5 => DD x20 x21 | s6 => DD x20 x22 | s7 => DD x20 x23 | s8 => DD x20 x24 | s9 => DD x20 x25 | s10 => DD x20 x26 | s11 => DD x20 x27 | s12 => DD x20 x28 | s13 => DD x20 x29 | s14 => DD x20 x30 | s15 => DD x20 x31 | s16 => DD x20 x32 | s17 => DD x20 x33 | s18 => DD x20 x34 | s19 => DD x20 x35 | s20 => DD x20 x36 | s21 => DD x20 x37 | s22 => DD x20 x38 | s23 => DD x20 x39 | s24 => DD x20 x40 | s25 => DD x20 x41 | s26 => DD x20 x42 | s27 => DD x20 x43 | s28 => DD x20 x44 | s29 => DD x20 x45 | s30 => DD x20 x46 | s31 => DD x20 x47 | s32 => DD x20 x48 | s33 => DD x20 x49 | s34 => DD x20 x50 | s35 => DD x20 x51 | s36 => DD x20 x52 | s37 => DD x20 x53 | s38 => DD x20 x54 | s39 => DD x20 x55 | s40 => DD x20 x56 | s41 => DD x20 x57 | s42 => DD x20 x58 | s43 => DD x20 x59 | s44 => DD x20 x60 | s45 => DD x20 x61 | s46 => DD x20 x62 | s47 => DD x20 x63 | s48 => DD x21 x0 | s49 => DD x21 x1 | s50 => DD x21 x2 | s51 => DD x21 x3 | s52 => DD x21 x4 | s53 => DD x21 x5 | s54 => DD x21 x6 | s55 => DD x21 x7 | s56 => DD x21 x8 | s57 => DD x21 x9 | s58 => DD x21 x10 | s59 => DD x21 x11 | s60 => DD x21 x12 | s61 => DD x21 x13 | s62 => DD x21 x14 | s63 => DD x21 x15 | s64 => DD x21 x16 | s65 => DD x21 x17 | s66 => DD x21 x18 | s67 => DD x21 x19 | s68 => DD x21 x20 | s69 => DD x21 x21 | s70 => DD x21 x22 | s71 => DD x21 x23 | s72 => DD x21 x24 | s73 => DD x21 x25 | s74 => DD x21 x26 | s75 => DD x21 x27 | s76 => DD x21 x28 | s77 => DD x21 x29 | s78 => DD x21 x30 | s79 => DD x21 x31 | s80 => DD x21 x32 | s81 => DD x21 x33 | s82 => DD x21 x34 | s83 => DD x21 x35 | s84 => DD x21 x36 | s85 => DD x21 x37 | s86 => DD x21 x38 | s87 => DD x21 x39 | s88 => DD x21 x40 | s89 => DD x21 x41 | s90 => DD x21 x42 | s91 => DD x21 x43 | s92 => DD x21 x44 | s93 => DD x21 x45 | s94 => DD x21 x46 | s95 => DD x21 x47 | s96 => DD x21 x48 | s97 => DD x21 x49 | s98 => DD x21 x50 | s99 => DD x21 x51 | s100 => DD x21 x52 | s101 => DD x21 x53 | s102 => DD x21 x54 | s103 => DD x21 x55 | s104 => DD x21 x56 | s105 => DD x21 x57 | s106 => DD x21 x58 | s107 => DD x21 x59 | s108 => DD x21 x60 | s109 => DD x21 x61 | s110 => DD x21 x62 | s111 => DD x21 x63 | s112 => DD x22 x0 | s113 => DD x22 x1 | s114 => DD x22 x2 | s115 => DD x22 x3 | s116 => DD x22 x4 | s117 => DD x22 x5 | s118 => DD x22 x6 | s119 => DD x22 x7 | s120 => DD x22 x8 | s121 => DD x22 x9 | s122 => DD x22 x10 | s123 => DD x22 x11 | s124 => DD x22 x12 | s125 => DD x22 x13 | s126 => DD x22 x14 end.
Definition m1298 (c : sum2) : dd := match c with s0 => DD x20 x18 | s1 => DD x20 x19 | s2 => DD x20 x20 | s3 => DD x20 x21 | s4 => DD x20 x22 | s5 => DD x20 x23 | s6 => DD x20 x24 | s7 => DD x20 x25 | s8 => DD x20 x26 | s9 => DD x20 x27 | s10 => DD x20 x28 | s11 => DD x20 x29 | s12 => DD x20 x30 | s13 => DD x20 x31 | s14 => DD x20 x32 | s15 => DD x20 x33 | s16 => DD x20 x34 | s17 => DD x20 x35 | s18 => DD x20 x36 | s19 => DD x20 x37 | s20 => DD x20 x38 | s21 => DD x20 x39 | s22 => DD x20 x40 | s23 => DD x20 x41 | s24 => DD x20 x42 | s25 => DD x20 x43 | s26 => DD x20 x44 | s27 => DD x20 x45 | s28 => DD x20 x46 | s29 => DD x20 x47 | s30 => DD x20 x48 | s31 => DD x20 x49 | s32 => DD x20 x50 | s33 => DD x20 x51 | s34 => DD x20 x52 | s35 => DD x20 x53 | s36 => DD x20 x54 | s37 => DD x20 x55 | s38 => DD x20 x56 | s39 => DD x20 x57 | s40 => DD x20 x58 | s41 => DD x20 x59 | s42 => DD x20 x60 | s43 => DD x20 x61 | s44 => DD x20 x62 | s45 => DD x20 x63 | s46 => DD x21 x0 | s47 => DD x21 x1 | s48 => DD x21 x2 | s49 => DD x21 x3 | s50 => DD x21 x4 | s51 => DD x21 x5 | s52 => DD x21 x6 | s53 => DD x21 x7 | s54 => DD x21 x8 | s55 => DD x21 x9 | s56 => DD x21 x10 | s57 => DD x21 x11 | s58 => DD x21 x12 | s59 => DD x21 x13 | s60 => DD x21 x14 | s61 => DD x21 x15 | s62 => DD x21 x16 | s63 => DD x21 x17 | s64 => DD x21 x18 | s65 => DD x21 x19 | s66 => DD x21 x20 | s67 => DD x21 x21 | s68 => DD x21 x22 | s69 => DD x21 x23 | s70 => DD x21 x24 | s71 => DD x21 x25 | s72 => DD x21 x26 | s73 => DD x21 x27 | s74 => DD x21 x28 | s75 => DD x21 x29 | s76 => DD x21 x30 | s77 => DD x21 x31 | s78 => DD x21 x32 | s79 => DD x21 x33 | s80 => DD x21 x34 | s81 => DD x21 x35 | s82 => DD x21 x36 | s83 => DD x21 x37 | s84 => DD x21 x38 | s85 => DD x21 x39 | s86 => DD x21 x40 | s87 => DD x21 x41 | s88 => DD x21 x42 | s89 => DD x21 x43 | s90 => DD x21 x44 | s91 => DD x21 x45 | s92 => DD x21 x46 | s93 => DD x21 x47 | s94 => DD x21 x48 | s95 => DD x21 x49 | s96 => DD x21 x50 | s97 => DD x21 x51 | s98 => DD x21 x52 | s99 => DD x21 x53 | s100 => DD x21 x54 | s101 => DD x21 x55 | s102 => DD x21 x56 | s103 => DD x21 x57 | s104 => DD x21 x58 | s105 => DD x21 x59 | s106 => DD x21 x60 | s107 => DD x21 x61 | s108 => DD x21 x62 | s109 => DD x21 x63 | s110 => DD x22 x0 | s111 => DD x22 x1 | s112 => DD x22 x2 | s113 => DD x22 x3 | s114 => DD x22 x4 | s115 => DD x22 x5 | s116 => DD x22 x6 | s117 => DD x22 x7 | s118 => DD x22 x8 | s119 => DD x22 x9 | s120 => DD x22 x10 | s121 => DD x22 x11 | s122 => DD x22 x12 | s123 => DD x22 x13 | s124 => DD x22 x14 | s125 => DD x22 x15 | s126 => DD x22 x16 end.
Definition m1300 (c : sum2) : dd := match c with s0 => DD x20 x20 | s1 => DD x20 x21 | s2 => DD x20 x22 | s3 => DD x20 x23 | s4 => DD x20 x24 | s5 => DD x20 x25 | s6 => DD x20 x26 | s7 => DD x20 x27 | s8 => DD x20 x28 | s9 => DD x20 x29 | s10 => DD x20 x30 | s11 => DD x20 x31 | s12 => DD x20 x32 | s13 => DD x20 x33 | s14 => DD x20 x34 | s15 => DD x20 x35 | s16 => DD x20 x36 | s17 => DD x20 x37 | s18 => DD x20 x38 | s19 => DD x20 x39 | s20 => DD x20 x40 | s21 => DD x20 x41 | s22 => DD x20 x42 | s23 => DD x20 x43 | s24 => DD x20 x44 | s25 => DD x20 x45 | s26 => DD x20 x46 | s27 => DD x20 x47 | s28 => DD x20 x48 | s29 => DD x20 x49 | s30 => DD x20 x50 | s31 => DD x20 x51 | s32 => DD x20 x52 | s33 => DD x20 x53 | s34 => DD x20 x54 | s35 => DD x20 x55 | s36 => DD x20 x56 | s37 => DD x20 x57 | s38 => DD x20 x58 | s39 => DD x20 x59 | s40 => DD x20 x60 | s41 => DD x20 x61 | s42 => DD x20 x62 | s43 => DD x20 x63 | s44 => DD x21 x0 | s45 => DD x21 x1 | s46 => DD x21 x2 | s47 => DD x21 x3 | s48 => DD x21 x4 | s49 => DD x21 x5 | s50 => DD x21 x6 | s51 => DD x21 x7 | s52 => DD x21 x8 | s53 => DD x21 x9 | s54 => DD x21 x10 | s55 => DD x21 x11 | s56 => DD x21 x12 | s57 => DD x21 x13 | s58 => DD x21 x14 | s59 => DD x21 x15 | s60 => DD x21 x16 | s61 => DD x21 x17 | s62 => DD x21 x18 | s63 => DD x21 x19 | s64 => DD x21 x20 | s65 => DD x21 x21 | s66 => DD x21 x22 | s67 => DD x21 x23 | s68 => DD x21 x24 | s69 => DD x21 x25 | s70 => DD x21 x26 | s71 => DD x21 x27 | s72 => DD x21 x28 | s73 => DD x21 x29 | s74 => DD x21 x30 | s75 => DD x21 x31 | s76 => DD x21 x32 | s77 => DD x21 x33 | s78 => DD x21 x34 | s79 => DD x21 x35 | s80 => DD x21 x36 | s81 => DD x21 x37 | s82 => DD x21 x38 | s83 => DD x21 x39 | s84 => DD x21 x40 | s85 => DD x21 x41 | s86 => DD x21 x42 | s87 => DD x21 x43 | s88 => DD x21 x44 | s89 => DD x21 x45 | s90 => DD x21 x46 | s91 => DD x21 x47 | s92 => DD x21 x48 | s93 => DD x21 x49 | s94 => DD x21 x50 | s95 => DD x21 x51 | s96 => DD x21 x52 | s97 => DD x21 x53 | s98 => DD x21 x54 | s99 => DD x21 x55 | s100 => DD x21 x56 | s101 => DD x21 x57 | s102 => DD x21 x58 | s103 => DD x21 x59 | s104 => DD x21 x60 | s105 => DD x21 x61 | s106 => DD x21 x62 | s107 => DD x21 x63 | s108 => DD x22 x0 | s109 => DD x22 x1 | s110 => DD x22 x2 | s111 => DD x22 x3 | s112 => DD x22 x4 | s113 => DD x22 x5 | s114 => DD x22 x6 | s115 => DD x22 x7 | s116 => DD x22 x8 | s117 => DD x22 x9 | s118 => DD x22 x10 | s119 => DD x22 x11 | s120 => DD x22 x12 | s121 => DD x22 x13 | s122 => DD x22 x14 | s123 => DD x22 x15 | s124 => DD x22 x16 | s125 => DD x22 x17 | s126 => DD x22 x18 end.
Definition m1302 (c : sum2) : dd := match c with s0 => DD x20 x22 | s1 => DD x20 x23 | s2 => DD x20 x24 | s3 => DD x20 x25 | s4 => DD x20 x26 | s5 => DD x20 x27 | s6 => DD x20 x28 | s7 => DD x20 x29 | s8 => DD x20 x30 | s9 => DD x20 x31 | s10 => DD x20 x32 | s11 => DD x20 x33 | s12 => DD x20 x34 | s13 => DD x20 x35 | s14 => DD x20 x36 | s15 => DD x20 x37 | s16 => DD x20 x38 | s17 => DD x20 x39 | s18 => DD x20 x40 | s19 => DD x20 x41 | s20 => DD x20 x42 | s21 => DD x20 x43 | s22 => DD x20 x44 | s23 => DD x20 x45 | s24 => DD x20 x46 | s25 => DD x20 x47 | s26 => DD x20 x48 | s27 => DD x20 x49 | s28 => DD x20 x50 | s29 => DD x20 x51 | s30 => DD x20 x52 | s31 => DD x20 x53 | s32 => DD x20 x54 | s33 => DD x20 x55 | s34 => DD x20 x56 | s35 => DD x20 x57 | s36 => DD x20 x58 | s37 => DD x20 x59 | s38 => DD x20 x60 | s39 => DD x20 x61 | s40 => DD x20 x62 | s41 => DD x20 x63 | s42 => DD x21 x0 | s43 => DD x21 x1 | s44 => DD x21 x2 | s45 => DD x21 x3 | s46 => DD x21 x4 | s47 => DD x21 x5 | s48 => DD x21 x6 | s49 => DD x21 x7 | s50 => DD x21 x8 | s51 => DD x21 x9 | s52 => DD x21 x10 | s53 => DD x21 x11 | s54 => DD x21 x12 | s55 => DD x21 x13 | s56 => DD x21 x14 | s57 => DD x21 x15 | s58 => DD x21 x16 | s59 => DD x21 x17 | s60 => DD x21 x18 | s61 => DD x21 x19 | s62 => DD x21 x20 | s63 => DD x21 x21 | s64 => DD x21 x22 | s65 => DD x21 x23 | s66 => DD x21 x24 | s67 => DD x21 x25 | s68 => DD x21 x26 | s69 => DD x21 x27 | s70 => DD x21 x28 | s71 => DD x21 x29 | s72 => DD x21 x30 | s73 => DD x21 x31 | s74 => DD x21 x32 | s75 => DD x21 x33 | s76 => DD x21 x34 | s77 => DD x21 x35 | s78 => DD x21 x36 | s79 => DD x21 x37 | s80 => DD x21 x38 | s81 => DD x21 x39 | s82 => DD x21 x40 | s83 => DD x21 x41 | s84 => DD x21 x42 | s85 => DD x21 x43 | s86 => DD x21 x44 | s87 => DD x21 x45 | s88 => DD x21 x46 | s89 => DD x21 x47 | s90 => DD x21 x48 | s91 => DD x21 x49 | s92 => DD x21 x50 | s93 => DD x21 x51 | s94 => DD x21 x52 | s95 => DD x21 x53 | s96 => DD x21 x54 | s97 => DD x21 x55 | s98 => DD x21 x56 | s99 => DD x21 x57 | s100 => DD x21 x58 | s101 => DD x21 x59 | s102 => DD x21 x60 | s103 => DD x21 x61 | s104 => DD x21 x62 | s105 => DD x21 x63 | s106 => DD x22 x0 | s107 => DD x22 x1 | s108 => DD x22 x2 | s109 => DD x22 x3 | s110 => DD x22 x4 | s111 => DD x22 x5 | s112 => DD x22 x6 | s113 => DD x22 x7 | s114 => DD x22 x8 | s115 => DD x22 x9 | s116 => DD x22 x10 | s117 => DD x22 x11 | s118 => DD x22 x12 | s119 => DD x22 x13 | s120 => DD x22 x14 | s121 => DD x22 x15 | s122 => DD x22 x16 | s123 => DD x22 x17 | s124 => DD x22 x18 | s125 => DD x22 x19 | s126 => DD x22 x20 end.
Definition m1305 (c : sum2) : dd := match c with s0 => DD x20 x25 | s1 => DD x20 x26 | s2 => DD x20 x27 | s3 => DD x20 x28 | s4 => DD x20 x29 | s5 => DD x20 x30 | s6 => DD x20 x31 | s7 => DD x20 x32 | s8 => DD x20 x33 | s9 => DD x20 x34 | s10 => DD x20 x35 | s11 => DD x20 x36 | s12 => DD x20 x37 | s13 => DD x20 x38 | s14 => DD x20 x39 | s15 => DD x20 x40 | s16 => DD x20 x41 | s17 => DD x20 x42 | s18 => DD x20 x43 | s19 => DD x20 x44 | s20 => DD x20 x45 | s21 => DD x20 x46 | s22 => DD x20 x47 | s23 => DD x20 x48 | s24 => DD x20 x49 | s25 => DD x20 x50 | s26 => DD x20 x51 | s27 => DD x20 x52 | s28 => DD x20 x53 | s29 => DD x20 x54 | s30 => DD x20 x55 | s31 => DD x20 x56 | s32 => DD x20 x57 | s33 => DD x20 x58 | s34 => DD x20 x59 | s35 => DD x20 x60 | s36 => DD x20 x61 | s37 => DD x20 x62 | s38 => DD x20 x63 | s39 => DD x21 x0 | s40 => DD x21 x1 | s41 => DD x21 x2 | s42 => DD x21 x3 | s43 => DD x21 x4 | s44 => DD x21 x5 | s45 => DD x21 x6 | s46 => DD x21 x7 | s47 => DD x21 x8 | s48 => DD x21 x9 | s49 => DD x21 x10 | s50 => DD x21 x11 | s51 => DD x21 x12 | s52 => DD x21 x13 | s53 => DD x21 x14 | s54 => DD x21 x15 | s55 => DD x21 x16 | s56 => DD x21 x17 | s57 => DD x21 x18 | s58 => DD x21 x19 | s59 => DD x21 x20 | s60 => DD x21 x21 | s61 => DD x21 x22 | s62 => DD x21 x23 | s63 => DD x21 x24 | s64 => DD x21 x25 | s65 => DD x21 x26 | s66 => DD x21 x27 | s67 => DD x21 x28 | s68 => DD x21 x29 | s69 => DD x21 x30 | s70 => DD x21 x31 | s71 => DD x21 x32 | s72 => DD x21 x33 | s73 => DD x21 x34 | s74 => DD x21 x35 | s75 => DD x21 x36 | s76 => DD x21 x37 | s77 => DD x21 x38 | s78 => DD x21 x39 | s79 => DD x21 x40 | s80 => DD x21 x41 | s81 => DD x21 x42 | s82 => DD x21 x43 | s83 => DD x21 x44 | s84 => DD x21 x45 | s85 => DD x21 x46 | s86 => DD x21 x47 | s87 => DD x21 x48 | s88 => DD x21 x49 | s89 => DD x21 x50 | s90 => DD x21 x51 | s91 => DD x21 x52 | s92 => DD x21 x53 | s93 => DD x21 x54 | s94 => DD x21 x55 | s95 => DD x21 x56 | s96 => DD x21 x57 | s97 => DD x21 x58 | s98 => DD x21 x59 | s99 => DD x21 x60 | s100 => DD x21 x61 | s101 => DD x21 x62 | s102 => DD x21 x63 | s103 => DD x22 x0 | s104 => DD x22 x1 | s105 => DD x22 x2 | s106 => DD x22 x3 | s107 => DD x22 x4 | s108 => DD x22 x5 | s109 => DD x22 x6 | s110 => DD x22 x7 | s111 => DD x22 x8 | s112 => DD x22 x9 | s113 => DD x22 x10 | s114 => DD x22 x11 | s115 => DD x22 x12 | s116 => DD x22 x13 | s117 => DD x22 x14 | s118 => DD x22 x15 | s119 => DD x22 x16 | s120 => DD x22 x17 | s121 => DD x22 x18 | s122 => DD x22 x19 | s123 => DD x22 x20 | s124 => DD x22 x21 | s125 => DD x22 x22 | s126 => DD x22 x23 end.
Definition m1311 (c : sum2) : dd := match c with s0 => DD x20 x31 | s1 => DD x20 x32 | s2 => DD x20 x33 | s3 => DD x20 x34 | s4 => DD x20 x35 | s5 => DD x20 x36 | s6 => DD x20 x37 | s7 => DD x20 x38 | s8 => DD x20 x39 | s9 => DD x20 x40 | s10 => DD x20 x41 | s11 => DD x20 x42 | s12 => DD x20 x43 | s13 => DD x20 x44 | s14 => DD x20 x45 | s15 => DD x20 x46 | s16 => DD x20 x47 | s17 => DD x20 x48 | s18 => DD x20 x49 | s19 => DD x20 x50 | s20 => DD x20 x51 | s21 => DD x20 x52 | s22 => DD x20 x53 | s23 => DD x20 x54 | s24 => DD x20 x55 | s25 => DD x20 x56 | s26 => DD x20 x57 | s27 => DD x20 x58 | s28 => DD x20 x59 | s29 => DD x20 x60 | s30 => DD x20 x61 | s31 => DD x20 x62 | s32 => DD x20 x63 | s33 => DD x21 x0 | s34 => DD x21 x1 | s35 => DD x21 x2 | s36 => DD x21 x3 | s37 => DD x21 x4 | s38 => DD x21 x5 | s39 => DD x21 x6 | s40 => DD x21 x7 | s41 => DD x21 x8 | s42 => DD x21 x9 | s43 => DD x21 x10 | s44 => DD x21 x11 | s45 => DD x21 x12 | s46 => DD x21 x13 | s47 => DD x21 x14 | s48 => DD x21 x15 | s49 => DD x21 x16 | s50 => DD x21 x17 | s51 => DD x21 x18 | s52 => DD x21 x19 | s53 => DD x21 x20 | s54 => DD x21 x21 | s55 => DD x21 x22 | s56 => DD x21 x23 | s57 => DD x21 x24 | s58 => DD x21 x25 | s59 => DD x21 x26 | s60 => DD x21 x27 | s61 => DD x21 x28 | s62 => DD x21 x29 | s63 => DD x21 x30 | s64 => DD x21 x31 | s65 => DD x21 x32 | s66 => DD x21 x33 | s67 => DD x21 x34 | s68 => DD x21 x35 | s69 => DD x21 x36 | s70 => DD x21 x37 | s71 => DD x21 x38 | s72 => DD x21 x39 | s73 => DD x21 x40 | s74 => DD x21 x41 | s75 => DD x21 x42 | s76 => DD x21 x43 | s77 => DD x21 x44 | s78 => DD x21 x45 | s79 => DD x21 x46 | s80 => DD x21 x47 | s81 => DD x21 x48 | s82 => DD x21 x49 | s83 => DD x21 x50 | s84 => DD x21 x51 | s85 => DD x21 x52 | s86 => DD x21 x53 | s87 => DD x21 x54 | s88 => DD x21 x55 | s89 => DD x21 x56 | s90 => DD x21 x57 | s91 => DD x21 x58 | s92 => DD x21 x59 | s93 => DD x21 x60 | s94 => DD x21 x61 | s95 => DD x21 x62 | s96 => DD x21 x63 | s97 => DD x22 x0 | s98 => DD x22 x1 | s99 => DD x22 x2 | s100 => DD x22 x3 | s101 => DD x22 x4 | s102 => DD x22 x5 | s103 => DD x22 x6 | s104 => DD x22 x7 | s105 => DD x22 x8 | s106 => DD x22 x9 | s107 => DD x22 x10 | s108 => DD x22 x11 | s109 => DD x22 x12 | s110 => DD x22 x13 | s111 => DD x22 x14 | s112 => DD x22 x15 | s113 => DD x22 x16 | s114 => DD x22 x17 | s115 => DD x22 x18 | s116 => DD x22 x19 | s117 => DD x22 x20 | s118 => DD x22 x21 | s119 => DD x22 x22 | s120 => DD x22 x23 | s121 => DD x22 x24 | s122 => DD x22 x25 | s123 => DD x22 x26 | s124 => DD x22 x27 | s125 => DD x22 x28 | s126 => DD x22 x29 end.
Definition m1312 (c : sum2) : dd := match c with s0 => DD x20 x32 | s1 => DD x20 x33 | s2 => DD x20 x34 | s3 => DD x20 x35 | s4 => DD x20 x36 | s5 => DD x20 x37 | s6 => DD x20 x38 | s7 => DD x20 x39 | s8 => DD x20 x40 | s9 => DD x20 x41 | s10 => DD x20 x42 | s11 => DD x20 x43 | s12 => DD x20 x44 | s13 => DD x20 x45 | s14 => DD x20 x46 | s15 => DD x20 x47 | s16 => DD x20 x48 | s17 => DD x20 x49 | s18 => DD x20 x50 | s19 => DD x20 x51 | s20 => DD x20 x52 | s21 => DD x20 x53 | s22 => DD x20 x54 | s23 => DD x20 x55 | s24 => DD x20 x56 | s25 => DD x20 x57 | s26 => DD x20 x58 | s27 => DD x20 x59 | s28 => DD x20 x60 | s29 => DD x20 x61 | s30 => DD x20 x62 | s31 => DD x20 x63 | s32 => DD x21 x0 | s33 => DD x21 x1 | s34 => DD x21 x2 | s35 => DD x21 x3 | s36 => DD x21 x4 | s37 => DD x21 x5 | s38 => DD x21 x6 | s39 => DD x21 x7 | s40 => DD x21 x8 | s41 => DD x21 x9 | s42 => DD x21 x10 | s43 => DD x21 x11 | s44 => DD x21 x12 | s45 => DD x21 x13 | s46 => DD x21 x14 | s47 => DD x21 x15 | s48 => DD x21 x16 | s49 => DD x21 x17 | s50 => DD x21 x18 | s51 => DD x21 x19 | s52 => DD x21 x20 | s53 => DD x21 x21 | s54 => DD x21 x22 | s55 => DD x21 x23 | s56 => DD x21 x24 | s57 => DD x21 x25 | s58 => DD x21 x26 | s59 => DD x21 x27 | s60 => DD x21 x28 | s61 => DD x21 x29 | s62 => DD x21 x30 | s63 => DD x21 x31 | s64 => DD x21 x32 | s65 => DD x21 x33 | s66 => DD x21 x34 | s67 => DD x21 x35 | s68 => DD x21 x36 | s69 => DD x21 x37 | s70 => DD x21 x38 | s71 => DD x21 x39 | s72 => DD x21 x40 | s73 => DD x21 x41 | s74 => DD x21 x42 | s75 => DD x21 x43 | s76 => DD x21 x44 | s77 => DD x21 x45 | s78 => DD x21 x46 | s79 => DD x21 x47 | s80 => DD x21 x48 | s81 => DD x21 x49 | s82 => DD x21 x50 | s83 => DD x21 x51 | s84 => DD x21 x52 | s85 => DD x21 x53 | s86 => DD x21 x54 | s87 => DD x21 x55 | s88 => DD x21 x56 | s89 => DD x21 x57 | s90 => DD x21 x58 | s91 => DD x21 x59 | s92 => DD x21 x60 | s93 => DD x21 x61 | s94 => DD x21 x62 | s95 => DD x21 x63 | s96 => DD x22 x0 | s97 => DD x22 x1 | s98 => DD x22 x2 | s99 => DD x22 x3 | s100 => DD x22 x4 | s101 => DD x22 x5 | s102 => DD x22 x6 | s103 => DD x22 x7 | s104 => DD x22 x8 | s105 => DD x22 x9 | s106 => DD x22 x10 | s107 => DD x22 x11 | s108 => DD x22 x12 | s109 => DD x22 x13 | s110 => DD x22 x14 | s111 => DD x22 x15 | s112 => DD x22 x16 | s113 => DD x22 x17 | s114 => DD x22 x18 | s115 => DD x22 x19 | s116 => DD x22 x20 | s117 => DD x22 x21 | s118 => DD x22 x22 | s119 => DD x22 x23 | s120 => DD x22 x24 | s121 => DD x22 x25 | s122 => DD x22 x26 | s123 => DD x22 x27 | s124 => DD x22 x28 | s125 => DD x22 x29 | s126 => DD x22 x30 end.
Definition m1316 (c : sum2) : dd := match c with s0 => DD x20 x36 | s1 => DD x20 x37 | s2 => DD x20 x38 | s3 => DD x20 x39 | s4 => DD x20 x40 | s5 => DD x20 x41 | s6 => DD x20 x42 | s7 => DD x20 x43 | s8 => DD x20 x44 | s9 => DD x20 x45 | s10 => DD x20 x46 | s11 => DD x20 x47 | s12 => DD x20 x48 | s13 => DD x20 x49 | s14 => DD x20 x50 | s15 => DD x20 x51 | s16 => DD x20 x52 | s17 => DD x20 x53 | s18 => DD x20 x54 | s19 => DD x20 x55 | s20 => DD x20 x56 | s21 => DD x20 x57 | s22 => DD x20 x58 | s23 => DD x20 x59 | s24 => DD x20 x60 | s25 => DD x20 x61 | s26 => DD x20 x62 | s27 => DD x20 x63 | s28 => DD x21 x0 | s29 => DD x21 x1 | s30 => DD x21 x2 | s31 => DD x21 x3 | s32 => DD x21 x4 | s33 => DD x21 x5 | s34 => DD x21 x6 | s35 => DD x21 x7 | s36 => DD x21 x8 | s37 => DD x21 x9 | s38 => DD x21 x10 | s39 => DD x21 x11 | s40 => DD x21 x12 | s41 => DD x21 x13 | s42 => DD x21 x14 | s43 => DD x21 x15 | s44 => DD x21 x16 | s45 => DD x21 x17 | s46 => DD x21 x18 | s47 => DD x21 x19 | s48 => DD x21 x20 | s49 => DD x21 x21 | s50 => DD x21 x22 | s51 => DD x21 x23 | s52 => DD x21 x24 | s53 => DD x21 x25 | s54 => DD x21 x26 | s55 => DD x21 x27 | s56 => DD x21 x28 | s57 => DD x21 x29 | s58 => DD x21 x30 | s59 => DD x21 x31 | s60 => DD x21 x32 | s61 => DD x21 x33 | s62 => DD x21 x34 | s63 => DD x21 x35 | s64 => DD x21 x36 | s65 => DD x21 x37 | s66 => DD x21 x38 | s67 => DD x21 x39 | s68 => DD x21 x40 | s69 => DD x21 x41 | s70 => DD x21 x42 | s71 => DD x21 x43 | s72 => DD x21 x44 | s73 => DD x21 x45 | s74 => DD x21 x46 | s75 => DD x21 x47 | s76 => DD x21 x48 | s77 => DD x21 x49 | s78 => DD x21 x50 | s79 => DD x21 x51 | s80 => DD x21 x52 | s81 => DD x21 x53 | s82 => DD x21 x54 | s83 => DD x21 x55 | s84 => DD x21 x56 | s85 => DD x21 x57 | s86 => DD x21 x58 | s87 => DD x21 x59 | s88 => DD x21 x60 | s89 => DD x21 x61 | s90 => DD x21 x62 | s91 => DD x21 x63 | s92 => DD x22 x0 | s93 => DD x22 x1 | s94 => DD x22 x2 | s95 => DD x22 x3 | s96 => DD x22 x4 | s97 => DD x22 x5 | s98 => DD x22 x6 | s99 => DD x22 x7 | s100 => DD x22 x8 | s101 => DD x22 x9 | s102 => DD x22 x10 | s103 => DD x22 x11 | s104 => DD x22 x12 | s105 => DD x22 x13 | s106 => DD x22 x14 | s107 => DD x22 x15 | s108 => DD x22 x16 | s109 => DD x22 x17 | s110 => DD x22 x18 | s111 => DD x22 x19 | s112 => DD x22 x20 | s113 => DD x22 x21 | s114 => DD x22 x22 | s115 => DD x22 x23 | s116 => DD x22 x24 | s117 => DD x22 x25 | s118 => DD x22 x26 | s119 => DD x22 x27 | s120 => DD x22 x28 | s121 => DD x22 x29 | s122 => DD x22 x30 | s123 => DD x22 x31 | s124 => DD x22 x32 | s125 => DD x22 x33 | s126 => DD x22 x34 end.
Definition m1320 (c : sum2) : dd := match c with s0 => DD x20 x40 | s1 => DD x20 x41 | s2 => DD x20 x42 | s3 => DD x20 x43 | s4 => DD x20 x44 | s5 => DD x20 x45 | s6 => DD x20 x46 | s7 => DD x20 x47 | s8 => DD x20 x48 | s9 => DD x20 x49 | s10 => DD x20 x50 | s11 => DD x20 x51 | s12 => DD x20 x52 | s13 => DD x20 x53 | s14 => DD x20 x54 | s15 => DD x20 x55 | s16 => DD x20 x56 | s17 => DD x20 x57 | s18 => DD x20 x58 | s19 => DD x20 x59 | s20 => DD x20 x60 | s21 => DD x20 x61 | s22 => DD x20 x62 | s23 => DD x20 x63 | s24 => DD x21 x0 | s25 => DD x21 x1 | s26 => DD x21 x2 | s27 => DD x21 x3 | s28 => DD x21 x4 | s29 => DD x21 x5 | s30 => DD x21 x6 | s31 => DD x21 x7 | s32 => DD x21 x8 | s33 => DD x21 x9 | s34 => DD x21 x10 | s35 => DD x21 x11 | s36 => DD x21 x12 | s37 => DD x21 x13 | s38 => DD x21 x14 | s39 => DD x21 x15 | s40 => DD x21 x16 | s41 => DD x21 x17 | s42 => DD x21 x18 | s43 => DD x21 x19 | s44 => DD x21 x20 | s45 => DD x21 x21 | s46 => DD x21 x22 | s47 => DD x21 x23 | s48 => DD x21 x24 | s49 => DD x21 x25 | s50 => DD x21 x26 | s51 => DD x21 x27 | s52 => DD x21 x28 | s53 => DD x21 x29 | s54 => DD x21 x30 | s55 => DD x21 x31 | s56 => DD x21 x32 | s57 => DD x21 x33 | s58 => DD x21 x34 | s59 => DD x21 x35 | s60 => DD x21 x36 | s61 => DD x21 x37 | s62 => DD x21 x38 | s63 => DD x21 x39 | s64 => DD x21 x40 | s65 => DD x21 x41 | s66 => DD x21 x42 | s67 => DD x21 x43 | s68 => DD x21 x44 | s69 => DD x21 x45 | s70 => DD x21 x46 | s71 => DD x21 x47 | s72 => DD x21 x48 | s73 => DD x21 x49 | s74 => DD x21 x50 | s75 => DD x21 x51 | s76 => DD x21 x52 | s77 => DD x21 x53 | s78 => DD x21 x54 | s79 => DD x21 x55 | s80 => DD x21 x56 | s81 => DD x21 x57 | s82 => DD x21 x58 | s83 => DD x21 x59 | s84 => DD x21 x60 | s85 => DD x21 x61 | s86 => DD x21 x62 | s87 => DD x21 x63 | s88 => DD x22 x0 | s89 => DD x22 x1 | s90 => DD x22 x2 | s91 => DD x22 x3 | s92 => DD x22 x4 | s93 => DD x22 x5 | s94 => DD x22 x6 | s95 => DD x22 x7 | s96 => DD x22 x8 | s97 => DD x22 x9 | s98 => DD x22 x10 | s99 => DD x22 x11 | s100 => DD x22 x12 | s101 => DD x22 x13 | s102 => DD x22 x14 | s103 => DD x22 x15 | s104 => DD x22 x16 | s105 => DD x22 x17 | s106 => DD x22 x18 | s107 => DD x22 x19 | s108 => DD x22 x20 | s109 => DD x22 x21 | s110 => DD x22 x22 | s111 => DD x22 x23 | s112 => DD x22 x24 | s113 => DD x22 x25 | s114 => DD x22 x26 | s115 => DD x22 x27 | s116 => DD x22 x28 | s117 => DD x22 x29 | s118 => DD x22 x30 | s119 => DD x22 x31 | s120 => DD x22 x32 | s121 => DD x22 x33 | s122 => DD x22 x34 | s123 => DD x22 x35 | s124 => DD x22 x36 | s125 => DD x22 x37 | s126 => DD x22 x38 end.
Definition m1323 (c : sum2) : dd := match c with s0 => DD x20 x43 | s1 => DD x20 x44 | s2 => DD x20 x45 | s3 => DD x20 x46 | s4 => DD x20 x47 | s5 => DD x20 x48 | s6 => DD x20 x49 | s7 => DD x20 x50 | s8 => DD x20 x51 | s9 => DD x20 x52 | s10 => DD x20 x53 | s11 => DD x20 x54 | s12 => DD x20 x55 | s13 => DD x20 x56 | s14 => DD x20 x57 | s15 => DD x20 x58 | s16 => DD x20 x59 | s17 => DD x20 x60 | s18 => DD x20 x61 | s19 => DD x20 x62 | s20 => DD x20 x63 | s21 => DD x21 x0 | s22 => DD x21 x1 | s23 => DD x21 x2 | s24 => DD x21 x3 | s25 => DD x21 x4 | s26 => DD x21 x5 | s27 => DD x21 x6 | s28 => DD x21 x7 | s29 => DD x21 x8 | s30 => DD x21 x9 | s31 => DD x21 x10 | s32 => DD x21 x11 | s33 => DD x21 x12 | s34 => DD x21 x13 | s35 => DD x21 x14 | s36 => DD x21 x15 | s37 => DD x21 x16 | s38 => DD x21 x17 | s39 => DD x21 x18 | s40 => DD x21 x19 | s41 => DD x21 x20 | s42 => DD x21 x21 | s43 => DD x21 x22 | s44 => DD x21 x23 | s45 => DD x21 x24 | s46 => DD x21 x25 | s47 => DD x21 x26 | s48 => DD x21 x27 | s49 => DD x21 x28 | s50 => DD x21 x29 | s51 => DD x21 x30 | s52 => DD x21 x31 | s53 => DD x21 x32 | s54 => DD x21 x33 | s55 => DD x21 x34 | s56 => DD x21 x35 | s57 => DD x21 x36 | s58 => DD x21 x37 | s59 => DD x21 x38 | s60 => DD x21 x39 | s61 => DD x21 x40 | s62 => DD x21 x41 | s63 => DD x21 x42 | s64 => DD x21 x43 | s65 => DD x21 x44 | s66 => DD x21 x45 | s67 => DD x21 x46 | s68 => DD x21 x47 | s69 => DD x21 x48 | s70 => DD x21 x49 | s71 => DD x21 x50 | s72 => DD x21 x51 | s73 => DD x21 x52 | s74 => DD x21 x53 | s75 => DD x21 x54 | s76 => DD x21 x55 | s77 => DD x21 x56 | s78 => DD x21 x57 | s79 => DD x21 x58 | s80 => DD x21 x59 | s81 => DD x21 x60 | s82 => DD x21 x61 | s83 => DD x21 x62 | s84 => DD x21 x63 | s85 => DD x22 x0 | s86 => DD x22 x1 | s87 => DD x22 x2 | s88 => DD x22 x3 | s89 => DD x22 x4 | s90 => DD x22 x5 | s91 => DD x22 x6 | s92 => DD x22 x7 | s93 => DD x22 x8 | s94 => DD x22 x9 | s95 => DD x22 x10 | s96 => DD x22 x11 | s97 => DD x22 x12 | s98 => DD x22 x13 | s99 => DD x22 x14 | s100 => DD x22 x15 | s101 => DD x22 x16 | s102 => DD x22 x17 | s103 => DD x22 x18 | s104 => DD x22 x19 | s105 => DD x22 x20 | s106 => DD x22 x21 | s107 => DD x22 x22 | s108 => DD x22 x23 | s109 => DD x22 x24 | s110 => DD x22 x25 | s111 => DD x22 x26 | s112 => DD x22 x27 | s113 => DD x22 x28 | s114 => DD x22 x29 | s115 => DD x22 x30 | s116 => DD x22 x31 | s117 => DD x22 x32 | s118 => DD x22 x33 | s119 => DD x22 x34 | s120 => DD x22 x35 | s121 => DD x22 x36 | s122 => DD x22 x37 | s123 => DD x22 x38 | s124 => DD x22 x39 | s125 => DD x22 x40 | s126 => DD x22 x41 end.
Definition m1325 (c : sum2) : dd := match c with s0 => DD x20 x45 | s1 => DD x20 x46 | s2 => DD x20 x47 | s3 => DD x20 x48 | s4 => DD x20 x49 | s5 => DD x20 x50 | s6 => DD x20 x51 | s7 => DD x20 x52 | s8 => DD x20 x53 | s9 => DD x20 x54 | s10 => DD x20 x55 | s11 => DD x20 x56 | s12 => DD x20 x57 | s13 => DD x20 x58 | s14 => DD x20 x59 | s15 => DD x20 x60 | s16 => DD x20 x61 | s17 => DD x20 x62 | s18 => DD x20 x63 | s19 => DD x21 x0 | s20 => DD x21 x1 | s21 => DD x21 x2 | s22 => DD x21 x3 | s23 => DD x21 x4 | s24 => DD x21 x5 | s25 => DD x21 x6 | s26 => DD x21 x7 | s27 => DD x21 x8 | s28 => DD x21 x9 | s29 => DD x21 x10 | s30 => DD x21 x11 | s31 => DD x21 x12 | s32 => DD x21 x13 | s33 => DD x21 x14 | s34 => DD x21 x15 | s35 => DD x21 x16 | s36 => DD x21 x17 | s37 => DD x21 x18 | s38 => DD x21 x19 | s39 => DD x21 x20 | s40 => DD x21 x21 | s41 => DD x21 x22 | s42 => DD x21 x23 | s43 => DD x21 x24 | s44 => DD x21 x25 | s45 => DD x21 x26 | s46 => DD x21 x27 | s47 => DD x21 x28 | s48 => DD x21 x29 | s49 => DD x21 x30 | s50 => DD x21 x31 | s51 => DD x21 x32 | s52 => DD x21 x33 | s53 => DD x21 x34 | s54 => DD x21 x35 | s55 => DD x21 x36 | s56 => DD x21 x37 | s57 => DD x21 x38 | s58 => DD x21 x39 | s59 => DD x21 x40 | s60 => DD x21 x41 | s61 => DD x21 x42 | s62 => DD x21 x43 | s63 => DD x21 x44 | s64 => DD x21 x45 | s65 => DD x21 x46 | s66 => DD x21 x47 | s67 => DD x21 x48 | s68 => DD x21 x49 | s69 => DD x21 x50 | s70 => DD x21 x51 | s71 => DD x21 x52 | s72 => DD x21 x53 | s73 => DD x21 x54 | s74 => DD x21 x55 | s75 => DD x21 x56 | s76 => DD x21 x57 | s77 => DD x21 x58 | s78 => DD x21 x59 | s79 => DD x21 x60 | s80 => DD x21 x61 | s81 => DD x21 x62 | s82 => DD x21 x63 | s83 => DD x22 x0 | s84 => DD x22 x1 | s85 => DD x22 x2 | s86 => DD x22 x3 | s87 => DD x22 x4 | s88 => DD x22 x5 | s89 => DD x22 x6 | s90 => DD x22 x7 | s91 => DD x22 x8 | s92 => DD x22 x9 | s93 => DD x22 x10 | s94 => DD x22 x11 | s95 => DD x22 x12 | s96 => DD x22 x13 | s97 => DD x22 x14 | s98 => DD x22 x15 | s99 => DD x22 x16 | s100 => DD x22 x17 | s101 => DD x22 x18 | s102 => DD x22 x19 | s103 => DD x22 x20 | s104 => DD x22 x21 | s105 => DD x22 x22 | s106 => DD x22 x23 | s107 => DD x22 x24 | s108 => DD x22 x25 | s109 => DD x22 x26 | s110 => DD x22 x27 | s111 => DD x22 x28 | s112 => DD x22 x29 | s113 => DD x22 x30 | s114 => DD x22 x31 | s115 => DD x22 x32 | s116 => DD x22 x33 | s117 => DD x22 x34 | s118 => DD x22 x35 | s119 => DD x22 x36 | s120 => DD x22 x37 | s121 => DD x22 x38 | s122 => DD x22 x39 | s123 => DD x22 x40 | s124 => DD x22 x41 | s125 => DD x22 x42 | s126 => DD x22 x43 end.
Definition m1326 (c : sum2) : dd := match c with s0 => DD x20 x46 | s1 => DD x20 x47 | s2 => DD x20 x48 | s3 => DD x20 x49 | s4 => DD x20 x50 | s5 => DD x20 x51 | s6 => DD x20 x52 | s7 => DD x20 x53 | s8 => DD x20 x54 | s9 => DD x20 x55 | s10 => DD x20 x56 | s11 => DD x20 x57 | s12 => DD x20 x58 | s13 => DD x20 x59 | s14 => DD x20 x60 | s15 => DD x20 x61 | s16 => DD x20 x62 | s17 => DD x20 x63 | s18 => DD x21 x0 | s19 => DD x21 x1 | s20 => DD x21 x2 | s21 => DD x21 x3 | s22 => DD x21 x4 | s23 => DD x21 x5 | s24 => DD x21 x6 | s25 => DD x21 x7 | s26 => DD x21 x8 | s27 => DD x21 x9 | s28 => DD x21 x10 | s29 => DD x21 x11 | s30 => DD x21 x12 | s31 => DD x21 x13 | s32 => DD x21 x14 | s33 => DD x21 x15 | s34 => DD x21 x16 | s35 => DD x21 x17 | s36 => DD x21 x18 | s37 => DD x21 x19 | s38 => DD x21 x20 | s39 => DD x21 x21 | s40 => DD x21 x22 | s41 => DD x21 x23 | s42 => DD x21 x24 | s43 => DD x21 x25 | s44 => DD x21 x26 | s45 => DD x21 x27 | s46 => DD x21 x28 | s47 => DD x21 x29 | s48 => DD x21 x30 | s49 => DD x21 x31 | s50 => DD x21 x32 | s51 => DD x21 x33 | s52 => DD x21 x34 | s53 => DD x21 x35 | s54 => DD x21 x36 | s55 => DD x21 x37 | s56 => DD x21 x38 | s57 => DD x21 x39 | s58 => DD x21 x40 | s59 => DD x21 x41 | s60 => DD x21 x42 | s61 => DD x21 x43 | s62 => DD x21 x44 | s63 => DD x21 x45 | s64 => DD x21 x46 | s65 => DD x21 x47 | s66 => DD x21 x48 | s67 => DD x21 x49 | s68 => DD x21 x50 | s69 => DD x21 x51 | s70 => DD x21 x52 | s71 => DD x21 x53 | s72 => DD x21 x54 | s73 => DD x21 x55 | s74 => DD x21 x56 | s75 => DD x21 x57 | s76 => DD x21 x58 | s77 => DD x21 x59 | s78 => DD x21 x60 | s79 => DD x21 x61 | s80 => DD x21 x62 | s81 => DD x21 x63 | s82 => DD x22 x0 | s83 => DD x22 x1 | s84 => DD x22 x2 | s85 => DD x22 x3 | s86 => DD x22 x4 | s87 => DD x22 x5 | s88 => DD x22 x6 | s89 => DD x22 x7 | s90 => DD x22 x8 | s91 => DD x22 x9 | s92 => DD x22 x10 | s93 => DD x22 x11 | s94 => DD x22 x12 | s95 => DD x22 x13 | s96 => DD x22 x14 | s97 => DD x22 x15 | s98 => DD x22 x16 | s99 => DD x22 x17 | s100 => DD x22 x18 | s101 => DD x22 x19 | s102 => DD x22 x20 | s103 => DD x22 x21 | s104 => DD x22 x22 | s105 => DD x22 x23 | s106 => DD x22 x24 | s107 => DD x22 x25 | s108 => DD x22 x26 | s109 => DD x22 x27 | s110 => DD x22 x28 | s111 => DD x22 x29 | s112 => DD x22 x30 | s113 => DD x22 x31 | s114 => DD x22 x32 | s115 => DD x22 x33 | s116 => DD x22 x34 | s117 => DD x22 x35 | s118 => DD x22 x36 | s119 => DD x22 x37 | s120 => DD x22 x38 | s121 => DD x22 x39 | s122 => DD x22 x40 | s123 => DD x22 x41 | s124 => DD x22 x42 | s125 => DD x22 x43 | s126 => DD x22 x44 end.
Definition m1330 (c : sum2) : dd := match c with s0 => DD x20 x50 | s1 => DD x20 x51 | s2 => DD x20 x52 | s3 => DD x20 x53 | s4 => DD x20 x54 | s5 => DD x20 x55 | s6 => DD x20 x56 | s7 => DD x20 x57 | s8 => DD x20 x58 | s9 => DD x20 x59 | s10 => DD x20 x60 | s11 => DD x20 x61 | s12 => DD x20 x62 | s13 => DD x20 x63 | s14 => DD x21 x0 | s15 => DD x21 x1 | s16 => DD x21 x2 | s17 => DD x21 x3 | s18 => DD x21 x4 | s19 => DD x21 x5 | s20 => DD x21 x6 | s21 => DD x21 x7 | s22 => DD x21 x8 | s23 => DD x21 x9 | s24 => DD x21 x10 | s25 => DD x21 x11 | s26 => DD x21 x12 | s27 => DD x21 x13 | s28 => DD x21 x14 | s29 => DD x21 x15 | s30 => DD x21 x16 | s31 => DD x21 x17 | s32 => DD x21 x18 | s33 => DD x21 x19 | s34 => DD x21 x20 | s35 => DD x21 x21 | s36 => DD x21 x22 | s37 => DD x21 x23 | s38 => DD x21 x24 | s39 => DD x21 x25 | s40 => DD x21 x26 | s41 => DD x21 x27 | s42 => DD x21 x28 | s43 => DD x21 x29 | s44 => DD x21 x30 | s45 => DD x21 x31 | s46 => DD x21 x32 | s47 => DD x21 x33 | s48 => DD x21 x34 | s49 => DD x21 x35 | s50 => DD x21 x36 | s51 => DD x21 x37 | s52 => DD x21 x38 | s53 => DD x21 x39 | s54 => DD x21 x40 | s55 => DD x21 x41 | s56 => DD x21 x42 | s57 => DD x21 x43 | s58 => DD x21 x44 | s59 => DD x21 x45 | s60 => DD x21 x46 | s61 => DD x21 x47 | s62 => DD x21 x48 | s63 => DD x21 x49 | s64 => DD x21 x50 | s65 => DD x21 x51 | s66 => DD x21 x52 | s67 => DD x21 x53 | s68 => DD x21 x54 | s69 => DD x21 x55 | s70 => DD x21 x56 | s71 => DD x21 x57 | s72 => DD x21 x58 | s73 => DD x21 x59 | s74 => DD x21 x60 | s75 => DD x21 x61 | s76 => DD x21 x62 | s77 => DD x21 x63 | s78 => DD x22 x0 | s79 => DD x22 x1 | s80 => DD x22 x2 | s81 => DD x22 x3 | s82 => DD x22 x4 | s83 => DD x22 x5 | s84 => DD x22 x6 | s85 => DD x22 x7 | s86 => DD x22 x8 | s87 => DD x22 x9 | s88 => DD x22 x10 | s89 => DD x22 x11 | s90 => DD x22 x12 | s91 => DD x22 x13 | s92 => DD x22 x14 | s93 => DD x22 x15 | s94 => DD x22 x16 | s95 => DD x22 x17 | s96 => DD x22 x18 | s97 => DD x22 x19 | s98 => DD x22 x20 | s99 => DD x22 x21 | s100 => DD x22 x22 | s101 => DD x22 x23 | s102 => DD x22 x24 | s103 => DD x22 x25 | s104 => DD x22 x26 | s105 => DD x22 x27 | s106 => DD x22 x28 | s107 => DD x22 x29 | s108 => DD x22 x30 | s109 => DD x22 x31 | s110 => DD x22 x32 | s111 => DD x22 x33 | s112 => DD x22 x34 | s113 => DD x22 x35 | s114 => DD x22 x36 | s115 => DD x22 x37 | s116 => DD x22 x38 | s117 => DD x22 x39 | s118 => DD x22 x40 | s119 => DD x22 x41 | s120 => DD x22 x42 | s121 => DD x22 x43 | s122 => DD x22 x44 | s123 => DD x22 x45 | s124 => DD x22 x46 | s125 => DD x22 x47 | s126 => DD x22 x48 end.
Definition m1332 (c : sum2) : dd := match c with s0 => DD x20 x52 | s1 => DD x20 x53 | s2 => DD x20 x54 | s3 => DD x20 x55 | s4 => DD x20 x56 | s5 => DD x20 x57 | s6 => DD x20 x58 | s7 => DD x20 x59 | s8 => DD x20 x60 | s9 => DD x20 x61 | s10 => DD x20 x62 | s11 => DD x20 x63 | s12 => DD x21 x0 | s13 => DD x21 x1 | s14 => DD x21 x2 | s15 => DD x21 x3 | s16 => DD x21 x4 | s17 => DD x21 x5 | s18 => DD x21 x6 | s19 => DD x21 x7 | s20 => DD x21 x8 | s21 => DD x21 x9 | s22 => DD x21 x10 | s23 => DD x21 x11 | s24 => DD x21 x12 | s25 => DD x21 x13 | s26 => DD x21 x14 | s27 => DD x21 x15 | s28 => DD x21 x16 | s29 => DD x21 x17 | s30 => DD x21 x18 | s31 => DD x21 x19 | s32 => DD x21 x20 | s33 => DD x21 x21 | s34 => DD x21 x22 | s35 => DD x21 x23 | s36 => DD x21 x24 | s37 => DD x21 x25 | s38 => DD x21 x26 | s39 => DD x21 x27 | s40 => DD x21 x28 | s41 => DD x21 x29 | s42 => DD x21 x30 | s43 => DD x21 x31 | s44 => DD x21 x32 | s45 => DD x21 x33 | s46 => DD x21 x34 | s47 => DD x21 x35 | s48 => DD x21 x36 | s49 => DD x21 x37 | s50 => DD x21 x38 | s51 => DD x21 x39 | s52 => DD x21 x40 | s53 => DD x21 x41 | s54 => DD x21 x42 | s55 => DD x21 x43 | s56 => DD x21 x44 | s57 => DD x21 x45 | s58 => DD x21 x46 | s59 => DD x21 x47 | s60 => DD x21 x48 | s61 => DD x21 x49 | s62 => DD x21 x50 | s63 => DD x21 x51 | s64 => DD x21 x52 | s65 => DD x21 x53 | s66 => DD x21 x54 | s67 => DD x21 x55 | s68 => DD x21 x56 | s69 => DD x21 x57 | s70 => DD x21 x58 | s71 => DD x21 x59 | s72 => DD x21 x60 | s73 => DD x21 x61 | s74 => DD x21 x62 | s75 => DD x21 x63 | s76 => DD x22 x0 | s77 => DD x22 x1 | s78 => DD x22 x2 | s79 => DD x22 x3 | s80 => DD x22 x4 | s81 => DD x22 x5 | s82 => DD x22 x6 | s83 => DD x22 x7 | s84 => DD x22 x8 | s85 => DD x22 x9 | s86 => DD x22 x10 | s87 => DD x22 x11 | s88 => DD x22 x12 | s89 => DD x22 x13 | s90 => DD x22 x14 | s91 => DD x22 x15 | s92 => DD x22 x16 | s93 => DD x22 x17 | s94 => DD x22 x18 | s95 => DD x22 x19 | s96 => DD x22 x20 | s97 => DD x22 x21 | s98 => DD x22 x22 | s99 => DD x22 x23 | s100 => DD x22 x24 | s101 => DD x22 x25 | s102 => DD x22 x26 | s103 => DD x22 x27 | s104 => DD x22 x28 | s105 => DD x22 x29 | s106 => DD x22 x30 | s107 => DD x22 x31 | s108 => DD x22 x32 | s109 => DD x22 x33 | s110 => DD x22 x34 | s111 => DD x22 x35 | s112 => DD x22 x36 | s113 => DD x22 x37 | s114 => DD x22 x38 | s115 => DD x22 x39 | s116 => DD x22 x40 | s117 => DD x22 x41 | s118 => DD x22 x42 | s119 => DD x22 x43 | s120 => DD x22 x44 | s121 => DD x22 x45 | s122 => DD x22 x46 | s123 => DD x22 x47 | s124 => DD x22 x48 | s125 => DD x22 x49 | s126 => DD x22 x50 end.
Definition m1333 (c : sum2) : dd := match c with s0 => DD x20 x53 | s1 => DD x20 x54 | s2 => DD x20 x55 | s3 => DD x20 x56 | s4 => DD x20 x57 | s5 => DD x20 x58 | s6 => DD x20 x59 | s7 => DD x20 x60 | s8 => DD x20 x61 | s9 => DD x20 x62 | s10 => DD x20 x63 | s11 => DD x21 x0 | s12 => DD x21 x1 | s13 => DD x21 x2 | s14 => DD x21 x3 | s15 => DD x21 x4 | s16 => DD x21 x5 | s17 => DD x21 x6 | s18 => DD x21 x7 | s19 => DD x21 x8 | s20 => DD x21 x9 | s21 => DD x21 x10 | s22 => DD x21 x11 | s23 => DD x21 x12 | s24 => DD x21 x13 | s25 => DD x21 x14 | s26 => DD x21 x15 | s27 => DD x21 x16 | s28 => DD x21 x17 | s29 => DD x21 x18 | s30 => DD x21 x19 | s31 => DD x21 x20 | s32 => DD x21 x21 | s33 => DD x21 x22 | s34 => DD x21 x23 | s35 => DD x21 x24 | s36 => DD x21 x25 | s37 => DD x21 x26 | s38 => DD x21 x27 | s39 => DD x21 x28 | s40 => DD x21 x29 | s41 => DD x21 x30 | s42 => DD x21 x31 | s43 => DD x21 x32 | s44 => DD x21 x33 | s45 => DD x21 x34 | s46 => DD x21 x35 | s47 => DD x21 x36 | s48 => DD x21 x37 | s49 => DD x21 x38 | s50 => DD x21 x39 | s51 => DD x21 x40 | s52 => DD x21 x41 | s53 => DD x21 x42 | s54 => DD x21 x43 | s55 => DD x21 x44 | s56 => DD x21 x45 | s57 => DD x21 x46 | s58 => DD x21 x47 | s59 => DD x21 x48 | s60 => DD x21 x49 | s61 => DD x21 x50 | s62 => DD x21 x51 | s63 => DD x21 x52 | s64 => DD x21 x53 | s65 => DD x21 x54 | s66 => DD x21 x55 | s67 => DD x21 x56 | s68 => DD x21 x57 | s69 => DD x21 x58 | s70 => DD x21 x59 | s71 => DD x21 x60 | s72 => DD x21 x61 | s73 => DD x21 x62 | s74 => DD x21 x63 | s75 => DD x22 x0 | s76 => DD x22 x1 | s77 => DD x22 x2 | s78 => DD x22 x3 | s79 => DD x22 x4 | s80 => DD x22 x5 | s81 => DD x22 x6 | s82 => DD x22 x7 | s83 => DD x22 x8 | s84 => DD x22 x9 | s85 => DD x22 x10 | s86 => DD x22 x11 | s87 => DD x22 x12 | s88 => DD x22 x13 | s89 => DD x22 x14 | s90 => DD x22 x15 | s91 => DD x22 x16 | s92 => DD x22 x17 | s93 => DD x22 x18 | s94 => DD x22 x19 | s95 => DD x22 x20 | s96 => DD x22 x21 | s97 => DD x22 x22 | s98 => DD x22 x23 | s99 => DD x22 x24 | s100 => DD x22 x25 | s101 => DD x22 x26 | s102 => DD x22 x27 | s103 => DD x22 x28 | s104 => DD x22 x29 | s105 => DD x22 x30 | s106 => DD x22 x31 | s107 => DD x22 x32 | s108 => DD x22 x33 | s109 => DD x22 x34 | s110 => DD x22 x35 | s111 => DD x22 x36 | s112 => DD x22 x37 | s113 => DD x22 x38 | s114 => DD x22 x39 | s115 => DD x22 x40 | s116 => DD x22 x41 | s117 => DD x22 x42 | s118 => DD x22 x43 | s119 => DD x22 x44 | s120 => DD x22 x45 | s121 => DD x22 x46 | s122 => DD x22 x47 | s123 => DD x22 x48 | s124 => DD x22 x49 | s125 => DD x22 x50 | s126 => DD x22 x51 end.
Definition m1334 (c : sum2) : dd := match c with s0 => DD x20 x54 | s1 => DD x20 x55 | s2 => DD x20 x56 | s3 => DD x20 x57 | s4 => DD x20 x58 | s5 => DD x20 x59 | s6 => DD x20 x60 | s7 => DD x20 x61 | s8 => DD x20 x62 | s9 => DD x20 x63 | s10 => DD x21 x0 | s11 => DD x21 x1 | s12 => DD x21 x2 | s13 => DD x21 x3 | s14 => DD x21 x4 | s15 => DD x21 x5 | s16 => DD x21 x6 | s17 => DD x21 x7 | s18 => DD x21 x8 | s19 => DD x21 x9 | s20 => DD x21 x10 | s21 => DD x21 x11 | s22 => DD x21 x12 | s23 => DD x21 x13 | s24 => DD x21 x14 | s25 => DD x21 x15 | s26 => DD x21 x16 | s27 => DD x21 x17 | s28 => DD x21 x18 | s29 => DD x21 x19 | s30 => DD x21 x20 | s31 => DD x21 x21 | s32 => DD x21 x22 | s33 => DD x21 x23 | s34 => DD x21 x24 | s35 => DD x21 x25 | s36 => DD x21 x26 | s37 => DD x21 x27 | s38 => DD x21 x28 | s39 => DD x21 x29 | s40 => DD x21 x30 | s41 => DD x21 x31 | s42 => DD x21 x32 | s43 => DD x21 x33 | s44 => DD x21 x34 | s45 => DD x21 x35 | s46 => DD x21 x36 | s47 => DD x21 x37 | s48 => DD x21 x38 | s49 => DD x21 x39 | s50 => DD x21 x40 | s51 => DD x21 x41 | s52 => DD x21 x42 | s53 => DD x21 x43 | s54 => DD x21 x44 | s55 => DD x21 x45 | s56 => DD x21 x46 | s57 => DD x21 x47 | s58 => DD x21 x48 | s59 => DD x21 x49 | s60 => DD x21 x50 | s61 => DD x21 x51 | s62 => DD x21 x52 | s63 => DD x21 x53 | s64 => DD x21 x54 | s65 => DD x21 x55 | s66 => DD x21 x56 | s67 => DD x21 x57 | s68 => DD x21 x58 | s69 => DD x21 x59 | s70 => DD x21 x60 | s71 => DD x21 x61 | s72 => DD x21 x62 | s73 => DD x21 x63 | s74 => DD x22 x0 | s75 => DD x22 x1 | s76 => DD x22 x2 | s77 => DD x22 x3 | s78 => DD x22 x4 | s79 => DD x22 x5 | s80 => DD x22 x6 | s81 => DD x22 x7 | s82 => DD x22 x8 | s83 => DD x22 x9 | s84 => DD x22 x10 | s85 => DD x22 x11 | s86 => DD x22 x12 | s87 => DD x22 x13 | s88 => DD x22 x14 | s89 => DD x22 x15 | s90 => DD x22 x16 | s91 => DD x22 x17 | s92 => DD x22 x18 | s93 => DD x22 x19 | s94 => DD x22 x20 | s95 => DD x22 x21 | s96 => DD x22 x22 | s97 => DD x22 x23 | s98 => DD x22 x24 | s99 => DD x22 x25 | s100 => DD x22 x26 | s101 => DD x22 x27 | s102 => DD x22 x28 | s103 => DD x22 x29 | s104 => DD x22 x30 | s105 => DD x22 x31 | s106 => DD x22 x32 | s107 => DD x22 x33 | s108 => DD x22 x34 | s109 => DD x22 x35 | s110 => DD x22 x36 | s111 => DD x22 x37 | s112 => DD x22 x38 | s113 => DD x22 x39 | s114 => DD x22 x40 | s115 => DD x22 x41 | s116 => DD x22 x42 | s117 => DD x22 x43 | s118 => DD x22 x44 | s119 => DD x22 x45 | s120 => DD x22 x46 | s121 => DD x22 x47 | s122 => DD x22 x48 | s123 => DD x22 x49 | s124 => DD x22 x50 | s125 => DD x22 x51 | s126 => DD x22 x52 end.
Definition m1342 (c : sum2) : dd := match c with s0 => DD x20 x62 | s1 => DD x20 x63 | s2 => DD x21 x0 | s3 => DD x21 x1 | s4 => DD x21 x2 | s5 => DD x21 x3 | s6 => DD x21 x4 | s7 => DD x21 x5 | s8 => DD x21 x6 | s9 => DD x21 x7 | s10 => DD x21 x8 | s11 => DD x21 x9 | s12 => DD x21 x10 | s13 => DD x21 x11 | s14 => DD x21 x12 | s15 => DD x21 x13 | s16 => DD x21 x14 | s17 => DD x21 x15 | s18 => DD x21 x16 | s19 => DD x21 x17 | s20 => DD x21 x18 | s21 => DD x21 x19 | s22 => DD x21 x20 | s23 => DD x21 x21 | s24 => DD x21 x22 | s25 => DD x21 x23 | s26 => DD x21 x24 | s27 => DD x21 x25 | s28 => DD x21 x26 | s29 => DD x21 x27 | s30 => DD x21 x28 | s31 => DD x21 x29 | s32 => DD x21 x30 | s33 => DD x21 x31 | s34 => DD x21 x32 | s35 => DD x21 x33 | s36 => DD x21 x34 | s37 => DD x21 x35 | s38 => DD x21 x36 | s39 => DD x21 x37 | s40 => DD x21 x38 | s41 => DD x21 x39 | s42 => DD x21 x40 | s43 => DD x21 x41 | s44 => DD x21 x42 | s45 => DD x21 x43 | s46 => DD x21 x44 | s47 => DD x21 x45 | s48 => DD x21 x46 | s49 => DD x21 x47 | s50 => DD x21 x48 | s51 => DD x21 x49 | s52 => DD x21 x50 | s53 => DD x21 x51 | s54 => DD x21 x52 | s55 => DD x21 x53 | s56 => DD x21 x54 | s57 => DD x21 x55 | s58 => DD x21 x56 | s59 => DD x21 x57 | s60 => DD x21 x58 | s61 => DD x21 x59 | s62 => DD x21 x60 | s63 => DD x21 x61 | s64 => DD x21 x62 | s65 => DD x21 x63 | s66 => DD x22 x0 | s67 => DD x22 x1 | s68 => DD x22 x2 | s69 => DD x22 x3 | s70 => DD x22 x4 | s71 => DD x22 x5 | s72 => DD x22 x6 | s73 => DD x22 x7 | s74 => DD x22 x8 | s75 => DD x22 x9 | s76 => DD x22 x10 | s77 => DD x22 x11 | s78 => DD x22 x12 | s79 => DD x22 x13 | s80 => DD x22 x14 | s81 => DD x22 x15 | s82 => DD x22 x16 | s83 => DD x22 x17 | s84 => DD x22 x18 | s85 => DD x22 x19 | s86 => DD x22 x20 | s87 => DD x22 x21 | s88 => DD x22 x22 | s89 => DD x22 x23 | s90 => DD x22 x24 | s91 => DD x22 x25 | s92 => DD x22 x26 | s93 => DD x22 x27 | s94 => DD x22 x28 | s95 => DD x22 x29 | s96 => DD x22 x30 | s97 => DD x22 x31 | s98 => DD x22 x32 | s99 => DD x22 x33 | s100 => DD x22 x34 | s101 => DD x22 x35 | s102 => DD x22 x36 | s103 => DD x22 x37 | s104 => DD x22 x38 | s105 => DD x22 x39 | s106 => DD x22 x40 | s107 => DD x22 x41 | s108 => DD x22 x42 | s109 => DD x22 x43 | s110 => DD x22 x44 | s111 => DD x22 x45 | s112 => DD x22 x46 | s113 => DD x22 x47 | s114 => DD x22 x48 | s115 => DD x22 x49 | s116 => DD x22 x50 | s117 => DD x22 x51 | s118 => DD x22 x52 | s119 => DD x22 x53 | s120 => DD x22 x54 | s121 => DD x22 x55 | s122 => DD x22 x56 | s123 => DD x22 x57 | s124 => DD x22 x58 | s125 => DD x22 x59 | s126 => DD x22 x60 end.
Definition m1344 (c : sum2) : dd := match c with s0 => DD x21 x0 | s1 => DD x21 x1 | s2 => DD x21 x2 | s3 => DD x21 x3 | s4 => DD x21 x4 | s5 => DD x21 x5 | s6 => DD x21 x6 | s7 => DD x21 x7 | s8 => DD x21 x8 | s9 => DD x21 x9 | s10 => DD x21 x10 | s11 => DD x21 x11 | s12 => DD x21 x12 | s13 => DD x21 x13 | s14 => DD x21 x14 | s15 => DD x21 x15 | s16 => DD x21 x16 | s17 => DD x21 x17 | s18 => DD x21 x18 | s19 => DD x21 x19 | s20 => DD x21 x20 | s21 => DD x21 x21 | s22 => DD x21 x22 | s23 => DD x21 x23 | s24 => DD x21 x24 | s25 => DD x21 x25 | s26 => DD x21 x26 | s27 => DD x21 x27 | s28 => DD x21 x28 | s29 => DD x21 x29 | s30 => DD x21 x30 | s31 => DD x21 x31 | s32 => DD x21 x32 | s33 => DD x21 x33 | s34 => DD x21 x34 | s35 => DD x21 x35 | s36 => DD x21 x36 | s37 => DD x21 x37 | s38 => DD x21 x38 | s39 => DD x21 x39 | s40 => DD x21 x40 | s41 => DD x21 x41 | s42 => DD x21 x42 | s43 => DD x21 x43 | s44 => DD x21 x44 | s45 => DD x21 x45 | s46 => DD x21 x46 | s47 => DD x21 x47 | s48 => DD x21 x48 | s49 => DD x21 x49 | s50 => DD x21 x50 | s51 => DD x21 x51 | s52 => DD x21 x52 | s53 => DD x21 x53 | s54 => DD x21 x54 | s55 => DD x21 x55 | s56 => DD x21 x56 | s57 => DD x21 x57 | s58 => DD x21 x58 | s59 => DD x21 x59 | s60 => DD x21 x60 | s61 => DD x21 x61 | s62 => DD x21 x62 | s63 => DD x21 x63 | s64 => DD x22 x0 | s65 => DD x22 x1 | s66 => DD x22 x2 | s67 => DD x22 x3 | s68 => DD x22 x4 | s69 => DD x22 x5 | s70 => DD x22 x6 | s71 => DD x22 x7 | s72 => DD x22 x8 | s73 => DD x22 x9 | s74 => DD x22 x10 | s75 => DD x22 x11 | s76 => DD x22 x12 | s77 => DD x22 x13 | s78 => DD x22 x14 | s79 => DD x22 x15 | s80 => DD x22 x16 | s81 => DD x22 x17 | s82 => DD x22 x18 | s83 => DD x22 x19 | s84 => DD x22 x20 | s85 => DD x22 x21 | s86 => DD x22 x22 | s87 => DD x22 x23 | s88 => DD x22 x24 | s89 => DD x22 x25 | s90 => DD x22 x26 | s91 => DD x22 x27 | s92 => DD x22 x28 | s93 => DD x22 x29 | s94 => DD x22 x30 | s95 => DD x22 x31 | s96 => DD x22 x32 | s97 => DD x22 x33 | s98 => DD x22 x34 | s99 => DD x22 x35 | s100 => DD x22 x36 | s101 => DD x22 x37 | s102 => DD x22 x38 | s103 => DD x22 x39 | s104 => DD x22 x40 | s105 => DD x22 x41 | s106 => DD x22 x42 | s107 => DD x22 x43 | s108 => DD x22 x44 | s109 => DD x22 x45 | s110 => DD x22 x46 | s111 => DD x22 x47 | s112 => DD x22 x48 | s113 => DD x22 x49 | s114 => DD x22 x50 | s115 => DD x22 x51 | s116 => DD x22 x52 | s117 => DD x22 x53 | s118 => DD x22 x54 | s119 => DD x22 x55 | s120 => DD x22 x56 | s121 => DD x22 x57 | s122 => DD x22 x58 | s123 => DD x22 x59 | s124 => DD x22 x60 | s125 => DD x22 x61 | s126 => DD x22 x62 end.
Definition m1350 (c : sum2) : dd := match c with s0 => DD x21 x6 | s1 => DD x21 x7 | s2 => DD x21 x8 | s3 => DD x21 x9 | s4 => DD x21 x10 | s5 => DD x21 x11 | s6 => DD x21 x12 | s7 => DD x21 x13 | s8 => DD x21 x14 | s9 => DD x21 x15 | s10 => DD x21 x16 | s11 => DD x21 x17 | s12 => DD x21 x18 | s13 => DD x21 x19 | s14 => DD x21 x20 | s15 => DD x21 x21 | s16 => DD x21 x22 | s17 => DD x21 x23 | s18 => DD x21 x24 | s19 => DD x21 x25 | s20 => DD x21 x26 | s21 => DD x21 x27 | s22 => DD x21 x28 | s23 => DD x21 x29 | s24 => DD x21 x30 | s25 => DD x21 x31 | s26 => DD x21 x32 | s27 => DD x21 x33 | s28 => DD x21 x34 | s29 => DD x21 x35 | s30 => DD x21 x36 | s31 => DD x21 x37 | s32 => DD x21 x38 | s33 => DD x21 x39 | s34 => DD x21 x40 | s35 => DD x21 x41 | s36 => DD x21 x42 | s37 => DD x21 x43 | s38 => DD x21 x44 | s39 => DD x21 x45 | s40 => DD x21 x46 | s41 => DD x21 x47 | s42 => DD x21 x48 | s43 => DD x21 x49 | s44 => DD x21 x50 | s45 => DD x21 x51 | s46 => DD x21 x52 | s47 => DD x21 x53 | s48 => DD x21 x54 | s49 => DD x21 x55 | s50 => DD x21 x56 | s51 => DD x21 x57 | s52 => DD x21 x58 | s53 => DD x21 x59 | s54 => DD x21 x60 | s55 => DD x21 x61 | s56 => DD x21 x62 | s57 => DD x21 x63 | s58 => DD x22 x0 | s59 => DD x22 x1 | s60 => DD x22 x2 | s61 => DD x22 x3 | s62 => DD x22 x4 | s63 => DD x22 x5 | s64 => DD x22 x6 | s65 => DD x22 x7 | s66 => DD x22 x8 | s67 => DD x22 x9 | s68 => DD x22 x10 | s69 => DD x22 x11 | s70 => DD x22 x12 | s71 => DD x22 x13 | s72 => DD x22 x14 | s73 => DD x22 x15 | s74 => DD x22 x16 | s75 => DD x22 x17 | s76 => DD x22 x18 | s77 => DD x22 x19 | s78 => DD x22 x20 | s79 => DD x22 x21 | s80 => DD x22 x22 | s81 => DD x22 x23 | s82 => DD x22 x24 | s83 => DD x22 x25 | s84 => DD x22 x26 | s85 => DD x22 x27 | s86 => DD x22 x28 | s87 => DD x22 x29 | s88 => DD x22 x30 | s89 => DD x22 x31 | s90 => DD x22 x32 | s91 => DD x22 x33 | s92 => DD x22 x34 | s93 => DD x22 x35 | s94 => DD x22 x36 | s95 => DD x22 x37 | s96 => DD x22 x38 | s97 => DD x22 x39 | s98 => DD x22 x40 | s99 => DD x22 x41 | s100 => DD x22 x42 | s101 => DD x22 x43 | s102 => DD x22 x44 | s103 => DD x22 x45 | s104 => DD x22 x46 | s105 => DD x22 x47 | s106 => DD x22 x48 | s107 => DD x22 x49 | s108 => DD x22 x50 | s109 => DD x22 x51 | s110 => DD x22 x52 | s111 => DD x22 x53 | s112 => DD x22 x54 | s113 => DD x22 x55 | s114 => DD x22 x56 | s115 => DD x22 x57 | s116 => DD x22 x58 | s117 => DD x22 x59 | s118 => DD x22 x60 | s119 => DD x22 x61 | s120 => DD x22 x62 | s121 => DD x22 x63 | s122 => DD x23 x0 | s123 => DD x23 x1 | s124 => DD x23 x2 | s125 => DD x23 x3 | s126 => DD x23 x4 end.
Definition m1352 (c : sum2) : dd := match c with s0 => DD x21 x8 | s1 => DD x21 x9 | s2 => DD x21 x10 | s3 => DD x21 x11 | s4 => DD x21 x12 | s5 => DD x21 x13 | s6 => DD x21 x14 | s7 => DD x21 x15 | s8 => DD x21 x16 | s9 => DD x21 x17 | s10 => DD x21 x18 | s11 => DD x21 x19 | s12 => DD x21 x20 | s13 => DD x21 x21 | s14 => DD x21 x22 | s15 => DD x21 x23 | s16 => DD x21 x24 | s17 => DD x21 x25 | s18 => DD x21 x26 | s19 => DD x21 x27 | s20 => DD x21 x28 | s21 => DD x21 x29 | s22 => DD x21 x30 | s23 => DD x21 x31 | s24 => DD x21 x32 | s25 => DD x21 x33 | s26 => DD x21 x34 | s27 => DD x21 x35 | s28 => DD x21 x36 | s29 => DD x21 x37 | s30 => DD x21 x38 | s31 => DD x21 x39 | s32 => DD x21 x40 | s33 => DD x21 x41 | s34 => DD x21 x42 | s35 => DD x21 x43 | s36 => DD x21 x44 | s37 => DD x21 x45 | s38 => DD x21 x46 | s39 => DD x21 x47 | s40 => DD x21 x48 | s41 => DD x21 x49 | s42 => DD x21 x50 | s43 => DD x21 x51 | s44 => DD x21 x52 | s45 => DD x21 x53 | s46 => DD x21 x54 | s47 => DD x21 x55 | s48 => DD x21 x56 | s49 => DD x21 x57 | s50 => DD x21 x58 | s51 => DD x21 x59 | s52 => DD x21 x60 | s53 => DD x21 x61 | s54 => DD x21 x62 | s55 => DD x21 x63 | s56 => DD x22 x0 | s57 => DD x22 x1 | s58 => DD x22 x2 | s59 => DD x22 x3 | s60 => DD x22 x4 | s61 => DD x22 x5 | s62 => DD x22 x6 | s63 => DD x22 x7 | s64 => DD x22 x8 | s65 => DD x22 x9 | s66 => DD x22 x10 | s67 => DD x22 x11 | s68 => DD x22 x12 | s69 => DD x22 x13 | s70 => DD x22 x14 | s71 => DD x22 x15 | s72 => DD x22 x16 | s73 => DD x22 x17 | s74 => DD x22 x18 | s75 => DD x22 x19 | s76 => DD x22 x20 | s77 => DD x22 x21 | s78 => DD x22 x22 | s79 => DD x22 x23 | s80 => DD x22 x24 | s81 => DD x22 x25 | s82 => DD x22 x26 | s83 => DD x22 x27 | s84 => DD x22 x28 | s85 => DD x22 x29 | s86 => DD x22 x30 | s87 => DD x22 x31 | s88 => DD x22 x32 | s89 => DD x22 x33 | s90 => DD x22 x34 | s91 => DD x22 x35 | s92 => DD x22 x36 | s93 => DD x22 x37 | s94 => DD x22 x38 | s95 => DD x22 x39 | s96 => DD x22 x40 | s97 => DD x22 x41 | s98 => DD x22 x42 | s99 => DD x22 x43 | s100 => DD x22 x44 | s101 => DD x22 x45 | s102 => DD x22 x46 | s103 => DD x22 x47 | s104 => DD x22 x48 | s105 => DD x22 x49 | s106 => DD x22 x50 | s107 => DD x22 x51 | s108 => DD x22 x52 | s109 => DD x22 x53 | s110 => DD x22 x54 | s111 => DD x22 x55 | s112 => DD x22 x56 | s113 => DD x22 x57 | s114 => DD x22 x58 | s115 => DD x22 x59 | s116 => DD x22 x60 | s117 => DD x22 x61 | s118 => DD x22 x62 | s119 => DD x22 x63 | s120 => DD x23 x0 | s121 => DD x23 x1 | s122 => DD x23 x2 | s123 => DD x23 x3 | s124 => DD x23 x4 | s125 => DD x23 x5 | s126 => DD x23 x6 end.
Definition m1353 (c : sum2) : dd := match c with s0 => DD x21 x9 | s1 => DD x21 x10 | s2 => DD x21 x11 | s3 => DD x21 x12 | s4 => DD x21 x13 | s5 => DD x21 x14 | s6 => DD x21 x15 | s7 => DD x21 x16 | s8 => DD x21 x17 | s9 => DD x21 x18 | s10 => DD x21 x19 | s11 => DD x21 x20 | s12 => DD x21 x21 | s13 => DD x21 x22 | s14 => DD x21 x23 | s15 => DD x21 x24 | s16 => DD x21 x25 | s17 => DD x21 x26 | s18 => DD x21 x27 | s19 => DD x21 x28 | s20 => DD x21 x29 | s21 => DD x21 x30 | s22 => DD x21 x31 | s23 => DD x21 x32 | s24 => DD x21 x33 | s25 => DD x21 x34 | s26 => DD x21 x35 | s27 => DD x21 x36 | s28 => DD x21 x37 | s29 => DD x21 x38 | s30 => DD x21 x39 | s31 => DD x21 x40 | s32 => DD x21 x41 | s33 => DD x21 x42 | s34 => DD x21 x43 | s35 => DD x21 x44 | s36 => DD x21 x45 | s37 => DD x21 x46 | s38 => DD x21 x47 | s39 => DD x21 x48 | s40 => DD x21 x49 | s41 => DD x21 x50 | s42 => DD x21 x51 | s43 => DD x21 x52 | s44 => DD x21 x53 | s45 => DD x21 x54 | s46 => DD x21 x55 | s47 => DD x21 x56 | s48 => DD x21 x57 | s49 => DD x21 x58 | s50 => DD x21 x59 | s51 => DD x21 x60 | s52 => DD x21 x61 | s53 => DD x21 x62 | s54 => DD x21 x63 | s55 => DD x22 x0 | s56 => DD x22 x1 | s57 => DD x22 x2 | s58 => DD x22 x3 | s59 => DD x22 x4 | s60 => DD x22 x5 | s61 => DD x22 x6 | s62 => DD x22 x7 | s63 => DD x22 x8 | s64 => DD x22 x9 | s65 => DD x22 x10 | s66 => DD x22 x11 | s67 => DD x22 x12 | s68 => DD x22 x13 | s69 => DD x22 x14 | s70 => DD x22 x15 | s71 => DD x22 x16 | s72 => DD x22 x17 | s73 => DD x22 x18 | s74 => DD x22 x19 | s75 => DD x22 x20 | s76 => DD x22 x21 | s77 => DD x22 x22 | s78 => DD x22 x23 | s79 => DD x22 x24 | s80 => DD x22 x25 | s81 => DD x22 x26 | s82 => DD x22 x27 | s83 => DD x22 x28 | s84 => DD x22 x29 | s85 => DD x22 x30 | s86 => DD x22 x31 | s87 => DD x22 x32 | s88 => DD x22 x33 | s89 => DD x22 x34 | s90 => DD x22 x35 | s91 => DD x22 x36 | s92 => DD x22 x37 | s93 => DD x22 x38 | s94 => DD x22 x39 | s95 => DD x22 x40 | s96 => DD x22 x41 | s97 => DD x22 x42 | s98 => DD x22 x43 | s99 => DD x22 x44 | s100 => DD x22 x45 | s101 => DD x22 x46 | s102 => DD x22 x47 | s103 => DD x22 x48 | s104 => DD x22 x49 | s105 => DD x22 x50 | s106 => DD x22 x51 | s107 => DD x22 x52 | s108 => DD x22 x53 | s109 => DD x22 x54 | s110 => DD x22 x55 | s111 => DD x22 x56 | s112 => DD x22 x57 | s113 => DD x22 x58 | s114 => DD x22 x59 | s115 => DD x22 x60 | s116 => DD x22 x61 | s117 => DD x22 x62 | s118 => DD x22 x63 | s119 => DD x23 x0 | s120 => DD x23 x1 | s121 => DD x23 x2 | s122 => DD x23 x3 | s123 => DD x23 x4 | s124 => DD x23 x5 | s125 => DD x23 x6 | s126 => DD x23 x7 end.
Definition m1357 (c : sum2) : dd := match c with s0 => DD x21 x13 | s1 => DD x21 x14 | s2 => DD x21 x15 | s3 => DD x21 x16 | s4 => DD x21 x17 | s5 => DD x21 x18 | s6 => DD x21 x19 | s7 => DD x21 x20 | s8 => DD x21 x21 | s9 => DD x21 x22 | s10 => DD x21 x23 | s11 => DD x21 x24 | s12 => DD x21 x25 | s13 => DD x21 x26 | s14 => DD x21 x27 | s15 => DD x21 x28 | s16 => DD x21 x29 | s17 => DD x21 x30 | s18 => DD x21 x31 | s19 => DD x21 x32 | s20 => DD x21 x33 | s21 => DD x21 x34 | s22 => DD x21 x35 | s23 => DD x21 x36 | s24 => DD x21 x37 | s25 => DD x21 x38 | s26 => DD x21 x39 | s27 => DD x21 x40 | s28 => DD x21 x41 | s29 => DD x21 x42 | s30 => DD x21 x43 | s31 => DD x21 x44 | s32 => DD x21 x45 | s33 => DD x21 x46 | s34 => DD x21 x47 | s35 => DD x21 x48 | s36 => DD x21 x49 | s37 => DD x21 x50 | s38 => DD x21 x51 | s39 => DD x21 x52 | s40 => DD x21 x53 | s41 => DD x21 x54 | s42 => DD x21 x55 | s43 => DD x21 x56 | s44 => DD x21 x57 | s45 => DD x21 x58 | s46 => DD x21 x59 | s47 => DD x21 x60 | s48 => DD x21 x61 | s49 => DD x21 x62 | s50 => DD x21 x63 | s51 => DD x22 x0 | s52 => DD x22 x1 | s53 => DD x22 x2 | s54 => DD x22 x3 | s55 => DD x22 x4 | s56 => DD x22 x5 | s57 => DD x22 x6 | s58 => DD x22 x7 | s59 => DD x22 x8 | s60 => DD x22 x9 | s61 => DD x22 x10 | s62 => DD x22 x11 | s63 => DD x22 x12 | s64 => DD x22 x13 | s65 => DD x22 x14 | s66 => DD x22 x15 | s67 => DD x22 x16 | s68 => DD x22 x17 | s69 => DD x22 x18 | s70 => DD x22 x19 | s71 => DD x22 x20 | s72 => DD x22 x21 | s73 => DD x22 x22 | s74 => DD x22 x23 | s75 => DD x22 x24 | s76 => DD x22 x25 | s77 => DD x22 x26 | s78 => DD x22 x27 | s79 => DD x22 x28 | s80 => DD x22 x29 | s81 => DD x22 x30 | s82 => DD x22 x31 | s83 => DD x22 x32 | s84 => DD x22 x33 | s85 => DD x22 x34 | s86 => DD x22 x35 | s87 => DD x22 x36 | s88 => DD x22 x37 | s89 => DD x22 x38 | s90 => DD x22 x39 | s91 => DD x22 x40 | s92 => DD x22 x41 | s93 => DD x22 x42 | s94 => DD x22 x43 | s95 => DD x22 x44 | s96 => DD x22 x45 | s97 => DD x22 x46 | s98 => DD x22 x47 | s99 => DD x22 x48 | s100 => DD x22 x49 | s101 => DD x22 x50 | s102 => DD x22 x51 | s103 => DD x22 x52 | s104 => DD x22 x53 | s105 => DD x22 x54 | s106 => DD x22 x55 | s107 => DD x22 x56 | s108 => DD x22 x57 | s109 => DD x22 x58 | s110 => DD x22 x59 | s111 => DD x22 x60 | s112 => DD x22 x61 | s113 => DD x22 x62 | s114 => DD x22 x63 | s115 => DD x23 x0 | s116 => DD x23 x1 | s117 => DD x23 x2 | s118 => DD x23 x3 | s119 => DD x23 x4 | s120 => DD x23 x5 | s121 => DD x23 x6 | s122 => DD x23 x7 | s123 => DD x23 x8 | s124 => DD x23 x9 | s125 => DD x23 x10 | s126 => DD x23 x11 end.
Definition m1360 (c : sum2) : dd := match c with s0 => DD x21 x16 | s1 => DD x21 x17 | s2 => DD x21 x18 | s3 => DD x21 x19 | s4 => DD x21 x20 | s5 => DD x21 x21 | s6 => DD x21 x22 | s7 => DD x21 x23 | s8 => DD x21 x24 | s9 => DD x21 x25 | s10 => DD x21 x26 | s11 => DD x21 x27 | s12 => DD x21 x28 | s13 => DD x21 x29 | s14 => DD x21 x30 | s15 => DD x21 x31 | s16 => DD x21 x32 | s17 => DD x21 x33 | s18 => DD x21 x34 | s19 => DD x21 x35 | s20 => DD x21 x36 | s21 => DD x21 x37 | s22 => DD x21 x38 | s23 => DD x21 x39 | s24 => DD x21 x40 | s25 => DD x21 x41 | s26 => DD x21 x42 | s27 => DD x21 x43 | s28 => DD x21 x44 | s29 => DD x21 x45 | s30 => DD x21 x46 | s31 => DD x21 x47 | s32 => DD x21 x48 | s33 => DD x21 x49 | s34 => DD x21 x50 | s35 => DD x21 x51 | s36 => DD x21 x52 | s37 => DD x21 x53 | s38 => DD x21 x54 | s39 => DD x21 x55 | s40 => DD x21 x56 | s41 => DD x21 x57 | s42 => DD x21 x58 | s43 => DD x21 x59 | s44 => DD x21 x60 | s45 => DD x21 x61 | s46 => DD x21 x62 | s47 => DD x21 x63 | s48 => DD x22 x0 | s49 => DD x22 x1 | s50 => DD x22 x2 | s51 => DD x22 x3 | s52 => DD x22 x4 | s53 => DD x22 x5 | s54 => DD x22 x6 | s55 => DD x22 x7 | s56 => DD x22 x8 | s57 => DD x22 x9 | s58 => DD x22 x10 | s59 => DD x22 x11 | s60 => DD x22 x12 | s61 => DD x22 x13 | s62 => DD x22 x14 | s63 => DD x22 x15 | s64 => DD x22 x16 | s65 => DD x22 x17 | s66 => DD x22 x18 | s67 => DD x22 x19 | s68 => DD x22 x20 | s69 => DD x22 x21 | s70 => DD x22 x22 | s71 => DD x22 x23 | s72 => DD x22 x24 | s73 => DD x22 x25 | s74 => DD x22 x26 | s75 => DD x22 x27 | s76 => DD x22 x28 | s77 => DD x22 x29 | s78 => DD x22 x30 | s79 => DD x22 x31 | s80 => DD x22 x32 | s81 => DD x22 x33 | s82 => DD x22 x34 | s83 => DD x22 x35 | s84 => DD x22 x36 | s85 => DD x22 x37 | s86 => DD x22 x38 | s87 => DD x22 x39 | s88 => DD x22 x40 | s89 => DD x22 x41 | s90 => DD x22 x42 | s91 => DD x22 x43 | s92 => DD x22 x44 | s93 => DD x22 x45 | s94 => DD x22 x46 | s95 => DD x22 x47 | s96 => DD x22 x48 | s97 => DD x22 x49 | s98 => DD x22 x50 | s99 => DD x22 x51 | s100 => DD x22 x52 | s101 => DD x22 x53 | s102 => DD x22 x54 | s103 => DD x22 x55 | s104 => DD x22 x56 | s105 => DD x22 x57 | s106 => DD x22 x58 | s107 => DD x22 x59 | s108 => DD x22 x60 | s109 => DD x22 x61 | s110 => DD x22 x62 | s111 => DD x22 x63 | s112 => DD x23 x0 | s113 => DD x23 x1 | s114 => DD x23 x2 | s115 => DD x23 x3 | s116 => DD x23 x4 | s117 => DD x23 x5 | s118 => DD x23 x6 | s119 => DD x23 x7 | s120 => DD x23 x8 | s121 => DD x23 x9 | s122 => DD x23 x10 | s123 => DD x23 x11 | s124 => DD x23 x12 | s125 => DD x23 x13 | s126 => DD x23 x14 end.
Definition m1363 (c : sum2) : dd := match c with s0 => DD x21 x19 | s1 => DD x21 x20 | s2 => DD x21 x21 | s3 => DD x21 x22 | s4 => DD x21 x23 | s5 => DD x21 x24 | s6 => DD x21 x25 | s7 => DD x21 x26 | s8 => DD x21 x27 | s9 => DD x21 x28 | s10 => DD x21 x29 | s11 => DD x21 x30 | s12 => DD x21 x31 | s13 => DD x21 x32 | s14 => DD x21 x33 | s15 => DD x21 x34 | s16 => DD x21 x35 | s17 => DD x21 x36 | s18 => DD x21 x37 | s19 => DD x21 x38 | s20 => DD x21 x39 | s21 => DD x21 x40 | s22 => DD x21 x41 | s23 => DD x21 x42 | s24 => DD x21 x43 | s25 => DD x21 x44 | s26 => DD x21 x45 | s27 => DD x21 x46 | s28 => DD x21 x47 | s29 => DD x21 x48 | s30 => DD x21 x49 | s31 => DD x21 x50 | s32 => DD x21 x51 | s33 => DD x21 x52 | s34 => DD x21 x53 | s35 => DD x21 x54 | s36 => DD x21 x55 | s37 => DD x21 x56 | s38 => DD x21 x57 | s39 => DD x21 x58 | s40 => DD x21 x59 | s41 => DD x21 x60 | s42 => DD x21 x61 | s43 => DD x21 x62 | s44 => DD x21 x63 | s45 => DD x22 x0 | s46 => DD x22 x1 | s47 => DD x22 x2 | s48 => DD x22 x3 | s49 => DD x22 x4 | s50 => DD x22 x5 | s51 => DD x22 x6 | s52 => DD x22 x7 | s53 => DD x22 x8 | s54 => DD x22 x9 | s55 => DD x22 x10 | s56 => DD x22 x11 | s57 => DD x22 x12 | s58 => DD x22 x13 | s59 => DD x22 x14 | s60 => DD x22 x15 | s61 => DD x22 x16 | s62 => DD x22 x17 | s63 => DD x22 x18 | s64 => DD x22 x19 | s65 => DD x22 x20 | s66 => DD x22 x21 | s67 => DD x22 x22 | s68 => DD x22 x23 | s69 => DD x22 x24 | s70 => DD x22 x25 | s71 => DD x22 x26 | s72 => DD x22 x27 | s73 => DD x22 x28 | s74 => DD x22 x29 | s75 => DD x22 x30 | s76 => DD x22 x31 | s77 => DD x22 x32 | s78 => DD x22 x33 | s79 => DD x22 x34 | s80 => DD x22 x35 | s81 => DD x22 x36 | s82 => DD x22 x37 | s83 => DD x22 x38 | s84 => DD x22 x39 | s85 => DD x22 x40 | s86 => DD x22 x41 | s87 => DD x22 x42 | s88 => DD x22 x43 | s89 => DD x22 x44 | s90 => DD x22 x45 | s91 => DD x22 x46 | s92 => DD x22 x47 | s93 => DD x22 x48 | s94 => DD x22 x49 | s95 => DD x22 x50 | s96 => DD x22 x51 | s97 => DD x22 x52 | s98 => DD x22 x53 | s99 => DD x22 x54 | s100 => DD x22 x55 | s101 => DD x22 x56 | s102 => DD x22 x57 | s103 => DD x22 x58 | s104 => DD x22 x59 | s105 => DD x22 x60 | s106 => DD x22 x61 | s107 => DD x22 x62 | s108 => DD x22 x63 | s109 => DD x23 x0 | s110 => DD x23 x1 | s111 => DD x23 x2 | s112 => DD x23 x3 | s113 => DD x23 x4 | s114 => DD x23 x5 | s115 => DD x23 x6 | s116 => DD x23 x7 | s117 => DD x23 x8 | s118 => DD x23 x9 | s119 => DD x23 x10 | s120 => DD x23 x11 | s121 => DD x23 x12 | s122 => DD x23 x13 | s123 => DD x23 x14 | s124 => DD x23 x15 | s125 => DD x23 x16 | s126 => DD x23 x17 end.
Definition m1364 (c : sum2) : dd := match c with s0 => DD x21 x20 | s1 => DD x21 x21 | s2 => DD x21 x22 | s3 => DD x21 x23 | s4 => DD x21 x24 | s5 => DD x21 x25 | s6 => DD x21 x26 | s7 => DD x21 x27 | s8 => DD x21 x28 | s9 => DD x21 x29 | s10 => DD x21 x30 | s11 => DD x21 x31 | s12 => DD x21 x32 | s13 => DD x21 x33 | s14 => DD x21 x34 | s15 => DD x21 x35 | s16 => DD x21 x36 | s17 => DD x21 x37 | s18 => DD x21 x38 | s19 => DD x21 x39 | s20 => DD x21 x40 | s21 => DD x21 x41 | s22 => DD x21 x42 | s23 => DD x21 x43 | s24 => DD x21 x44 | s25 => DD x21 x45 | s26 => DD x21 x46 | s27 => DD x21 x47 | s28 => DD x21 x48 | s29 => DD x21 x49 | s30 => DD x21 x50 | s31 => DD x21 x51 | s32 => DD x21 x52 | s33 => DD x21 x53 | s34 => DD x21 x54 | s35 => DD x21 x55 | s36 => DD x21 x56 | s37 => DD x21 x57 | s38 => DD x21 x58 | s39 => DD x21 x59 | s40 => DD x21 x60 | s41 => DD x21 x61 | s42 => DD x21 x62 | s43 => DD x21 x63 | s44 => DD x22 x0 | s45 => DD x22 x1 | s46 => DD x22 x2 | s47 => DD x22 x3 | s48 => DD x22 x4 | s49 => DD x22 x5 | s50 => DD x22 x6 | s51 => DD x22 x7 | s52 => DD x22 x8 | s53 => DD x22 x9 | s54 => DD x22 x10 | s55 => DD x22 x11 | s56 => DD x22 x12 | s57 => DD x22 x13 | s58 => DD x22 x14 | s59 => DD x22 x15 | s60 => DD x22 x16 | s61 => DD x22 x17 | s62 => DD x22 x18 | s63 => DD x22 x19 | s64 => DD x22 x20 | s65 => DD x22 x21 | s66 => DD x22 x22 | s67 => DD x22 x23 | s68 => DD x22 x24 | s69 => DD x22 x25 | s70 => DD x22 x26 | s71 => DD x22 x27 | s72 => DD x22 x28 | s73 => DD x22 x29 | s74 => DD x22 x30 | s75 => DD x22 x31 | s76 => DD x22 x32 | s77 => DD x22 x33 | s78 => DD x22 x34 | s79 => DD x22 x35 | s80 => DD x22 x36 | s81 => DD x22 x37 | s82 => DD x22 x38 | s83 => DD x22 x39 | s84 => DD x22 x40 | s85 => DD x22 x41 | s86 => DD x22 x42 | s87 => DD x22 x43 | s88 => DD x22 x44 | s89 => DD x22 x45 | s90 => DD x22 x46 | s91 => DD x22 x47 | s92 => DD x22 x48 | s93 => DD x22 x49 | s94 => DD x22 x50 | s95 => DD x22 x51 | s96 => DD x22 x52 | s97 => DD x22 x53 | s98 => DD x22 x54 | s99 => DD x22 x55 | s100 => DD x22 x56 | s101 => DD x22 x57 | s102 => DD x22 x58 | s103 => DD x22 x59 | s104 => DD x22 x60 | s105 => DD x22 x61 | s106 => DD x22 x62 | s107 => DD x22 x63 | s108 => DD x23 x0 | s109 => DD x23 x1 | s110 => DD x23 x2 | s111 => DD x23 x3 | s112 => DD x23 x4 | s113 => DD x23 x5 | s114 => DD x23 x6 | s115 => DD x23 x7 | s116 => DD x23 x8 | s117 => DD x23 x9 | s118 => DD x23 x10 | s119 => DD x23 x11 | s120 => DD x23 x12 | s121 => DD x23 x13 | s122 => DD x23 x14 | s123 => DD x23 x15 | s124 => DD x23 x16 | s125 => DD x23 x17 | s126 => DD x23 x18 end.
Definition m1365 (c : sum2) : dd := match c with s0 => DD x21 x21 | s1 => DD x21 x22 | s2 => DD x21 x23 | s3 => DD x21 x24 | s4 => DD x21 x25 | s5 => DD x21 x26 | s6 => DD x21 x27 | s7 => DD x21 x28 | s8 => DD x21 x29 | s9 => DD x21 x30 | s10 => DD x21 x31 | s11 => DD x21 x32 | s12 => DD x21 x33 | s13 => DD x21 x34 | s14 => DD x21 x35 | s15 => DD x21 x36 | s16 => DD x21 x37 | s17 => DD x21 x38 | s18 => DD x21 x39 | s19 => DD x21 x40 | s20 => DD x21 x41 | s21 => DD x21 x42 | s22 => DD x21 x43 | s23 => DD x21 x44 | s24 => DD x21 x45 | s25 => DD x21 x46 | s26 => DD x21 x47 | s27 => DD x21 x48 | s28 => DD x21 x49 | s29 => DD x21 x50 | s30 => DD x21 x51 | s31 => DD x21 x52 | s32 => DD x21 x53 | s33 => DD x21 x54 | s34 => DD x21 x55 | s35 => DD x21 x56 | s36 => DD x21 x57 | s37 => DD x21 x58 | s38 => DD x21 x59 | s39 => DD x21 x60 | s40 => DD x21 x61 | s41 => DD x21 x62 | s42 => DD x21 x63 | s43 => DD x22 x0 | s44 => DD x22 x1 | s45 => DD x22 x2 | s46 => DD x22 x3 | s47 => DD x22 x4 | s48 => DD x22 x5 | s49 => DD x22 x6 | s50 => DD x22 x7 | s51 => DD x22 x8 | s52 => DD x22 x9 | s53 => DD x22 x10 | s54 => DD x22 x11 | s55 => DD x22 x12 | s56 => DD x22 x13 | s57 => DD x22 x14 | s58 => DD x22 x15 | s59 => DD x22 x16 | s60 => DD x22 x17 | s61 => DD x22 x18 | s62 => DD x22 x19 | s63 => DD x22 x20 | s64 => DD x22 x21 | s65 => DD x22 x22 | s66 => DD x22 x23 | s67 => DD x22 x24 | s68 => DD x22 x25 | s69 => DD x22 x26 | s70 => DD x22 x27 | s71 => DD x22 x28 | s72 => DD x22 x29 | s73 => DD x22 x30 | s74 => DD x22 x31 | s75 => DD x22 x32 | s76 => DD x22 x33 | s77 => DD x22 x34 | s78 => DD x22 x35 | s79 => DD x22 x36 | s80 => DD x22 x37 | s81 => DD x22 x38 | s82 => DD x22 x39 | s83 => DD x22 x40 | s84 => DD x22 x41 | s85 => DD x22 x42 | s86 => DD x22 x43 | s87 => DD x22 x44 | s88 => DD x22 x45 | s89 => DD x22 x46 | s90 => DD x22 x47 | s91 => DD x22 x48 | s92 => DD x22 x49 | s93 => DD x22 x50 | s94 => DD x22 x51 | s95 => DD x22 x52 | s96 => DD x22 x53 | s97 => DD x22 x54 | s98 => DD x22 x55 | s99 => DD x22 x56 | s100 => DD x22 x57 | s101 => DD x22 x58 | s102 => DD x22 x59 | s103 => DD x22 x60 | s104 => DD x22 x61 | s105 => DD x22 x62 | s106 => DD x22 x63 | s107 => DD x23 x0 | s108 => DD x23 x1 | s109 => DD x23 x2 | s110 => DD x23 x3 | s111 => DD x23 x4 | s112 => DD x23 x5 | s113 => DD x23 x6 | s114 => DD x23 x7 | s115 => DD x23 x8 | s116 => DD x23 x9 | s117 => DD x23 x10 | s118 => DD x23 x11 | s119 => DD x23 x12 | s120 => DD x23 x13 | s121 => DD x23 x14 | s122 => DD x23 x15 | s123 => DD x23 x16 | s124 => DD x23 x17 | s125 => DD x23 x18 | s126 => DD x23 x19 end.
Definition m1368 (c : sum2) : dd := match c with s0 => DD x21 x24 | s1 => DD x21 x25 | s2 => DD x21 x26 | s3 => DD x21 x27 | s4 => DD x21 x28 | s5 => DD x21 x29 | s6 => DD x21 x30 | s7 => DD x21 x31 | s8 => DD x21 x32 | s9 => DD x21 x33 | s10 => DD x21 x34 | s11 => DD x21 x35 | s12 => DD x21 x36 | s13 => DD x21 x37 | s14 => DD x21 x38 | s15 => DD x21 x39 | s16 => DD x21 x40 | s17 => DD x21 x41 | s18 => DD x21 x42 | s19 => DD x21 x43 | s20 => DD x21 x44 | s21 => DD x21 x45 | s22 => DD x21 x46 | s23 => DD x21 x47 | s24 => DD x21 x48 | s25 => DD x21 x49 | s26 => DD x21 x50 | s27 => DD x21 x51 | s28 => DD x21 x52 | s29 => DD x21 x53 | s30 => DD x21 x54 | s31 => DD x21 x55 | s32 => DD x21 x56 | s33 => DD x21 x57 | s34 => DD x21 x58 | s35 => DD x21 x59 | s36 => DD x21 x60 | s37 => DD x21 x61 | s38 => DD x21 x62 | s39 => DD x21 x63 | s40 => DD x22 x0 | s41 => DD x22 x1 | s42 => DD x22 x2 | s43 => DD x22 x3 | s44 => DD x22 x4 | s45 => DD x22 x5 | s46 => DD x22 x6 | s47 => DD x22 x7 | s48 => DD x22 x8 | s49 => DD x22 x9 | s50 => DD x22 x10 | s51 => DD x22 x11 | s52 => DD x22 x12 | s53 => DD x22 x13 | s54 => DD x22 x14 | s55 => DD x22 x15 | s56 => DD x22 x16 | s57 => DD x22 x17 | s58 => DD x22 x18 | s59 => DD x22 x19 | s60 => DD x22 x20 | s61 => DD x22 x21 | s62 => DD x22 x22 | s63 => DD x22 x23 | s64 => DD x22 x24 | s65 => DD x22 x25 | s66 => DD x22 x26 | s67 => DD x22 x27 | s68 => DD x22 x28 | s69 => DD x22 x29 | s70 => DD x22 x30 | s71 => DD x22 x31 | s72 => DD x22 x32 | s73 => DD x22 x33 | s74 => DD x22 x34 | s75 => DD x22 x35 | s76 => DD x22 x36 | s77 => DD x22 x37 | s78 => DD x22 x38 | s79 => DD x22 x39 | s80 => DD x22 x40 | s81 => DD x22 x41 | s82 => DD x22 x42 | s83 => DD x22 x43 | s84 => DD x22 x44 | s85 => DD x22 x45 | s86 => DD x22 x46 | s87 => DD x22 x47 | s88 => DD x22 x48 | s89 => DD x22 x49 | s90 => DD x22 x50 | s91 => DD x22 x51 | s92 => DD x22 x52 | s93 => DD x22 x53 | s94 => DD x22 x54 | s95 => DD x22 x55 | s96 => DD x22 x56 | s97 => DD x22 x57 | s98 => DD x22 x58 | s99 => DD x22 x59 | s100 => DD x22 x60 | s101 => DD x22 x61 | s102 => DD x22 x62 | s103 => DD x22 x63 | s104 => DD x23 x0 | s105 => DD x23 x1 | s106 => DD x23 x2 | s107 => DD x23 x3 | s108 => DD x23 x4 | s109 => DD x23 x5 | s110 => DD x23 x6 | s111 => DD x23 x7 | s112 => DD x23 x8 | s113 => DD x23 x9 | s114 => DD x23 x10 | s115 => DD x23 x11 | s116 => DD x23 x12 | s117 => DD x23 x13 | s118 => DD x23 x14 | s119 => DD x23 x15 | s120 => DD x23 x16 | s121 => DD x23 x17 | s122 => DD x23 x18 | s123 => DD x23 x19 | s124 => DD x23 x20 | s125 => DD x23 x21 | s126 => DD x23 x22 end.
Definition m1369 (c : sum2) : dd := match c with s0 => DD x21 x25 | s1 => DD x21 x26 | s2 => DD x21 x27 | s3 => DD x21 x28 | s4 => DD x21 x29 | s5 => DD x21 x30 | s6 => DD x21 x31 | s7 => DD x21 x32 | s8 => DD x21 x33 | s9 => DD x21 x34 | s10 => DD x21 x35 | s11 => DD x21 x36 | s12 => DD x21 x37 | s13 => DD x21 x38 | s14 => DD x21 x39 | s15 => DD x21 x40 | s16 => DD x21 x41 | s17 => DD x21 x42 | s18 => DD x21 x43 | s19 => DD x21 x44 | s20 => DD x21 x45 | s21 => DD x21 x46 | s22 => DD x21 x47 | s23 => DD x21 x48 | s24 => DD x21 x49 | s25 => DD x21 x50 | s26 => DD x21 x51 | s27 => DD x21 x52 | s28 => DD x21 x53 | s29 => DD x21 x54 | s30 => DD x21 x55 | s31 => DD x21 x56 | s32 => DD x21 x57 | s33 => DD x21 x58 | s34 => DD x21 x59 | s35 => DD x21 x60 | s36 => DD x21 x61 | s37 => DD x21 x62 | s38 => DD x21 x63 | s39 => DD x22 x0 | s40 => DD x22 x1 | s41 => DD x22 x2 | s42 => DD x22 x3 | s43 => DD x22 x4 | s44 => DD x22 x5 | s45 => DD x22 x6 | s46 => DD x22 x7 | s47 => DD x22 x8 | s48 => DD x22 x9 | s49 => DD x22 x10 | s50 => DD x22 x11 | s51 => DD x22 x12 | s52 => DD x22 x13 | s53 => DD x22 x14 | s54 => DD x22 x15 | s55 => DD x22 x16 | s56 => DD x22 x17 | s57 => DD x22 x18 | s58 => DD x22 x19 | s59 => DD x22 x20 | s60 => DD x22 x21 | s61 => DD x22 x22 | s62 => DD x22 x23 | s63 => DD x22 x24 | s64 => DD x22 x25 | s65 => DD x22 x26 | s66 => DD x22 x27 | s67 => DD x22 x28 | s68 => DD x22 x29 | s69 => DD x22 x30 | s70 => DD x22 x31 | s71 => DD x22 x32 | s72 => DD x22 x33 | s73 => DD x22 x34 | s74 => DD x22 x35 | s75 => DD x22 x36 | s76 => DD x22 x37 | s77 => DD x22 x38 | s78 => DD x22 x39 | s79 => DD x22 x40 | s80 => DD x22 x41 | s81 => DD x22 x42 | s82 => DD x22 x43 | s83 => DD x22 x44 | s84 => DD x22 x45 | s85 => DD x22 x46 | s86 => DD x22 x47 | s87 => DD x22 x48 | s88 => DD x22 x49 | s89 => DD x22 x50 | s90 => DD x22 x51 | s91 => DD x22 x52 | s92 => DD x22 x53 | s93 => DD x22 x54 | s94 => DD x22 x55 | s95 => DD x22 x56 | s96 => DD x22 x57 | s97 => DD x22 x58 | s98 => DD x22 x59 | s99 => DD x22 x60 | s100 => DD x22 x61 | s101 => DD x22 x62 | s102 => DD x22 x63 | s103 => DD x23 x0 | s104 => DD x23 x1 | s105 => DD x23 x2 | s106 => DD x23 x3 | s107 => DD x23 x4 | s108 => DD x23 x5 | s109 => DD x23 x6 | s110 => DD x23 x7 | s111 => DD x23 x8 | s112 => DD x23 x9 | s113 => DD x23 x10 | s114 => DD x23 x11 | s115 => DD x23 x12 | s116 => DD x23 x13 | s117 => DD x23 x14 | s118 => DD x23 x15 | s119 => DD x23 x16 | s120 => DD x23 x17 | s121 => DD x23 x18 | s122 => DD x23 x19 | s123 => DD x23 x20 | s124 => DD x23 x21 | s125 => DD x23 x22 | s126 => DD x23 x23 end.
Definition m1372 (c : sum2) : dd := match c with s0 => DD x21 x28 | s1 => DD x21 x29 | s2 => DD x21 x30 | s3 => DD x21 x31 | s4 => DD x21 x32 | s5 => DD x21 x33 | s6 => DD x21 x34 | s7 => DD x21 x35 | s8 => DD x21 x36 | s9 => DD x21 x37 | s10 => DD x21 x38 | s11 => DD x21 x39 | s12 => DD x21 x40 | s13 => DD x21 x41 | s14 => DD x21 x42 | s15 => DD x21 x43 | s16 => DD x21 x44 | s17 => DD x21 x45 | s18 => DD x21 x46 | s19 => DD x21 x47 | s20 => DD x21 x48 | s21 => DD x21 x49 | s22 => DD x21 x50 | s23 => DD x21 x51 | s24 => DD x21 x52 | s25 => DD x21 x53 | s26 => DD x21 x54 | s27 => DD x21 x55 | s28 => DD x21 x56 | s29 => DD x21 x57 | s30 => DD x21 x58 | s31 => DD x21 x59 | s32 => DD x21 x60 | s33 => DD x21 x61 | s34 => DD x21 x62 | s35 => DD x21 x63 | s36 => DD x22 x0 | s37 => DD x22 x1 | s38 => DD x22 x2 | s39 => DD x22 x3 | s40 => DD x22 x4 | s41 => DD x22 x5 | s42 => DD x22 x6 | s43 => DD x22 x7 | s44 => DD x22 x8 | s45 => DD x22 x9 | s46 => DD x22 x10 | s47 => DD x22 x11 | s48 => DD x22 x12 | s49 => DD x22 x13 | s50 => DD x22 x14 | s51 => DD x22 x15 | s52 => DD x22 x16 | s53 => DD x22 x17 | s54 => DD x22 x18 | s55 => DD x22 x19 | s56 => DD x22 x20 | s57 => DD x22 x21 | s58 => DD x22 x22 | s59 => DD x22 x23 | s60 => DD x22 x24 | s61 => DD x22 x25 | s62 => DD x22 x26 | s63 => DD x22 x27 | s64 => DD x22 x28 | s65 => DD x22 x29 | s66 => DD x22 x30 | s67 => DD x22 x31 | s68 => DD x22 x32 | s69 => DD x22 x33 | s70 => DD x22 x34 | s71 => DD x22 x35 | s72 => DD x22 x36 | s73 => DD x22 x37 | s74 => DD x22 x38 | s75 => DD x22 x39 | s76 => DD x22 x40 | s77 => DD x22 x41 | s78 => DD x22 x42 | s79 => DD x22 x43 | s80 => DD x22 x44 | s81 => DD x22 x45 | s82 => DD x22 x46 | s83 => DD x22 x47 | s84 => DD x22 x48 | s85 => DD x22 x49 | s86 => DD x22 x50 | s87 => DD x22 x51 | s88 => DD x22 x52 | s89 => DD x22 x53 | s90 => DD x22 x54 | s91 => DD x22 x55 | s92 => DD x22 x56 | s93 => DD x22 x57 | s94 => DD x22 x58 | s95 => DD x22 x59 | s96 => DD x22 x60 | s97 => DD x22 x61 | s98 => DD x22 x62 | s99 => DD x22 x63 | s100 => DD x23 x0 | s101 => DD x23 x1 | s102 => DD x23 x2 | s103 => DD x23 x3 | s104 => DD x23 x4 | s105 => DD x23 x5 | s106 => DD x23 x6 | s107 => DD x23 x7 | s108 => DD x23 x8 | s109 => DD x23 x9 | s110 => DD x23 x10 | s111 => DD x23 x11 | s112 => DD x23 x12 | s113 => DD x23 x13 | s114 => DD x23 x14 | s115 => DD x23 x15 | s116 => DD x23 x16 | s117 => DD x23 x17 | s118 => DD x23 x18 | s119 => DD x23 x19 | s120 => DD x23 x20 | s121 => DD x23 x21 | s122 => DD x23 x22 | s123 => DD x23 x23 | s124 => DD x23 x24 | s125 => DD x23 x25 | s126 => DD x23 x26 end.
Definition m1375 (c : sum2) : dd := match c with s0 => DD x21 x31 | s1 => DD x21 x32 | s2 => DD x21 x33 | s3 => DD x21 x34 | s4 => DD x21 x35 | s5 => DD x21 x36 | s6 => DD x21 x37 | s7 => DD x21 x38 | s8 => DD x21 x39 | s9 => DD x21 x40 | s10 => DD x21 x41 | s11 => DD x21 x42 | s12 => DD x21 x43 | s13 => DD x21 x44 | s14 => DD x21 x45 | s15 => DD x21 x46 | s16 => DD x21 x47 | s17 => DD x21 x48 | s18 => DD x21 x49 | s19 => DD x21 x50 | s20 => DD x21 x51 | s21 => DD x21 x52 | s22 => DD x21 x53 | s23 => DD x21 x54 | s24 => DD x21 x55 | s25 => DD x21 x56 | s26 => DD x21 x57 | s27 => DD x21 x58 | s28 => DD x21 x59 | s29 => DD x21 x60 | s30 => DD x21 x61 | s31 => DD x21 x62 | s32 => DD x21 x63 | s33 => DD x22 x0 | s34 => DD x22 x1 | s35 => DD x22 x2 | s36 => DD x22 x3 | s37 => DD x22 x4 | s38 => DD x22 x5 | s39 => DD x22 x6 | s40 => DD x22 x7 | s41 => DD x22 x8 | s42 => DD x22 x9 | s43 => DD x22 x10 | s44 => DD x22 x11 | s45 => DD x22 x12 | s46 => DD x22 x13 | s47 => DD x22 x14 | s48 => DD x22 x15 | s49 => DD x22 x16 | s50 => DD x22 x17 | s51 => DD x22 x18 | s52 => DD x22 x19 | s53 => DD x22 x20 | s54 => DD x22 x21 | s55 => DD x22 x22 | s56 => DD x22 x23 | s57 => DD x22 x24 | s58 => DD x22 x25 | s59 => DD x22 x26 | s60 => DD x22 x27 | s61 => DD x22 x28 | s62 => DD x22 x29 | s63 => DD x22 x30 | s64 => DD x22 x31 | s65 => DD x22 x32 | s66 => DD x22 x33 | s67 => DD x22 x34 | s68 => DD x22 x35 | s69 => DD x22 x36 | s70 => DD x22 x37 | s71 => DD x22 x38 | s72 => DD x22 x39 | s73 => DD x22 x40 | s74 => DD x22 x41 | s75 => DD x22 x42 | s76 => DD x22 x43 | s77 => DD x22 x44 | s78 => DD x22 x45 | s79 => DD x22 x46 | s80 => DD x22 x47 | s81 => DD x22 x48 | s82 => DD x22 x49 | s83 => DD x22 x50 | s84 => DD x22 x51 | s85 => DD x22 x52 | s86 => DD x22 x53 | s87 => DD x22 x54 | s88 => DD x22 x55 | s89 => DD x22 x56 | s90 => DD x22 x57 | s91 => DD x22 x58 | s92 => DD x22 x59 | s93 => DD x22 x60 | s94 => DD x22 x61 | s95 => DD x22 x62 | s96 => DD x22 x63 | s97 => DD x23 x0 | s98 => DD x23 x1 | s99 => DD x23 x2 | s100 => DD x23 x3 | s101 => DD x23 x4 | s102 => DD x23 x5 | s103 => DD x23 x6 | s104 => DD x23 x7 | s105 => DD x23 x8 | s106 => DD x23 x9 | s107 => DD x23 x10 | s108 => DD x23 x11 | s109 => DD x23 x12 | s110 => DD x23 x13 | s111 => DD x23 x14 | s112 => DD x23 x15 | s113 => DD x23 x16 | s114 => DD x23 x17 | s115 => DD x23 x18 | s116 => DD x23 x19 | s117 => DD x23 x20 | s118 => DD x23 x21 | s119 => DD x23 x22 | s120 => DD x23 x23 | s121 => DD x23 x24 | s122 => DD x23 x25 | s123 => DD x23 x26 | s124 => DD x23 x27 | s125 => DD x23 x28 | s126 => DD x23 x29 end.
Definition m1376 (c : sum2) : dd := match c with s0 => DD x21 x32 | s1 => DD x21 x33 | s2 => DD x21 x34 | s3 => DD x21 x35 | s4 => DD x21 x36 | s5 => DD x21 x37 | s6 => DD x21 x38 | s7 => DD x21 x39 | s8 => DD x21 x40 | s9 => DD x21 x41 | s10 => DD x21 x42 | s11 => DD x21 x43 | s12 => DD x21 x44 | s13 => DD x21 x45 | s14 => DD x21 x46 | s15 => DD x21 x47 | s16 => DD x21 x48 | s17 => DD x21 x49 | s18 => DD x21 x50 | s19 => DD x21 x51 | s20 => DD x21 x52 | s21 => DD x21 x53 | s22 => DD x21 x54 | s23 => DD x21 x55 | s24 => DD x21 x56 | s25 => DD x21 x57 | s26 => DD x21 x58 | s27 => DD x21 x59 | s28 => DD x21 x60 | s29 => DD x21 x61 | s30 => DD x21 x62 | s31 => DD x21 x63 | s32 => DD x22 x0 | s33 => DD x22 x1 | s34 => DD x22 x2 | s35 => DD x22 x3 | s36 => DD x22 x4 | s37 => DD x22 x5 | s38 => DD x22 x6 | s39 => DD x22 x7 | s40 => DD x22 x8 | s41 => DD x22 x9 | s42 => DD x22 x10 | s43 => DD x22 x11 | s44 => DD x22 x12 | s45 => DD x22 x13 | s46 => DD x22 x14 | s47 => DD x22 x15 | s48 => DD x22 x16 | s49 => DD x22 x17 | s50 => DD x22 x18 | s51 => DD x22 x19 | s52 => DD x22 x20 | s53 => DD x22 x21 | s54 => DD x22 x22 | s55 => DD x22 x23 | s56 => DD x22 x24 | s57 => DD x22 x25 | s58 => DD x22 x26 | s59 => DD x22 x27 | s60 => DD x22 x28 | s61 => DD x22 x29 | s62 => DD x22 x30 | s63 => DD x22 x31 | s64 => DD x22 x32 | s65 => DD x22 x33 | s66 => DD x22 x34 | s67 => DD x22 x35 | s68 => DD x22 x36 | s69 => DD x22 x37 | s70 => DD x22 x38 | s71 => DD x22 x39 | s72 => DD x22 x40 | s73 => DD x22 x41 | s74 => DD x22 x42 | s75 => DD x22 x43 | s76 => DD x22 x44 | s77 => DD x22 x45 | s78 => DD x22 x46 | s79 => DD x22 x47 | s80 => DD x22 x48 | s81 => DD x22 x49 | s82 => DD x22 x50 | s83 => DD x22 x51 | s84 => DD x22 x52 | s85 => DD x22 x53 | s86 => DD x22 x54 | s87 => DD x22 x55 | s88 => DD x22 x56 | s89 => DD x22 x57 | s90 => DD x22 x58 | s91 => DD x22 x59 | s92 => DD x22 x60 | s93 => DD x22 x61 | s94 => DD x22 x62 | s95 => DD x22 x63 | s96 => DD x23 x0 | s97 => DD x23 x1 | s98 => DD x23 x2 | s99 => DD x23 x3 | s100 => DD x23 x4 | s101 => DD x23 x5 | s102 => DD x23 x6 | s103 => DD x23 x7 | s104 => DD x23 x8 | s105 => DD x23 x9 | s106 => DD x23 x10 | s107 => DD x23 x11 | s108 => DD x23 x12 | s109 => DD x23 x13 | s110 => DD x23 x14 | s111 => DD x23 x15 | s112 => DD x23 x16 | s113 => DD x23 x17 | s114 => DD x23 x18 | s115 => DD x23 x19 | s116 => DD x23 x20 | s117 => DD x23 x21 | s118 => DD x23 x22 | s119 => DD x23 x23 | s120 => DD x23 x24 | s121 => DD x23 x25 | s122 => DD x23 x26 | s123 => DD x23 x27 | s124 => DD x23 x28 | s125 => DD x23 x29 | s126 => DD x23 x30 end.
Definition m1377 (c : sum2) : dd := match c with s0 => DD x21 x33 | s1 => DD x21 x34 | s2 => DD x21 x35 | s3 => DD x21 x36 | s4 => DD x21 x37 | s5 => DD x21 x38 | s6 => DD x21 x39 | s7 => DD x21 x40 | s8 => DD x21 x41 | s9 => DD x21 x42 | s10 => DD x21 x43 | s11 => DD x21 x44 | s12 => DD x21 x45 | s13 => DD x21 x46 | s14 => DD x21 x47 | s15 => DD x21 x48 | s16 => DD x21 x49 | s17 => DD x21 x50 | s18 => DD x21 x51 | s19 => DD x21 x52 | s20 => DD x21 x53 | s21 => DD x21 x54 | s22 => DD x21 x55 | s23 => DD x21 x56 | s24 => DD x21 x57 | s25 => DD x21 x58 | s26 => DD x21 x59 | s27 => DD x21 x60 | s28 => DD x21 x61 | s29 => DD x21 x62 | s30 => DD x21 x63 | s31 => DD x22 x0 | s32 => DD x22 x1 | s33 => DD x22 x2 | s34 => DD x22 x3 | s35 => DD x22 x4 | s36 => DD x22 x5 | s37 => DD x22 x6 | s38 => DD x22 x7 | s39 => DD x22 x8 | s40 => DD x22 x9 | s41 => DD x22 x10 | s42 => DD x22 x11 | s43 => DD x22 x12 | s44 => DD x22 x13 | s45 => DD x22 x14 | s46 => DD x22 x15 | s47 => DD x22 x16 | s48 => DD x22 x17 | s49 => DD x22 x18 | s50 => DD x22 x19 | s51 => DD x22 x20 | s52 => DD x22 x21 | s53 => DD x22 x22 | s54 => DD x22 x23 | s55 => DD x22 x24 | s56 => DD x22 x25 | s57 => DD x22 x26 | s58 => DD x22 x27 | s59 => DD x22 x28 | s60 => DD x22 x29 | s61 => DD x22 x30 | s62 => DD x22 x31 | s63 => DD x22 x32 | s64 => DD x22 x33 | s65 => DD x22 x34 | s66 => DD x22 x35 | s67 => DD x22 x36 | s68 => DD x22 x37 | s69 => DD x22 x38 | s70 => DD x22 x39 | s71 => DD x22 x40 | s72 => DD x22 x41 | s73 => DD x22 x42 | s74 => DD x22 x43 | s75 => DD x22 x44 | s76 => DD x22 x45 | s77 => DD x22 x46 | s78 => DD x22 x47 | s79 => DD x22 x48 | s80 => DD x22 x49 | s81 => DD x22 x50 | s82 => DD x22 x51 | s83 => DD x22 x52 | s84 => DD x22 x53 | s85 => DD x22 x54 | s86 => DD x22 x55 | s87 => DD x22 x56 | s88 => DD x22 x57 | s89 => DD x22 x58 | s90 => DD x22 x59 | s91 => DD x22 x60 | s92 => DD x22 x61 | s93 => DD x22 x62 | s94 => DD x22 x63 | s95 => DD x23 x0 | s96 => DD x23 x1 | s97 => DD x23 x2 | s98 => DD x23 x3 | s99 => DD x23 x4 | s100 => DD x23 x5 | s101 => DD x23 x6 | s102 => DD x23 x7 | s103 => DD x23 x8 | s104 => DD x23 x9 | s105 => DD x23 x10 | s106 => DD x23 x11 | s107 => DD x23 x12 | s108 => DD x23 x13 | s109 => DD x23 x14 | s110 => DD x23 x15 | s111 => DD x23 x16 | s112 => DD x23 x17 | s113 => DD x23 x18 | s114 => DD x23 x19 | s115 => DD x23 x20 | s116 => DD x23 x21 | s117 => DD x23 x22 | s118 => DD x23 x23 | s119 => DD x23 x24 | s120 => DD x23 x25 | s121 => DD x23 x26 | s122 => DD x23 x27 | s123 => DD x23 x28 | s124 => DD x23 x29 | s125 => DD x23 x30 | s126 => DD x23 x31 end.
Definition m1378 (c : sum2) : dd := match c with s0 => DD x21 x34 | s1 => DD x21 x35 | s2 => DD x21 x36 | s3 => DD x21 x37 | s4 => DD x21 x38 | s5 => DD x21 x39 | s6 => DD x21 x40 | s7 => DD x21 x41 | s8 => DD x21 x42 | s9 => DD x21 x43 | s10 => DD x21 x44 | s11 => DD x21 x45 | s12 => DD x21 x46 | s13 => DD x21 x47 | s14 => DD x21 x48 | s15 => DD x21 x49 | s16 => DD x21 x50 | s17 => DD x21 x51 | s18 => DD x21 x52 | s19 => DD x21 x53 | s20 => DD x21 x54 | s21 => DD x21 x55 | s22 => DD x21 x56 | s23 => DD x21 x57 | s24 => DD x21 x58 | s25 => DD x21 x59 | s26 => DD x21 x60 | s27 => DD x21 x61 | s28 => DD x21 x62 | s29 => DD x21 x63 | s30 => DD x22 x0 | s31 => DD x22 x1 | s32 => DD x22 x2 | s33 => DD x22 x3 | s34 => DD x22 x4 | s35 => DD x22 x5 | s36 => DD x22 x6 | s37 => DD x22 x7 | s38 => DD x22 x8 | s39 => DD x22 x9 | s40 => DD x22 x10 | s41 => DD x22 x11 | s42 => DD x22 x12 | s43 => DD x22 x13 | s44 => DD x22 x14 | s45 => DD x22 x15 | s46 => DD x22 x16 | s47 => DD x22 x17 | s48 => DD x22 x18 | s49 => DD x22 x19 | s50 => DD x22 x20 | s51 => DD x22 x21 | s52 => DD x22 x22 | s53 => DD x22 x23 | s54 => DD x22 x24 | s55 => DD x22 x25 | s56 => DD x22 x26 | s57 => DD x22 x27 | s58 => DD x22 x28 | s59 => DD x22 x29 | s60 => DD x22 x30 | s61 => DD x22 x31 | s62 => DD x22 x32 | s63 => DD x22 x33 | s64 => DD x22 x34 | s65 => DD x22 x35 | s66 => DD x22 x36 | s67 => DD x22 x37 | s68 => DD x22 x38 | s69 => DD x22 x39 | s70 => DD x22 x40 | s71 => DD x22 x41 | s72 => DD x22 x42 | s73 => DD x22 x43 | s74 => DD x22 x44 | s75 => DD x22 x45 | s76 => DD x22 x46 | s77 => DD x22 x47 | s78 => DD x22 x48 | s79 => DD x22 x49 | s80 => DD x22 x50 | s81 => DD x22 x51 | s82 => DD x22 x52 | s83 => DD x22 x53 | s84 => DD x22 x54 | s85 => DD x22 x55 | s86 => DD x22 x56 | s87 => DD x22 x57 | s88 => DD x22 x58 | s89 => DD x22 x59 | s90 => DD x22 x60 | s91 => DD x22 x61 | s92 => DD x22 x62 | s93 => DD x22 x63 | s94 => DD x23 x0 | s95 => DD x23 x1 | s96 => DD x23 x2 | s97 => DD x23 x3 | s98 => DD x23 x4 | s99 => DD x23 x5 | s100 => DD x23 x6 | s101 => DD x23 x7 | s102 => DD x23 x8 | s103 => DD x23 x9 | s104 => DD x23 x10 | s105 => DD x23 x11 | s106 => DD x23 x12 | s107 => DD x23 x13 | s108 => DD x23 x14 | s109 => DD x23 x15 | s110 => DD x23 x16 | s111 => DD x23 x17 | s112 => DD x23 x18 | s113 => DD x23 x19 | s114 => DD x23 x20 | s115 => DD x23 x21 | s116 => DD x23 x22 | s117 => DD x23 x23 | s118 => DD x23 x24 | s119 => DD x23 x25 | s120 => DD x23 x26 | s121 => DD x23 x27 | s122 => DD x23 x28 | s123 => DD x23 x29 | s124 => DD x23 x30 | s125 => DD x23 x31 | s126 => DD x23 x32 end.
Definition m1380 (c : sum2) : dd := match c with s0 => DD x21 x36 | s1 => DD x21 x37 | s2 => DD x21 x38 | s3 => DD x21 x39 | s4 => DD x21 x40 | s5 => DD x21 x41 | s6 => DD x21 x42 | s7 => DD x21 x43 | s8 => DD x21 x44 | s9 => DD x21 x45 | s10 => DD x21 x46 | s11 => DD x21 x47 | s12 => DD x21 x48 | s13 => DD x21 x49 | s14 => DD x21 x50 | s15 => DD x21 x51 | s16 => DD x21 x52 | s17 => DD x21 x53 | s18 => DD x21 x54 | s19 => DD x21 x55 | s20 => DD x21 x56 | s21 => DD x21 x57 | s22 => DD x21 x58 | s23 => DD x21 x59 | s24 => DD x21 x60 | s25 => DD x21 x61 | s26 => DD x21 x62 | s27 => DD x21 x63 | s28 => DD x22 x0 | s29 => DD x22 x1 | s30 => DD x22 x2 | s31 => DD x22 x3 | s32 => DD x22 x4 | s33 => DD x22 x5 | s34 => DD x22 x6 | s35 => DD x22 x7 | s36 => DD x22 x8 | s37 => DD x22 x9 | s38 => DD x22 x10 | s39 => DD x22 x11 | s40 => DD x22 x12 | s41 => DD x22 x13 | s42 => DD x22 x14 | s43 => DD x22 x15 | s44 => DD x22 x16 | s45 => DD x22 x17 | s46 => DD x22 x18 | s47 => DD x22 x19 | s48 => DD x22 x20 | s49 => DD x22 x21 | s50 => DD x22 x22 | s51 => DD x22 x23 | s52 => DD x22 x24 | s53 => DD x22 x25 | s54 => DD x22 x26 | s55 => DD x22 x27 | s56 => DD x22 x28 | s57 => DD x22 x29 | s58 => DD x22 x30 | s59 => DD x22 x31 | s60 => DD x22 x32 | s61 => DD x22 x33 | s62 => DD x22 x34 | s63 => DD x22 x35 | s64 => DD x22 x36 | s65 => DD x22 x37 | s66 => DD x22 x38 | s67 => DD x22 x39 | s68 => DD x22 x40 | s69 => DD x22 x41 | s70 => DD x22 x42 | s71 => DD x22 x43 | s72 => DD x22 x44 | s73 => DD x22 x45 | s74 => DD x22 x46 | s75 => DD x22 x47 | s76 => DD x22 x48 | s77 => DD x22 x49 | s78 => DD x22 x50 | s79 => DD x22 x51 | s80 => DD x22 x52 | s81 => DD x22 x53 | s82 => DD x22 x54 | s83 => DD x22 x55 | s84 => DD x22 x56 | s85 => DD x22 x57 | s86 => DD x22 x58 | s87 => DD x22 x59 | s88 => DD x22 x60 | s89 => DD x22 x61 | s90 => DD x22 x62 | s91 => DD x22 x63 | s92 => DD x23 x0 | s93 => DD x23 x1 | s94 => DD x23 x2 | s95 => DD x23 x3 | s96 => DD x23 x4 | s97 => DD x23 x5 | s98 => DD x23 x6 | s99 => DD x23 x7 | s100 => DD x23 x8 | s101 => DD x23 x9 | s102 => DD x23 x10 | s103 => DD x23 x11 | s104 => DD x23 x12 | s105 => DD x23 x13 | s106 => DD x23 x14 | s107 => DD x23 x15 | s108 => DD x23 x16 | s109 => DD x23 x17 | s110 => DD x23 x18 | s111 => DD x23 x19 | s112 => DD x23 x20 | s113 => DD x23 x21 | s114 => DD x23 x22 | s115 => DD x23 x23 | s116 => DD x23 x24 | s117 => DD x23 x25 | s118 => DD x23 x26 | s119 => DD x23 x27 | s120 => DD x23 x28 | s121 => DD x23 x29 | s122 => DD x23 x30 | s123 => DD x23 x31 | s124 => DD x23 x32 | s125 => DD x23 x33 | s126 => DD x23 x34 end.
Definition m1386 (c : sum2) : dd := match c with s0 => DD x21 x42 | s1 => DD x21 x43 | s2 => DD x21 x44 | s3 => DD x21 x45 | s4 => DD x21 x46 | s5 => DD x21 x47 | s6 => DD x21 x48 | s7 => DD x21 x49 | s8 => DD x21 x50 | s9 => DD x21 x51 | s10 => DD x21 x52 | s11 => DD x21 x53 | s12 => DD x21 x54 | s13 => DD x21 x55 | s14 => DD x21 x56 | s15 => DD x21 x57 | s16 => DD x21 x58 | s17 => DD x21 x59 | s18 => DD x21 x60 | s19 => DD x21 x61 | s20 => DD x21 x62 | s21 => DD x21 x63 | s22 => DD x22 x0 | s23 => DD x22 x1 | s24 => DD x22 x2 | s25 => DD x22 x3 | s26 => DD x22 x4 | s27 => DD x22 x5 | s28 => DD x22 x6 | s29 => DD x22 x7 | s30 => DD x22 x8 | s31 => DD x22 x9 | s32 => DD x22 x10 | s33 => DD x22 x11 | s34 => DD x22 x12 | s35 => DD x22 x13 | s36 => DD x22 x14 | s37 => DD x22 x15 | s38 => DD x22 x16 | s39 => DD x22 x17 | s40 => DD x22 x18 | s41 => DD x22 x19 | s42 => DD x22 x20 | s43 => DD x22 x21 | s44 => DD x22 x22 | s45 => DD x22 x23 | s46 => DD x22 x24 | s47 => DD x22 x25 | s48 => DD x22 x26 | s49 => DD x22 x27 | s50 => DD x22 x28 | s51 => DD x22 x29 | s52 => DD x22 x30 | s53 => DD x22 x31 | s54 => DD x22 x32 | s55 => DD x22 x33 | s56 => DD x22 x34 | s57 => DD x22 x35 | s58 => DD x22 x36 | s59 => DD x22 x37 | s60 => DD x22 x38 | s61 => DD x22 x39 | s62 => DD x22 x40 | s63 => DD x22 x41 | s64 => DD x22 x42 | s65 => DD x22 x43 | s66 => DD x22 x44 | s67 => DD x22 x45 | s68 => DD x22 x46 | s69 => DD x22 x47 | s70 => DD x22 x48 | s71 => DD x22 x49 | s72 => DD x22 x50 | s73 => DD x22 x51 | s74 => DD x22 x52 | s75 => DD x22 x53 | s76 => DD x22 x54 | s77 => DD x22 x55 | s78 => DD x22 x56 | s79 => DD x22 x57 | s80 => DD x22 x58 | s81 => DD x22 x59 | s82 => DD x22 x60 | s83 => DD x22 x61 | s84 => DD x22 x62 | s85 => DD x22 x63 | s86 => DD x23 x0 | s87 => DD x23 x1 | s88 => DD x23 x2 | s89 => DD x23 x3 | s90 => DD x23 x4 | s91 => DD x23 x5 | s92 => DD x23 x6 | s93 => DD x23 x7 | s94 => DD x23 x8 | s95 => DD x23 x9 | s96 => DD x23 x10 | s97 => DD x23 x11 | s98 => DD x23 x12 | s99 => DD x23 x13 | s100 => DD x23 x14 | s101 => DD x23 x15 | s102 => DD x23 x16 | s103 => DD x23 x17 | s104 => DD x23 x18 | s105 => DD x23 x19 | s106 => DD x23 x20 | s107 => DD x23 x21 | s108 => DD x23 x22 | s109 => DD x23 x23 | s110 => DD x23 x24 | s111 => DD x23 x25 | s112 => DD x23 x26 | s113 => DD x23 x27 | s114 => DD x23 x28 | s115 => DD x23 x29 | s116 => DD x23 x30 | s117 => DD x23 x31 | s118 => DD x23 x32 | s119 => DD x23 x33 | s120 => DD x23 x34 | s121 => DD x23 x35 | s122 => DD x23 x36 | s123 => DD x23 x37 | s124 => DD x23 x38 | s125 => DD x23 x39 | s126 => DD x23 x40 end.
Definition m1392 (c : sum2) : dd := match c with s0 => DD x21 x48 | s1 => DD x21 x49 | s2 => DD x21 x50 | s3 => DD x21 x51 | s4 => DD x21 x52 | s5 => DD x21 x53 | s6 => DD x21 x54 | s7 => DD x21 x55 | s8 => DD x21 x56 | s9 => DD x21 x57 | s10 => DD x21 x58 | s11 => DD x21 x59 | s12 => DD x21 x60 | s13 => DD x21 x61 | s14 => DD x21 x62 | s15 => DD x21 x63 | s16 => DD x22 x0 | s17 => DD x22 x1 | s18 => DD x22 x2 | s19 => DD x22 x3 | s20 => DD x22 x4 | s21 => DD x22 x5 | s22 => DD x22 x6 | s23 => DD x22 x7 | s24 => DD x22 x8 | s25 => DD x22 x9 | s26 => DD x22 x10 | s27 => DD x22 x11 | s28 => DD x22 x12 | s29 => DD x22 x13 | s30 => DD x22 x14 | s31 => DD x22 x15 | s32 => DD x22 x16 | s33 => DD x22 x17 | s34 => DD x22 x18 | s35 => DD x22 x19 | s36 => DD x22 x20 | s37 => DD x22 x21 | s38 => DD x22 x22 | s39 => DD x22 x23 | s40 => DD x22 x24 | s41 => DD x22 x25 | s42 => DD x22 x26 | s43 => DD x22 x27 | s44 => DD x22 x28 | s45 => DD x22 x29 | s46 => DD x22 x30 | s47 => DD x22 x31 | s48 => DD x22 x32 | s49 => DD x22 x33 | s50 => DD x22 x34 | s51 => DD x22 x35 | s52 => DD x22 x36 | s53 => DD x22 x37 | s54 => DD x22 x38 | s55 => DD x22 x39 | s56 => DD x22 x40 | s57 => DD x22 x41 | s58 => DD x22 x42 | s59 => DD x22 x43 | s60 => DD x22 x44 | s61 => DD x22 x45 | s62 => DD x22 x46 | s63 => DD x22 x47 | s64 => DD x22 x48 | s65 => DD x22 x49 | s66 => DD x22 x50 | s67 => DD x22 x51 | s68 => DD x22 x52 | s69 => DD x22 x53 | s70 => DD x22 x54 | s71 => DD x22 x55 | s72 => DD x22 x56 | s73 => DD x22 x57 | s74 => DD x22 x58 | s75 => DD x22 x59 | s76 => DD x22 x60 | s77 => DD x22 x61 | s78 => DD x22 x62 | s79 => DD x22 x63 | s80 => DD x23 x0 | s81 => DD x23 x1 | s82 => DD x23 x2 | s83 => DD x23 x3 | s84 => DD x23 x4 | s85 => DD x23 x5 | s86 => DD x23 x6 | s87 => DD x23 x7 | s88 => DD x23 x8 | s89 => DD x23 x9 | s90 => DD x23 x10 | s91 => DD x23 x11 | s92 => DD x23 x12 | s93 => DD x23 x13 | s94 => DD x23 x14 | s95 => DD x23 x15 | s96 => DD x23 x16 | s97 => DD x23 x17 | s98 => DD x23 x18 | s99 => DD x23 x19 | s100 => DD x23 x20 | s101 => DD x23 x21 | s102 => DD x23 x22 | s103 => DD x23 x23 | s104 => DD x23 x24 | s105 => DD x23 x25 | s106 => DD x23 x26 | s107 => DD x23 x27 | s108 => DD x23 x28 | s109 => DD x23 x29 | s110 => DD x23 x30 | s111 => DD x23 x31 | s112 => DD x23 x32 | s113 => DD x23 x33 | s114 => DD x23 x34 | s115 => DD x23 x35 | s116 => DD x23 x36 | s117 => DD x23 x37 | s118 => DD x23 x38 | s119 => DD x23 x39 | s120 => DD x23 x40 | s121 => DD x23 x41 | s122 => DD x23 x42 | s123 => DD x23 x43 | s124 => DD x23 x44 | s125 => DD x23 x45 | s126 => DD x23 x46 end.
Definition m1394 (c : sum2) : dd := match c with s0 => DD x21 x50 | s1 => DD x21 x51 | s2 => DD x21 x52 | s3 => DD x21 x53 | s4 => DD x21 x54 | s5 => DD x21 x55 | s6 => DD x21 x56 | s7 => DD x21 x57 | s8 => DD x21 x58 | s9 => DD x21 x59 | s10 => DD x21 x60 | s11 => DD x21 x61 | s12 => DD x21 x62 | s13 => DD x21 x63 | s14 => DD x22 x0 | s15 => DD x22 x1 | s16 => DD x22 x2 | s17 => DD x22 x3 | s18 => DD x22 x4 | s19 => DD x22 x5 | s20 => DD x22 x6 | s21 => DD x22 x7 | s22 => DD x22 x8 | s23 => DD x22 x9 | s24 => DD x22 x10 | s25 => DD x22 x11 | s26 => DD x22 x12 | s27 => DD x22 x13 | s28 => DD x22 x14 | s29 => DD x22 x15 | s30 => DD x22 x16 | s31 => DD x22 x17 | s32 => DD x22 x18 | s33 => DD x22 x19 | s34 => DD x22 x20 | s35 => DD x22 x21 | s36 => DD x22 x22 | s37 => DD x22 x23 | s38 => DD x22 x24 | s39 => DD x22 x25 | s40 => DD x22 x26 | s41 => DD x22 x27 | s42 => DD x22 x28 | s43 => DD x22 x29 | s44 => DD x22 x30 | s45 => DD x22 x31 | s46 => DD x22 x32 | s47 => DD x22 x33 | s48 => DD x22 x34 | s49 => DD x22 x35 | s50 => DD x22 x36 | s51 => DD x22 x37 | s52 => DD x22 x38 | s53 => DD x22 x39 | s54 => DD x22 x40 | s55 => DD x22 x41 | s56 => DD x22 x42 | s57 => DD x22 x43 | s58 => DD x22 x44 | s59 => DD x22 x45 | s60 => DD x22 x46 | s61 => DD x22 x47 | s62 => DD x22 x48 | s63 => DD x22 x49 | s64 => DD x22 x50 | s65 => DD x22 x51 | s66 => DD x22 x52 | s67 => DD x22 x53 | s68 => DD x22 x54 | s69 => DD x22 x55 | s70 => DD x22 x56 | s71 => DD x22 x57 | s72 => DD x22 x58 | s73 => DD x22 x59 | s74 => DD x22 x60 | s75 => DD x22 x61 | s76 => DD x22 x62 | s77 => DD x22 x63 | s78 => DD x23 x0 | s79 => DD x23 x1 | s80 => DD x23 x2 | s81 => DD x23 x3 | s82 => DD x23 x4 | s83 => DD x23 x5 | s84 => DD x23 x6 | s85 => DD x23 x7 | s86 => DD x23 x8 | s87 => DD x23 x9 | s88 => DD x23 x10 | s89 => DD x23 x11 | s90 => DD x23 x12 | s91 => DD x23 x13 | s92 => DD x23 x14 | s93 => DD x23 x15 | s94 => DD x23 x16 | s95 => DD x23 x17 | s96 => DD x23 x18 | s97 => DD x23 x19 | s98 => DD x23 x20 | s99 => DD x23 x21 | s100 => DD x23 x22 | s101 => DD x23 x23 | s102 => DD x23 x24 | s103 => DD x23 x25 | s104 => DD x23 x26 | s105 => DD x23 x27 | s106 => DD x23 x28 | s107 => DD x23 x29 | s108 => DD x23 x30 | s109 => DD x23 x31 | s110 => DD x23 x32 | s111 => DD x23 x33 | s112 => DD x23 x34 | s113 => DD x23 x35 | s114 => DD x23 x36 | s115 => DD x23 x37 | s116 => DD x23 x38 | s117 => DD x23 x39 | s118 => DD x23 x40 | s119 => DD x23 x41 | s120 => DD x23 x42 | s121 => DD x23 x43 | s122 => DD x23 x44 | s123 => DD x23 x45 | s124 => DD x23 x46 | s125 => DD x23 x47 | s126 => DD x23 x48 end.
Definition m1395 (c : sum2) : dd := match c with s0 => DD x21 x51 | s1 => DD x21 x52 | s2 => DD x21 x53 | s3 => DD x21 x54 | s4 => DD x21 x55 | s5 => DD x21 x56 | s6 => DD x21 x57 | s7 => DD x21 x58 | s8 => DD x21 x59 | s9 => DD x21 x60 | s10 => DD x21 x61 | s11 => DD x21 x62 | s12 => DD x21 x63 | s13 => DD x22 x0 | s14 => DD x22 x1 | s15 => DD x22 x2 | s16 => DD x22 x3 | s17 => DD x22 x4 | s18 => DD x22 x5 | s19 => DD x22 x6 | s20 => DD x22 x7 | s21 => DD x22 x8 | s22 => DD x22 x9 | s23 => DD x22 x10 | s24 => DD x22 x11 | s25 => DD x22 x12 | s26 => DD x22 x13 | s27 => DD x22 x14 | s28 => DD x22 x15 | s29 => DD x22 x16 | s30 => DD x22 x17 | s31 => DD x22 x18 | s32 => DD x22 x19 | s33 => DD x22 x20 | s34 => DD x22 x21 | s35 => DD x22 x22 | s36 => DD x22 x23 | s37 => DD x22 x24 | s38 => DD x22 x25 | s39 => DD x22 x26 | s40 => DD x22 x27 | s41 => DD x22 x28 | s42 => DD x22 x29 | s43 => DD x22 x30 | s44 => DD x22 x31 | s45 => DD x22 x32 | s46 => DD x22 x33 | s47 => DD x22 x34 | s48 => DD x22 x35 | s49 => DD x22 x36 | s50 => DD x22 x37 | s51 => DD x22 x38 | s52 => DD x22 x39 | s53 => DD x22 x40 | s54 => DD x22 x41 | s55 => DD x22 x42 | s56 => DD x22 x43 | s57 => DD x22 x44 | s58 => DD x22 x45 | s59 => DD x22 x46 | s60 => DD x22 x47 | s61 => DD x22 x48 | s62 => DD x22 x49 | s63 => DD x22 x50 | s64 => DD x22 x51 | s65 => DD x22 x52 | s66 => DD x22 x53 | s67 => DD x22 x54 | s68 => DD x22 x55 | s69 => DD x22 x56 | s70 => DD x22 x57 | s71 => DD x22 x58 | s72 => DD x22 x59 | s73 => DD x22 x60 | s74 => DD x22 x61 | s75 => DD x22 x62 | s76 => DD x22 x63 | s77 => DD x23 x0 | s78 => DD x23 x1 | s79 => DD x23 x2 | s80 => DD x23 x3 | s81 => DD x23 x4 | s82 => DD x23 x5 | s83 => DD x23 x6 | s84 => DD x23 x7 | s85 => DD x23 x8 | s86 => DD x23 x9 | s87 => DD x23 x10 | s88 => DD x23 x11 | s89 => DD x23 x12 | s90 => DD x23 x13 | s91 => DD x23 x14 | s92 => DD x23 x15 | s93 => DD x23 x16 | s94 => DD x23 x17 | s95 => DD x23 x18 | s96 => DD x23 x19 | s97 => DD x23 x20 | s98 => DD x23 x21 | s99 => DD x23 x22 | s100 => DD x23 x23 | s101 => DD x23 x24 | s102 => DD x23 x25 | s103 => DD x23 x26 | s104 => DD x23 x27 | s105 => DD x23 x28 | s106 => DD x23 x29 | s107 => DD x23 x30 | s108 => DD x23 x31 | s109 => DD x23 x32 | s110 => DD x23 x33 | s111 => DD x23 x34 | s112 => DD x23 x35 | s113 => DD x23 x36 | s114 => DD x23 x37 | s115 => DD x23 x38 | s116 => DD x23 x39 | s117 => DD x23 x40 | s118 => DD x23 x41 | s119 => DD x23 x42 | s120 => DD x23 x43 | s121 => DD x23 x44 | s122 => DD x23 x45 | s123 => DD x23 x46 | s124 => DD x23 x47 | s125 => DD x23 x48 | s126 => DD x23 x49 end.
Definition m1400 (c : sum2) : dd := match c with s0 => DD x21 x56 | s1 => DD x21 x57 | s2 => DD x21 x58 | s3 => DD x21 x59 | s4 => DD x21 x60 | s5 => DD x21 x61 | s6 => DD x21 x62 | s7 => DD x21 x63 | s8 => DD x22 x0 | s9 => DD x22 x1 | s10 => DD x22 x2 | s11 => DD x22 x3 | s12 => DD x22 x4 | s13 => DD x22 x5 | s14 => DD x22 x6 | s15 => DD x22 x7 | s16 => DD x22 x8 | s17 => DD x22 x9 | s18 => DD x22 x10 | s19 => DD x22 x11 | s20 => DD x22 x12 | s21 => DD x22 x13 | s22 => DD x22 x14 | s23 => DD x22 x15 | s24 => DD x22 x16 | s25 => DD x22 x17 | s26 => DD x22 x18 | s27 => DD x22 x19 | s28 => DD x22 x20 | s29 => DD x22 x21 | s30 => DD x22 x22 | s31 => DD x22 x23 | s32 => DD x22 x24 | s33 => DD x22 x25 | s34 => DD x22 x26 | s35 => DD x22 x27 | s36 => DD x22 x28 | s37 => DD x22 x29 | s38 => DD x22 x30 | s39 => DD x22 x31 | s40 => DD x22 x32 | s41 => DD x22 x33 | s42 => DD x22 x34 | s43 => DD x22 x35 | s44 => DD x22 x36 | s45 => DD x22 x37 | s46 => DD x22 x38 | s47 => DD x22 x39 | s48 => DD x22 x40 | s49 => DD x22 x41 | s50 => DD x22 x42 | s51 => DD x22 x43 | s52 => DD x22 x44 | s53 => DD x22 x45 | s54 => DD x22 x46 | s55 => DD x22 x47 | s56 => DD x22 x48 | s57 => DD x22 x49 | s58 => DD x22 x50 | s59 => DD x22 x51 | s60 => DD x22 x52 | s61 => DD x22 x53 | s62 => DD x22 x54 | s63 => DD x22 x55 | s64 => DD x22 x56 | s65 => DD x22 x57 | s66 => DD x22 x58 | s67 => DD x22 x59 | s68 => DD x22 x60 | s69 => DD x22 x61 | s70 => DD x22 x62 | s71 => DD x22 x63 | s72 => DD x23 x0 | s73 => DD x23 x1 | s74 => DD x23 x2 | s75 => DD x23 x3 | s76 => DD x23 x4 | s77 => DD x23 x5 | s78 => DD x23 x6 | s79 => DD x23 x7 | s80 => DD x23 x8 | s81 => DD x23 x9 | s82 => DD x23 x10 | s83 => DD x23 x11 | s84 => DD x23 x12 | s85 => DD x23 x13 | s86 => DD x23 x14 | s87 => DD x23 x15 | s88 => DD x23 x16 | s89 => DD x23 x17 | s90 => DD x23 x18 | s91 => DD x23 x19 | s92 => DD x23 x20 | s93 => DD x23 x21 | s94 => DD x23 x22 | s95 => DD x23 x23 | s96 => DD x23 x24 | s97 => DD x23 x25 | s98 => DD x23 x26 | s99 => DD x23 x27 | s100 => DD x23 x28 | s101 => DD x23 x29 | s102 => DD x23 x30 | s103 => DD x23 x31 | s104 => DD x23 x32 | s105 => DD x23 x33 | s106 => DD x23 x34 | s107 => DD x23 x35 | s108 => DD x23 x36 | s109 => DD x23 x37 | s110 => DD x23 x38 | s111 => DD x23 x39 | s112 => DD x23 x40 | s113 => DD x23 x41 | s114 => DD x23 x42 | s115 => DD x23 x43 | s116 => DD x23 x44 | s117 => DD x23 x45 | s118 => DD x23 x46 | s119 => DD x23 x47 | s120 => DD x23 x48 | s121 => DD x23 x49 | s122 => DD x23 x50 | s123 => DD x23 x51 | s124 => DD x23 x52 | s125 => DD x23 x53 | s126 => DD x23 x54 end.
Definition m1403 (c : sum2) : dd := match c with s0 => DD x21 x59 | s1 => DD x21 x60 | s2 => DD x21 x61 | s3 => DD x21 x62 | s4 => DD x21 x63 | s5 => DD x22 x0 | s6 => DD x22 x1 | s7 => DD x22 x2 | s8 => DD x22 x3 | s9 => DD x22 x4 | s10 => DD x22 x5 | s11 => DD x22 x6 | s12 => DD x22 x7 | s13 => DD x22 x8 | s14 => DD x22 x9 | s15 => DD x22 x10 | s16 => DD x22 x11 | s17 => DD x22 x12 | s18 => DD x22 x13 | s19 => DD x22 x14 | s20 => DD x22 x15 | s21 => DD x22 x16 | s22 => DD x22 x17 | s23 => DD x22 x18 | s24 => DD x22 x19 | s25 => DD x22 x20 | s26 => DD x22 x21 | s27 => DD x22 x22 | s28 => DD x22 x23 | s29 => DD x22 x24 | s30 => DD x22 x25 | s31 => DD x22 x26 | s32 => DD x22 x27 | s33 => DD x22 x28 | s34 => DD x22 x29 | s35 => DD x22 x30 | s36 => DD x22 x31 | s37 => DD x22 x32 | s38 => DD x22 x33 | s39 => DD x22 x34 | s40 => DD x22 x35 | s41 => DD x22 x36 | s42 => DD x22 x37 | s43 => DD x22 x38 | s44 => DD x22 x39 | s45 => DD x22 x40 | s46 => DD x22 x41 | s47 => DD x22 x42 | s48 => DD x22 x43 | s49 => DD x22 x44 | s50 => DD x22 x45 | s51 => DD x22 x46 | s52 => DD x22 x47 | s53 => DD x22 x48 | s54 => DD x22 x49 | s55 => DD x22 x50 | s56 => DD x22 x51 | s57 => DD x22 x52 | s58 => DD x22 x53 | s59 => DD x22 x54 | s60 => DD x22 x55 | s61 => DD x22 x56 | s62 => DD x22 x57 | s63 => DD x22 x58 | s64 => DD x22 x59 | s65 => DD x22 x60 | s66 => DD x22 x61 | s67 => DD x22 x62 | s68 => DD x22 x63 | s69 => DD x23 x0 | s70 => DD x23 x1 | s71 => DD x23 x2 | s72 => DD x23 x3 | s73 => DD x23 x4 | s74 => DD x23 x5 | s75 => DD x23 x6 | s76 => DD x23 x7 | s77 => DD x23 x8 | s78 => DD x23 x9 | s79 => DD x23 x10 | s80 => DD x23 x11 | s81 => DD x23 x12 | s82 => DD x23 x13 | s83 => DD x23 x14 | s84 => DD x23 x15 | s85 => DD x23 x16 | s86 => DD x23 x17 | s87 => DD x23 x18 | s88 => DD x23 x19 | s89 => DD x23 x20 | s90 => DD x23 x21 | s91 => DD x23 x22 | s92 => DD x23 x23 | s93 => DD x23 x24 | s94 => DD x23 x25 | s95 => DD x23 x26 | s96 => DD x23 x27 | s97 => DD x23 x28 | s98 => DD x23 x29 | s99 => DD x23 x30 | s100 => DD x23 x31 | s101 => DD x23 x32 | s102 => DD x23 x33 | s103 => DD x23 x34 | s104 => DD x23 x35 | s105 => DD x23 x36 | s106 => DD x23 x37 | s107 => DD x23 x38 | s108 => DD x23 x39 | s109 => DD x23 x40 | s110 => DD x23 x41 | s111 => DD x23 x42 | s112 => DD x23 x43 | s113 => DD x23 x44 | s114 => DD x23 x45 | s115 => DD x23 x46 | s116 => DD x23 x47 | s117 => DD x23 x48 | s118 => DD x23 x49 | s119 => DD x23 x50 | s120 => DD x23 x51 | s121 => DD x23 x52 | s122 => DD x23 x53 | s123 => DD x23 x54 | s124 => DD x23 x55 | s125 => DD x23 x56 | s126 => DD x23 x57 end.
Definition m1404 (c : sum2) : dd := match c with s0 => DD x21 x60 | s1 => DD x21 x61 | s2 => DD x21 x62 | s3 => DD x21 x63 | s4 => DD x22 x0 | s5 => DD x22 x1 | s6 => DD x22 x2 | s7 => DD x22 x3 | s8 => DD x22 x4 | s9 => DD x22 x5 | s10 => DD x22 x6 | s11 => DD x22 x7 | s12 => DD x22 x8 | s13 => DD x22 x9 | s14 => DD x22 x10 | s15 => DD x22 x11 | s16 => DD x22 x12 | s17 => DD x22 x13 | s18 => DD x22 x14 | s19 => DD x22 x15 | s20 => DD x22 x16 | s21 => DD x22 x17 | s22 => DD x22 x18 | s23 => DD x22 x19 | s24 => DD x22 x20 | s25 => DD x22 x21 | s26 => DD x22 x22 | s27 => DD x22 x23 | s28 => DD x22 x24 | s29 => DD x22 x25 | s30 => DD x22 x26 | s31 => DD x22 x27 | s32 => DD x22 x28 | s33 => DD x22 x29 | s34 => DD x22 x30 | s35 => DD x22 x31 | s36 => DD x22 x32 | s37 => DD x22 x33 | s38 => DD x22 x34 | s39 => DD x22 x35 | s40 => DD x22 x36 | s41 => DD x22 x37 | s42 => DD x22 x38 | s43 => DD x22 x39 | s44 => DD x22 x40 | s45 => DD x22 x41 | s46 => DD x22 x42 | s47 => DD x22 x43 | s48 => DD x22 x44 | s49 => DD x22 x45 | s50 => DD x22 x46 | s51 => DD x22 x47 | s52 => DD x22 x48 | s53 => DD x22 x49 | s54 => DD x22 x50 | s55 => DD x22 x51 | s56 => DD x22 x52 | s57 => DD x22 x53 | s58 => DD x22 x54 | s59 => DD x22 x55 | s60 => DD x22 x56 | s61 => DD x22 x57 | s62 => DD x22 x58 | s63 => DD x22 x59 | s64 => DD x22 x60 | s65 => DD x22 x61 | s66 => DD x22 x62 | s67 => DD x22 x63 | s68 => DD x23 x0 | s69 => DD x23 x1 | s70 => DD x23 x2 | s71 => DD x23 x3 | s72 => DD x23 x4 | s73 => DD x23 x5 | s74 => DD x23 x6 | s75 => DD x23 x7 | s76 => DD x23 x8 | s77 => DD x23 x9 | s78 => DD x23 x10 | s79 => DD x23 x11 | s80 => DD x23 x12 | s81 => DD x23 x13 | s82 => DD x23 x14 | s83 => DD x23 x15 | s84 => DD x23 x16 | s85 => DD x23 x17 | s86 => DD x23 x18 | s87 => DD x23 x19 | s88 => DD x23 x20 | s89 => DD x23 x21 | s90 => DD x23 x22 | s91 => DD x23 x23 | s92 => DD x23 x24 | s93 => DD x23 x25 | s94 => DD x23 x26 | s95 => DD x23 x27 | s96 => DD x23 x28 | s97 => DD x23 x29 | s98 => DD x23 x30 | s99 => DD x23 x31 | s100 => DD x23 x32 | s101 => DD x23 x33 | s102 => DD x23 x34 | s103 => DD x23 x35 | s104 => DD x23 x36 | s105 => DD x23 x37 | s106 => DD x23 x38 | s107 => DD x23 x39 | s108 => DD x23 x40 | s109 => DD x23 x41 | s110 => DD x23 x42 | s111 => DD x23 x43 | s112 => DD x23 x44 | s113 => DD x23 x45 | s114 => DD x23 x46 | s115 => DD x23 x47 | s116 => DD x23 x48 | s117 => DD x23 x49 | s118 => DD x23 x50 | s119 => DD x23 x51 | s120 => DD x23 x52 | s121 => DD x23 x53 | s122 => DD x23 x54 | s123 => DD x23 x55 | s124 => DD x23 x56 | s125 => DD x23 x57 | s126 => DD x23 x58 end.
Definition m1406 (c : sum2) : dd := match c with s0 => DD x21 x62 | s1 => DD x21 x63 | s2 => DD x22 x0 | s3 => DD x22 x1 | s4 => DD x22 x2 | s5 => DD x22 x3 | s6 => DD x22 x4 | s7 => DD x22 x5 | s8 => DD x22 x6 | s9 => DD x22 x7 | s10 => DD x22 x8 | s11 => DD x22 x9 | s12 => DD x22 x10 | s13 => DD x22 x11 | s14 => DD x22 x12 | s15 => DD x22 x13 | s16 => DD x22 x14 | s17 => DD x22 x15 | s18 => DD x22 x16 | s19 => DD x22 x17 | s20 => DD x22 x18 | s21 => DD x22 x19 | s22 => DD x22 x20 | s23 => DD x22 x21 | s24 => DD x22 x22 | s25 => DD x22 x23 | s26 => DD x22 x24 | s27 => DD x22 x25 | s28 => DD x22 x26 | s29 => DD x22 x27 | s30 => DD x22 x28 | s31 => DD x22 x29 | s32 => DD x22 x30 | s33 => DD x22 x31 | s34 => DD x22 x32 | s35 => DD x22 x33 | s36 => DD x22 x34 | s37 => DD x22 x35 | s38 => DD x22 x36 | s39 => DD x22 x37 | s40 => DD x22 x38 | s41 => DD x22 x39 | s42 => DD x22 x40 | s43 => DD x22 x41 | s44 => DD x22 x42 | s45 => DD x22 x43 | s46 => DD x22 x44 | s47 => DD x22 x45 | s48 => DD x22 x46 | s49 => DD x22 x47 | s50 => DD x22 x48 | s51 => DD x22 x49 | s52 => DD x22 x50 | s53 => DD x22 x51 | s54 => DD x22 x52 | s55 => DD x22 x53 | s56 => DD x22 x54 | s57 => DD x22 x55 | s58 => DD x22 x56 | s59 => DD x22 x57 | s60 => DD x22 x58 | s61 => DD x22 x59 | s62 => DD x22 x60 | s63 => DD x22 x61 | s64 => DD x22 x62 | s65 => DD x22 x63 | s66 => DD x23 x0 | s67 => DD x23 x1 | s68 => DD x23 x2 | s69 => DD x23 x3 | s70 => DD x23 x4 | s71 => DD x23 x5 | s72 => DD x23 x6 | s73 => DD x23 x7 | s74 => DD x23 x8 | s75 => DD x23 x9 | s76 => DD x23 x10 | s77 => DD x23 x11 | s78 => DD x23 x12 | s79 => DD x23 x13 | s80 => DD x23 x14 | s81 => DD x23 x15 | s82 => DD x23 x16 | s83 => DD x23 x17 | s84 => DD x23 x18 | s85 => DD x23 x19 | s86 => DD x23 x20 | s87 => DD x23 x21 | s88 => DD x23 x22 | s89 => DD x23 x23 | s90 => DD x23 x24 | s91 => DD x23 x25 | s92 => DD x23 x26 | s93 => DD x23 x27 | s94 => DD x23 x28 | s95 => DD x23 x29 | s96 => DD x23 x30 | s97 => DD x23 x31 | s98 => DD x23 x32 | s99 => DD x23 x33 | s100 => DD x23 x34 | s101 => DD x23 x35 | s102 => DD x23 x36 | s103 => DD x23 x37 | s104 => DD x23 x38 | s105 => DD x23 x39 | s106 => DD x23 x40 | s107 => DD x23 x41 | s108 => DD x23 x42 | s109 => DD x23 x43 | s110 => DD x23 x44 | s111 => DD x23 x45 | s112 => DD x23 x46 | s113 => DD x23 x47 | s114 => DD x23 x48 | s115 => DD x23 x49 | s116 => DD x23 x50 | s117 => DD x23 x51 | s118 => DD x23 x52 | s119 => DD x23 x53 | s120 => DD x23 x54 | s121 => DD x23 x55 | s122 => DD x23 x56 | s123 => DD x23 x57 | s124 => DD x23 x58 | s125 => DD x23 x59 | s126 => DD x23 x60 end.
Definition m1408 (c : sum2) : dd := match c with s0 => DD x22 x0 | s1 => DD x22 x1 | s2 => DD x22 x2 | s3 => DD x22 x3 | s4 => DD x22 x4 | s5 => DD x22 x5 | s6 => DD x22 x6 | s7 => DD x22 x7 | s8 => DD x22 x8 | s9 => DD x22 x9 | s10 => DD x22 x10 | s11 => DD x22 x11 | s12 => DD x22 x12 | s13 => DD x22 x13 | s14 => DD x22 x14 | s15 => DD x22 x15 | s16 => DD x22 x16 | s17 => DD x22 x17 | s18 => DD x22 x18 | s19 => DD x22 x19 | s20 => DD x22 x20 | s21 => DD x22 x21 | s22 => DD x22 x22 | s23 => DD x22 x23 | s24 => DD x22 x24 | s25 => DD x22 x25 | s26 => DD x22 x26 | s27 => DD x22 x27 | s28 => DD x22 x28 | s29 => DD x22 x29 | s30 => DD x22 x30 | s31 => DD x22 x31 | s32 => DD x22 x32 | s33 => DD x22 x33 | s34 => DD x22 x34 | s35 => DD x22 x35 | s36 => DD x22 x36 | s37 => DD x22 x37 | s38 => DD x22 x38 | s39 => DD x22 x39 | s40 => DD x22 x40 | s41 => DD x22 x41 | s42 => DD x22 x42 | s43 => DD x22 x43 | s44 => DD x22 x44 | s45 => DD x22 x45 | s46 => DD x22 x46 | s47 => DD x22 x47 | s48 => DD x22 x48 | s49 => DD x22 x49 | s50 => DD x22 x50 | s51 => DD x22 x51 | s52 => DD x22 x52 | s53 => DD x22 x53 | s54 => DD x22 x54 | s55 => DD x22 x55 | s56 => DD x22 x56 | s57 => DD x22 x57 | s58 => DD x22 x58 | s59 => DD x22 x59 | s60 => DD x22 x60 | s61 => DD x22 x61 | s62 => DD x22 x62 | s63 => DD x22 x63 | s64 => DD x23 x0 | s65 => DD x23 x1 | s66 => DD x23 x2 | s67 => DD x23 x3 | s68 => DD x23 x4 | s69 => DD x23 x5 | s70 => DD x23 x6 | s71 => DD x23 x7 | s72 => DD x23 x8 | s73 => DD x23 x9 | s74 => DD x23 x10 | s75 => DD x23 x11 | s76 => DD x23 x12 | s77 => DD x23 x13 | s78 => DD x23 x14 | s79 => DD x23 x15 | s80 => DD x23 x16 | s81 => DD x23 x17 | s82 => DD x23 x18 | s83 => DD x23 x19 | s84 => DD x23 x20 | s85 => DD x23 x21 | s86 => DD x23 x22 | s87 => DD x23 x23 | s88 => DD x23 x24 | s89 => DD x23 x25 | s90 => DD x23 x26 | s91 => DD x23 x27 | s92 => DD x23 x28 | s93 => DD x23 x29 | s94 => DD x23 x30 | s95 => DD x23 x31 | s96 => DD x23 x32 | s97 => DD x23 x33 | s98 => DD x23 x34 | s99 => DD x23 x35 | s100 => DD x23 x36 | s101 => DD x23 x37 | s102 => DD x23 x38 | s103 => DD x23 x39 | s104 => DD x23 x40 | s105 => DD x23 x41 | s106 => DD x23 x42 | s107 => DD x23 x43 | s108 => DD x23 x44 | s109 => DD x23 x45 | s110 => DD x23 x46 | s111 => DD x23 x47 | s112 => DD x23 x48 | s113 => DD x23 x49 | s114 => DD x23 x50 | s115 => DD x23 x51 | s116 => DD x23 x52 | s117 => DD x23 x53 | s118 => DD x23 x54 | s119 => DD x23 x55 | s120 => DD x23 x56 | s121 => DD x23 x57 | s122 => DD x23 x58 | s123 => DD x23 x59 | s124 => DD x23 x60 | s125 => DD x23 x61 | s126 => DD x23 x62 end.
Definition m1410 (c : sum2) : dd := match c with s0 => DD x22 x2 | s1 => DD x22 x3 | s2 => DD x22 x4 | s3 => DD x22 x5 | s4 => DD x22 x6 | s5 => DD x22 x7 | s6 => DD x22 x8 | s7 => DD x22 x9 | s8 => DD x22 x10 | s9 => DD x22 x11 | s10 => DD x22 x12 | s11 => DD x22 x13 | s12 => DD x22 x14 | s13 => DD x22 x15 | s14 => DD x22 x16 | s15 => DD x22 x17 | s16 => DD x22 x18 | s17 => DD x22 x19 | s18 => DD x22 x20 | s19 => DD x22 x21 | s20 => DD x22 x22 | s21 => DD x22 x23 | s22 => DD x22 x24 | s23 => DD x22 x25 | s24 => DD x22 x26 | s25 => DD x22 x27 | s26 => DD x22 x28 | s27 => DD x22 x29 | s28 => DD x22 x30 | s29 => DD x22 x31 | s30 => DD x22 x32 | s31 => DD x22 x33 | s32 => DD x22 x34 | s33 => DD x22 x35 | s34 => DD x22 x36 | s35 => DD x22 x37 | s36 => DD x22 x38 | s37 => DD x22 x39 | s38 => DD x22 x40 | s39 => DD x22 x41 | s40 => DD x22 x42 | s41 => DD x22 x43 | s42 => DD x22 x44 | s43 => DD x22 x45 | s44 => DD x22 x46 | s45 => DD x22 x47 | s46 => DD x22 x48 | s47 => DD x22 x49 | s48 => DD x22 x50 | s49 => DD x22 x51 | s50 => DD x22 x52 | s51 => DD x22 x53 | s52 => DD x22 x54 | s53 => DD x22 x55 | s54 => DD x22 x56 | s55 => DD x22 x57 | s56 => DD x22 x58 | s57 => DD x22 x59 | s58 => DD x22 x60 | s59 => DD x22 x61 | s60 => DD x22 x62 | s61 => DD x22 x63 | s62 => DD x23 x0 | s63 => DD x23 x1 | s64 => DD x23 x2 | s65 => DD x23 x3 | s66 => DD x23 x4 | s67 => DD x23 x5 | s68 => DD x23 x6 | s69 => DD x23 x7 | s70 => DD x23 x8 | s71 => DD x23 x9 | s72 => DD x23 x10 | s73 => DD x23 x11 | s74 => DD x23 x12 | s75 => DD x23 x13 | s76 => DD x23 x14 | s77 => DD x23 x15 | s78 => DD x23 x16 | s79 => DD x23 x17 | s80 => DD x23 x18 | s81 => DD x23 x19 | s82 => DD x23 x20 | s83 => DD x23 x21 | s84 => DD x23 x22 | s85 => DD x23 x23 | s86 => DD x23 x24 | s87 => DD x23 x25 | s88 => DD x23 x26 | s89 => DD x23 x27 | s90 => DD x23 x28 | s91 => DD x23 x29 | s92 => DD x23 x30 | s93 => DD x23 x31 | s94 => DD x23 x32 | s95 => DD x23 x33 | s96 => DD x23 x34 | s97 => DD x23 x35 | s98 => DD x23 x36 | s99 => DD x23 x37 | s100 => DD x23 x38 | s101 => DD x23 x39 | s102 => DD x23 x40 | s103 => DD x23 x41 | s104 => DD x23 x42 | s105 => DD x23 x43 | s106 => DD x23 x44 | s107 => DD x23 x45 | s108 => DD x23 x46 | s109 => DD x23 x47 | s110 => DD x23 x48 | s111 => DD x23 x49 | s112 => DD x23 x50 | s113 => DD x23 x51 | s114 => DD x23 x52 | s115 => DD x23 x53 | s116 => DD x23 x54 | s117 => DD x23 x55 | s118 => DD x23 x56 | s119 => DD x23 x57 | s120 => DD x23 x58 | s121 => DD x23 x59 | s122 => DD x23 x60 | s123 => DD x23 x61 | s124 => DD x23 x62 | s125 => DD x23 x63 | s126 => DD x24 x0 end.
Definition m1416 (c : sum2) : dd := match c with s0 => DD x22 x8 | s1 => DD x22 x9 | s2 => DD x22 x10 | s3 => DD x22 x11 | s4 => DD x22 x12 | s5 => DD x22 x13 | s6 => DD x22 x14 | s7 => DD x22 x15 | s8 => DD x22 x16 | s9 => DD x22 x17 | s10 => DD x22 x18 | s11 => DD x22 x19 | s12 => DD x22 x20 | s13 => DD x22 x21 | s14 => DD x22 x22 | s15 => DD x22 x23 | s16 => DD x22 x24 | s17 => DD x22 x25 | s18 => DD x22 x26 | s19 => DD x22 x27 | s20 => DD x22 x28 | s21 => DD x22 x29 | s22 => DD x22 x30 | s23 => DD x22 x31 | s24 => DD x22 x32 | s25 => DD x22 x33 | s26 => DD x22 x34 | s27 => DD x22 x35 | s28 => DD x22 x36 | s29 => DD x22 x37 | s30 => DD x22 x38 | s31 => DD x22 x39 | s32 => DD x22 x40 | s33 => DD x22 x41 | s34 => DD x22 x42 | s35 => DD x22 x43 | s36 => DD x22 x44 | s37 => DD x22 x45 | s38 => DD x22 x46 | s39 => DD x22 x47 | s40 => DD x22 x48 | s41 => DD x22 x49 | s42 => DD x22 x50 | s43 => DD x22 x51 | s44 => DD x22 x52 | s45 => DD x22 x53 | s46 => DD x22 x54 | s47 => DD x22 x55 | s48 => DD x22 x56 | s49 => DD x22 x57 | s50 => DD x22 x58 | s51 => DD x22 x59 | s52 => DD x22 x60 | s53 => DD x22 x61 | s54 => DD x22 x62 | s55 => DD x22 x63 | s56 => DD x23 x0 | s57 => DD x23 x1 | s58 => DD x23 x2 | s59 => DD x23 x3 | s60 => DD x23 x4 | s61 => DD x23 x5 | s62 => DD x23 x6 | s63 => DD x23 x7 | s64 => DD x23 x8 | s65 => DD x23 x9 | s66 => DD x23 x10 | s67 => DD x23 x11 | s68 => DD x23 x12 | s69 => DD x23 x13 | s70 => DD x23 x14 | s71 => DD x23 x15 | s72 => DD x23 x16 | s73 => DD x23 x17 | s74 => DD x23 x18 | s75 => DD x23 x19 | s76 => DD x23 x20 | s77 => DD x23 x21 | s78 => DD x23 x22 | s79 => DD x23 x23 | s80 => DD x23 x24 | s81 => DD x23 x25 | s82 => DD x23 x26 | s83 => DD x23 x27 | s84 => DD x23 x28 | s85 => DD x23 x29 | s86 => DD x23 x30 | s87 => DD x23 x31 | s88 => DD x23 x32 | s89 => DD x23 x33 | s90 => DD x23 x34 | s91 => DD x23 x35 | s92 => DD x23 x36 | s93 => DD x23 x37 | s94 => DD x23 x38 | s95 => DD x23 x39 | s96 => DD x23 x40 | s97 => DD x23 x41 | s98 => DD x23 x42 | s99 => DD x23 x43 | s100 => DD x23 x44 | s101 => DD x23 x45 | s102 => DD x23 x46 | s103 => DD x23 x47 | s104 => DD x23 x48 | s105 => DD x23 x49 | s106 => DD x23 x50 | s107 => DD x23 x51 | s108 => DD x23 x52 | s109 => DD x23 x53 | s110 => DD x23 x54 | s111 => DD x23 x55 | s112 => DD x23 x56 | s113 => DD x23 x57 | s114 => DD x23 x58 | s115 => DD x23 x59 | s116 => DD x23 x60 | s117 => DD x23 x61 | s118 => DD x23 x62 | s119 => DD x23 x63 | s120 => DD x24 x0 | s121 => DD x24 x1 | s122 => DD x24 x2 | s123 => DD x24 x3 | s124 => DD x24 x4 | s125 => DD x24 x5 | s126 => DD x24 x6 end.
Definition m1419 (c : sum2) : dd := match c with s0 => DD x22 x11 | s1 => DD x22 x12 | s2 => DD x22 x13 | s3 => DD x22 x14 | s4 => DD x22 x15 | s5 => DD x22 x16 | s6 => DD x22 x17 | s7 => DD x22 x18 | s8 => DD x22 x19 | s9 => DD x22 x20 | s10 => DD x22 x21 | s11 => DD x22 x22 | s12 => DD x22 x23 | s13 => DD x22 x24 | s14 => DD x22 x25 | s15 => DD x22 x26 | s16 => DD x22 x27 | s17 => DD x22 x28 | s18 => DD x22 x29 | s19 => DD x22 x30 | s20 => DD x22 x31 | s21 => DD x22 x32 | s22 => DD x22 x33 | s23 => DD x22 x34 | s24 => DD x22 x35 | s25 => DD x22 x36 | s26 => DD x22 x37 | s27 => DD x22 x38 | s28 => DD x22 x39 | s29 => DD x22 x40 | s30 => DD x22 x41 | s31 => DD x22 x42 | s32 => DD x22 x43 | s33 => DD x22 x44 | s34 => DD x22 x45 | s35 => DD x22 x46 | s36 => DD x22 x47 | s37 => DD x22 x48 | s38 => DD x22 x49 | s39 => DD x22 x50 | s40 => DD x22 x51 | s41 => DD x22 x52 | s42 => DD x22 x53 | s43 => DD x22 x54 | s44 => DD x22 x55 | s45 => DD x22 x56 | s46 => DD x22 x57 | s47 => DD x22 x58 | s48 => DD x22 x59 | s49 => DD x22 x60 | s50 => DD x22 x61 | s51 => DD x22 x62 | s52 => DD x22 x63 | s53 => DD x23 x0 | s54 => DD x23 x1 | s55 => DD x23 x2 | s56 => DD x23 x3 | s57 => DD x23 x4 | s58 => DD x23 x5 | s59 => DD x23 x6 | s60 => DD x23 x7 | s61 => DD x23 x8 | s62 => DD x23 x9 | s63 => DD x23 x10 | s64 => DD x23 x11 | s65 => DD x23 x12 | s66 => DD x23 x13 | s67 => DD x23 x14 | s68 => DD x23 x15 | s69 => DD x23 x16 | s70 => DD x23 x17 | s71 => DD x23 x18 | s72 => DD x23 x19 | s73 => DD x23 x20 | s74 => DD x23 x21 | s75 => DD x23 x22 | s76 => DD x23 x23 | s77 => DD x23 x24 | s78 => DD x23 x25 | s79 => DD x23 x26 | s80 => DD x23 x27 | s81 => DD x23 x28 | s82 => DD x23 x29 | s83 => DD x23 x30 | s84 => DD x23 x31 | s85 => DD x23 x32 | s86 => DD x23 x33 | s87 => DD x23 x34 | s88 => DD x23 x35 | s89 => DD x23 x36 | s90 => DD x23 x37 | s91 => DD x23 x38 | s92 => DD x23 x39 | s93 => DD x23 x40 | s94 => DD x23 x41 | s95 => DD x23 x42 | s96 => DD x23 x43 | s97 => DD x23 x44 | s98 => DD x23 x45 | s99 => DD x23 x46 | s100 => DD x23 x47 | s101 => DD x23 x48 | s102 => DD x23 x49 | s103 => DD x23 x50 | s104 => DD x23 x51 | s105 => DD x23 x52 | s106 => DD x23 x53 | s107 => DD x23 x54 | s108 => DD x23 x55 | s109 => DD x23 x56 | s110 => DD x23 x57 | s111 => DD x23 x58 | s112 => DD x23 x59 | s113 => DD x23 x60 | s114 => DD x23 x61 | s115 => DD x23 x62 | s116 => DD x23 x63 | s117 => DD x24 x0 | s118 => DD x24 x1 | s119 => DD x24 x2 | s120 => DD x24 x3 | s121 => DD x24 x4 | s122 => DD x24 x5 | s123 => DD x24 x6 | s124 => DD x24 x7 | s125 => DD x24 x8 | s126 => DD x24 x9 end.
Definition m1421 (c : sum2) : dd := match c with s0 => DD x22 x13 | s1 => DD x22 x14 | s2 => DD x22 x15 | s3 => DD x22 x16 | s4 => DD x22 x17 | s5 => DD x22 x18 | s6 => DD x22 x19 | s7 => DD x22 x20 | s8 => DD x22 x21 | s9 => DD x22 x22 | s10 => DD x22 x23 | s11 => DD x22 x24 | s12 => DD x22 x25 | s13 => DD x22 x26 | s14 => DD x22 x27 | s15 => DD x22 x28 | s16 => DD x22 x29 | s17 => DD x22 x30 | s18 => DD x22 x31 | s19 => DD x22 x32 | s20 => DD x22 x33 | s21 => DD x22 x34 | s22 => DD x22 x35 | s23 => DD x22 x36 | s24 => DD x22 x37 | s25 => DD x22 x38 | s26 => DD x22 x39 | s27 => DD x22 x40 | s28 => DD x22 x41 | s29 => DD x22 x42 | s30 => DD x22 x43 | s31 => DD x22 x44 | s32 => DD x22 x45 | s33 => DD x22 x46 | s34 => DD x22 x47 | s35 => DD x22 x48 | s36 => DD x22 x49 | s37 => DD x22 x50 | s38 => DD x22 x51 | s39 => DD x22 x52 | s40 => DD x22 x53 | s41 => DD x22 x54 | s42 => DD x22 x55 | s43 => DD x22 x56 | s44 => DD x22 x57 | s45 => DD x22 x58 | s46 => DD x22 x59 | s47 => DD x22 x60 | s48 => DD x22 x61 | s49 => DD x22 x62 | s50 => DD x22 x63 | s51 => DD x23 x0 | s52 => DD x23 x1 | s53 => DD x23 x2 | s54 => DD x23 x3 | s55 => DD x23 x4 | s56 => DD x23 x5 | s57 => DD x23 x6 | s58 => DD x23 x7 | s59 => DD x23 x8 | s60 => DD x23 x9 | s61 => DD x23 x10 | s62 => DD x23 x11 | s63 => DD x23 x12 | s64 => DD x23 x13 | s65 => DD x23 x14 | s66 => DD x23 x15 | s67 => DD x23 x16 | s68 => DD x23 x17 | s69 => DD x23 x18 | s70 => DD x23 x19 | s71 => DD x23 x20 | s72 => DD x23 x21 | s73 => DD x23 x22 | s74 => DD x23 x23 | s75 => DD x23 x24 | s76 => DD x23 x25 | s77 => DD x23 x26 | s78 => DD x23 x27 | s79 => DD x23 x28 | s80 => DD x23 x29 | s81 => DD x23 x30 | s82 => DD x23 x31 | s83 => DD x23 x32 | s84 => DD x23 x33 | s85 => DD x23 x34 | s86 => DD x23 x35 | s87 => DD x23 x36 | s88 => DD x23 x37 | s89 => DD x23 x38 | s90 => DD x23 x39 | s91 => DD x23 x40 | s92 => DD x23 x41 | s93 => DD x23 x42 | s94 => DD x23 x43 | s95 => DD x23 x44 | s96 => DD x23 x45 | s97 => DD x23 x46 | s98 => DD x23 x47 | s99 => DD x23 x48 | s100 => DD x23 x49 | s101 => DD x23 x50 | s102 => DD x23 x51 | s103 => DD x23 x52 | s104 => DD x23 x53 | s105 => DD x23 x54 | s106 => DD x23 x55 | s107 => DD x23 x56 | s108 => DD x23 x57 | s109 => DD x23 x58 | s110 => DD x23 x59 | s111 => DD x23 x60 | s112 => DD x23 x61 | s113 => DD x23 x62 | s114 => DD x23 x63 | s115 => DD x24 x0 | s116 => DD x24 x1 | s117 => DD x24 x2 | s118 => DD x24 x3 | s119 => DD x24 x4 | s120 => DD x24 x5 | s121 => DD x24 x6 | s122 => DD x24 x7 | s123 => DD x24 x8 | s124 => DD x24 x9 | s125 => DD x24 x10 | s126 => DD x24 x11 end.
Definition m1425 (c : sum2) : dd := match c with s0 => DD x22 x17 | s1 => DD x22 x18 | s2 => DD x22 x19 | s3 => DD x22 x20 | s4 => DD x22 x21 | s5 => DD x22 x22 | s6 => DD x22 x23 | s7 => DD x22 x24 | s8 => DD x22 x25 | s9 => DD x22 x26 | s10 => DD x22 x27 | s11 => DD x22 x28 | s12 => DD x22 x29 | s13 => DD x22 x30 | s14 => DD x22 x31 | s15 => DD x22 x32 | s16 => DD x22 x33 | s17 => DD x22 x34 | s18 => DD x22 x35 | s19 => DD x22 x36 | s20 => DD x22 x37 | s21 => DD x22 x38 | s22 => DD x22 x39 | s23 => DD x22 x40 | s24 => DD x22 x41 | s25 => DD x22 x42 | s26 => DD x22 x43 | s27 => DD x22 x44 | s28 => DD x22 x45 | s29 => DD x22 x46 | s30 => DD x22 x47 | s31 => DD x22 x48 | s32 => DD x22 x49 | s33 => DD x22 x50 | s34 => DD x22 x51 | s35 => DD x22 x52 | s36 => DD x22 x53 | s37 => DD x22 x54 | s38 => DD x22 x55 | s39 => DD x22 x56 | s40 => DD x22 x57 | s41 => DD x22 x58 | s42 => DD x22 x59 | s43 => DD x22 x60 | s44 => DD x22 x61 | s45 => DD x22 x62 | s46 => DD x22 x63 | s47 => DD x23 x0 | s48 => DD x23 x1 | s49 => DD x23 x2 | s50 => DD x23 x3 | s51 => DD x23 x4 | s52 => DD x23 x5 | s53 => DD x23 x6 | s54 => DD x23 x7 | s55 => DD x23 x8 | s56 => DD x23 x9 | s57 => DD x23 x10 | s58 => DD x23 x11 | s59 => DD x23 x12 | s60 => DD x23 x13 | s61 => DD x23 x14 | s62 => DD x23 x15 | s63 => DD x23 x16 | s64 => DD x23 x17 | s65 => DD x23 x18 | s66 => DD x23 x19 | s67 => DD x23 x20 | s68 => DD x23 x21 | s69 => DD x23 x22 | s70 => DD x23 x23 | s71 => DD x23 x24 | s72 => DD x23 x25 | s73 => DD x23 x26 | s74 => DD x23 x27 | s75 => DD x23 x28 | s76 => DD x23 x29 | s77 => DD x23 x30 | s78 => DD x23 x31 | s79 => DD x23 x32 | s80 => DD x23 x33 | s81 => DD x23 x34 | s82 => DD x23 x35 | s83 => DD x23 x36 | s84 => DD x23 x37 | s85 => DD x23 x38 | s86 => DD x23 x39 | s87 => DD x23 x40 | s88 => DD x23 x41 | s89 => DD x23 x42 | s90 => DD x23 x43 | s91 => DD x23 x44 | s92 => DD x23 x45 | s93 => DD x23 x46 | s94 => DD x23 x47 | s95 => DD x23 x48 | s96 => DD x23 x49 | s97 => DD x23 x50 | s98 => DD x23 x51 | s99 => DD x23 x52 | s100 => DD x23 x53 | s101 => DD x23 x54 | s102 => DD x23 x55 | s103 => DD x23 x56 | s104 => DD x23 x57 | s105 => DD x23 x58 | s106 => DD x23 x59 | s107 => DD x23 x60 | s108 => DD x23 x61 | s109 => DD x23 x62 | s110 => DD x23 x63 | s111 => DD x24 x0 | s112 => DD x24 x1 | s113 => DD x24 x2 | s114 => DD x24 x3 | s115 => DD x24 x4 | s116 => DD x24 x5 | s117 => DD x24 x6 | s118 => DD x24 x7 | s119 => DD x24 x8 | s120 => DD x24 x9 | s121 => DD x24 x10 | s122 => DD x24 x11 | s123 => DD x24 x12 | s124 => DD x24 x13 | s125 => DD x24 x14 | s126 => DD x24 x15 end.
Definition m1426 (c : sum2) : dd := match c with s0 => DD x22 x18 | s1 => DD x22 x19 | s2 => DD x22 x20 | s3 => DD x22 x21 | s4 => DD x22 x22 | s5 => DD x22 x23 | s6 => DD x22 x24 | s7 => DD x22 x25 | s8 => DD x22 x26 | s9 => DD x22 x27 | s10 => DD x22 x28 | s11 => DD x22 x29 | s12 => DD x22 x30 | s13 => DD x22 x31 | s14 => DD x22 x32 | s15 => DD x22 x33 | s16 => DD x22 x34 | s17 => DD x22 x35 | s18 => DD x22 x36 | s19 => DD x22 x37 | s20 => DD x22 x38 | s21 => DD x22 x39 | s22 => DD x22 x40 | s23 => DD x22 x41 | s24 => DD x22 x42 | s25 => DD x22 x43 | s26 => DD x22 x44 | s27 => DD x22 x45 | s28 => DD x22 x46 | s29 => DD x22 x47 | s30 => DD x22 x48 | s31 => DD x22 x49 | s32 => DD x22 x50 | s33 => DD x22 x51 | s34 => DD x22 x52 | s35 => DD x22 x53 | s36 => DD x22 x54 | s37 => DD x22 x55 | s38 => DD x22 x56 | s39 => DD x22 x57 | s40 => DD x22 x58 | s41 => DD x22 x59 | s42 => DD x22 x60 | s43 => DD x22 x61 | s44 => DD x22 x62 | s45 => DD x22 x63 | s46 => DD x23 x0 | s47 => DD x23 x1 | s48 => DD x23 x2 | s49 => DD x23 x3 | s50 => DD x23 x4 | s51 => DD x23 x5 | s52 => DD x23 x6 | s53 => DD x23 x7 | s54 => DD x23 x8 | s55 => DD x23 x9 | s56 => DD x23 x10 | s57 => DD x23 x11 | s58 => DD x23 x12 | s59 => DD x23 x13 | s60 => DD x23 x14 | s61 => DD x23 x15 | s62 => DD x23 x16 | s63 => DD x23 x17 | s64 => DD x23 x18 | s65 => DD x23 x19 | s66 => DD x23 x20 | s67 => DD x23 x21 | s68 => DD x23 x22 | s69 => DD x23 x23 | s70 => DD x23 x24 | s71 => DD x23 x25 | s72 => DD x23 x26 | s73 => DD x23 x27 | s74 => DD x23 x28 | s75 => DD x23 x29 | s76 => DD x23 x30 | s77 => DD x23 x31 | s78 => DD x23 x32 | s79 => DD x23 x33 | s80 => DD x23 x34 | s81 => DD x23 x35 | s82 => DD x23 x36 | s83 => DD x23 x37 | s84 => DD x23 x38 | s85 => DD x23 x39 | s86 => DD x23 x40 | s87 => DD x23 x41 | s88 => DD x23 x42 | s89 => DD x23 x43 | s90 => DD x23 x44 | s91 => DD x23 x45 | s92 => DD x23 x46 | s93 => DD x23 x47 | s94 => DD x23 x48 | s95 => DD x23 x49 | s96 => DD x23 x50 | s97 => DD x23 x51 | s98 => DD x23 x52 | s99 => DD x23 x53 | s100 => DD x23 x54 | s101 => DD x23 x55 | s102 => DD x23 x56 | s103 => DD x23 x57 | s104 => DD x23 x58 | s105 => DD x23 x59 | s106 => DD x23 x60 | s107 => DD x23 x61 | s108 => DD x23 x62 | s109 => DD x23 x63 | s110 => DD x24 x0 | s111 => DD x24 x1 | s112 => DD x24 x2 | s113 => DD x24 x3 | s114 => DD x24 x4 | s115 => DD x24 x5 | s116 => DD x24 x6 | s117 => DD x24 x7 | s118 => DD x24 x8 | s119 => DD x24 x9 | s120 => DD x24 x10 | s121 => DD x24 x11 | s122 => DD x24 x12 | s123 => DD x24 x13 | s124 => DD x24 x14 | s125 => DD x24 x15 | s126 => DD x24 x16 end.
Definition m1428 (c : sum2) : dd := match c with s0 => DD x22 x20 | s1 => DD x22 x21 | s2 => DD x22 x22 | s3 => DD x22 x23 | s4 => DD x22 x24 | s5 => DD x22 x25 | s6 => DD x22 x26 | s7 => DD x22 x27 | s8 => DD x22 x28 | s9 => DD x22 x29 | s10 => DD x22 x30 | s11 => DD x22 x31 | s12 => DD x22 x32 | s13 => DD x22 x33 | s14 => DD x22 x34 | s15 => DD x22 x35 | s16 => DD x22 x36 | s17 => DD x22 x37 | s18 => DD x22 x38 | s19 => DD x22 x39 | s20 => DD x22 x40 | s21 => DD x22 x41 | s22 => DD x22 x42 | s23 => DD x22 x43 | s24 => DD x22 x44 | s25 => DD x22 x45 | s26 => DD x22 x46 | s27 => DD x22 x47 | s28 => DD x22 x48 | s29 => DD x22 x49 | s30 => DD x22 x50 | s31 => DD x22 x51 | s32 => DD x22 x52 | s33 => DD x22 x53 | s34 => DD x22 x54 | s35 => DD x22 x55 | s36 => DD x22 x56 | s37 => DD x22 x57 | s38 => DD x22 x58 | s39 => DD x22 x59 | s40 => DD x22 x60 | s41 => DD x22 x61 | s42 => DD x22 x62 | s43 => DD x22 x63 | s44 => DD x23 x0 | s45 => DD x23 x1 | s46 => DD x23 x2 | s47 => DD x23 x3 | s48 => DD x23 x4 | s49 => DD x23 x5 | s50 => DD x23 x6 | s51 => DD x23 x7 | s52 => DD x23 x8 | s53 => DD x23 x9 | s54 => DD x23 x10 | s55 => DD x23 x11 | s56 => DD x23 x12 | s57 => DD x23 x13 | s58 => DD x23 x14 | s59 => DD x23 x15 | s60 => DD x23 x16 | s61 => DD x23 x17 | s62 => DD x23 x18 | s63 => DD x23 x19 | s64 => DD x23 x20 | s65 => DD x23 x21 | s66 => DD x23 x22 | s67 => DD x23 x23 | s68 => DD x23 x24 | s69 => DD x23 x25 | s70 => DD x23 x26 | s71 => DD x23 x27 | s72 => DD x23 x28 | s73 => DD x23 x29 | s74 => DD x23 x30 | s75 => DD x23 x31 | s76 => DD x23 x32 | s77 => DD x23 x33 | s78 => DD x23 x34 | s79 => DD x23 x35 | s80 => DD x23 x36 | s81 => DD x23 x37 | s82 => DD x23 x38 | s83 => DD x23 x39 | s84 => DD x23 x40 | s85 => DD x23 x41 | s86 => DD x23 x42 | s87 => DD x23 x43 | s88 => DD x23 x44 | s89 => DD x23 x45 | s90 => DD x23 x46 | s91 => DD x23 x47 | s92 => DD x23 x48 | s93 => DD x23 x49 | s94 => DD x23 x50 | s95 => DD x23 x51 | s96 => DD x23 x52 | s97 => DD x23 x53 | s98 => DD x23 x54 | s99 => DD x23 x55 | s100 => DD x23 x56 | s101 => DD x23 x57 | s102 => DD x23 x58 | s103 => DD x23 x59 | s104 => DD x23 x60 | s105 => DD x23 x61 | s106 => DD x23 x62 | s107 => DD x23 x63 | s108 => DD x24 x0 | s109 => DD x24 x1 | s110 => DD x24 x2 | s111 => DD x24 x3 | s112 => DD x24 x4 | s113 => DD x24 x5 | s114 => DD x24 x6 | s115 => DD x24 x7 | s116 => DD x24 x8 | s117 => DD x24 x9 | s118 => DD x24 x10 | s119 => DD x24 x11 | s120 => DD x24 x12 | s121 => DD x24 x13 | s122 => DD x24 x14 | s123 => DD x24 x15 | s124 => DD x24 x16 | s125 => DD x24 x17 | s126 => DD x24 x18 end.
Definition m1430 (c : sum2) : dd := match c with s0 => DD x22 x22 | s1 => DD x22 x23 | s2 => DD x22 x24 | s3 => DD x22 x25 | s4 => DD x22 x26 | s5 => DD x22 x27 | s6 => DD x22 x28 | s7 => DD x22 x29 | s8 => DD x22 x30 | s9 => DD x22 x31 | s10 => DD x22 x32 | s11 => DD x22 x33 | s12 => DD x22 x34 | s13 => DD x22 x35 | s14 => DD x22 x36 | s15 => DD x22 x37 | s16 => DD x22 x38 | s17 => DD x22 x39 | s18 => DD x22 x40 | s19 => DD x22 x41 | s20 => DD x22 x42 | s21 => DD x22 x43 | s22 => DD x22 x44 | s23 => DD x22 x45 | s24 => DD x22 x46 | s25 => DD x22 x47 | s26 => DD x22 x48 | s27 => DD x22 x49 | s28 => DD x22 x50 | s29 => DD x22 x51 | s30 => DD x22 x52 | s31 => DD x22 x53 | s32 => DD x22 x54 | s33 => DD x22 x55 | s34 => DD x22 x56 | s35 => DD x22 x57 | s36 => DD x22 x58 | s37 => DD x22 x59 | s38 => DD x22 x60 | s39 => DD x22 x61 | s40 => DD x22 x62 | s41 => DD x22 x63 | s42 => DD x23 x0 | s43 => DD x23 x1 | s44 => DD x23 x2 | s45 => DD x23 x3 | s46 => DD x23 x4 | s47 => DD x23 x5 | s48 => DD x23 x6 | s49 => DD x23 x7 | s50 => DD x23 x8 | s51 => DD x23 x9 | s52 => DD x23 x10 | s53 => DD x23 x11 | s54 => DD x23 x12 | s55 => DD x23 x13 | s56 => DD x23 x14 | s57 => DD x23 x15 | s58 => DD x23 x16 | s59 => DD x23 x17 | s60 => DD x23 x18 | s61 => DD x23 x19 | s62 => DD x23 x20 | s63 => DD x23 x21 | s64 => DD x23 x22 | s65 => DD x23 x23 | s66 => DD x23 x24 | s67 => DD x23 x25 | s68 => DD x23 x26 | s69 => DD x23 x27 | s70 => DD x23 x28 | s71 => DD x23 x29 | s72 => DD x23 x30 | s73 => DD x23 x31 | s74 => DD x23 x32 | s75 => DD x23 x33 | s76 => DD x23 x34 | s77 => DD x23 x35 | s78 => DD x23 x36 | s79 => DD x23 x37 | s80 => DD x23 x38 | s81 => DD x23 x39 | s82 => DD x23 x40 | s83 => DD x23 x41 | s84 => DD x23 x42 | s85 => DD x23 x43 | s86 => DD x23 x44 | s87 => DD x23 x45 | s88 => DD x23 x46 | s89 => DD x23 x47 | s90 => DD x23 x48 | s91 => DD x23 x49 | s92 => DD x23 x50 | s93 => DD x23 x51 | s94 => DD x23 x52 | s95 => DD x23 x53 | s96 => DD x23 x54 | s97 => DD x23 x55 | s98 => DD x23 x56 | s99 => DD x23 x57 | s100 => DD x23 x58 | s101 => DD x23 x59 | s102 => DD x23 x60 | s103 => DD x23 x61 | s104 => DD x23 x62 | s105 => DD x23 x63 | s106 => DD x24 x0 | s107 => DD x24 x1 | s108 => DD x24 x2 | s109 => DD x24 x3 | s110 => DD x24 x4 | s111 => DD x24 x5 | s112 => DD x24 x6 | s113 => DD x24 x7 | s114 => DD x24 x8 | s115 => DD x24 x9 | s116 => DD x24 x10 | s117 => DD x24 x11 | s118 => DD x24 x12 | s119 => DD x24 x13 | s120 => DD x24 x14 | s121 => DD x24 x15 | s122 => DD x24 x16 | s123 => DD x24 x17 | s124 => DD x24 x18 | s125 => DD x24 x19 | s126 => DD x24 x20 end.
Definition m1431 (c : sum2) : dd := match c with s0 => DD x22 x23 | s1 => DD x22 x24 | s2 => DD x22 x25 | s3 => DD x22 x26 | s4 => DD x22 x27 | s5 => DD x22 x28 | s6 => DD x22 x29 | s7 => DD x22 x30 | s8 => DD x22 x31 | s9 => DD x22 x32 | s10 => DD x22 x33 | s11 => DD x22 x34 | s12 => DD x22 x35 | s13 => DD x22 x36 | s14 => DD x22 x37 | s15 => DD x22 x38 | s16 => DD x22 x39 | s17 => DD x22 x40 | s18 => DD x22 x41 | s19 => DD x22 x42 | s20 => DD x22 x43 | s21 => DD x22 x44 | s22 => DD x22 x45 | s23 => DD x22 x46 | s24 => DD x22 x47 | s25 => DD x22 x48 | s26 => DD x22 x49 | s27 => DD x22 x50 | s28 => DD x22 x51 | s29 => DD x22 x52 | s30 => DD x22 x53 | s31 => DD x22 x54 | s32 => DD x22 x55 | s33 => DD x22 x56 | s34 => DD x22 x57 | s35 => DD x22 x58 | s36 => DD x22 x59 | s37 => DD x22 x60 | s38 => DD x22 x61 | s39 => DD x22 x62 | s40 => DD x22 x63 | s41 => DD x23 x0 | s42 => DD x23 x1 | s43 => DD x23 x2 | s44 => DD x23 x3 | s45 => DD x23 x4 | s46 => DD x23 x5 | s47 => DD x23 x6 | s48 => DD x23 x7 | s49 => DD x23 x8 | s50 => DD x23 x9 | s51 => DD x23 x10 | s52 => DD x23 x11 | s53 => DD x23 x12 | s54 => DD x23 x13 | s55 => DD x23 x14 | s56 => DD x23 x15 | s57 => DD x23 x16 | s58 => DD x23 x17 | s59 => DD x23 x18 | s60 => DD x23 x19 | s61 => DD x23 x20 | s62 => DD x23 x21 | s63 => DD x23 x22 | s64 => DD x23 x23 | s65 => DD x23 x24 | s66 => DD x23 x25 | s67 => DD x23 x26 | s68 => DD x23 x27 | s69 => DD x23 x28 | s70 => DD x23 x29 | s71 => DD x23 x30 | s72 => DD x23 x31 | s73 => DD x23 x32 | s74 => DD x23 x33 | s75 => DD x23 x34 | s76 => DD x23 x35 | s77 => DD x23 x36 | s78 => DD x23 x37 | s79 => DD x23 x38 | s80 => DD x23 x39 | s81 => DD x23 x40 | s82 => DD x23 x41 | s83 => DD x23 x42 | s84 => DD x23 x43 | s85 => DD x23 x44 | s86 => DD x23 x45 | s87 => DD x23 x46 | s88 => DD x23 x47 | s89 => DD x23 x48 | s90 => DD x23 x49 | s91 => DD x23 x50 | s92 => DD x23 x51 | s93 => DD x23 x52 | s94 => DD x23 x53 | s95 => DD x23 x54 | s96 => DD x23 x55 | s97 => DD x23 x56 | s98 => DD x23 x57 | s99 => DD x23 x58 | s100 => DD x23 x59 | s101 => DD x23 x60 | s102 => DD x23 x61 | s103 => DD x23 x62 | s104 => DD x23 x63 | s105 => DD x24 x0 | s106 => DD x24 x1 | s107 => DD x24 x2 | s108 => DD x24 x3 | s109 => DD x24 x4 | s110 => DD x24 x5 | s111 => DD x24 x6 | s112 => DD x24 x7 | s113 => DD x24 x8 | s114 => DD x24 x9 | s115 => DD x24 x10 | s116 => DD x24 x11 | s117 => DD x24 x12 | s118 => DD x24 x13 | s119 => DD x24 x14 | s120 => DD x24 x15 | s121 => DD x24 x16 | s122 => DD x24 x17 | s123 => DD x24 x18 | s124 => DD x24 x19 | s125 => DD x24 x20 | s126 => DD x24 x21 end.
Definition m1435 (c : sum2) : dd := match c with s0 => DD x22 x27 | s1 => DD x22 x28 | s2 => DD x22 x29 | s3 => DD x22 x30 | s4 => DD x22 x31 | s5 => DD x22 x32 | s6 => DD x22 x33 | s7 => DD x22 x34 | s8 => DD x22 x35 | s9 => DD x22 x36 | s10 => DD x22 x37 | s11 => DD x22 x38 | s12 => DD x22 x39 | s13 => DD x22 x40 | s14 => DD x22 x41 | s15 => DD x22 x42 | s16 => DD x22 x43 | s17 => DD x22 x44 | s18 => DD x22 x45 | s19 => DD x22 x46 | s20 => DD x22 x47 | s21 => DD x22 x48 | s22 => DD x22 x49 | s23 => DD x22 x50 | s24 => DD x22 x51 | s25 => DD x22 x52 | s26 => DD x22 x53 | s27 => DD x22 x54 | s28 => DD x22 x55 | s29 => DD x22 x56 | s30 => DD x22 x57 | s31 => DD x22 x58 | s32 => DD x22 x59 | s33 => DD x22 x60 | s34 => DD x22 x61 | s35 => DD x22 x62 | s36 => DD x22 x63 | s37 => DD x23 x0 | s38 => DD x23 x1 | s39 => DD x23 x2 | s40 => DD x23 x3 | s41 => DD x23 x4 | s42 => DD x23 x5 | s43 => DD x23 x6 | s44 => DD x23 x7 | s45 => DD x23 x8 | s46 => DD x23 x9 | s47 => DD x23 x10 | s48 => DD x23 x11 | s49 => DD x23 x12 | s50 => DD x23 x13 | s51 => DD x23 x14 | s52 => DD x23 x15 | s53 => DD x23 x16 | s54 => DD x23 x17 | s55 => DD x23 x18 | s56 => DD x23 x19 | s57 => DD x23 x20 | s58 => DD x23 x21 | s59 => DD x23 x22 | s60 => DD x23 x23 | s61 => DD x23 x24 | s62 => DD x23 x25 | s63 => DD x23 x26 | s64 => DD x23 x27 | s65 => DD x23 x28 | s66 => DD x23 x29 | s67 => DD x23 x30 | s68 => DD x23 x31 | s69 => DD x23 x32 | s70 => DD x23 x33 | s71 => DD x23 x34 | s72 => DD x23 x35 | s73 => DD x23 x36 | s74 => DD x23 x37 | s75 => DD x23 x38 | s76 => DD x23 x39 | s77 => DD x23 x40 | s78 => DD x23 x41 | s79 => DD x23 x42 | s80 => DD x23 x43 | s81 => DD x23 x44 | s82 => DD x23 x45 | s83 => DD x23 x46 | s84 => DD x23 x47 | s85 => DD x23 x48 | s86 => DD x23 x49 | s87 => DD x23 x50 | s88 => DD x23 x51 | s89 => DD x23 x52 | s90 => DD x23 x53 | s91 => DD x23 x54 | s92 => DD x23 x55 | s93 => DD x23 x56 | s94 => DD x23 x57 | s95 => DD x23 x58 | s96 => DD x23 x59 | s97 => DD x23 x60 | s98 => DD x23 x61 | s99 => DD x23 x62 | s100 => DD x23 x63 | s101 => DD x24 x0 | s102 => DD x24 x1 | s103 => DD x24 x2 | s104 => DD x24 x3 | s105 => DD x24 x4 | s106 => DD x24 x5 | s107 => DD x24 x6 | s108 => DD x24 x7 | s109 => DD x24 x8 | s110 => DD x24 x9 | s111 => DD x24 x10 | s112 => DD x24 x11 | s113 => DD x24 x12 | s114 => DD x24 x13 | s115 => DD x24 x14 | s116 => DD x24 x15 | s117 => DD x24 x16 | s118 => DD x24 x17 | s119 => DD x24 x18 | s120 => DD x24 x19 | s121 => DD x24 x20 | s122 => DD x24 x21 | s123 => DD x24 x22 | s124 => DD x24 x23 | s125 => DD x24 x24 | s126 => DD x24 x25 end.
Definition m1440 (c : sum2) : dd := match c with s0 => DD x22 x32 | s1 => DD x22 x33 | s2 => DD x22 x34 | s3 => DD x22 x35 | s4 => DD x22 x36 | s5 => DD x22 x37 | s6 => DD x22 x38 | s7 => DD x22 x39 | s8 => DD x22 x40 | s9 => DD x22 x41 | s10 => DD x22 x42 | s11 => DD x22 x43 | s12 => DD x22 x44 | s13 => DD x22 x45 | s14 => DD x22 x46 | s15 => DD x22 x47 | s16 => DD x22 x48 | s17 => DD x22 x49 | s18 => DD x22 x50 | s19 => DD x22 x51 | s20 => DD x22 x52 | s21 => DD x22 x53 | s22 => DD x22 x54 | s23 => DD x22 x55 | s24 => DD x22 x56 | s25 => DD x22 x57 | s26 => DD x22 x58 | s27 => DD x22 x59 | s28 => DD x22 x60 | s29 => DD x22 x61 | s30 => DD x22 x62 | s31 => DD x22 x63 | s32 => DD x23 x0 | s33 => DD x23 x1 | s34 => DD x23 x2 | s35 => DD x23 x3 | s36 => DD x23 x4 | s37 => DD x23 x5 | s38 => DD x23 x6 | s39 => DD x23 x7 | s40 => DD x23 x8 | s41 => DD x23 x9 | s42 => DD x23 x10 | s43 => DD x23 x11 | s44 => DD x23 x12 | s45 => DD x23 x13 | s46 => DD x23 x14 | s47 => DD x23 x15 | s48 => DD x23 x16 | s49 => DD x23 x17 | s50 => DD x23 x18 | s51 => DD x23 x19 | s52 => DD x23 x20 | s53 => DD x23 x21 | s54 => DD x23 x22 | s55 => DD x23 x23 | s56 => DD x23 x24 | s57 => DD x23 x25 | s58 => DD x23 x26 | s59 => DD x23 x27 | s60 => DD x23 x28 | s61 => DD x23 x29 | s62 => DD x23 x30 | s63 => DD x23 x31 | s64 => DD x23 x32 | s65 => DD x23 x33 | s66 => DD x23 x34 | s67 => DD x23 x35 | s68 => DD x23 x36 | s69 => DD x23 x37 | s70 => DD x23 x38 | s71 => DD x23 x39 | s72 => DD x23 x40 | s73 => DD x23 x41 | s74 => DD x23 x42 | s75 => DD x23 x43 | s76 => DD x23 x44 | s77 => DD x23 x45 | s78 => DD x23 x46 | s79 => DD x23 x47 | s80 => DD x23 x48 | s81 => DD x23 x49 | s82 => DD x23 x50 | s83 => DD x23 x51 | s84 => DD x23 x52 | s85 => DD x23 x53 | s86 => DD x23 x54 | s87 => DD x23 x55 | s88 => DD x23 x56 | s89 => DD x23 x57 | s90 => DD x23 x58 | s91 => DD x23 x59 | s92 => DD x23 x60 | s93 => DD x23 x61 | s94 => DD x23 x62 | s95 => DD x23 x63 | s96 => DD x24 x0 | s97 => DD x24 x1 | s98 => DD x24 x2 | s99 => DD x24 x3 | s100 => DD x24 x4 | s101 => DD x24 x5 | s102 => DD x24 x6 | s103 => DD x24 x7 | s104 => DD x24 x8 | s105 => DD x24 x9 | s106 => DD x24 x10 | s107 => DD x24 x11 | s108 => DD x24 x12 | s109 => DD x24 x13 | s110 => DD x24 x14 | s111 => DD x24 x15 | s112 => DD x24 x16 | s113 => DD x24 x17 | s114 => DD x24 x18 | s115 => DD x24 x19 | s116 => DD x24 x20 | s117 => DD x24 x21 | s118 => DD x24 x22 | s119 => DD x24 x23 | s120 => DD x24 x24 | s121 => DD x24 x25 | s122 => DD x24 x26 | s123 => DD x24 x27 | s124 => DD x24 x28 | s125 => DD x24 x29 | s126 => DD x24 x30 end.
Definition m1443 (c : sum2) : dd := match c with s0 => DD x22 x35 | s1 => DD x22 x36 | s2 => DD x22 x37 | s3 => DD x22 x38 | s4 => DD x22 x39 | s5 => DD x22 x40 | s6 => DD x22 x41 | s7 => DD x22 x42 | s8 => DD x22 x43 | s9 => DD x22 x44 | s10 => DD x22 x45 | s11 => DD x22 x46 | s12 => DD x22 x47 | s13 => DD x22 x48 | s14 => DD x22 x49 | s15 => DD x22 x50 | s16 => DD x22 x51 | s17 => DD x22 x52 | s18 => DD x22 x53 | s19 => DD x22 x54 | s20 => DD x22 x55 | s21 => DD x22 x56 | s22 => DD x22 x57 | s23 => DD x22 x58 | s24 => DD x22 x59 | s25 => DD x22 x60 | s26 => DD x22 x61 | s27 => DD x22 x62 | s28 => DD x22 x63 | s29 => DD x23 x0 | s30 => DD x23 x1 | s31 => DD x23 x2 | s32 => DD x23 x3 | s33 => DD x23 x4 | s34 => DD x23 x5 | s35 => DD x23 x6 | s36 => DD x23 x7 | s37 => DD x23 x8 | s38 => DD x23 x9 | s39 => DD x23 x10 | s40 => DD x23 x11 | s41 => DD x23 x12 | s42 => DD x23 x13 | s43 => DD x23 x14 | s44 => DD x23 x15 | s45 => DD x23 x16 | s46 => DD x23 x17 | s47 => DD x23 x18 | s48 => DD x23 x19 | s49 => DD x23 x20 | s50 => DD x23 x21 | s51 => DD x23 x22 | s52 => DD x23 x23 | s53 => DD x23 x24 | s54 => DD x23 x25 | s55 => DD x23 x26 | s56 => DD x23 x27 | s57 => DD x23 x28 | s58 => DD x23 x29 | s59 => DD x23 x30 | s60 => DD x23 x31 | s61 => DD x23 x32 | s62 => DD x23 x33 | s63 => DD x23 x34 | s64 => DD x23 x35 | s65 => DD x23 x36 | s66 => DD x23 x37 | s67 => DD x23 x38 | s68 => DD x23 x39 | s69 => DD x23 x40 | s70 => DD x23 x41 | s71 => DD x23 x42 | s72 => DD x23 x43 | s73 => DD x23 x44 | s74 => DD x23 x45 | s75 => DD x23 x46 | s76 => DD x23 x47 | s77 => DD x23 x48 | s78 => DD x23 x49 | s79 => DD x23 x50 | s80 => DD x23 x51 | s81 => DD x23 x52 | s82 => DD x23 x53 | s83 => DD x23 x54 | s84 => DD x23 x55 | s85 => DD x23 x56 | s86 => DD x23 x57 | s87 => DD x23 x58 | s88 => DD x23 x59 | s89 => DD x23 x60 | s90 => DD x23 x61 | s91 => DD x23 x62 | s92 => DD x23 x63 | s93 => DD x24 x0 | s94 => DD x24 x1 | s95 => DD x24 x2 | s96 => DD x24 x3 | s97 => DD x24 x4 | s98 => DD x24 x5 | s99 => DD x24 x6 | s100 => DD x24 x7 | s101 => DD x24 x8 | s102 => DD x24 x9 | s103 => DD x24 x10 | s104 => DD x24 x11 | s105 => DD x24 x12 | s106 => DD x24 x13 | s107 => DD x24 x14 | s108 => DD x24 x15 | s109 => DD x24 x16 | s110 => DD x24 x17 | s111 => DD x24 x18 | s112 => DD x24 x19 | s113 => DD x24 x20 | s114 => DD x24 x21 | s115 => DD x24 x22 | s116 => DD x24 x23 | s117 => DD x24 x24 | s118 => DD x24 x25 | s119 => DD x24 x26 | s120 => DD x24 x27 | s121 => DD x24 x28 | s122 => DD x24 x29 | s123 => DD x24 x30 | s124 => DD x24 x31 | s125 => DD x24 x32 | s126 => DD x24 x33 end.
Definition m1444 (c : sum2) : dd := match c with s0 => DD x22 x36 | s1 => DD x22 x37 | s2 => DD x22 x38 | s3 => DD x22 x39 | s4 => DD x22 x40 | s5 => DD x22 x41 | s6 => DD x22 x42 | s7 => DD x22 x43 | s8 => DD x22 x44 | s9 => DD x22 x45 | s10 => DD x22 x46 | s11 => DD x22 x47 | s12 => DD x22 x48 | s13 => DD x22 x49 | s14 => DD x22 x50 | s15 => DD x22 x51 | s16 => DD x22 x52 | s17 => DD x22 x53 | s18 => DD x22 x54 | s19 => DD x22 x55 | s20 => DD x22 x56 | s21 => DD x22 x57 | s22 => DD x22 x58 | s23 => DD x22 x59 | s24 => DD x22 x60 | s25 => DD x22 x61 | s26 => DD x22 x62 | s27 => DD x22 x63 | s28 => DD x23 x0 | s29 => DD x23 x1 | s30 => DD x23 x2 | s31 => DD x23 x3 | s32 => DD x23 x4 | s33 => DD x23 x5 | s34 => DD x23 x6 | s35 => DD x23 x7 | s36 => DD x23 x8 | s37 => DD x23 x9 | s38 => DD x23 x10 | s39 => DD x23 x11 | s40 => DD x23 x12 | s41 => DD x23 x13 | s42 => DD x23 x14 | s43 => DD x23 x15 | s44 => DD x23 x16 | s45 => DD x23 x17 | s46 => DD x23 x18 | s47 => DD x23 x19 | s48 => DD x23 x20 | s49 => DD x23 x21 | s50 => DD x23 x22 | s51 => DD x23 x23 | s52 => DD x23 x24 | s53 => DD x23 x25 | s54 => DD x23 x26 | s55 => DD x23 x27 | s56 => DD x23 x28 | s57 => DD x23 x29 | s58 => DD x23 x30 | s59 => DD x23 x31 | s60 => DD x23 x32 | s61 => DD x23 x33 | s62 => DD x23 x34 | s63 => DD x23 x35 | s64 => DD x23 x36 | s65 => DD x23 x37 | s66 => DD x23 x38 | s67 => DD x23 x39 | s68 => DD x23 x40 | s69 => DD x23 x41 | s70 => DD x23 x42 | s71 => DD x23 x43 | s72 => DD x23 x44 | s73 => DD x23 x45 | s74 => DD x23 x46 | s75 => DD x23 x47 | s76 => DD x23 x48 | s77 => DD x23 x49 | s78 => DD x23 x50 | s79 => DD x23 x51 | s80 => DD x23 x52 | s81 => DD x23 x53 | s82 => DD x23 x54 | s83 => DD x23 x55 | s84 => DD x23 x56 | s85 => DD x23 x57 | s86 => DD x23 x58 | s87 => DD x23 x59 | s88 => DD x23 x60 | s89 => DD x23 x61 | s90 => DD x23 x62 | s91 => DD x23 x63 | s92 => DD x24 x0 | s93 => DD x24 x1 | s94 => DD x24 x2 | s95 => DD x24 x3 | s96 => DD x24 x4 | s97 => DD x24 x5 | s98 => DD x24 x6 | s99 => DD x24 x7 | s100 => DD x24 x8 | s101 => DD x24 x9 | s102 => DD x24 x10 | s103 => DD x24 x11 | s104 => DD x24 x12 | s105 => DD x24 x13 | s106 => DD x24 x14 | s107 => DD x24 x15 | s108 => DD x24 x16 | s109 => DD x24 x17 | s110 => DD x24 x18 | s111 => DD x24 x19 | s112 => DD x24 x20 | s113 => DD x24 x21 | s114 => DD x24 x22 | s115 => DD x24 x23 | s116 => DD x24 x24 | s117 => DD x24 x25 | s118 => DD x24 x26 | s119 => DD x24 x27 | s120 => DD x24 x28 | s121 => DD x24 x29 | s122 => DD x24 x30 | s123 => DD x24 x31 | s124 => DD x24 x32 | s125 => DD x24 x33 | s126 => DD x24 x34 end.
Definition m1449 (c : sum2) : dd := match c with s0 => DD x22 x41 | s1 => DD x22 x42 | s2 => DD x22 x43 | s3 => DD x22 x44 | s4 => DD x22 x45 | s5 => DD x22 x46 | s6 => DD x22 x47 | s7 => DD x22 x48 | s8 => DD x22 x49 | s9 => DD x22 x50 | s10 => DD x22 x51 | s11 => DD x22 x52 | s12 => DD x22 x53 | s13 => DD x22 x54 | s14 => DD x22 x55 | s15 => DD x22 x56 | s16 => DD x22 x57 | s17 => DD x22 x58 | s18 => DD x22 x59 | s19 => DD x22 x60 | s20 => DD x22 x61 | s21 => DD x22 x62 | s22 => DD x22 x63 | s23 => DD x23 x0 | s24 => DD x23 x1 | s25 => DD x23 x2 | s26 => DD x23 x3 | s27 => DD x23 x4 | s28 => DD x23 x5 | s29 => DD x23 x6 | s30 => DD x23 x7 | s31 => DD x23 x8 | s32 => DD x23 x9 | s33 => DD x23 x10 | s34 => DD x23 x11 | s35 => DD x23 x12 | s36 => DD x23 x13 | s37 => DD x23 x14 | s38 => DD x23 x15 | s39 => DD x23 x16 | s40 => DD x23 x17 | s41 => DD x23 x18 | s42 => DD x23 x19 | s43 => DD x23 x20 | s44 => DD x23 x21 | s45 => DD x23 x22 | s46 => DD x23 x23 | s47 => DD x23 x24 | s48 => DD x23 x25 | s49 => DD x23 x26 | s50 => DD x23 x27 | s51 => DD x23 x28 | s52 => DD x23 x29 | s53 => DD x23 x30 | s54 => DD x23 x31 | s55 => DD x23 x32 | s56 => DD x23 x33 | s57 => DD x23 x34 | s58 => DD x23 x35 | s59 => DD x23 x36 | s60 => DD x23 x37 | s61 => DD x23 x38 | s62 => DD x23 x39 | s63 => DD x23 x40 | s64 => DD x23 x41 | s65 => DD x23 x42 | s66 => DD x23 x43 | s67 => DD x23 x44 | s68 => DD x23 x45 | s69 => DD x23 x46 | s70 => DD x23 x47 | s71 => DD x23 x48 | s72 => DD x23 x49 | s73 => DD x23 x50 | s74 => DD x23 x51 | s75 => DD x23 x52 | s76 => DD x23 x53 | s77 => DD x23 x54 | s78 => DD x23 x55 | s79 => DD x23 x56 | s80 => DD x23 x57 | s81 => DD x23 x58 | s82 => DD x23 x59 | s83 => DD x23 x60 | s84 => DD x23 x61 | s85 => DD x23 x62 | s86 => DD x23 x63 | s87 => DD x24 x0 | s88 => DD x24 x1 | s89 => DD x24 x2 | s90 => DD x24 x3 | s91 => DD x24 x4 | s92 => DD x24 x5 | s93 => DD x24 x6 | s94 => DD x24 x7 | s95 => DD x24 x8 | s96 => DD x24 x9 | s97 => DD x24 x10 | s98 => DD x24 x11 | s99 => DD x24 x12 | s100 => DD x24 x13 | s101 => DD x24 x14 | s102 => DD x24 x15 | s103 => DD x24 x16 | s104 => DD x24 x17 | s105 => DD x24 x18 | s106 => DD x24 x19 | s107 => DD x24 x20 | s108 => DD x24 x21 | s109 => DD x24 x22 | s110 => DD x24 x23 | s111 => DD x24 x24 | s112 => DD x24 x25 | s113 => DD x24 x26 | s114 => DD x24 x27 | s115 => DD x24 x28 | s116 => DD x24 x29 | s117 => DD x24 x30 | s118 => DD x24 x31 | s119 => DD x24 x32 | s120 => DD x24 x33 | s121 => DD x24 x34 | s122 => DD x24 x35 | s123 => DD x24 x36 | s124 => DD x24 x37 | s125 => DD x24 x38 | s126 => DD x24 x39 end.
Definition m1450 (c : sum2) : dd := match c with s0 => DD x22 x42 | s1 => DD x22 x43 | s2 => DD x22 x44 | s3 => DD x22 x45 | s4 => DD x22 x46 | s5 => DD x22 x47 | s6 => DD x22 x48 | s7 => DD x22 x49 | s8 => DD x22 x50 | s9 => DD x22 x51 | s10 => DD x22 x52 | s11 => DD x22 x53 | s12 => DD x22 x54 | s13 => DD x22 x55 | s14 => DD x22 x56 | s15 => DD x22 x57 | s16 => DD x22 x58 | s17 => DD x22 x59 | s18 => DD x22 x60 | s19 => DD x22 x61 | s20 => DD x22 x62 | s21 => DD x22 x63 | s22 => DD x23 x0 | s23 => DD x23 x1 | s24 => DD x23 x2 | s25 => DD x23 x3 | s26 => DD x23 x4 | s27 => DD x23 x5 | s28 => DD x23 x6 | s29 => DD x23 x7 | s30 => DD x23 x8 | s31 => DD x23 x9 | s32 => DD x23 x10 | s33 => DD x23 x11 | s34 => DD x23 x12 | s35 => DD x23 x13 | s36 => DD x23 x14 | s37 => DD x23 x15 | s38 => DD x23 x16 | s39 => DD x23 x17 | s40 => DD x23 x18 | s41 => DD x23 x19 | s42 => DD x23 x20 | s43 => DD x23 x21 | s44 => DD x23 x22 | s45 => DD x23 x23 | s46 => DD x23 x24 | s47 => DD x23 x25 | s48 => DD x23 x26 | s49 => DD x23 x27 | s50 => DD x23 x28 | s51 => DD x23 x29 | s52 => DD x23 x30 | s53 => DD x23 x31 | s54 => DD x23 x32 | s55 => DD x23 x33 | s56 => DD x23 x34 | s57 => DD x23 x35 | s58 => DD x23 x36 | s59 => DD x23 x37 | s60 => DD x23 x38 | s61 => DD x23 x39 | s62 => DD x23 x40 | s63 => DD x23 x41 | s64 => DD x23 x42 | s65 => DD x23 x43 | s66 => DD x23 x44 | s67 => DD x23 x45 | s68 => DD x23 x46 | s69 => DD x23 x47 | s70 => DD x23 x48 | s71 => DD x23 x49 | s72 => DD x23 x50 | s73 => DD x23 x51 | s74 => DD x23 x52 | s75 => DD x23 x53 | s76 => DD x23 x54 | s77 => DD x23 x55 | s78 => DD x23 x56 | s79 => DD x23 x57 | s80 => DD x23 x58 | s81 => DD x23 x59 | s82 => DD x23 x60 | s83 => DD x23 x61 | s84 => DD x23 x62 | s85 => DD x23 x63 | s86 => DD x24 x0 | s87 => DD x24 x1 | s88 => DD x24 x2 | s89 => DD x24 x3 | s90 => DD x24 x4 | s91 => DD x24 x5 | s92 => DD x24 x6 | s93 => DD x24 x7 | s94 => DD x24 x8 | s95 => DD x24 x9 | s96 => DD x24 x10 | s97 => DD x24 x11 | s98 => DD x24 x12 | s99 => DD x24 x13 | s100 => DD x24 x14 | s101 => DD x24 x15 | s102 => DD x24 x16 | s103 => DD x24 x17 | s104 => DD x24 x18 | s105 => DD x24 x19 | s106 => DD x24 x20 | s107 => DD x24 x21 | s108 => DD x24 x22 | s109 => DD x24 x23 | s110 => DD x24 x24 | s111 => DD x24 x25 | s112 => DD x24 x26 | s113 => DD x24 x27 | s114 => DD x24 x28 | s115 => DD x24 x29 | s116 => DD x24 x30 | s117 => DD x24 x31 | s118 => DD x24 x32 | s119 => DD x24 x33 | s120 => DD x24 x34 | s121 => DD x24 x35 | s122 => DD x24 x36 | s123 => DD x24 x37 | s124 => DD x24 x38 | s125 => DD x24 x39 | s126 => DD x24 x40 end.
Definition m1452 (c : sum2) : dd := match c with s0 => DD x22 x44 | s1 => DD x22 x45 | s2 => DD x22 x46 | s3 => DD x22 x47 | s4 => DD x22 x48 | s5 => DD x22 x49 | s6 => DD x22 x50 | s7 => DD x22 x51 | s8 => DD x22 x52 | s9 => DD x22 x53 | s10 => DD x22 x54 | s11 => DD x22 x55 | s12 => DD x22 x56 | s13 => DD x22 x57 | s14 => DD x22 x58 | s15 => DD x22 x59 | s16 => DD x22 x60 | s17 => DD x22 x61 | s18 => DD x22 x62 | s19 => DD x22 x63 | s20 => DD x23 x0 | s21 => DD x23 x1 | s22 => DD x23 x2 | s23 => DD x23 x3 | s24 => DD x23 x4 | s25 => DD x23 x5 | s26 => DD x23 x6 | s27 => DD x23 x7 | s28 => DD x23 x8 | s29 => DD x23 x9 | s30 => DD x23 x10 | s31 => DD x23 x11 | s32 => DD x23 x12 | s33 => DD x23 x13 | s34 => DD x23 x14 | s35 => DD x23 x15 | s36 => DD x23 x16 | s37 => DD x23 x17 | s38 => DD x23 x18 | s39 => DD x23 x19 | s40 => DD x23 x20 | s41 => DD x23 x21 | s42 => DD x23 x22 | s43 => DD x23 x23 | s44 => DD x23 x24 | s45 => DD x23 x25 | s46 => DD x23 x26 | s47 => DD x23 x27 | s48 => DD x23 x28 | s49 => DD x23 x29 | s50 => DD x23 x30 | s51 => DD x23 x31 | s52 => DD x23 x32 | s53 => DD x23 x33 | s54 => DD x23 x34 | s55 => DD x23 x35 | s56 => DD x23 x36 | s57 => DD x23 x37 | s58 => DD x23 x38 | s59 => DD x23 x39 | s60 => DD x23 x40 | s61 => DD x23 x41 | s62 => DD x23 x42 | s63 => DD x23 x43 | s64 => DD x23 x44 | s65 => DD x23 x45 | s66 => DD x23 x46 | s67 => DD x23 x47 | s68 => DD x23 x48 | s69 => DD x23 x49 | s70 => DD x23 x50 | s71 => DD x23 x51 | s72 => DD x23 x52 | s73 => DD x23 x53 | s74 => DD x23 x54 | s75 => DD x23 x55 | s76 => DD x23 x56 | s77 => DD x23 x57 | s78 => DD x23 x58 | s79 => DD x23 x59 | s80 => DD x23 x60 | s81 => DD x23 x61 | s82 => DD x23 x62 | s83 => DD x23 x63 | s84 => DD x24 x0 | s85 => DD x24 x1 | s86 => DD x24 x2 | s87 => DD x24 x3 | s88 => DD x24 x4 | s89 => DD x24 x5 | s90 => DD x24 x6 | s91 => DD x24 x7 | s92 => DD x24 x8 | s93 => DD x24 x9 | s94 => DD x24 x10 | s95 => DD x24 x11 | s96 => DD x24 x12 | s97 => DD x24 x13 | s98 => DD x24 x14 | s99 => DD x24 x15 | s100 => DD x24 x16 | s101 => DD x24 x17 | s102 => DD x24 x18 | s103 => DD x24 x19 | s104 => DD x24 x20 | s105 => DD x24 x21 | s106 => DD x24 x22 | s107 => DD x24 x23 | s108 => DD x24 x24 | s109 => DD x24 x25 | s110 => DD x24 x26 | s111 => DD x24 x27 | s112 => DD x24 x28 | s113 => DD x24 x29 | s114 => DD x24 x30 | s115 => DD x24 x31 | s116 => DD x24 x32 | s117 => DD x24 x33 | s118 => DD x24 x34 | s119 => DD x24 x35 | s120 => DD x24 x36 | s121 => DD x24 x37 | s122 => DD x24 x38 | s123 => DD x24 x39 | s124 => DD x24 x40 | s125 => DD x24 x41 | s126 => DD x24 x42 end.
Definition m1456 (c : sum2) : dd := match c with s0 => DD x22 x48 | s1 => DD x22 x49 | s2 => DD x22 x50 | s3 => DD x22 x51 | s4 => DD x22 x52 | s5 => DD x22 x53 | s6 => DD x22 x54 | s7 => DD x22 x55 | s8 => DD x22 x56 | s9 => DD x22 x57 | s10 => DD x22 x58 | s11 => DD x22 x59 | s12 => DD x22 x60 | s13 => DD x22 x61 | s14 => DD x22 x62 | s15 => DD x22 x63 | s16 => DD x23 x0 | s17 => DD x23 x1 | s18 => DD x23 x2 | s19 => DD x23 x3 | s20 => DD x23 x4 | s21 => DD x23 x5 | s22 => DD x23 x6 | s23 => DD x23 x7 | s24 => DD x23 x8 | s25 => DD x23 x9 | s26 => DD x23 x10 | s27 => DD x23 x11 | s28 => DD x23 x12 | s29 => DD x23 x13 | s30 => DD x23 x14 | s31 => DD x23 x15 | s32 => DD x23 x16 | s33 => DD x23 x17 | s34 => DD x23 x18 | s35 => DD x23 x19 | s36 => DD x23 x20 | s37 => DD x23 x21 | s38 => DD x23 x22 | s39 => DD x23 x23 | s40 => DD x23 x24 | s41 => DD x23 x25 | s42 => DD x23 x26 | s43 => DD x23 x27 | s44 => DD x23 x28 | s45 => DD x23 x29 | s46 => DD x23 x30 | s47 => DD x23 x31 | s48 => DD x23 x32 | s49 => DD x23 x33 | s50 => DD x23 x34 | s51 => DD x23 x35 | s52 => DD x23 x36 | s53 => DD x23 x37 | s54 => DD x23 x38 | s55 => DD x23 x39 | s56 => DD x23 x40 | s57 => DD x23 x41 | s58 => DD x23 x42 | s59 => DD x23 x43 | s60 => DD x23 x44 | s61 => DD x23 x45 | s62 => DD x23 x46 | s63 => DD x23 x47 | s64 => DD x23 x48 | s65 => DD x23 x49 | s66 => DD x23 x50 | s67 => DD x23 x51 | s68 => DD x23 x52 | s69 => DD x23 x53 | s70 => DD x23 x54 | s71 => DD x23 x55 | s72 => DD x23 x56 | s73 => DD x23 x57 | s74 => DD x23 x58 | s75 => DD x23 x59 | s76 => DD x23 x60 | s77 => DD x23 x61 | s78 => DD x23 x62 | s79 => DD x23 x63 | s80 => DD x24 x0 | s81 => DD x24 x1 | s82 => DD x24 x2 | s83 => DD x24 x3 | s84 => DD x24 x4 | s85 => DD x24 x5 | s86 => DD x24 x6 | s87 => DD x24 x7 | s88 => DD x24 x8 | s89 => DD x24 x9 | s90 => DD x24 x10 | s91 => DD x24 x11 | s92 => DD x24 x12 | s93 => DD x24 x13 | s94 => DD x24 x14 | s95 => DD x24 x15 | s96 => DD x24 x16 | s97 => DD x24 x17 | s98 => DD x24 x18 | s99 => DD x24 x19 | s100 => DD x24 x20 | s101 => DD x24 x21 | s102 => DD x24 x22 | s103 => DD x24 x23 | s104 => DD x24 x24 | s105 => DD x24 x25 | s106 => DD x24 x26 | s107 => DD x24 x27 | s108 => DD x24 x28 | s109 => DD x24 x29 | s110 => DD x24 x30 | s111 => DD x24 x31 | s112 => DD x24 x32 | s113 => DD x24 x33 | s114 => DD x24 x34 | s115 => DD x24 x35 | s116 => DD x24 x36 | s117 => DD x24 x37 | s118 => DD x24 x38 | s119 => DD x24 x39 | s120 => DD x24 x40 | s121 => DD x24 x41 | s122 => DD x24 x42 | s123 => DD x24 x43 | s124 => DD x24 x44 | s125 => DD x24 x45 | s126 => DD x24 x46 end.
Definition m1457 (c : sum2) : dd := match c with s0 => DD x22 x49 | s1 => DD x22 x50 | s2 => DD x22 x51 | s3 => DD x22 x52 | s4 => DD x22 x53 | s5 => DD x22 x54 | s6 => DD x22 x55 | s7 => DD x22 x56 | s8 => DD x22 x57 | s9 => DD x22 x58 | s10 => DD x22 x59 | s11 => DD x22 x60 | s12 => DD x22 x61 | s13 => DD x22 x62 | s14 => DD x22 x63 | s15 => DD x23 x0 | s16 => DD x23 x1 | s17 => DD x23 x2 | s18 => DD x23 x3 | s19 => DD x23 x4 | s20 => DD x23 x5 | s21 => DD x23 x6 | s22 => DD x23 x7 | s23 => DD x23 x8 | s24 => DD x23 x9 | s25 => DD x23 x10 | s26 => DD x23 x11 | s27 => DD x23 x12 | s28 => DD x23 x13 | s29 => DD x23 x14 | s30 => DD x23 x15 | s31 => DD x23 x16 | s32 => DD x23 x17 | s33 => DD x23 x18 | s34 => DD x23 x19 | s35 => DD x23 x20 | s36 => DD x23 x21 | s37 => DD x23 x22 | s38 => DD x23 x23 | s39 => DD x23 x24 | s40 => DD x23 x25 | s41 => DD x23 x26 | s42 => DD x23 x27 | s43 => DD x23 x28 | s44 => DD x23 x29 | s45 => DD x23 x30 | s46 => DD x23 x31 | s47 => DD x23 x32 | s48 => DD x23 x33 | s49 => DD x23 x34 | s50 => DD x23 x35 | s51 => DD x23 x36 | s52 => DD x23 x37 | s53 => DD x23 x38 | s54 => DD x23 x39 | s55 => DD x23 x40 | s56 => DD x23 x41 | s57 => DD x23 x42 | s58 => DD x23 x43 | s59 => DD x23 x44 | s60 => DD x23 x45 | s61 => DD x23 x46 | s62 => DD x23 x47 | s63 => DD x23 x48 | s64 => DD x23 x49 | s65 => DD x23 x50 | s66 => DD x23 x51 | s67 => DD x23 x52 | s68 => DD x23 x53 | s69 => DD x23 x54 | s70 => DD x23 x55 | s71 => DD x23 x56 | s72 => DD x23 x57 | s73 => DD x23 x58 | s74 => DD x23 x59 | s75 => DD x23 x60 | s76 => DD x23 x61 | s77 => DD x23 x62 | s78 => DD x23 x63 | s79 => DD x24 x0 | s80 => DD x24 x1 | s81 => DD x24 x2 | s82 => DD x24 x3 | s83 => DD x24 x4 | s84 => DD x24 x5 | s85 => DD x24 x6 | s86 => DD x24 x7 | s87 => DD x24 x8 | s88 => DD x24 x9 | s89 => DD x24 x10 | s90 => DD x24 x11 | s91 => DD x24 x12 | s92 => DD x24 x13 | s93 => DD x24 x14 | s94 => DD x24 x15 | s95 => DD x24 x16 | s96 => DD x24 x17 | s97 => DD x24 x18 | s98 => DD x24 x19 | s99 => DD x24 x20 | s100 => DD x24 x21 | s101 => DD x24 x22 | s102 => DD x24 x23 | s103 => DD x24 x24 | s104 => DD x24 x25 | s105 => DD x24 x26 | s106 => DD x24 x27 | s107 => DD x24 x28 | s108 => DD x24 x29 | s109 => DD x24 x30 | s110 => DD x24 x31 | s111 => DD x24 x32 | s112 => DD x24 x33 | s113 => DD x24 x34 | s114 => DD x24 x35 | s115 => DD x24 x36 | s116 => DD x24 x37 | s117 => DD x24 x38 | s118 => DD x24 x39 | s119 => DD x24 x40 | s120 => DD x24 x41 | s121 => DD x24 x42 | s122 => DD x24 x43 | s123 => DD x24 x44 | s124 => DD x24 x45 | s125 => DD x24 x46 | s126 => DD x24 x47 end.
Definition m1458 (c : sum2) : dd := match c with s0 => DD x22 x50 | s1 => DD x22 x51 | s2 => DD x22 x52 | s3 => DD x22 x53 | s4 => DD x22 x54 | s5 => DD x22 x55 | s6 => DD x22 x56 | s7 => DD x22 x57 | s8 => DD x22 x58 | s9 => DD x22 x59 | s10 => DD x22 x60 | s11 => DD x22 x61 | s12 => DD x22 x62 | s13 => DD x22 x63 | s14 => DD x23 x0 | s15 => DD x23 x1 | s16 => DD x23 x2 | s17 => DD x23 x3 | s18 => DD x23 x4 | s19 => DD x23 x5 | s20 => DD x23 x6 | s21 => DD x23 x7 | s22 => DD x23 x8 | s23 => DD x23 x9 | s24 => DD x23 x10 | s25 => DD x23 x11 | s26 => DD x23 x12 | s27 => DD x23 x13 | s28 => DD x23 x14 | s29 => DD x23 x15 | s30 => DD x23 x16 | s31 => DD x23 x17 | s32 => DD x23 x18 | s33 => DD x23 x19 | s34 => DD x23 x20 | s35 => DD x23 x21 | s36 => DD x23 x22 | s37 => DD x23 x23 | s38 => DD x23 x24 | s39 => DD x23 x25 | s40 => DD x23 x26 | s41 => DD x23 x27 | s42 => DD x23 x28 | s43 => DD x23 x29 | s44 => DD x23 x30 | s45 => DD x23 x31 | s46 => DD x23 x32 | s47 => DD x23 x33 | s48 => DD x23 x34 | s49 => DD x23 x35 | s50 => DD x23 x36 | s51 => DD x23 x37 | s52 => DD x23 x38 | s53 => DD x23 x39 | s54 => DD x23 x40 | s55 => DD x23 x41 | s56 => DD x23 x42 | s57 => DD x23 x43 | s58 => DD x23 x44 | s59 => DD x23 x45 | s60 => DD x23 x46 | s61 => DD x23 x47 | s62 => DD x23 x48 | s63 => DD x23 x49 | s64 => DD x23 x50 | s65 => DD x23 x51 | s66 => DD x23 x52 | s67 => DD x23 x53 | s68 => DD x23 x54 | s69 => DD x23 x55 | s70 => DD x23 x56 | s71 => DD x23 x57 | s72 => DD x23 x58 | s73 => DD x23 x59 | s74 => DD x23 x60 | s75 => DD x23 x61 | s76 => DD x23 x62 | s77 => DD x23 x63 | s78 => DD x24 x0 | s79 => DD x24 x1 | s80 => DD x24 x2 | s81 => DD x24 x3 | s82 => DD x24 x4 | s83 => DD x24 x5 | s84 => DD x24 x6 | s85 => DD x24 x7 | s86 => DD x24 x8 | s87 => DD x24 x9 | s88 => DD x24 x10 | s89 => DD x24 x11 | s90 => DD x24 x12 | s91 => DD x24 x13 | s92 => DD x24 x14 | s93 => DD x24 x15 | s94 => DD x24 x16 | s95 => DD x24 x17 | s96 => DD x24 x18 | s97 => DD x24 x19 | s98 => DD x24 x20 | s99 => DD x24 x21 | s100 => DD x24 x22 | s101 => DD x24 x23 | s102 => DD x24 x24 | s103 => DD x24 x25 | s104 => DD x24 x26 | s105 => DD x24 x27 | s106 => DD x24 x28 | s107 => DD x24 x29 | s108 => DD x24 x30 | s109 => DD x24 x31 | s110 => DD x24 x32 | s111 => DD x24 x33 | s112 => DD x24 x34 | s113 => DD x24 x35 | s114 => DD x24 x36 | s115 => DD x24 x37 | s116 => DD x24 x38 | s117 => DD x24 x39 | s118 => DD x24 x40 | s119 => DD x24 x41 | s120 => DD x24 x42 | s121 => DD x24 x43 | s122 => DD x24 x44 | s123 => DD x24 x45 | s124 => DD x24 x46 | s125 => DD x24 x47 | s126 => DD x24 x48 end.
Definition m1462 (c : sum2) : dd := match c with s0 => DD x22 x54 | s1 => DD x22 x55 | s2 => DD x22 x56 | s3 => DD x22 x57 | s4 => DD x22 x58 | s5 => DD x22 x59 | s6 => DD x22 x60 | s7 => DD x22 x61 | s8 => DD x22 x62 | s9 => DD x22 x63 | s10 => DD x23 x0 | s11 => DD x23 x1 | s12 => DD x23 x2 | s13 => DD x23 x3 | s14 => DD x23 x4 | s15 => DD x23 x5 | s16 => DD x23 x6 | s17 => DD x23 x7 | s18 => DD x23 x8 | s19 => DD x23 x9 | s20 => DD x23 x10 | s21 => DD x23 x11 | s22 => DD x23 x12 | s23 => DD x23 x13 | s24 => DD x23 x14 | s25 => DD x23 x15 | s26 => DD x23 x16 | s27 => DD x23 x17 | s28 => DD x23 x18 | s29 => DD x23 x19 | s30 => DD x23 x20 | s31 => DD x23 x21 | s32 => DD x23 x22 | s33 => DD x23 x23 | s34 => DD x23 x24 | s35 => DD x23 x25 | s36 => DD x23 x26 | s37 => DD x23 x27 | s38 => DD x23 x28 | s39 => DD x23 x29 | s40 => DD x23 x30 | s41 => DD x23 x31 | s42 => DD x23 x32 | s43 => DD x23 x33 | s44 => DD x23 x34 | s45 => DD x23 x35 | s46 => DD x23 x36 | s47 => DD x23 x37 | s48 => DD x23 x38 | s49 => DD x23 x39 | s50 => DD x23 x40 | s51 => DD x23 x41 | s52 => DD x23 x42 | s53 => DD x23 x43 | s54 => DD x23 x44 | s55 => DD x23 x45 | s56 => DD x23 x46 | s57 => DD x23 x47 | s58 => DD x23 x48 | s59 => DD x23 x49 | s60 => DD x23 x50 | s61 => DD x23 x51 | s62 => DD x23 x52 | s63 => DD x23 x53 | s64 => DD x23 x54 | s65 => DD x23 x55 | s66 => DD x23 x56 | s67 => DD x23 x57 | s68 => DD x23 x58 | s69 => DD x23 x59 | s70 => DD x23 x60 | s71 => DD x23 x61 | s72 => DD x23 x62 | s73 => DD x23 x63 | s74 => DD x24 x0 | s75 => DD x24 x1 | s76 => DD x24 x2 | s77 => DD x24 x3 | s78 => DD x24 x4 | s79 => DD x24 x5 | s80 => DD x24 x6 | s81 => DD x24 x7 | s82 => DD x24 x8 | s83 => DD x24 x9 | s84 => DD x24 x10 | s85 => DD x24 x11 | s86 => DD x24 x12 | s87 => DD x24 x13 | s88 => DD x24 x14 | s89 => DD x24 x15 | s90 => DD x24 x16 | s91 => DD x24 x17 | s92 => DD x24 x18 | s93 => DD x24 x19 | s94 => DD x24 x20 | s95 => DD x24 x21 | s96 => DD x24 x22 | s97 => DD x24 x23 | s98 => DD x24 x24 | s99 => DD x24 x25 | s100 => DD x24 x26 | s101 => DD x24 x27 | s102 => DD x24 x28 | s103 => DD x24 x29 | s104 => DD x24 x30 | s105 => DD x24 x31 | s106 => DD x24 x32 | s107 => DD x24 x33 | s108 => DD x24 x34 | s109 => DD x24 x35 | s110 => DD x24 x36 | s111 => DD x24 x37 | s112 => DD x24 x38 | s113 => DD x24 x39 | s114 => DD x24 x40 | s115 => DD x24 x41 | s116 => DD x24 x42 | s117 => DD x24 x43 | s118 => DD x24 x44 | s119 => DD x24 x45 | s120 => DD x24 x46 | s121 => DD x24 x47 | s122 => DD x24 x48 | s123 => DD x24 x49 | s124 => DD x24 x50 | s125 => DD x24 x51 | s126 => DD x24 x52 end.
Definition m1464 (c : sum2) : dd := match c with s0 => DD x22 x56 | s1 => DD x22 x57 | s2 => DD x22 x58 | s3 => DD x22 x59 | s4 => DD x22 x60 | s5 => DD x22 x61 | s6 => DD x22 x62 | s7 => DD x22 x63 | s8 => DD x23 x0 | s9 => DD x23 x1 | s10 => DD x23 x2 | s11 => DD x23 x3 | s12 => DD x23 x4 | s13 => DD x23 x5 | s14 => DD x23 x6 | s15 => DD x23 x7 | s16 => DD x23 x8 | s17 => DD x23 x9 | s18 => DD x23 x10 | s19 => DD x23 x11 | s20 => DD x23 x12 | s21 => DD x23 x13 | s22 => DD x23 x14 | s23 => DD x23 x15 | s24 => DD x23 x16 | s25 => DD x23 x17 | s26 => DD x23 x18 | s27 => DD x23 x19 | s28 => DD x23 x20 | s29 => DD x23 x21 | s30 => DD x23 x22 | s31 => DD x23 x23 | s32 => DD x23 x24 | s33 => DD x23 x25 | s34 => DD x23 x26 | s35 => DD x23 x27 | s36 => DD x23 x28 | s37 => DD x23 x29 | s38 => DD x23 x30 | s39 => DD x23 x31 | s40 => DD x23 x32 | s41 => DD x23 x33 | s42 => DD x23 x34 | s43 => DD x23 x35 | s44 => DD x23 x36 | s45 => DD x23 x37 | s46 => DD x23 x38 | s47 => DD x23 x39 | s48 => DD x23 x40 | s49 => DD x23 x41 | s50 => DD x23 x42 | s51 => DD x23 x43 | s52 => DD x23 x44 | s53 => DD x23 x45 | s54 => DD x23 x46 | s55 => DD x23 x47 | s56 => DD x23 x48 | s57 => DD x23 x49 | s58 => DD x23 x50 | s59 => DD x23 x51 | s60 => DD x23 x52 | s61 => DD x23 x53 | s62 => DD x23 x54 | s63 => DD x23 x55 | s64 => DD x23 x56 | s65 => DD x23 x57 | s66 => DD x23 x58 | s67 => DD x23 x59 | s68 => DD x23 x60 | s69 => DD x23 x61 | s70 => DD x23 x62 | s71 => DD x23 x63 | s72 => DD x24 x0 | s73 => DD x24 x1 | s74 => DD x24 x2 | s75 => DD x24 x3 | s76 => DD x24 x4 | s77 => DD x24 x5 | s78 => DD x24 x6 | s79 => DD x24 x7 | s80 => DD x24 x8 | s81 => DD x24 x9 | s82 => DD x24 x10 | s83 => DD x24 x11 | s84 => DD x24 x12 | s85 => DD x24 x13 | s86 => DD x24 x14 | s87 => DD x24 x15 | s88 => DD x24 x16 | s89 => DD x24 x17 | s90 => DD x24 x18 | s91 => DD x24 x19 | s92 => DD x24 x20 | s93 => DD x24 x21 | s94 => DD x24 x22 | s95 => DD x24 x23 | s96 => DD x24 x24 | s97 => DD x24 x25 | s98 => DD x24 x26 | s99 => DD x24 x27 | s100 => DD x24 x28 | s101 => DD x24 x29 | s102 => DD x24 x30 | s103 => DD x24 x31 | s104 => DD x24 x32 | s105 => DD x24 x33 | s106 => DD x24 x34 | s107 => DD x24 x35 | s108 => DD x24 x36 | s109 => DD x24 x37 | s110 => DD x24 x38 | s111 => DD x24 x39 | s112 => DD x24 x40 | s113 => DD x24 x41 | s114 => DD x24 x42 | s115 => DD x24 x43 | s116 => DD x24 x44 | s117 => DD x24 x45 | s118 => DD x24 x46 | s119 => DD x24 x47 | s120 => DD x24 x48 | s121 => DD x24 x49 | s122 => DD x24 x50 | s123 => DD x24 x51 | s124 => DD x24 x52 | s125 => DD x24 x53 | s126 => DD x24 x54 end.
Definition m1470 (c : sum2) : dd := match c with s0 => DD x22 x62 | s1 => DD x22 x63 | s2 => DD x23 x0 | s3 => DD x23 x1 | s4 => DD x23 x2 | s5 => DD x23 x3 | s6 => DD x23 x4 | s7 => DD x23 x5 | s8 => DD x23 x6 | s9 => DD x23 x7 | s10 => DD x23 x8 | s11 => DD x23 x9 | s12 => DD x23 x10 | s13 => DD x23 x11 | s14 => DD x23 x12 | s15 => DD x23 x13 | s16 => DD x23 x14 | s17 => DD x23 x15 | s18 => DD x23 x16 | s19 => DD x23 x17 | s20 => DD x23 x18 | s21 => DD x23 x19 | s22 => DD x23 x20 | s23 => DD x23 x21 | s24 => DD x23 x22 | s25 => DD x23 x23 | s26 => DD x23 x24 | s27 => DD x23 x25 | s28 => DD x23 x26 | s29 => DD x23 x27 | s30 => DD x23 x28 | s31 => DD x23 x29 | s32 => DD x23 x30 | s33 => DD x23 x31 | s34 => DD x23 x32 | s35 => DD x23 x33 | s36 => DD x23 x34 | s37 => DD x23 x35 | s38 => DD x23 x36 | s39 => DD x23 x37 | s40 => DD x23 x38 | s41 => DD x23 x39 | s42 => DD x23 x40 | s43 => DD x23 x41 | s44 => DD x23 x42 | s45 => DD x23 x43 | s46 => DD x23 x44 | s47 => DD x23 x45 | s48 => DD x23 x46 | s49 => DD x23 x47 | s50 => DD x23 x48 | s51 => DD x23 x49 | s52 => DD x23 x50 | s53 => DD x23 x51 | s54 => DD x23 x52 | s55 => DD x23 x53 | s56 => DD x23 x54 | s57 => DD x23 x55 | s58 => DD x23 x56 | s59 => DD x23 x57 | s60 => DD x23 x58 | s61 => DD x23 x59 | s62 => DD x23 x60 | s63 => DD x23 x61 | s64 => DD x23 x62 | s65 => DD x23 x63 | s66 => DD x24 x0 | s67 => DD x24 x1 | s68 => DD x24 x2 | s69 => DD x24 x3 | s70 => DD x24 x4 | s71 => DD x24 x5 | s72 => DD x24 x6 | s73 => DD x24 x7 | s74 => DD x24 x8 | s75 => DD x24 x9 | s76 => DD x24 x10 | s77 => DD x24 x11 | s78 => DD x24 x12 | s79 => DD x24 x13 | s80 => DD x24 x14 | s81 => DD x24 x15 | s82 => DD x24 x16 | s83 => DD x24 x17 | s84 => DD x24 x18 | s85 => DD x24 x19 | s86 => DD x24 x20 | s87 => DD x24 x21 | s88 => DD x24 x22 | s89 => DD x24 x23 | s90 => DD x24 x24 | s91 => DD x24 x25 | s92 => DD x24 x26 | s93 => DD x24 x27 | s94 => DD x24 x28 | s95 => DD x24 x29 | s96 => DD x24 x30 | s97 => DD x24 x31 | s98 => DD x24 x32 | s99 => DD x24 x33 | s100 => DD x24 x34 | s101 => DD x24 x35 | s102 => DD x24 x36 | s103 => DD x24 x37 | s104 => DD x24 x38 | s105 => DD x24 x39 | s106 => DD x24 x40 | s107 => DD x24 x41 | s108 => DD x24 x42 | s109 => DD x24 x43 | s110 => DD x24 x44 | s111 => DD x24 x45 | s112 => DD x24 x46 | s113 => DD x24 x47 | s114 => DD x24 x48 | s115 => DD x24 x49 | s116 => DD x24 x50 | s117 => DD x24 x51 | s118 => DD x24 x52 | s119 => DD x24 x53 | s120 => DD x24 x54 | s121 => DD x24 x55 | s122 => DD x24 x56 | s123 => DD x24 x57 | s124 => DD x24 x58 | s125 => DD x24 x59 | s126 => DD x24 x60 end.
Definition m1472 (c : sum2) : dd := match c with s0 => DD x23 x0 | s1 => DD x23 x1 | s2 => DD x23 x2 | s3 => DD x23 x3 | s4 => DD x23 x4 | s5 => DD x23 x5 | s6 => DD x23 x6 | s7 => DD x23 x7 | s8 => DD x23 x8 | s9 => DD x23 x9 | s10 => DD x23 x10 | s11 => DD x23 x11 | s12 => DD x23 x12 | s13 => DD x23 x13 | s14 => DD x23 x14 | s15 => DD x23 x15 | s16 => DD x23 x16 | s17 => DD x23 x17 | s18 => DD x23 x18 | s19 => DD x23 x19 | s20 => DD x23 x20 | s21 => DD x23 x21 | s22 => DD x23 x22 | s23 => DD x23 x23 | s24 => DD x23 x24 | s25 => DD x23 x25 | s26 => DD x23 x26 | s27 => DD x23 x27 | s28 => DD x23 x28 | s29 => DD x23 x29 | s30 => DD x23 x30 | s31 => DD x23 x31 | s32 => DD x23 x32 | s33 => DD x23 x33 | s34 => DD x23 x34 | s35 => DD x23 x35 | s36 => DD x23 x36 | s37 => DD x23 x37 | s38 => DD x23 x38 | s39 => DD x23 x39 | s40 => DD x23 x40 | s41 => DD x23 x41 | s42 => DD x23 x42 | s43 => DD x23 x43 | s44 => DD x23 x44 | s45 => DD x23 x45 | s46 => DD x23 x46 | s47 => DD x23 x47 | s48 => DD x23 x48 | s49 => DD x23 x49 | s50 => DD x23 x50 | s51 => DD x23 x51 | s52 => DD x23 x52 | s53 => DD x23 x53 | s54 => DD x23 x54 | s55 => DD x23 x55 | s56 => DD x23 x56 | s57 => DD x23 x57 | s58 => DD x23 x58 | s59 => DD x23 x59 | s60 => DD x23 x60 | s61 => DD x23 x61 | s62 => DD x23 x62 | s63 => DD x23 x63 | s64 => DD x24 x0 | s65 => DD x24 x1 | s66 => DD x24 x2 | s67 => DD x24 x3 | s68 => DD x24 x4 | s69 => DD x24 x5 | s70 => DD x24 x6 | s71 => DD x24 x7 | s72 => DD x24 x8 | s73 => DD x24 x9 | s74 => DD x24 x10 | s75 => DD x24 x11 | s76 => DD x24 x12 | s77 => DD x24 x13 | s78 => DD x24 x14 | s79 => DD x24 x15 | s80 => DD x24 x16 | s81 => DD x24 x17 | s82 => DD x24 x18 | s83 => DD x24 x19 | s84 => DD x24 x20 | s85 => DD x24 x21 | s86 => DD x24 x22 | s87 => DD x24 x23 | s88 => DD x24 x24 | s89 => DD x24 x25 | s90 => DD x24 x26 | s91 => DD x24 x27 | s92 => DD x24 x28 | s93 => DD x24 x29 | s94 => DD x24 x30 | s95 => DD x24 x31 | s96 => DD x24 x32 | s97 => DD x24 x33 | s98 => DD x24 x34 | s99 => DD x24 x35 | s100 => DD x24 x36 | s101 => DD x24 x37 | s102 => DD x24 x38 | s103 => DD x24 x39 | s104 => DD x24 x40 | s105 => DD x24 x41 | s106 => DD x24 x42 | s107 => DD x24 x43 | s108 => DD x24 x44 | s109 => DD x24 x45 | s110 => DD x24 x46 | s111 => DD x24 x47 | s112 => DD x24 x48 | s113 => DD x24 x49 | s114 => DD x24 x50 | s115 => DD x24 x51 | s116 => DD x24 x52 | s117 => DD x24 x53 | s118 => DD x24 x54 | s119 => DD x24 x55 | s120 => DD x24 x56 | s121 => DD x24 x57 | s122 => DD x24 x58 | s123 => DD x24 x59 | s124 => DD x24 x60 | s125 => DD x24 x61 | s126 => DD x24 x62 end.
Definition m1475 (c : sum2) : dd := match c with s0 => DD x23 x3 | s1 => DD x23 x4 | s2 => DD x23 x5 | s3 => DD x23 x6 | s4 => DD x23 x7 | s5 => DD x23 x8 | s6 => DD x23 x9 | s7 => DD x23 x10 | s8 => DD x23 x11 | s9 => DD x23 x12 | s10 => DD x23 x13 | s11 => DD x23 x14 | s12 => DD x23 x15 | s13 => DD x23 x16 | s14 => DD x23 x17 | s15 => DD x23 x18 | s16 => DD x23 x19 | s17 => DD x23 x20 | s18 => DD x23 x21 | s19 => DD x23 x22 | s20 => DD x23 x23 | s21 => DD x23 x24 | s22 => DD x23 x25 | s23 => DD x23 x26 | s24 => DD x23 x27 | s25 => DD x23 x28 | s26 => DD x23 x29 | s27 => DD x23 x30 | s28 => DD x23 x31 | s29 => DD x23 x32 | s30 => DD x23 x33 | s31 => DD x23 x34 | s32 => DD x23 x35 | s33 => DD x23 x36 | s34 => DD x23 x37 | s35 => DD x23 x38 | s36 => DD x23 x39 | s37 => DD x23 x40 | s38 => DD x23 x41 | s39 => DD x23 x42 | s40 => DD x23 x43 | s41 => DD x23 x44 | s42 => DD x23 x45 | s43 => DD x23 x46 | s44 => DD x23 x47 | s45 => DD x23 x48 | s46 => DD x23 x49 | s47 => DD x23 x50 | s48 => DD x23 x51 | s49 => DD x23 x52 | s50 => DD x23 x53 | s51 => DD x23 x54 | s52 => DD x23 x55 | s53 => DD x23 x56 | s54 => DD x23 x57 | s55 => DD x23 x58 | s56 => DD x23 x59 | s57 => DD x23 x60 | s58 => DD x23 x61 | s59 => DD x23 x62 | s60 => DD x23 x63 | s61 => DD x24 x0 | s62 => DD x24 x1 | s63 => DD x24 x2 | s64 => DD x24 x3 | s65 => DD x24 x4 | s66 => DD x24 x5 | s67 => DD x24 x6 | s68 => DD x24 x7 | s69 => DD x24 x8 | s70 => DD x24 x9 | s71 => DD x24 x10 | s72 => DD x24 x11 | s73 => DD x24 x12 | s74 => DD x24 x13 | s75 => DD x24 x14 | s76 => DD x24 x15 | s77 => DD x24 x16 | s78 => DD x24 x17 | s79 => DD x24 x18 | s80 => DD x24 x19 | s81 => DD x24 x20 | s82 => DD x24 x21 | s83 => DD x24 x22 | s84 => DD x24 x23 | s85 => DD x24 x24 | s86 => DD x24 x25 | s87 => DD x24 x26 | s88 => DD x24 x27 | s89 => DD x24 x28 | s90 => DD x24 x29 | s91 => DD x24 x30 | s92 => DD x24 x31 | s93 => DD x24 x32 | s94 => DD x24 x33 | s95 => DD x24 x34 | s96 => DD x24 x35 | s97 => DD x24 x36 | s98 => DD x24 x37 | s99 => DD x24 x38 | s100 => DD x24 x39 | s101 => DD x24 x40 | s102 => DD x24 x41 | s103 => DD x24 x42 | s104 => DD x24 x43 | s105 => DD x24 x44 | s106 => DD x24 x45 | s107 => DD x24 x46 | s108 => DD x24 x47 | s109 => DD x24 x48 | s110 => DD x24 x49 | s111 => DD x24 x50 | s112 => DD x24 x51 | s113 => DD x24 x52 | s114 => DD x24 x53 | s115 => DD x24 x54 | s116 => DD x24 x55 | s117 => DD x24 x56 | s118 => DD x24 x57 | s119 => DD x24 x58 | s120 => DD x24 x59 | s121 => DD x24 x60 | s122 => DD x24 x61 | s123 => DD x24 x62 | s124 => DD x24 x63 | s125 => DD x25 x0 | s126 => DD x25 x1 end.
Definition m1476 (c : sum2) : dd := match c with s0 => DD x23 x4 | s1 => DD x23 x5 | s2 => DD x23 x6 | s3 => DD x23 x7 | s4 => DD x23 x8 | s5 => DD x23 x9 | s6 => DD x23 x10 | s7 => DD x23 x11 | s8 => DD x23 x12 | s9 => DD x23 x13 | s10 => DD x23 x14 | s11 => DD x23 x15 | s12 => DD x23 x16 | s13 => DD x23 x17 | s14 => DD x23 x18 | s15 => DD x23 x19 | s16 => DD x23 x20 | s17 => DD x23 x21 | s18 => DD x23 x22 | s19 => DD x23 x23 | s20 => DD x23 x24 | s21 => DD x23 x25 | s22 => DD x23 x26 | s23 => DD x23 x27 | s24 => DD x23 x28 | s25 => DD x23 x29 | s26 => DD x23 x30 | s27 => DD x23 x31 | s28 => DD x23 x32 | s29 => DD x23 x33 | s30 => DD x23 x34 | s31 => DD x23 x35 | s32 => DD x23 x36 | s33 => DD x23 x37 | s34 => DD x23 x38 | s35 => DD x23 x39 | s36 => DD x23 x40 | s37 => DD x23 x41 | s38 => DD x23 x42 | s39 => DD x23 x43 | s40 => DD x23 x44 | s41 => DD x23 x45 | s42 => DD x23 x46 | s43 => DD x23 x47 | s44 => DD x23 x48 | s45 => DD x23 x49 | s46 => DD x23 x50 | s47 => DD x23 x51 | s48 => DD x23 x52 | s49 => DD x23 x53 | s50 => DD x23 x54 | s51 => DD x23 x55 | s52 => DD x23 x56 | s53 => DD x23 x57 | s54 => DD x23 x58 | s55 => DD x23 x59 | s56 => DD x23 x60 | s57 => DD x23 x61 | s58 => DD x23 x62 | s59 => DD x23 x63 | s60 => DD x24 x0 | s61 => DD x24 x1 | s62 => DD x24 x2 | s63 => DD x24 x3 | s64 => DD x24 x4 | s65 => DD x24 x5 | s66 => DD x24 x6 | s67 => DD x24 x7 | s68 => DD x24 x8 | s69 => DD x24 x9 | s70 => DD x24 x10 | s71 => DD x24 x11 | s72 => DD x24 x12 | s73 => DD x24 x13 | s74 => DD x24 x14 | s75 => DD x24 x15 | s76 => DD x24 x16 | s77 => DD x24 x17 | s78 => DD x24 x18 | s79 => DD x24 x19 | s80 => DD x24 x20 | s81 => DD x24 x21 | s82 => DD x24 x22 | s83 => DD x24 x23 | s84 => DD x24 x24 | s85 => DD x24 x25 | s86 => DD x24 x26 | s87 => DD x24 x27 | s88 => DD x24 x28 | s89 => DD x24 x29 | s90 => DD x24 x30 | s91 => DD x24 x31 | s92 => DD x24 x32 | s93 => DD x24 x33 | s94 => DD x24 x34 | s95 => DD x24 x35 | s96 => DD x24 x36 | s97 => DD x24 x37 | s98 => DD x24 x38 | s99 => DD x24 x39 | s100 => DD x24 x40 | s101 => DD x24 x41 | s102 => DD x24 x42 | s103 => DD x24 x43 | s104 => DD x24 x44 | s105 => DD x24 x45 | s106 => DD x24 x46 | s107 => DD x24 x47 | s108 => DD x24 x48 | s109 => DD x24 x49 | s110 => DD x24 x50 | s111 => DD x24 x51 | s112 => DD x24 x52 | s113 => DD x24 x53 | s114 => DD x24 x54 | s115 => DD x24 x55 | s116 => DD x24 x56 | s117 => DD x24 x57 | s118 => DD x24 x58 | s119 => DD x24 x59 | s120 => DD x24 x60 | s121 => DD x24 x61 | s122 => DD x24 x62 | s123 => DD x24 x63 | s124 => DD x25 x0 | s125 => DD x25 x1 | s126 => DD x25 x2 end.
Definition m1479 (c : sum2) : dd := match c with s0 => DD x23 x7 | s1 => DD x23 x8 | s2 => DD x23 x9 | s3 => DD x23 x10 | s4 => DD x23 x11 | s5 => DD x23 x12 | s6 => DD x23 x13 | s7 => DD x23 x14 | s8 => DD x23 x15 | s9 => DD x23 x16 | s10 => DD x23 x17 | s11 => DD x23 x18 | s12 => DD x23 x19 | s13 => DD x23 x20 | s14 => DD x23 x21 | s15 => DD x23 x22 | s16 => DD x23 x23 | s17 => DD x23 x24 | s18 => DD x23 x25 | s19 => DD x23 x26 | s20 => DD x23 x27 | s21 => DD x23 x28 | s22 => DD x23 x29 | s23 => DD x23 x30 | s24 => DD x23 x31 | s25 => DD x23 x32 | s26 => DD x23 x33 | s27 => DD x23 x34 | s28 => DD x23 x35 | s29 => DD x23 x36 | s30 => DD x23 x37 | s31 => DD x23 x38 | s32 => DD x23 x39 | s33 => DD x23 x40 | s34 => DD x23 x41 | s35 => DD x23 x42 | s36 => DD x23 x43 | s37 => DD x23 x44 | s38 => DD x23 x45 | s39 => DD x23 x46 | s40 => DD x23 x47 | s41 => DD x23 x48 | s42 => DD x23 x49 | s43 => DD x23 x50 | s44 => DD x23 x51 | s45 => DD x23 x52 | s46 => DD x23 x53 | s47 => DD x23 x54 | s48 => DD x23 x55 | s49 => DD x23 x56 | s50 => DD x23 x57 | s51 => DD x23 x58 | s52 => DD x23 x59 | s53 => DD x23 x60 | s54 => DD x23 x61 | s55 => DD x23 x62 | s56 => DD x23 x63 | s57 => DD x24 x0 | s58 => DD x24 x1 | s59 => DD x24 x2 | s60 => DD x24 x3 | s61 => DD x24 x4 | s62 => DD x24 x5 | s63 => DD x24 x6 | s64 => DD x24 x7 | s65 => DD x24 x8 | s66 => DD x24 x9 | s67 => DD x24 x10 | s68 => DD x24 x11 | s69 => DD x24 x12 | s70 => DD x24 x13 | s71 => DD x24 x14 | s72 => DD x24 x15 | s73 => DD x24 x16 | s74 => DD x24 x17 | s75 => DD x24 x18 | s76 => DD x24 x19 | s77 => DD x24 x20 | s78 => DD x24 x21 | s79 => DD x24 x22 | s80 => DD x24 x23 | s81 => DD x24 x24 | s82 => DD x24 x25 | s83 => DD x24 x26 | s84 => DD x24 x27 | s85 => DD x24 x28 | s86 => DD x24 x29 | s87 => DD x24 x30 | s88 => DD x24 x31 | s89 => DD x24 x32 | s90 => DD x24 x33 | s91 => DD x24 x34 | s92 => DD x24 x35 | s93 => DD x24 x36 | s94 => DD x24 x37 | s95 => DD x24 x38 | s96 => DD x24 x39 | s97 => DD x24 x40 | s98 => DD x24 x41 | s99 => DD x24 x42 | s100 => DD x24 x43 | s101 => DD x24 x44 | s102 => DD x24 x45 | s103 => DD x24 x46 | s104 => DD x24 x47 | s105 => DD x24 x48 | s106 => DD x24 x49 | s107 => DD x24 x50 | s108 => DD x24 x51 | s109 => DD x24 x52 | s110 => DD x24 x53 | s111 => DD x24 x54 | s112 => DD x24 x55 | s113 => DD x24 x56 | s114 => DD x24 x57 | s115 => DD x24 x58 | s116 => DD x24 x59 | s117 => DD x24 x60 | s118 => DD x24 x61 | s119 => DD x24 x62 | s120 => DD x24 x63 | s121 => DD x25 x0 | s122 => DD x25 x1 | s123 => DD x25 x2 | s124 => DD x25 x3 | s125 => DD x25 x4 | s126 => DD x25 x5 end.
Definition m1480 (c : sum2) : dd := match c with s0 => DD x23 x8 | s1 => DD x23 x9 | s2 => DD x23 x10 | s3 => DD x23 x11 | s4 => DD x23 x12 | s5 => DD x23 x13 | s6 => DD x23 x14 | s7 => DD x23 x15 | s8 => DD x23 x16 | s9 => DD x23 x17 | s10 => DD x23 x18 | s11 => DD x23 x19 | s12 => DD x23 x20 | s13 => DD x23 x21 | s14 => DD x23 x22 | s15 => DD x23 x23 | s16 => DD x23 x24 | s17 => DD x23 x25 | s18 => DD x23 x26 | s19 => DD x23 x27 | s20 => DD x23 x28 | s21 => DD x23 x29 | s22 => DD x23 x30 | s23 => DD x23 x31 | s24 => DD x23 x32 | s25 => DD x23 x33 | s26 => DD x23 x34 | s27 => DD x23 x35 | s28 => DD x23 x36 | s29 => DD x23 x37 | s30 => DD x23 x38 | s31 => DD x23 x39 | s32 => DD x23 x40 | s33 => DD x23 x41 | s34 => DD x23 x42 | s35 => DD x23 x43 | s36 => DD x23 x44 | s37 => DD x23 x45 | s38 => DD x23 x46 | s39 => DD x23 x47 | s40 => DD x23 x48 | s41 => DD x23 x49 | s42 => DD x23 x50 | s43 => DD x23 x51 | s44 => DD x23 x52 | s45 => DD x23 x53 | s46 => DD x23 x54 | s47 => DD x23 x55 | s48 => DD x23 x56 | s49 => DD x23 x57 | s50 => DD x23 x58 | s51 => DD x23 x59 | s52 => DD x23 x60 | s53 => DD x23 x61 | s54 => DD x23 x62 | s55 => DD x23 x63 | s56 => DD x24 x0 | s57 => DD x24 x1 | s58 => DD x24 x2 | s59 => DD x24 x3 | s60 => DD x24 x4 | s61 => DD x24 x5 | s62 => DD x24 x6 | s63 => DD x24 x7 | s64 => DD x24 x8 | s65 => DD x24 x9 | s66 => DD x24 x10 | s67 => DD x24 x11 | s68 => DD x24 x12 | s69 => DD x24 x13 | s70 => DD x24 x14 | s71 => DD x24 x15 | s72 => DD x24 x16 | s73 => DD x24 x17 | s74 => DD x24 x18 | s75 => DD x24 x19 | s76 => DD x24 x20 | s77 => DD x24 x21 | s78 => DD x24 x22 | s79 => DD x24 x23 | s80 => DD x24 x24 | s81 => DD x24 x25 | s82 => DD x24 x26 | s83 => DD x24 x27 | s84 => DD x24 x28 | s85 => DD x24 x29 | s86 => DD x24 x30 | s87 => DD x24 x31 | s88 => DD x24 x32 | s89 => DD x24 x33 | s90 => DD x24 x34 | s91 => DD x24 x35 | s92 => DD x24 x36 | s93 => DD x24 x37 | s94 => DD x24 x38 | s95 => DD x24 x39 | s96 => DD x24 x40 | s97 => DD x24 x41 | s98 => DD x24 x42 | s99 => DD x24 x43 | s100 => DD x24 x44 | s101 => DD x24 x45 | s102 => DD x24 x46 | s103 => DD x24 x47 | s104 => DD x24 x48 | s105 => DD x24 x49 | s106 => DD x24 x50 | s107 => DD x24 x51 | s108 => DD x24 x52 | s109 => DD x24 x53 | s110 => DD x24 x54 | s111 => DD x24 x55 | s112 => DD x24 x56 | s113 => DD x24 x57 | s114 => DD x24 x58 | s115 => DD x24 x59 | s116 => DD x24 x60 | s117 => DD x24 x61 | s118 => DD x24 x62 | s119 => DD x24 x63 | s120 => DD x25 x0 | s121 => DD x25 x1 | s122 => DD x25 x2 | s123 => DD x25 x3 | s124 => DD x25 x4 | s125 => DD x25 x5 | s126 => DD x25 x6 end.
Definition m1482 (c : sum2) : dd := match c with s0 => DD x23 x10 | s1 => DD x23 x11 | s2 => DD x23 x12 | s3 => DD x23 x13 | s4 => DD x23 x14 | s5 => DD x23 x15 | s6 => DD x23 x16 | s7 => DD x23 x17 | s8 => DD x23 x18 | s9 => DD x23 x19 | s10 => DD x23 x20 | s11 => DD x23 x21 | s12 => DD x23 x22 | s13 => DD x23 x23 | s14 => DD x23 x24 | s15 => DD x23 x25 | s16 => DD x23 x26 | s17 => DD x23 x27 | s18 => DD x23 x28 | s19 => DD x23 x29 | s20 => DD x23 x30 | s21 => DD x23 x31 | s22 => DD x23 x32 | s23 => DD x23 x33 | s24 => DD x23 x34 | s25 => DD x23 x35 | s26 => DD x23 x36 | s27 => DD x23 x37 | s28 => DD x23 x38 | s29 => DD x23 x39 | s30 => DD x23 x40 | s31 => DD x23 x41 | s32 => DD x23 x42 | s33 => DD x23 x43 | s34 => DD x23 x44 | s35 => DD x23 x45 | s36 => DD x23 x46 | s37 => DD x23 x47 | s38 => DD x23 x48 | s39 => DD x23 x49 | s40 => DD x23 x50 | s41 => DD x23 x51 | s42 => DD x23 x52 | s43 => DD x23 x53 | s44 => DD x23 x54 | s45 => DD x23 x55 | s46 => DD x23 x56 | s47 => DD x23 x57 | s48 => DD x23 x58 | s49 => DD x23 x59 | s50 => DD x23 x60 | s51 => DD x23 x61 | s52 => DD x23 x62 | s53 => DD x23 x63 | s54 => DD x24 x0 | s55 => DD x24 x1 | s56 => DD x24 x2 | s57 => DD x24 x3 | s58 => DD x24 x4 | s59 => DD x24 x5 | s60 => DD x24 x6 | s61 => DD x24 x7 | s62 => DD x24 x8 | s63 => DD x24 x9 | s64 => DD x24 x10 | s65 => DD x24 x11 | s66 => DD x24 x12 | s67 => DD x24 x13 | s68 => DD x24 x14 | s69 => DD x24 x15 | s70 => DD x24 x16 | s71 => DD x24 x17 | s72 => DD x24 x18 | s73 => DD x24 x19 | s74 => DD x24 x20 | s75 => DD x24 x21 | s76 => DD x24 x22 | s77 => DD x24 x23 | s78 => DD x24 x24 | s79 => DD x24 x25 | s80 => DD x24 x26 | s81 => DD x24 x27 | s82 => DD x24 x28 | s83 => DD x24 x29 | s84 => DD x24 x30 | s85 => DD x24 x31 | s86 => DD x24 x32 | s87 => DD x24 x33 | s88 => DD x24 x34 | s89 => DD x24 x35 | s90 => DD x24 x36 | s91 => DD x24 x37 | s92 => DD x24 x38 | s93 => DD x24 x39 | s94 => DD x24 x40 | s95 => DD x24 x41 | s96 => DD x24 x42 | s97 => DD x24 x43 | s98 => DD x24 x44 | s99 => DD x24 x45 | s100 => DD x24 x46 | s101 => DD x24 x47 | s102 => DD x24 x48 | s103 => DD x24 x49 | s104 => DD x24 x50 | s105 => DD x24 x51 | s106 => DD x24 x52 | s107 => DD x24 x53 | s108 => DD x24 x54 | s109 => DD x24 x55 | s110 => DD x24 x56 | s111 => DD x24 x57 | s112 => DD x24 x58 | s113 => DD x24 x59 | s114 => DD x24 x60 | s115 => DD x24 x61 | s116 => DD x24 x62 | s117 => DD x24 x63 | s118 => DD x25 x0 | s119 => DD x25 x1 | s120 => DD x25 x2 | s121 => DD x25 x3 | s122 => DD x25 x4 | s123 => DD x25 x5 | s124 => DD x25 x6 | s125 => DD x25 x7 | s126 => DD x25 x8 end.
Definition m1484 (c : sum2) : dd := match c with s0 => DD x23 x12 | s1 => DD x23 x13 | s2 => DD x23 x14 | s3 => DD x23 x15 | s4 => DD x23 x16 | s5 => DD x23 x17 | s6 => DD x23 x18 | s7 => DD x23 x19 | s8 => DD x23 x20 | s9 => DD x23 x21 | s10 => DD x23 x22 | s11 => DD x23 x23 | s12 => DD x23 x24 | s13 => DD x23 x25 | s14 => DD x23 x26 | s15 => DD x23 x27 | s16 => DD x23 x28 | s17 => DD x23 x29 | s18 => DD x23 x30 | s19 => DD x23 x31 | s20 => DD x23 x32 | s21 => DD x23 x33 | s22 => DD x23 x34 | s23 => DD x23 x35 | s24 => DD x23 x36 | s25 => DD x23 x37 | s26 => DD x23 x38 | s27 => DD x23 x39 | s28 => DD x23 x40 | s29 => DD x23 x41 | s30 => DD x23 x42 | s31 => DD x23 x43 | s32 => DD x23 x44 | s33 => DD x23 x45 | s34 => DD x23 x46 | s35 => DD x23 x47 | s36 => DD x23 x48 | s37 => DD x23 x49 | s38 => DD x23 x50 | s39 => DD x23 x51 | s40 => DD x23 x52 | s41 => DD x23 x53 | s42 => DD x23 x54 | s43 => DD x23 x55 | s44 => DD x23 x56 | s45 => DD x23 x57 | s46 => DD x23 x58 | s47 => DD x23 x59 | s48 => DD x23 x60 | s49 => DD x23 x61 | s50 => DD x23 x62 | s51 => DD x23 x63 | s52 => DD x24 x0 | s53 => DD x24 x1 | s54 => DD x24 x2 | s55 => DD x24 x3 | s56 => DD x24 x4 | s57 => DD x24 x5 | s58 => DD x24 x6 | s59 => DD x24 x7 | s60 => DD x24 x8 | s61 => DD x24 x9 | s62 => DD x24 x10 | s63 => DD x24 x11 | s64 => DD x24 x12 | s65 => DD x24 x13 | s66 => DD x24 x14 | s67 => DD x24 x15 | s68 => DD x24 x16 | s69 => DD x24 x17 | s70 => DD x24 x18 | s71 => DD x24 x19 | s72 => DD x24 x20 | s73 => DD x24 x21 | s74 => DD x24 x22 | s75 => DD x24 x23 | s76 => DD x24 x24 | s77 => DD x24 x25 | s78 => DD x24 x26 | s79 => DD x24 x27 | s80 => DD x24 x28 | s81 => DD x24 x29 | s82 => DD x24 x30 | s83 => DD x24 x31 | s84 => DD x24 x32 | s85 => DD x24 x33 | s86 => DD x24 x34 | s87 => DD x24 x35 | s88 => DD x24 x36 | s89 => DD x24 x37 | s90 => DD x24 x38 | s91 => DD x24 x39 | s92 => DD x24 x40 | s93 => DD x24 x41 | s94 => DD x24 x42 | s95 => DD x24 x43 | s96 => DD x24 x44 | s97 => DD x24 x45 | s98 => DD x24 x46 | s99 => DD x24 x47 | s100 => DD x24 x48 | s101 => DD x24 x49 | s102 => DD x24 x50 | s103 => DD x24 x51 | s104 => DD x24 x52 | s105 => DD x24 x53 | s106 => DD x24 x54 | s107 => DD x24 x55 | s108 => DD x24 x56 | s109 => DD x24 x57 | s110 => DD x24 x58 | s111 => DD x24 x59 | s112 => DD x24 x60 | s113 => DD x24 x61 | s114 => DD x24 x62 | s115 => DD x24 x63 | s116 => DD x25 x0 | s117 => DD x25 x1 | s118 => DD x25 x2 | s119 => DD x25 x3 | s120 => DD x25 x4 | s121 => DD x25 x5 | s122 => DD x25 x6 | s123 => DD x25 x7 | s124 => DD x25 x8 | s125 => DD x25 x9 | s126 => DD x25 x10 end.
Definition m1485 (c : sum2) : dd := match c with s0 => DD x23 x13 | s1 => DD x23 x14 | s2 => DD x23 x15 | s3 => DD x23 x16 | s4 => DD x23 x17 | s5 => DD x23 x18 | s6 => DD x23 x19 | s7 => DD x23 x20 | s8 => DD x23 x21 | s9 => DD x23 x22 | s10 => DD x23 x23 | s11 => DD x23 x24 | s12 => DD x23 x25 | s13 => DD x23 x26 | s14 => DD x23 x27 | s15 => DD x23 x28 | s16 => DD x23 x29 | s17 => DD x23 x30 | s18 => DD x23 x31 | s19 => DD x23 x32 | s20 => DD x23 x33 | s21 => DD x23 x34 | s22 => DD x23 x35 | s23 => DD x23 x36 | s24 => DD x23 x37 | s25 => DD x23 x38 | s26 => DD x23 x39 | s27 => DD x23 x40 | s28 => DD x23 x41 | s29 => DD x23 x42 | s30 => DD x23 x43 | s31 => DD x23 x44 | s32 => DD x23 x45 | s33 => DD x23 x46 | s34 => DD x23 x47 | s35 => DD x23 x48 | s36 => DD x23 x49 | s37 => DD x23 x50 | s38 => DD x23 x51 | s39 => DD x23 x52 | s40 => DD x23 x53 | s41 => DD x23 x54 | s42 => DD x23 x55 | s43 => DD x23 x56 | s44 => DD x23 x57 | s45 => DD x23 x58 | s46 => DD x23 x59 | s47 => DD x23 x60 | s48 => DD x23 x61 | s49 => DD x23 x62 | s50 => DD x23 x63 | s51 => DD x24 x0 | s52 => DD x24 x1 | s53 => DD x24 x2 | s54 => DD x24 x3 | s55 => DD x24 x4 | s56 => DD x24 x5 | s57 => DD x24 x6 | s58 => DD x24 x7 | s59 => DD x24 x8 | s60 => DD x24 x9 | s61 => DD x24 x10 | s62 => DD x24 x11 | s63 => DD x24 x12 | s64 => DD x24 x13 | s65 => DD x24 x14 | s66 => DD x24 x15 | s67 => DD x24 x16 | s68 => DD x24 x17 | s69 => DD x24 x18 | s70 => DD x24 x19 | s71 => DD x24 x20 | s72 => DD x24 x21 | s73 => DD x24 x22 | s74 => DD x24 x23 | s75 => DD x24 x24 | s76 => DD x24 x25 | s77 => DD x24 x26 | s78 => DD x24 x27 | s79 => DD x24 x28 | s80 => DD x24 x29 | s81 => DD x24 x30 | s82 => DD x24 x31 | s83 => DD x24 x32 | s84 => DD x24 x33 | s85 => DD x24 x34 | s86 => DD x24 x35 | s87 => DD x24 x36 | s88 => DD x24 x37 | s89 => DD x24 x38 | s90 => DD x24 x39 | s91 => DD x24 x40 | s92 => DD x24 x41 | s93 => DD x24 x42 | s94 => DD x24 x43 | s95 => DD x24 x44 | s96 => DD x24 x45 | s97 => DD x24 x46 | s98 => DD x24 x47 | s99 => DD x24 x48 | s100 => DD x24 x49 | s101 => DD x24 x50 | s102 => DD x24 x51 | s103 => DD x24 x52 | s104 => DD x24 x53 | s105 => DD x24 x54 | s106 => DD x24 x55 | s107 => DD x24 x56 | s108 => DD x24 x57 | s109 => DD x24 x58 | s110 => DD x24 x59 | s111 => DD x24 x60 | s112 => DD x24 x61 | s113 => DD x24 x62 | s114 => DD x24 x63 | s115 => DD x25 x0 | s116 => DD x25 x1 | s117 => DD x25 x2 | s118 => DD x25 x3 | s119 => DD x25 x4 | s120 => DD x25 x5 | s121 => DD x25 x6 | s122 => DD x25 x7 | s123 => DD x25 x8 | s124 => DD x25 x9 | s125 => DD x25 x10 | s126 => DD x25 x11 end.
Definition m1488 (c : sum2) : dd := match c with s0 => DD x23 x16 | s1 => DD x23 x17 | s2 => DD x23 x18 | s3 => DD x23 x19 | s4 => DD x23 x20 | s5 => DD x23 x21 | s6 => DD x23 x22 | s7 => DD x23 x23 | s8 => DD x23 x24 | s9 => DD x23 x25 | s10 => DD x23 x26 | s11 => DD x23 x27 | s12 => DD x23 x28 | s13 => DD x23 x29 | s14 => DD x23 x30 | s15 => DD x23 x31 | s16 => DD x23 x32 | s17 => DD x23 x33 | s18 => DD x23 x34 | s19 => DD x23 x35 | s20 => DD x23 x36 | s21 => DD x23 x37 | s22 => DD x23 x38 | s23 => DD x23 x39 | s24 => DD x23 x40 | s25 => DD x23 x41 | s26 => DD x23 x42 | s27 => DD x23 x43 | s28 => DD x23 x44 | s29 => DD x23 x45 | s30 => DD x23 x46 | s31 => DD x23 x47 | s32 => DD x23 x48 | s33 => DD x23 x49 | s34 => DD x23 x50 | s35 => DD x23 x51 | s36 => DD x23 x52 | s37 => DD x23 x53 | s38 => DD x23 x54 | s39 => DD x23 x55 | s40 => DD x23 x56 | s41 => DD x23 x57 | s42 => DD x23 x58 | s43 => DD x23 x59 | s44 => DD x23 x60 | s45 => DD x23 x61 | s46 => DD x23 x62 | s47 => DD x23 x63 | s48 => DD x24 x0 | s49 => DD x24 x1 | s50 => DD x24 x2 | s51 => DD x24 x3 | s52 => DD x24 x4 | s53 => DD x24 x5 | s54 => DD x24 x6 | s55 => DD x24 x7 | s56 => DD x24 x8 | s57 => DD x24 x9 | s58 => DD x24 x10 | s59 => DD x24 x11 | s60 => DD x24 x12 | s61 => DD x24 x13 | s62 => DD x24 x14 | s63 => DD x24 x15 | s64 => DD x24 x16 | s65 => DD x24 x17 | s66 => DD x24 x18 | s67 => DD x24 x19 | s68 => DD x24 x20 | s69 => DD x24 x21 | s70 => DD x24 x22 | s71 => DD x24 x23 | s72 => DD x24 x24 | s73 => DD x24 x25 | s74 => DD x24 x26 | s75 => DD x24 x27 | s76 => DD x24 x28 | s77 => DD x24 x29 | s78 => DD x24 x30 | s79 => DD x24 x31 | s80 => DD x24 x32 | s81 => DD x24 x33 | s82 => DD x24 x34 | s83 => DD x24 x35 | s84 => DD x24 x36 | s85 => DD x24 x37 | s86 => DD x24 x38 | s87 => DD x24 x39 | s88 => DD x24 x40 | s89 => DD x24 x41 | s90 => DD x24 x42 | s91 => DD x24 x43 | s92 => DD x24 x44 | s93 => DD x24 x45 | s94 => DD x24 x46 | s95 => DD x24 x47 | s96 => DD x24 x48 | s97 => DD x24 x49 | s98 => DD x24 x50 | s99 => DD x24 x51 | s100 => DD x24 x52 | s101 => DD x24 x53 | s102 => DD x24 x54 | s103 => DD x24 x55 | s104 => DD x24 x56 | s105 => DD x24 x57 | s106 => DD x24 x58 | s107 => DD x24 x59 | s108 => DD x24 x60 | s109 => DD x24 x61 | s110 => DD x24 x62 | s111 => DD x24 x63 | s112 => DD x25 x0 | s113 => DD x25 x1 | s114 => DD x25 x2 | s115 => DD x25 x3 | s116 => DD x25 x4 | s117 => DD x25 x5 | s118 => DD x25 x6 | s119 => DD x25 x7 | s120 => DD x25 x8 | s121 => DD x25 x9 | s122 => DD x25 x10 | s123 => DD x25 x11 | s124 => DD x25 x12 | s125 => DD x25 x13 | s126 => DD x25 x14 end.
Definition m1496 (c : sum2) : dd := match c with s0 => DD x23 x24 | s1 => DD x23 x25 | s2 => DD x23 x26 | s3 => DD x23 x27 | s4 => DD x23 x28 | s5 => DD x23 x29 | s6 => DD x23 x30 | s7 => DD x23 x31 | s8 => DD x23 x32 | s9 => DD x23 x33 | s10 => DD x23 x34 | s11 => DD x23 x35 | s12 => DD x23 x36 | s13 => DD x23 x37 | s14 => DD x23 x38 | s15 => DD x23 x39 | s16 => DD x23 x40 | s17 => DD x23 x41 | s18 => DD x23 x42 | s19 => DD x23 x43 | s20 => DD x23 x44 | s21 => DD x23 x45 | s22 => DD x23 x46 | s23 => DD x23 x47 | s24 => DD x23 x48 | s25 => DD x23 x49 | s26 => DD x23 x50 | s27 => DD x23 x51 | s28 => DD x23 x52 | s29 => DD x23 x53 | s30 => DD x23 x54 | s31 => DD x23 x55 | s32 => DD x23 x56 | s33 => DD x23 x57 | s34 => DD x23 x58 | s35 => DD x23 x59 | s36 => DD x23 x60 | s37 => DD x23 x61 | s38 => DD x23 x62 | s39 => DD x23 x63 | s40 => DD x24 x0 | s41 => DD x24 x1 | s42 => DD x24 x2 | s43 => DD x24 x3 | s44 => DD x24 x4 | s45 => DD x24 x5 | s46 => DD x24 x6 | s47 => DD x24 x7 | s48 => DD x24 x8 | s49 => DD x24 x9 | s50 => DD x24 x10 | s51 => DD x24 x11 | s52 => DD x24 x12 | s53 => DD x24 x13 | s54 => DD x24 x14 | s55 => DD x24 x15 | s56 => DD x24 x16 | s57 => DD x24 x17 | s58 => DD x24 x18 | s59 => DD x24 x19 | s60 => DD x24 x20 | s61 => DD x24 x21 | s62 => DD x24 x22 | s63 => DD x24 x23 | s64 => DD x24 x24 | s65 => DD x24 x25 | s66 => DD x24 x26 | s67 => DD x24 x27 | s68 => DD x24 x28 | s69 => DD x24 x29 | s70 => DD x24 x30 | s71 => DD x24 x31 | s72 => DD x24 x32 | s73 => DD x24 x33 | s74 => DD x24 x34 | s75 => DD x24 x35 | s76 => DD x24 x36 | s77 => DD x24 x37 | s78 => DD x24 x38 | s79 => DD x24 x39 | s80 => DD x24 x40 | s81 => DD x24 x41 | s82 => DD x24 x42 | s83 => DD x24 x43 | s84 => DD x24 x44 | s85 => DD x24 x45 | s86 => DD x24 x46 | s87 => DD x24 x47 | s88 => DD x24 x48 | s89 => DD x24 x49 | s90 => DD x24 x50 | s91 => DD x24 x51 | s92 => DD x24 x52 | s93 => DD x24 x53 | s94 => DD x24 x54 | s95 => DD x24 x55 | s96 => DD x24 x56 | s97 => DD x24 x57 | s98 => DD x24 x58 | s99 => DD x24 x59 | s100 => DD x24 x60 | s101 => DD x24 x61 | s102 => DD x24 x62 | s103 => DD x24 x63 | s104 => DD x25 x0 | s105 => DD x25 x1 | s106 => DD x25 x2 | s107 => DD x25 x3 | s108 => DD x25 x4 | s109 => DD x25 x5 | s110 => DD x25 x6 | s111 => DD x25 x7 | s112 => DD x25 x8 | s113 => DD x25 x9 | s114 => DD x25 x10 | s115 => DD x25 x11 | s116 => DD x25 x12 | s117 => DD x25 x13 | s118 => DD x25 x14 | s119 => DD x25 x15 | s120 => DD x25 x16 | s121 => DD x25 x17 | s122 => DD x25 x18 | s123 => DD x25 x19 | s124 => DD x25 x20 | s125 => DD x25 x21 | s126 => DD x25 x22 end.
Definition m1500 (c : sum2) : dd := match c with s0 => DD x23 x28 | s1 => DD x23 x29 | s2 => DD x23 x30 | s3 => DD x23 x31 | s4 => DD x23 x32 | s5 => DD x23 x33 | s6 => DD x23 x34 | s7 => DD x23 x35 | s8 => DD x23 x36 | s9 => DD x23 x37 | s10 => DD x23 x38 | s11 => DD x23 x39 | s12 => DD x23 x40 | s13 => DD x23 x41 | s14 => DD x23 x42 | s15 => DD x23 x43 | s16 => DD x23 x44 | s17 => DD x23 x45 | s18 => DD x23 x46 | s19 => DD x23 x47 | s20 => DD x23 x48 | s21 => DD x23 x49 | s22 => DD x23 x50 | s23 => DD x23 x51 | s24 => DD x23 x52 | s25 => DD x23 x53 | s26 => DD x23 x54 | s27 => DD x23 x55 | s28 => DD x23 x56 | s29 => DD x23 x57 | s30 => DD x23 x58 | s31 => DD x23 x59 | s32 => DD x23 x60 | s33 => DD x23 x61 | s34 => DD x23 x62 | s35 => DD x23 x63 | s36 => DD x24 x0 | s37 => DD x24 x1 | s38 => DD x24 x2 | s39 => DD x24 x3 | s40 => DD x24 x4 | s41 => DD x24 x5 | s42 => DD x24 x6 | s43 => DD x24 x7 | s44 => DD x24 x8 | s45 => DD x24 x9 | s46 => DD x24 x10 | s47 => DD x24 x11 | s48 => DD x24 x12 | s49 => DD x24 x13 | s50 => DD x24 x14 | s51 => DD x24 x15 | s52 => DD x24 x16 | s53 => DD x24 x17 | s54 => DD x24 x18 | s55 => DD x24 x19 | s56 => DD x24 x20 | s57 => DD x24 x21 | s58 => DD x24 x22 | s59 => DD x24 x23 | s60 => DD x24 x24 | s61 => DD x24 x25 | s62 => DD x24 x26 | s63 => DD x24 x27 | s64 => DD x24 x28 | s65 => DD x24 x29 | s66 => DD x24 x30 | s67 => DD x24 x31 | s68 => DD x24 x32 | s69 => DD x24 x33 | s70 => DD x24 x34 | s71 => DD x24 x35 | s72 => DD x24 x36 | s73 => DD x24 x37 | s74 => DD x24 x38 | s75 => DD x24 x39 | s76 => DD x24 x40 | s77 => DD x24 x41 | s78 => DD x24 x42 | s79 => DD x24 x43 | s80 => DD x24 x44 | s81 => DD x24 x45 | s82 => DD x24 x46 | s83 => DD x24 x47 | s84 => DD x24 x48 | s85 => DD x24 x49 | s86 => DD x24 x50 | s87 => DD x24 x51 | s88 => DD x24 x52 | s89 => DD x24 x53 | s90 => DD x24 x54 | s91 => DD x24 x55 | s92 => DD x24 x56 | s93 => DD x24 x57 | s94 => DD x24 x58 | s95 => DD x24 x59 | s96 => DD x24 x60 | s97 => DD x24 x61 | s98 => DD x24 x62 | s99 => DD x24 x63 | s100 => DD x25 x0 | s101 => DD x25 x1 | s102 => DD x25 x2 | s103 => DD x25 x3 | s104 => DD x25 x4 | s105 => DD x25 x5 | s106 => DD x25 x6 | s107 => DD x25 x7 | s108 => DD x25 x8 | s109 => DD x25 x9 | s110 => DD x25 x10 | s111 => DD x25 x11 | s112 => DD x25 x12 | s113 => DD x25 x13 | s114 => DD x25 x14 | s115 => DD x25 x15 | s116 => DD x25 x16 | s117 => DD x25 x17 | s118 => DD x25 x18 | s119 => DD x25 x19 | s120 => DD x25 x20 | s121 => DD x25 x21 | s122 => DD x25 x22 | s123 => DD x25 x23 | s124 => DD x25 x24 | s125 => DD x25 x25 | s126 => DD x25 x26 end.
Definition m1504 (c : sum2) : dd := match c with s0 => DD x23 x32 | s1 => DD x23 x33 | s2 => DD x23 x34 | s3 => DD x23 x35 | s4 => DD x23 x36 | s5 => DD x23 x37 | s6 => DD x23 x38 | s7 => DD x23 x39 | s8 => DD x23 x40 | s9 => DD x23 x41 | s10 => DD x23 x42 | s11 => DD x23 x43 | s12 => DD x23 x44 | s13 => DD x23 x45 | s14 => DD x23 x46 | s15 => DD x23 x47 | s16 => DD x23 x48 | s17 => DD x23 x49 | s18 => DD x23 x50 | s19 => DD x23 x51 | s20 => DD x23 x52 | s21 => DD x23 x53 | s22 => DD x23 x54 | s23 => DD x23 x55 | s24 => DD x23 x56 | s25 => DD x23 x57 | s26 => DD x23 x58 | s27 => DD x23 x59 | s28 => DD x23 x60 | s29 => DD x23 x61 | s30 => DD x23 x62 | s31 => DD x23 x63 | s32 => DD x24 x0 | s33 => DD x24 x1 | s34 => DD x24 x2 | s35 => DD x24 x3 | s36 => DD x24 x4 | s37 => DD x24 x5 | s38 => DD x24 x6 | s39 => DD x24 x7 | s40 => DD x24 x8 | s41 => DD x24 x9 | s42 => DD x24 x10 | s43 => DD x24 x11 | s44 => DD x24 x12 | s45 => DD x24 x13 | s46 => DD x24 x14 | s47 => DD x24 x15 | s48 => DD x24 x16 | s49 => DD x24 x17 | s50 => DD x24 x18 | s51 => DD x24 x19 | s52 => DD x24 x20 | s53 => DD x24 x21 | s54 => DD x24 x22 | s55 => DD x24 x23 | s56 => DD x24 x24 | s57 => DD x24 x25 | s58 => DD x24 x26 | s59 => DD x24 x27 | s60 => DD x24 x28 | s61 => DD x24 x29 | s62 => DD x24 x30 | s63 => DD x24 x31 | s64 => DD x24 x32 | s65 => DD x24 x33 | s66 => DD x24 x34 | s67 => DD x24 x35 | s68 => DD x24 x36 | s69 => DD x24 x37 | s70 => DD x24 x38 | s71 => DD x24 x39 | s72 => DD x24 x40 | s73 => DD x24 x41 | s74 => DD x24 x42 | s75 => DD x24 x43 | s76 => DD x24 x44 | s77 => DD x24 x45 | s78 => DD x24 x46 | s79 => DD x24 x47 | s80 => DD x24 x48 | s81 => DD x24 x49 | s82 => DD x24 x50 | s83 => DD x24 x51 | s84 => DD x24 x52 | s85 => DD x24 x53 | s86 => DD x24 x54 | s87 => DD x24 x55 | s88 => DD x24 x56 | s89 => DD x24 x57 | s90 => DD x24 x58 | s91 => DD x24 x59 | s92 => DD x24 x60 | s93 => DD x24 x61 | s94 => DD x24 x62 | s95 => DD x24 x63 | s96 => DD x25 x0 | s97 => DD x25 x1 | s98 => DD x25 x2 | s99 => DD x25 x3 | s100 => DD x25 x4 | s101 => DD x25 x5 | s102 => DD x25 x6 | s103 => DD x25 x7 | s104 => DD x25 x8 | s105 => DD x25 x9 | s106 => DD x25 x10 | s107 => DD x25 x11 | s108 => DD x25 x12 | s109 => DD x25 x13 | s110 => DD x25 x14 | s111 => DD x25 x15 | s112 => DD x25 x16 | s113 => DD x25 x17 | s114 => DD x25 x18 | s115 => DD x25 x19 | s116 => DD x25 x20 | s117 => DD x25 x21 | s118 => DD x25 x22 | s119 => DD x25 x23 | s120 => DD x25 x24 | s121 => DD x25 x25 | s122 => DD x25 x26 | s123 => DD x25 x27 | s124 => DD x25 x28 | s125 => DD x25 x29 | s126 => DD x25 x30 end.
Definition m1505 (c : sum2) : dd := match c with s0 => DD x23 x33 | s1 => DD x23 x34 | s2 => DD x23 x35 | s3 => DD x23 x36 | s4 => DD x23 x37 | s5 => DD x23 x38 | s6 => DD x23 x39 | s7 => DD x23 x40 | s8 => DD x23 x41 | s9 => DD x23 x42 | s10 => DD x23 x43 | s11 => DD x23 x44 | s12 => DD x23 x45 | s13 => DD x23 x46 | s14 => DD x23 x47 | s15 => DD x23 x48 | s16 => DD x23 x49 | s17 => DD x23 x50 | s18 => DD x23 x51 | s19 => DD x23 x52 | s20 => DD x23 x53 | s21 => DD x23 x54 | s22 => DD x23 x55 | s23 => DD x23 x56 | s24 => DD x23 x57 | s25 => DD x23 x58 | s26 => DD x23 x59 | s27 => DD x23 x60 | s28 => DD x23 x61 | s29 => DD x23 x62 | s30 => DD x23 x63 | s31 => DD x24 x0 | s32 => DD x24 x1 | s33 => DD x24 x2 | s34 => DD x24 x3 | s35 => DD x24 x4 | s36 => DD x24 x5 | s37 => DD x24 x6 | s38 => DD x24 x7 | s39 => DD x24 x8 | s40 => DD x24 x9 | s41 => DD x24 x10 | s42 => DD x24 x11 | s43 => DD x24 x12 | s44 => DD x24 x13 | s45 => DD x24 x14 | s46 => DD x24 x15 | s47 => DD x24 x16 | s48 => DD x24 x17 | s49 => DD x24 x18 | s50 => DD x24 x19 | s51 => DD x24 x20 | s52 => DD x24 x21 | s53 => DD x24 x22 | s54 => DD x24 x23 | s55 => DD x24 x24 | s56 => DD x24 x25 | s57 => DD x24 x26 | s58 => DD x24 x27 | s59 => DD x24 x28 | s60 => DD x24 x29 | s61 => DD x24 x30 | s62 => DD x24 x31 | s63 => DD x24 x32 | s64 => DD x24 x33 | s65 => DD x24 x34 | s66 => DD x24 x35 | s67 => DD x24 x36 | s68 => DD x24 x37 | s69 => DD x24 x38 | s70 => DD x24 x39 | s71 => DD x24 x40 | s72 => DD x24 x41 | s73 => DD x24 x42 | s74 => DD x24 x43 | s75 => DD x24 x44 | s76 => DD x24 x45 | s77 => DD x24 x46 | s78 => DD x24 x47 | s79 => DD x24 x48 | s80 => DD x24 x49 | s81 => DD x24 x50 | s82 => DD x24 x51 | s83 => DD x24 x52 | s84 => DD x24 x53 | s85 => DD x24 x54 | s86 => DD x24 x55 | s87 => DD x24 x56 | s88 => DD x24 x57 | s89 => DD x24 x58 | s90 => DD x24 x59 | s91 => DD x24 x60 | s92 => DD x24 x61 | s93 => DD x24 x62 | s94 => DD x24 x63 | s95 => DD x25 x0 | s96 => DD x25 x1 | s97 => DD x25 x2 | s98 => DD x25 x3 | s99 => DD x25 x4 | s100 => DD x25 x5 | s101 => DD x25 x6 | s102 => DD x25 x7 | s103 => DD x25 x8 | s104 => DD x25 x9 | s105 => DD x25 x10 | s106 => DD x25 x11 | s107 => DD x25 x12 | s108 => DD x25 x13 | s109 => DD x25 x14 | s110 => DD x25 x15 | s111 => DD x25 x16 | s112 => DD x25 x17 | s113 => DD x25 x18 | s114 => DD x25 x19 | s115 => DD x25 x20 | s116 => DD x25 x21 | s117 => DD x25 x22 | s118 => DD x25 x23 | s119 => DD x25 x24 | s120 => DD x25 x25 | s121 => DD x25 x26 | s122 => DD x25 x27 | s123 => DD x25 x28 | s124 => DD x25 x29 | s125 => DD x25 x30 | s126 => DD x25 x31 end.
Definition m1508 (c : sum2) : dd := match c with s0 => DD x23 x36 | s1 => DD x23 x37 | s2 => DD x23 x38 | s3 => DD x23 x39 | s4 => DD x23 x40 | s5 => DD x23 x41 | s6 => DD x23 x42 | s7 => DD x23 x43 | s8 => DD x23 x44 | s9 => DD x23 x45 | s10 => DD x23 x46 | s11 => DD x23 x47 | s12 => DD x23 x48 | s13 => DD x23 x49 | s14 => DD x23 x50 | s15 => DD x23 x51 | s16 => DD x23 x52 | s17 => DD x23 x53 | s18 => DD x23 x54 | s19 => DD x23 x55 | s20 => DD x23 x56 | s21 => DD x23 x57 | s22 => DD x23 x58 | s23 => DD x23 x59 | s24 => DD x23 x60 | s25 => DD x23 x61 | s26 => DD x23 x62 | s27 => DD x23 x63 | s28 => DD x24 x0 | s29 => DD x24 x1 | s30 => DD x24 x2 | s31 => DD x24 x3 | s32 => DD x24 x4 | s33 => DD x24 x5 | s34 => DD x24 x6 | s35 => DD x24 x7 | s36 => DD x24 x8 | s37 => DD x24 x9 | s38 => DD x24 x10 | s39 => DD x24 x11 | s40 => DD x24 x12 | s41 => DD x24 x13 | s42 => DD x24 x14 | s43 => DD x24 x15 | s44 => DD x24 x16 | s45 => DD x24 x17 | s46 => DD x24 x18 | s47 => DD x24 x19 | s48 => DD x24 x20 | s49 => DD x24 x21 | s50 => DD x24 x22 | s51 => DD x24 x23 | s52 => DD x24 x24 | s53 => DD x24 x25 | s54 => DD x24 x26 | s55 => DD x24 x27 | s56 => DD x24 x28 | s57 => DD x24 x29 | s58 => DD x24 x30 | s59 => DD x24 x31 | s60 => DD x24 x32 | s61 => DD x24 x33 | s62 => DD x24 x34 | s63 => DD x24 x35 | s64 => DD x24 x36 | s65 => DD x24 x37 | s66 => DD x24 x38 | s67 => DD x24 x39 | s68 => DD x24 x40 | s69 => DD x24 x41 | s70 => DD x24 x42 | s71 => DD x24 x43 | s72 => DD x24 x44 | s73 => DD x24 x45 | s74 => DD x24 x46 | s75 => DD x24 x47 | s76 => DD x24 x48 | s77 => DD x24 x49 | s78 => DD x24 x50 | s79 => DD x24 x51 | s80 => DD x24 x52 | s81 => DD x24 x53 | s82 => DD x24 x54 | s83 => DD x24 x55 | s84 => DD x24 x56 | s85 => DD x24 x57 | s86 => DD x24 x58 | s87 => DD x24 x59 | s88 => DD x24 x60 | s89 => DD x24 x61 | s90 => DD x24 x62 | s91 => DD x24 x63 | s92 => DD x25 x0 | s93 => DD x25 x1 | s94 => DD x25 x2 | s95 => DD x25 x3 | s96 => DD x25 x4 | s97 => DD x25 x5 | s98 => DD x25 x6 | s99 => DD x25 x7 | s100 => DD x25 x8 | s101 => DD x25 x9 | s102 => DD x25 x10 | s103 => DD x25 x11 | s104 => DD x25 x12 | s105 => DD x25 x13 | s106 => DD x25 x14 | s107 => DD x25 x15 | s108 => DD x25 x16 | s109 => DD x25 x17 | s110 => DD x25 x18 | s111 => DD x25 x19 | s112 => DD x25 x20 | s113 => DD x25 x21 | s114 => DD x25 x22 | s115 => DD x25 x23 | s116 => DD x25 x24 | s117 => DD x25 x25 | s118 => DD x25 x26 | s119 => DD x25 x27 | s120 => DD x25 x28 | s121 => DD x25 x29 | s122 => DD x25 x30 | s123 => DD x25 x31 | s124 => DD x25 x32 | s125 => DD x25 x33 | s126 => DD x25 x34 end.
Definition m1512 (c : sum2) : dd := match c with s0 => DD x23 x40 | s1 => DD x23 x41 | s2 => DD x23 x42 | s3 => DD x23 x43 | s4 => DD x23 x44 | s5 => DD x23 x45 | s6 => DD x23 x46 | s7 => DD x23 x47 | s8 => DD x23 x48 | s9 => DD x23 x49 | s10 => DD x23 x50 | s11 => DD x23 x51 | s12 => DD x23 x52 | s13 => DD x23 x53 | s14 => DD x23 x54 | s15 => DD x23 x55 | s16 => DD x23 x56 | s17 => DD x23 x57 | s18 => DD x23 x58 | s19 => DD x23 x59 | s20 => DD x23 x60 | s21 => DD x23 x61 | s22 => DD x23 x62 | s23 => DD x23 x63 | s24 => DD x24 x0 | s25 => DD x24 x1 | s26 => DD x24 x2 | s27 => DD x24 x3 | s28 => DD x24 x4 | s29 => DD x24 x5 | s30 => DD x24 x6 | s31 => DD x24 x7 | s32 => DD x24 x8 | s33 => DD x24 x9 | s34 => DD x24 x10 | s35 => DD x24 x11 | s36 => DD x24 x12 | s37 => DD x24 x13 | s38 => DD x24 x14 | s39 => DD x24 x15 | s40 => DD x24 x16 | s41 => DD x24 x17 | s42 => DD x24 x18 | s43 => DD x24 x19 | s44 => DD x24 x20 | s45 => DD x24 x21 | s46 => DD x24 x22 | s47 => DD x24 x23 | s48 => DD x24 x24 | s49 => DD x24 x25 | s50 => DD x24 x26 | s51 => DD x24 x27 | s52 => DD x24 x28 | s53 => DD x24 x29 | s54 => DD x24 x30 | s55 => DD x24 x31 | s56 => DD x24 x32 | s57 => DD x24 x33 | s58 => DD x24 x34 | s59 => DD x24 x35 | s60 => DD x24 x36 | s61 => DD x24 x37 | s62 => DD x24 x38 | s63 => DD x24 x39 | s64 => DD x24 x40 | s65 => DD x24 x41 | s66 => DD x24 x42 | s67 => DD x24 x43 | s68 => DD x24 x44 | s69 => DD x24 x45 | s70 => DD x24 x46 | s71 => DD x24 x47 | s72 => DD x24 x48 | s73 => DD x24 x49 | s74 => DD x24 x50 | s75 => DD x24 x51 | s76 => DD x24 x52 | s77 => DD x24 x53 | s78 => DD x24 x54 | s79 => DD x24 x55 | s80 => DD x24 x56 | s81 => DD x24 x57 | s82 => DD x24 x58 | s83 => DD x24 x59 | s84 => DD x24 x60 | s85 => DD x24 x61 | s86 => DD x24 x62 | s87 => DD x24 x63 | s88 => DD x25 x0 | s89 => DD x25 x1 | s90 => DD x25 x2 | s91 => DD x25 x3 | s92 => DD x25 x4 | s93 => DD x25 x5 | s94 => DD x25 x6 | s95 => DD x25 x7 | s96 => DD x25 x8 | s97 => DD x25 x9 | s98 => DD x25 x10 | s99 => DD x25 x11 | s100 => DD x25 x12 | s101 => DD x25 x13 | s102 => DD x25 x14 | s103 => DD x25 x15 | s104 => DD x25 x16 | s105 => DD x25 x17 | s106 => DD x25 x18 | s107 => DD x25 x19 | s108 => DD x25 x20 | s109 => DD x25 x21 | s110 => DD x25 x22 | s111 => DD x25 x23 | s112 => DD x25 x24 | s113 => DD x25 x25 | s114 => DD x25 x26 | s115 => DD x25 x27 | s116 => DD x25 x28 | s117 => DD x25 x29 | s118 => DD x25 x30 | s119 => DD x25 x31 | s120 => DD x25 x32 | s121 => DD x25 x33 | s122 => DD x25 x34 | s123 => DD x25 x35 | s124 => DD x25 x36 | s125 => DD x25 x37 | s126 => DD x25 x38 end.
Definition m1517 (c : sum2) : dd := match c with s0 => DD x23 x45 | s1 => DD x23 x46 | s2 => DD x23 x47 | s3 => DD x23 x48 | s4 => DD x23 x49 | s5 => DD x23 x50 | s6 => DD x23 x51 | s7 => DD x23 x52 | s8 => DD x23 x53 | s9 => DD x23 x54 | s10 => DD x23 x55 | s11 => DD x23 x56 | s12 => DD x23 x57 | s13 => DD x23 x58 | s14 => DD x23 x59 | s15 => DD x23 x60 | s16 => DD x23 x61 | s17 => DD x23 x62 | s18 => DD x23 x63 | s19 => DD x24 x0 | s20 => DD x24 x1 | s21 => DD x24 x2 | s22 => DD x24 x3 | s23 => DD x24 x4 | s24 => DD x24 x5 | s25 => DD x24 x6 | s26 => DD x24 x7 | s27 => DD x24 x8 | s28 => DD x24 x9 | s29 => DD x24 x10 | s30 => DD x24 x11 | s31 => DD x24 x12 | s32 => DD x24 x13 | s33 => DD x24 x14 | s34 => DD x24 x15 | s35 => DD x24 x16 | s36 => DD x24 x17 | s37 => DD x24 x18 | s38 => DD x24 x19 | s39 => DD x24 x20 | s40 => DD x24 x21 | s41 => DD x24 x22 | s42 => DD x24 x23 | s43 => DD x24 x24 | s44 => DD x24 x25 | s45 => DD x24 x26 | s46 => DD x24 x27 | s47 => DD x24 x28 | s48 => DD x24 x29 | s49 => DD x24 x30 | s50 => DD x24 x31 | s51 => DD x24 x32 | s52 => DD x24 x33 | s53 => DD x24 x34 | s54 => DD x24 x35 | s55 => DD x24 x36 | s56 => DD x24 x37 | s57 => DD x24 x38 | s58 => DD x24 x39 | s59 => DD x24 x40 | s60 => DD x24 x41 | s61 => DD x24 x42 | s62 => DD x24 x43 | s63 => DD x24 x44 | s64 => DD x24 x45 | s65 => DD x24 x46 | s66 => DD x24 x47 | s67 => DD x24 x48 | s68 => DD x24 x49 | s69 => DD x24 x50 | s70 => DD x24 x51 | s71 => DD x24 x52 | s72 => DD x24 x53 | s73 => DD x24 x54 | s74 => DD x24 x55 | s75 => DD x24 x56 | s76 => DD x24 x57 | s77 => DD x24 x58 | s78 => DD x24 x59 | s79 => DD x24 x60 | s80 => DD x24 x61 | s81 => DD x24 x62 | s82 => DD x24 x63 | s83 => DD x25 x0 | s84 => DD x25 x1 | s85 => DD x25 x2 | s86 => DD x25 x3 | s87 => DD x25 x4 | s88 => DD x25 x5 | s89 => DD x25 x6 | s90 => DD x25 x7 | s91 => DD x25 x8 | s92 => DD x25 x9 | s93 => DD x25 x10 | s94 => DD x25 x11 | s95 => DD x25 x12 | s96 => DD x25 x13 | s97 => DD x25 x14 | s98 => DD x25 x15 | s99 => DD x25 x16 | s100 => DD x25 x17 | s101 => DD x25 x18 | s102 => DD x25 x19 | s103 => DD x25 x20 | s104 => DD x25 x21 | s105 => DD x25 x22 | s106 => DD x25 x23 | s107 => DD x25 x24 | s108 => DD x25 x25 | s109 => DD x25 x26 | s110 => DD x25 x27 | s111 => DD x25 x28 | s112 => DD x25 x29 | s113 => DD x25 x30 | s114 => DD x25 x31 | s115 => DD x25 x32 | s116 => DD x25 x33 | s117 => DD x25 x34 | s118 => DD x25 x35 | s119 => DD x25 x36 | s120 => DD x25 x37 | s121 => DD x25 x38 | s122 => DD x25 x39 | s123 => DD x25 x40 | s124 => DD x25 x41 | s125 => DD x25 x42 | s126 => DD x25 x43 end.
Definition m1518 (c : sum2) : dd := match c with s0 => DD x23 x46 | s1 => DD x23 x47 | s2 => DD x23 x48 | s3 => DD x23 x49 | s4 => DD x23 x50 | s5 => DD x23 x51 | s6 => DD x23 x52 | s7 => DD x23 x53 | s8 => DD x23 x54 | s9 => DD x23 x55 | s10 => DD x23 x56 | s11 => DD x23 x57 | s12 => DD x23 x58 | s13 => DD x23 x59 | s14 => DD x23 x60 | s15 => DD x23 x61 | s16 => DD x23 x62 | s17 => DD x23 x63 | s18 => DD x24 x0 | s19 => DD x24 x1 | s20 => DD x24 x2 | s21 => DD x24 x3 | s22 => DD x24 x4 | s23 => DD x24 x5 | s24 => DD x24 x6 | s25 => DD x24 x7 | s26 => DD x24 x8 | s27 => DD x24 x9 | s28 => DD x24 x10 | s29 => DD x24 x11 | s30 => DD x24 x12 | s31 => DD x24 x13 | s32 => DD x24 x14 | s33 => DD x24 x15 | s34 => DD x24 x16 | s35 => DD x24 x17 | s36 => DD x24 x18 | s37 => DD x24 x19 | s38 => DD x24 x20 | s39 => DD x24 x21 | s40 => DD x24 x22 | s41 => DD x24 x23 | s42 => DD x24 x24 | s43 => DD x24 x25 | s44 => DD x24 x26 | s45 => DD x24 x27 | s46 => DD x24 x28 | s47 => DD x24 x29 | s48 => DD x24 x30 | s49 => DD x24 x31 | s50 => DD x24 x32 | s51 => DD x24 x33 | s52 => DD x24 x34 | s53 => DD x24 x35 | s54 => DD x24 x36 | s55 => DD x24 x37 | s56 => DD x24 x38 | s57 => DD x24 x39 | s58 => DD x24 x40 | s59 => DD x24 x41 | s60 => DD x24 x42 | s61 => DD x24 x43 | s62 => DD x24 x44 | s63 => DD x24 x45 | s64 => DD x24 x46 | s65 => DD x24 x47 | s66 => DD x24 x48 | s67 => DD x24 x49 | s68 => DD x24 x50 | s69 => DD x24 x51 | s70 => DD x24 x52 | s71 => DD x24 x53 | s72 => DD x24 x54 | s73 => DD x24 x55 | s74 => DD x24 x56 | s75 => DD x24 x57 | s76 => DD x24 x58 | s77 => DD x24 x59 | s78 => DD x24 x60 | s79 => DD x24 x61 | s80 => DD x24 x62 | s81 => DD x24 x63 | s82 => DD x25 x0 | s83 => DD x25 x1 | s84 => DD x25 x2 | s85 => DD x25 x3 | s86 => DD x25 x4 | s87 => DD x25 x5 | s88 => DD x25 x6 | s89 => DD x25 x7 | s90 => DD x25 x8 | s91 => DD x25 x9 | s92 => DD x25 x10 | s93 => DD x25 x11 | s94 => DD x25 x12 | s95 => DD x25 x13 | s96 => DD x25 x14 | s97 => DD x25 x15 | s98 => DD x25 x16 | s99 => DD x25 x17 | s100 => DD x25 x18 | s101 => DD x25 x19 | s102 => DD x25 x20 | s103 => DD x25 x21 | s104 => DD x25 x22 | s105 => DD x25 x23 | s106 => DD x25 x24 | s107 => DD x25 x25 | s108 => DD x25 x26 | s109 => DD x25 x27 | s110 => DD x25 x28 | s111 => DD x25 x29 | s112 => DD x25 x30 | s113 => DD x25 x31 | s114 => DD x25 x32 | s115 => DD x25 x33 | s116 => DD x25 x34 | s117 => DD x25 x35 | s118 => DD x25 x36 | s119 => DD x25 x37 | s120 => DD x25 x38 | s121 => DD x25 x39 | s122 => DD x25 x40 | s123 => DD x25 x41 | s124 => DD x25 x42 | s125 => DD x25 x43 | s126 => DD x25 x44 end.
Definition m1519 (c : sum2) : dd := match c with s0 => DD x23 x47 | s1 => DD x23 x48 | s2 => DD x23 x49 | s3 => DD x23 x50 | s4 => DD x23 x51 | s5 => DD x23 x52 | s6 => DD x23 x53 | s7 => DD x23 x54 | s8 => DD x23 x55 | s9 => DD x23 x56 | s10 => DD x23 x57 | s11 => DD x23 x58 | s12 => DD x23 x59 | s13 => DD x23 x60 | s14 => DD x23 x61 | s15 => DD x23 x62 | s16 => DD x23 x63 | s17 => DD x24 x0 | s18 => DD x24 x1 | s19 => DD x24 x2 | s20 => DD x24 x3 | s21 => DD x24 x4 | s22 => DD x24 x5 | s23 => DD x24 x6 | s24 => DD x24 x7 | s25 => DD x24 x8 | s26 => DD x24 x9 | s27 => DD x24 x10 | s28 => DD x24 x11 | s29 => DD x24 x12 | s30 => DD x24 x13 | s31 => DD x24 x14 | s32 => DD x24 x15 | s33 => DD x24 x16 | s34 => DD x24 x17 | s35 => DD x24 x18 | s36 => DD x24 x19 | s37 => DD x24 x20 | s38 => DD x24 x21 | s39 => DD x24 x22 | s40 => DD x24 x23 | s41 => DD x24 x24 | s42 => DD x24 x25 | s43 => DD x24 x26 | s44 => DD x24 x27 | s45 => DD x24 x28 | s46 => DD x24 x29 | s47 => DD x24 x30 | s48 => DD x24 x31 | s49 => DD x24 x32 | s50 => DD x24 x33 | s51 => DD x24 x34 | s52 => DD x24 x35 | s53 => DD x24 x36 | s54 => DD x24 x37 | s55 => DD x24 x38 | s56 => DD x24 x39 | s57 => DD x24 x40 | s58 => DD x24 x41 | s59 => DD x24 x42 | s60 => DD x24 x43 | s61 => DD x24 x44 | s62 => DD x24 x45 | s63 => DD x24 x46 | s64 => DD x24 x47 | s65 => DD x24 x48 | s66 => DD x24 x49 | s67 => DD x24 x50 | s68 => DD x24 x51 | s69 => DD x24 x52 | s70 => DD x24 x53 | s71 => DD x24 x54 | s72 => DD x24 x55 | s73 => DD x24 x56 | s74 => DD x24 x57 | s75 => DD x24 x58 | s76 => DD x24 x59 | s77 => DD x24 x60 | s78 => DD x24 x61 | s79 => DD x24 x62 | s80 => DD x24 x63 | s81 => DD x25 x0 | s82 => DD x25 x1 | s83 => DD x25 x2 | s84 => DD x25 x3 | s85 => DD x25 x4 | s86 => DD x25 x5 | s87 => DD x25 x6 | s88 => DD x25 x7 | s89 => DD x25 x8 | s90 => DD x25 x9 | s91 => DD x25 x10 | s92 => DD x25 x11 | s93 => DD x25 x12 | s94 => DD x25 x13 | s95 => DD x25 x14 | s96 => DD x25 x15 | s97 => DD x25 x16 | s98 => DD x25 x17 | s99 => DD x25 x18 | s100 => DD x25 x19 | s101 => DD x25 x20 | s102 => DD x25 x21 | s103 => DD x25 x22 | s104 => DD x25 x23 | s105 => DD x25 x24 | s106 => DD x25 x25 | s107 => DD x25 x26 | s108 => DD x25 x27 | s109 => DD x25 x28 | s110 => DD x25 x29 | s111 => DD x25 x30 | s112 => DD x25 x31 | s113 => DD x25 x32 | s114 => DD x25 x33 | s115 => DD x25 x34 | s116 => DD x25 x35 | s117 => DD x25 x36 | s118 => DD x25 x37 | s119 => DD x25 x38 | s120 => DD x25 x39 | s121 => DD x25 x40 | s122 => DD x25 x41 | s123 => DD x25 x42 | s124 => DD x25 x43 | s125 => DD x25 x44 | s126 => DD x25 x45 end.
Definition m1520 (c : sum2) : dd := match c with s0 => DD x23 x48 | s1 => DD x23 x49 | s2 => DD x23 x50 | s3 => DD x23 x51 | s4 => DD x23 x52 | s5 => DD x23 x53 | s6 => DD x23 x54 | s7 => DD x23 x55 | s8 => DD x23 x56 | s9 => DD x23 x57 | s10 => DD x23 x58 | s11 => DD x23 x59 | s12 => DD x23 x60 | s13 => DD x23 x61 | s14 => DD x23 x62 | s15 => DD x23 x63 | s16 => DD x24 x0 | s17 => DD x24 x1 | s18 => DD x24 x2 | s19 => DD x24 x3 | s20 => DD x24 x4 | s21 => DD x24 x5 | s22 => DD x24 x6 | s23 => DD x24 x7 | s24 => DD x24 x8 | s25 => DD x24 x9 | s26 => DD x24 x10 | s27 => DD x24 x11 | s28 => DD x24 x12 | s29 => DD x24 x13 | s30 => DD x24 x14 | s31 => DD x24 x15 | s32 => DD x24 x16 | s33 => DD x24 x17 | s34 => DD x24 x18 | s35 => DD x24 x19 | s36 => DD x24 x20 | s37 => DD x24 x21 | s38 => DD x24 x22 | s39 => DD x24 x23 | s40 => DD x24 x24 | s41 => DD x24 x25 | s42 => DD x24 x26 | s43 => DD x24 x27 | s44 => DD x24 x28 | s45 => DD x24 x29 | s46 => DD x24 x30 | s47 => DD x24 x31 | s48 => DD x24 x32 | s49 => DD x24 x33 | s50 => DD x24 x34 | s51 => DD x24 x35 | s52 => DD x24 x36 | s53 => DD x24 x37 | s54 => DD x24 x38 | s55 => DD x24 x39 | s56 => DD x24 x40 | s57 => DD x24 x41 | s58 => DD x24 x42 | s59 => DD x24 x43 | s60 => DD x24 x44 | s61 => DD x24 x45 | s62 => DD x24 x46 | s63 => DD x24 x47 | s64 => DD x24 x48 | s65 => DD x24 x49 | s66 => DD x24 x50 | s67 => DD x24 x51 | s68 => DD x24 x52 | s69 => DD x24 x53 | s70 => DD x24 x54 | s71 => DD x24 x55 | s72 => DD x24 x56 | s73 => DD x24 x57 | s74 => DD x24 x58 | s75 => DD x24 x59 | s76 => DD x24 x60 | s77 => DD x24 x61 | s78 => DD x24 x62 | s79 => DD x24 x63 | s80 => DD x25 x0 | s81 => DD x25 x1 | s82 => DD x25 x2 | s83 => DD x25 x3 | s84 => DD x25 x4 | s85 => DD x25 x5 | s86 => DD x25 x6 | s87 => DD x25 x7 | s88 => DD x25 x8 | s89 => DD x25 x9 | s90 => DD x25 x10 | s91 => DD x25 x11 | s92 => DD x25 x12 | s93 => DD x25 x13 | s94 => DD x25 x14 | s95 => DD x25 x15 | s96 => DD x25 x16 | s97 => DD x25 x17 | s98 => DD x25 x18 | s99 => DD x25 x19 | s100 => DD x25 x20 | s101 => DD x25 x21 | s102 => DD x25 x22 | s103 => DD x25 x23 | s104 => DD x25 x24 | s105 => DD x25 x25 | s106 => DD x25 x26 | s107 => DD x25 x27 | s108 => DD x25 x28 | s109 => DD x25 x29 | s110 => DD x25 x30 | s111 => DD x25 x31 | s112 => DD x25 x32 | s113 => DD x25 x33 | s114 => DD x25 x34 | s115 => DD x25 x35 | s116 => DD x25 x36 | s117 => DD x25 x37 | s118 => DD x25 x38 | s119 => DD x25 x39 | s120 => DD x25 x40 | s121 => DD x25 x41 | s122 => DD x25 x42 | s123 => DD x25 x43 | s124 => DD x25 x44 | s125 => DD x25 x45 | s126 => DD x25 x46 end.
Definition m1521 (c : sum2) : dd := match c with s0 => DD x23 x49 | s1 => DD x23 x50 | s2 => DD x23 x51 | s3 => DD x23 x52 | s4 => DD x23 x53 | s5 => DD x23 x54 | s6 => DD x23 x55 | s7 => DD x23 x56 | s8 => DD x23 x57 | s9 => DD x23 x58 | s10 => DD x23 x59 | s11 => DD x23 x60 | s12 => DD x23 x61 | s13 => DD x23 x62 | s14 => DD x23 x63 | s15 => DD x24 x0 | s16 => DD x24 x1 | s17 => DD x24 x2 | s18 => DD x24 x3 | s19 => DD x24 x4 | s20 => DD x24 x5 | s21 => DD x24 x6 | s22 => DD x24 x7 | s23 => DD x24 x8 | s24 => DD x24 x9 | s25 => DD x24 x10 | s26 => DD x24 x11 | s27 => DD x24 x12 | s28 => DD x24 x13 | s29 => DD x24 x14 | s30 => DD x24 x15 | s31 => DD x24 x16 | s32 => DD x24 x17 | s33 => DD x24 x18 | s34 => DD x24 x19 | s35 => DD x24 x20 | s36 => DD x24 x21 | s37 => DD x24 x22 | s38 => DD x24 x23 | s39 => DD x24 x24 | s40 => DD x24 x25 | s41 => DD x24 x26 | s42 => DD x24 x27 | s43 => DD x24 x28 | s44 => DD x24 x29 | s45 => DD x24 x30 | s46 => DD x24 x31 | s47 => DD x24 x32 | s48 => DD x24 x33 | s49 => DD x24 x34 | s50 => DD x24 x35 | s51 => DD x24 x36 | s52 => DD x24 x37 | s53 => DD x24 x38 | s54 => DD x24 x39 | s55 => DD x24 x40 | s56 => DD x24 x41 | s57 => DD x24 x42 | s58 => DD x24 x43 | s59 => DD x24 x44 | s60 => DD x24 x45 | s61 => DD x24 x46 | s62 => DD x24 x47 | s63 => DD x24 x48 | s64 => DD x24 x49 | s65 => DD x24 x50 | s66 => DD x24 x51 | s67 => DD x24 x52 | s68 => DD x24 x53 | s69 => DD x24 x54 | s70 => DD x24 x55 | s71 => DD x24 x56 | s72 => DD x24 x57 | s73 => DD x24 x58 | s74 => DD x24 x59 | s75 => DD x24 x60 | s76 => DD x24 x61 | s77 => DD x24 x62 | s78 => DD x24 x63 | s79 => DD x25 x0 | s80 => DD x25 x1 | s81 => DD x25 x2 | s82 => DD x25 x3 | s83 => DD x25 x4 | s84 => DD x25 x5 | s85 => DD x25 x6 | s86 => DD x25 x7 | s87 => DD x25 x8 | s88 => DD x25 x9 | s89 => DD x25 x10 | s90 => DD x25 x11 | s91 => DD x25 x12 | s92 => DD x25 x13 | s93 => DD x25 x14 | s94 => DD x25 x15 | s95 => DD x25 x16 | s96 => DD x25 x17 | s97 => DD x25 x18 | s98 => DD x25 x19 | s99 => DD x25 x20 | s100 => DD x25 x21 | s101 => DD x25 x22 | s102 => DD x25 x23 | s103 => DD x25 x24 | s104 => DD x25 x25 | s105 => DD x25 x26 | s106 => DD x25 x27 | s107 => DD x25 x28 | s108 => DD x25 x29 | s109 => DD x25 x30 | s110 => DD x25 x31 | s111 => DD x25 x32 | s112 => DD x25 x33 | s113 => DD x25 x34 | s114 => DD x25 x35 | s115 => DD x25 x36 | s116 => DD x25 x37 | s117 => DD x25 x38 | s118 => DD x25 x39 | s119 => DD x25 x40 | s120 => DD x25 x41 | s121 => DD x25 x42 | s122 => DD x25 x43 | s123 => DD x25 x44 | s124 => DD x25 x45 | s125 => DD x25 x46 | s126 => DD x25 x47 end.
Definition m1525 (c : sum2) : dd := match c with s0 => DD x23 x53 | s1 => DD x23 x54 | s2 => DD x23 x55 | s3 => DD x23 x56 | s4 => DD x23 x57 | s5 => DD x23 x58 | s6 => DD x23 x59 | s7 => DD x23 x60 | s8 => DD x23 x61 | s9 => DD x23 x62 | s10 => DD x23 x63 | s11 => DD x24 x0 | s12 => DD x24 x1 | s13 => DD x24 x2 | s14 => DD x24 x3 | s15 => DD x24 x4 | s16 => DD x24 x5 | s17 => DD x24 x6 | s18 => DD x24 x7 | s19 => DD x24 x8 | s20 => DD x24 x9 | s21 => DD x24 x10 | s22 => DD x24 x11 | s23 => DD x24 x12 | s24 => DD x24 x13 | s25 => DD x24 x14 | s26 => DD x24 x15 | s27 => DD x24 x16 | s28 => DD x24 x17 | s29 => DD x24 x18 | s30 => DD x24 x19 | s31 => DD x24 x20 | s32 => DD x24 x21 | s33 => DD x24 x22 | s34 => DD x24 x23 | s35 => DD x24 x24 | s36 => DD x24 x25 | s37 => DD x24 x26 | s38 => DD x24 x27 | s39 => DD x24 x28 | s40 => DD x24 x29 | s41 => DD x24 x30 | s42 => DD x24 x31 | s43 => DD x24 x32 | s44 => DD x24 x33 | s45 => DD x24 x34 | s46 => DD x24 x35 | s47 => DD x24 x36 | s48 => DD x24 x37 | s49 => DD x24 x38 | s50 => DD x24 x39 | s51 => DD x24 x40 | s52 => DD x24 x41 | s53 => DD x24 x42 | s54 => DD x24 x43 | s55 => DD x24 x44 | s56 => DD x24 x45 | s57 => DD x24 x46 | s58 => DD x24 x47 | s59 => DD x24 x48 | s60 => DD x24 x49 | s61 => DD x24 x50 | s62 => DD x24 x51 | s63 => DD x24 x52 | s64 => DD x24 x53 | s65 => DD x24 x54 | s66 => DD x24 x55 | s67 => DD x24 x56 | s68 => DD x24 x57 | s69 => DD x24 x58 | s70 => DD x24 x59 | s71 => DD x24 x60 | s72 => DD x24 x61 | s73 => DD x24 x62 | s74 => DD x24 x63 | s75 => DD x25 x0 | s76 => DD x25 x1 | s77 => DD x25 x2 | s78 => DD x25 x3 | s79 => DD x25 x4 | s80 => DD x25 x5 | s81 => DD x25 x6 | s82 => DD x25 x7 | s83 => DD x25 x8 | s84 => DD x25 x9 | s85 => DD x25 x10 | s86 => DD x25 x11 | s87 => DD x25 x12 | s88 => DD x25 x13 | s89 => DD x25 x14 | s90 => DD x25 x15 | s91 => DD x25 x16 | s92 => DD x25 x17 | s93 => DD x25 x18 | s94 => DD x25 x19 | s95 => DD x25 x20 | s96 => DD x25 x21 | s97 => DD x25 x22 | s98 => DD x25 x23 | s99 => DD x25 x24 | s100 => DD x25 x25 | s101 => DD x25 x26 | s102 => DD x25 x27 | s103 => DD x25 x28 | s104 => DD x25 x29 | s105 => DD x25 x30 | s106 => DD x25 x31 | s107 => DD x25 x32 | s108 => DD x25 x33 | s109 => DD x25 x34 | s110 => DD x25 x35 | s111 => DD x25 x36 | s112 => DD x25 x37 | s113 => DD x25 x38 | s114 => DD x25 x39 | s115 => DD x25 x40 | s116 => DD x25 x41 | s117 => DD x25 x42 | s118 => DD x25 x43 | s119 => DD x25 x44 | s120 => DD x25 x45 | s121 => DD x25 x46 | s122 => DD x25 x47 | s123 => DD x25 x48 | s124 => DD x25 x49 | s125 => DD x25 x50 | s126 => DD x25 x51 end.
Definition m1530 (c : sum2) : dd := match c with s0 => DD x23 x58 | s1 => DD x23 x59 | s2 => DD x23 x60 | s3 => DD x23 x61 | s4 => DD x23 x62 | s5 => DD x23 x63 | s6 => DD x24 x0 | s7 => DD x24 x1 | s8 => DD x24 x2 | s9 => DD x24 x3 | s10 => DD x24 x4 | s11 => DD x24 x5 | s12 => DD x24 x6 | s13 => DD x24 x7 | s14 => DD x24 x8 | s15 => DD x24 x9 | s16 => DD x24 x10 | s17 => DD x24 x11 | s18 => DD x24 x12 | s19 => DD x24 x13 | s20 => DD x24 x14 | s21 => DD x24 x15 | s22 => DD x24 x16 | s23 => DD x24 x17 | s24 => DD x24 x18 | s25 => DD x24 x19 | s26 => DD x24 x20 | s27 => DD x24 x21 | s28 => DD x24 x22 | s29 => DD x24 x23 | s30 => DD x24 x24 | s31 => DD x24 x25 | s32 => DD x24 x26 | s33 => DD x24 x27 | s34 => DD x24 x28 | s35 => DD x24 x29 | s36 => DD x24 x30 | s37 => DD x24 x31 | s38 => DD x24 x32 | s39 => DD x24 x33 | s40 => DD x24 x34 | s41 => DD x24 x35 | s42 => DD x24 x36 | s43 => DD x24 x37 | s44 => DD x24 x38 | s45 => DD x24 x39 | s46 => DD x24 x40 | s47 => DD x24 x41 | s48 => DD x24 x42 | s49 => DD x24 x43 | s50 => DD x24 x44 | s51 => DD x24 x45 | s52 => DD x24 x46 | s53 => DD x24 x47 | s54 => DD x24 x48 | s55 => DD x24 x49 | s56 => DD x24 x50 | s57 => DD x24 x51 | s58 => DD x24 x52 | s59 => DD x24 x53 | s60 => DD x24 x54 | s61 => DD x24 x55 | s62 => DD x24 x56 | s63 => DD x24 x57 | s64 => DD x24 x58 | s65 => DD x24 x59 | s66 => DD x24 x60 | s67 => DD x24 x61 | s68 => DD x24 x62 | s69 => DD x24 x63 | s70 => DD x25 x0 | s71 => DD x25 x1 | s72 => DD x25 x2 | s73 => DD x25 x3 | s74 => DD x25 x4 | s75 => DD x25 x5 | s76 => DD x25 x6 | s77 => DD x25 x7 | s78 => DD x25 x8 | s79 => DD x25 x9 | s80 => DD x25 x10 | s81 => DD x25 x11 | s82 => DD x25 x12 | s83 => DD x25 x13 | s84 => DD x25 x14 | s85 => DD x25 x15 | s86 => DD x25 x16 | s87 => DD x25 x17 | s88 => DD x25 x18 | s89 => DD x25 x19 | s90 => DD x25 x20 | s91 => DD x25 x21 | s92 => DD x25 x22 | s93 => DD x25 x23 | s94 => DD x25 x24 | s95 => DD x25 x25 | s96 => DD x25 x26 | s97 => DD x25 x27 | s98 => DD x25 x28 | s99 => DD x25 x29 | s100 => DD x25 x30 | s101 => DD x25 x31 | s102 => DD x25 x32 | s103 => DD x25 x33 | s104 => DD x25 x34 | s105 => DD x25 x35 | s106 => DD x25 x36 | s107 => DD x25 x37 | s108 => DD x25 x38 | s109 => DD x25 x39 | s110 => DD x25 x40 | s111 => DD x25 x41 | s112 => DD x25 x42 | s113 => DD x25 x43 | s114 => DD x25 x44 | s115 => DD x25 x45 | s116 => DD x25 x46 | s117 => DD x25 x47 | s118 => DD x25 x48 | s119 => DD x25 x49 | s120 => DD x25 x50 | s121 => DD x25 x51 | s122 => DD x25 x52 | s123 => DD x25 x53 | s124 => DD x25 x54 | s125 => DD x25 x55 | s126 => DD x25 x56 end.
Definition m1534 (c : sum2) : dd := match c with s0 => DD x23 x62 | s1 => DD x23 x63 | s2 => DD x24 x0 | s3 => DD x24 x1 | s4 => DD x24 x2 | s5 => DD x24 x3 | s6 => DD x24 x4 | s7 => DD x24 x5 | s8 => DD x24 x6 | s9 => DD x24 x7 | s10 => DD x24 x8 | s11 => DD x24 x9 | s12 => DD x24 x10 | s13 => DD x24 x11 | s14 => DD x24 x12 | s15 => DD x24 x13 | s16 => DD x24 x14 | s17 => DD x24 x15 | s18 => DD x24 x16 | s19 => DD x24 x17 | s20 => DD x24 x18 | s21 => DD x24 x19 | s22 => DD x24 x20 | s23 => DD x24 x21 | s24 => DD x24 x22 | s25 => DD x24 x23 | s26 => DD x24 x24 | s27 => DD x24 x25 | s28 => DD x24 x26 | s29 => DD x24 x27 | s30 => DD x24 x28 | s31 => DD x24 x29 | s32 => DD x24 x30 | s33 => DD x24 x31 | s34 => DD x24 x32 | s35 => DD x24 x33 | s36 => DD x24 x34 | s37 => DD x24 x35 | s38 => DD x24 x36 | s39 => DD x24 x37 | s40 => DD x24 x38 | s41 => DD x24 x39 | s42 => DD x24 x40 | s43 => DD x24 x41 | s44 => DD x24 x42 | s45 => DD x24 x43 | s46 => DD x24 x44 | s47 => DD x24 x45 | s48 => DD x24 x46 | s49 => DD x24 x47 | s50 => DD x24 x48 | s51 => DD x24 x49 | s52 => DD x24 x50 | s53 => DD x24 x51 | s54 => DD x24 x52 | s55 => DD x24 x53 | s56 => DD x24 x54 | s57 => DD x24 x55 | s58 => DD x24 x56 | s59 => DD x24 x57 | s60 => DD x24 x58 | s61 => DD x24 x59 | s62 => DD x24 x60 | s63 => DD x24 x61 | s64 => DD x24 x62 | s65 => DD x24 x63 | s66 => DD x25 x0 | s67 => DD x25 x1 | s68 => DD x25 x2 | s69 => DD x25 x3 | s70 => DD x25 x4 | s71 => DD x25 x5 | s72 => DD x25 x6 | s73 => DD x25 x7 | s74 => DD x25 x8 | s75 => DD x25 x9 | s76 => DD x25 x10 | s77 => DD x25 x11 | s78 => DD x25 x12 | s79 => DD x25 x13 | s80 => DD x25 x14 | s81 => DD x25 x15 | s82 => DD x25 x16 | s83 => DD x25 x17 | s84 => DD x25 x18 | s85 => DD x25 x19 | s86 => DD x25 x20 | s87 => DD x25 x21 | s88 => DD x25 x22 | s89 => DD x25 x23 | s90 => DD x25 x24 | s91 => DD x25 x25 | s92 => DD x25 x26 | s93 => DD x25 x27 | s94 => DD x25 x28 | s95 => DD x25 x29 | s96 => DD x25 x30 | s97 => DD x25 x31 | s98 => DD x25 x32 | s99 => DD x25 x33 | s100 => DD x25 x34 | s101 => DD x25 x35 | s102 => DD x25 x36 | s103 => DD x25 x37 | s104 => DD x25 x38 | s105 => DD x25 x39 | s106 => DD x25 x40 | s107 => DD x25 x41 | s108 => DD x25 x42 | s109 => DD x25 x43 | s110 => DD x25 x44 | s111 => DD x25 x45 | s112 => DD x25 x46 | s113 => DD x25 x47 | s114 => DD x25 x48 | s115 => DD x25 x49 | s116 => DD x25 x50 | s117 => DD x25 x51 | s118 => DD x25 x52 | s119 => DD x25 x53 | s120 => DD x25 x54 | s121 => DD x25 x55 | s122 => DD x25 x56 | s123 => DD x25 x57 | s124 => DD x25 x58 | s125 => DD x25 x59 | s126 => DD x25 x60 end.
Definition m1536 (c : sum2) : dd := match c with s0 => DD x24 x0 | s1 => DD x24 x1 | s2 => DD x24 x2 | s3 => DD x24 x3 | s4 => DD x24 x4 | s5 => DD x24 x5 | s6 => DD x24 x6 | s7 => DD x24 x7 | s8 => DD x24 x8 | s9 => DD x24 x9 | s10 => DD x24 x10 | s11 => DD x24 x11 | s12 => DD x24 x12 | s13 => DD x24 x13 | s14 => DD x24 x14 | s15 => DD x24 x15 | s16 => DD x24 x16 | s17 => DD x24 x17 | s18 => DD x24 x18 | s19 => DD x24 x19 | s20 => DD x24 x20 | s21 => DD x24 x21 | s22 => DD x24 x22 | s23 => DD x24 x23 | s24 => DD x24 x24 | s25 => DD x24 x25 | s26 => DD x24 x26 | s27 => DD x24 x27 | s28 => DD x24 x28 | s29 => DD x24 x29 | s30 => DD x24 x30 | s31 => DD x24 x31 | s32 => DD x24 x32 | s33 => DD x24 x33 | s34 => DD x24 x34 | s35 => DD x24 x35 | s36 => DD x24 x36 | s37 => DD x24 x37 | s38 => DD x24 x38 | s39 => DD x24 x39 | s40 => DD x24 x40 | s41 => DD x24 x41 | s42 => DD x24 x42 | s43 => DD x24 x43 | s44 => DD x24 x44 | s45 => DD x24 x45 | s46 => DD x24 x46 | s47 => DD x24 x47 | s48 => DD x24 x48 | s49 => DD x24 x49 | s50 => DD x24 x50 | s51 => DD x24 x51 | s52 => DD x24 x52 | s53 => DD x24 x53 | s54 => DD x24 x54 | s55 => DD x24 x55 | s56 => DD x24 x56 | s57 => DD x24 x57 | s58 => DD x24 x58 | s59 => DD x24 x59 | s60 => DD x24 x60 | s61 => DD x24 x61 | s62 => DD x24 x62 | s63 => DD x24 x63 | s64 => DD x25 x0 | s65 => DD x25 x1 | s66 => DD x25 x2 | s67 => DD x25 x3 | s68 => DD x25 x4 | s69 => DD x25 x5 | s70 => DD x25 x6 | s71 => DD x25 x7 | s72 => DD x25 x8 | s73 => DD x25 x9 | s74 => DD x25 x10 | s75 => DD x25 x11 | s76 => DD x25 x12 | s77 => DD x25 x13 | s78 => DD x25 x14 | s79 => DD x25 x15 | s80 => DD x25 x16 | s81 => DD x25 x17 | s82 => DD x25 x18 | s83 => DD x25 x19 | s84 => DD x25 x20 | s85 => DD x25 x21 | s86 => DD x25 x22 | s87 => DD x25 x23 | s88 => DD x25 x24 | s89 => DD x25 x25 | s90 => DD x25 x26 | s91 => DD x25 x27 | s92 => DD x25 x28 | s93 => DD x25 x29 | s94 => DD x25 x30 | s95 => DD x25 x31 | s96 => DD x25 x32 | s97 => DD x25 x33 | s98 => DD x25 x34 | s99 => DD x25 x35 | s100 => DD x25 x36 | s101 => DD x25 x37 | s102 => DD x25 x38 | s103 => DD x25 x39 | s104 => DD x25 x40 | s105 => DD x25 x41 | s106 => DD x25 x42 | s107 => DD x25 x43 | s108 => DD x25 x44 | s109 => DD x25 x45 | s110 => DD x25 x46 | s111 => DD x25 x47 | s112 => DD x25 x48 | s113 => DD x25 x49 | s114 => DD x25 x50 | s115 => DD x25 x51 | s116 => DD x25 x52 | s117 => DD x25 x53 | s118 => DD x25 x54 | s119 => DD x25 x55 | s120 => DD x25 x56 | s121 => DD x25 x57 | s122 => DD x25 x58 | s123 => DD x25 x59 | s124 => DD x25 x60 | s125 => DD x25 x61 | s126 => DD x25 x62 end.
Definition m1537 (c : sum2) : dd := match c with s0 => DD x24 x1 | s1 => DD x24 x2 | s2 => DD x24 x3 | s3 => DD x24 x4 | s4 => DD x24 x5 | s5 => DD x24 x6 | s6 => DD x24 x7 | s7 => DD x24 x8 | s8 => DD x24 x9 | s9 => DD x24 x10 | s10 => DD x24 x11 | s11 => DD x24 x12 | s12 => DD x24 x13 | s13 => DD x24 x14 | s14 => DD x24 x15 | s15 => DD x24 x16 | s16 => DD x24 x17 | s17 => DD x24 x18 | s18 => DD x24 x19 | s19 => DD x24 x20 | s20 => DD x24 x21 | s21 => DD x24 x22 | s22 => DD x24 x23 | s23 => DD x24 x24 | s24 => DD x24 x25 | s25 => DD x24 x26 | s26 => DD x24 x27 | s27 => DD x24 x28 | s28 => DD x24 x29 | s29 => DD x24 x30 | s30 => DD x24 x31 | s31 => DD x24 x32 | s32 => DD x24 x33 | s33 => DD x24 x34 | s34 => DD x24 x35 | s35 => DD x24 x36 | s36 => DD x24 x37 | s37 => DD x24 x38 | s38 => DD x24 x39 | s39 => DD x24 x40 | s40 => DD x24 x41 | s41 => DD x24 x42 | s42 => DD x24 x43 | s43 => DD x24 x44 | s44 => DD x24 x45 | s45 => DD x24 x46 | s46 => DD x24 x47 | s47 => DD x24 x48 | s48 => DD x24 x49 | s49 => DD x24 x50 | s50 => DD x24 x51 | s51 => DD x24 x52 | s52 => DD x24 x53 | s53 => DD x24 x54 | s54 => DD x24 x55 | s55 => DD x24 x56 | s56 => DD x24 x57 | s57 => DD x24 x58 | s58 => DD x24 x59 | s59 => DD x24 x60 | s60 => DD x24 x61 | s61 => DD x24 x62 | s62 => DD x24 x63 | s63 => DD x25 x0 | s64 => DD x25 x1 | s65 => DD x25 x2 | s66 => DD x25 x3 | s67 => DD x25 x4 | s68 => DD x25 x5 | s69 => DD x25 x6 | s70 => DD x25 x7 | s71 => DD x25 x8 | s72 => DD x25 x9 | s73 => DD x25 x10 | s74 => DD x25 x11 | s75 => DD x25 x12 | s76 => DD x25 x13 | s77 => DD x25 x14 | s78 => DD x25 x15 | s79 => DD x25 x16 | s80 => DD x25 x17 | s81 => DD x25 x18 | s82 => DD x25 x19 | s83 => DD x25 x20 | s84 => DD x25 x21 | s85 => DD x25 x22 | s86 => DD x25 x23 | s87 => DD x25 x24 | s88 => DD x25 x25 | s89 => DD x25 x26 | s90 => DD x25 x27 | s91 => DD x25 x28 | s92 => DD x25 x29 | s93 => DD x25 x30 | s94 => DD x25 x31 | s95 => DD x25 x32 | s96 => DD x25 x33 | s97 => DD x25 x34 | s98 => DD x25 x35 | s99 => DD x25 x36 | s100 => DD x25 x37 | s101 => DD x25 x38 | s102 => DD x25 x39 | s103 => DD x25 x40 | s104 => DD x25 x41 | s105 => DD x25 x42 | s106 => DD x25 x43 | s107 => DD x25 x44 | s108 => DD x25 x45 | s109 => DD x25 x46 | s110 => DD x25 x47 | s111 => DD x25 x48 | s112 => DD x25 x49 | s113 => DD x25 x50 | s114 => DD x25 x51 | s115 => DD x25 x52 | s116 => DD x25 x53 | s117 => DD x25 x54 | s118 => DD x25 x55 | s119 => DD x25 x56 | s120 => DD x25 x57 | s121 => DD x25 x58 | s122 => DD x25 x59 | s123 => DD x25 x60 | s124 => DD x25 x61 | s125 => DD x25 x62 | s126 => DD x25 x63 end.
Definition m1539 (c : sum2) : dd := match c with s0 => DD x24 x3 | s1 => DD x24 x4 | s2 => DD x24 x5 | s3 => DD x24 x6 | s4 => DD x24 x7 | s5 => DD x24 x8 | s6 => DD x24 x9 | s7 => DD x24 x10 | s8 => DD x24 x11 | s9 => DD x24 x12 | s10 => DD x24 x13 | s11 => DD x24 x14 | s12 => DD x24 x15 | s13 => DD x24 x16 | s14 => DD x24 x17 | s15 => DD x24 x18 | s16 => DD x24 x19 | s17 => DD x24 x20 | s18 => DD x24 x21 | s19 => DD x24 x22 | s20 => DD x24 x23 | s21 => DD x24 x24 | s22 => DD x24 x25 | s23 => DD x24 x26 | s24 => DD x24 x27 | s25 => DD x24 x28 | s26 => DD x24 x29 | s27 => DD x24 x30 | s28 => DD x24 x31 | s29 => DD x24 x32 | s30 => DD x24 x33 | s31 => DD x24 x34 | s32 => DD x24 x35 | s33 => DD x24 x36 | s34 => DD x24 x37 | s35 => DD x24 x38 | s36 => DD x24 x39 | s37 => DD x24 x40 | s38 => DD x24 x41 | s39 => DD x24 x42 | s40 => DD x24 x43 | s41 => DD x24 x44 | s42 => DD x24 x45 | s43 => DD x24 x46 | s44 => DD x24 x47 | s45 => DD x24 x48 | s46 => DD x24 x49 | s47 => DD x24 x50 | s48 => DD x24 x51 | s49 => DD x24 x52 | s50 => DD x24 x53 | s51 => DD x24 x54 | s52 => DD x24 x55 | s53 => DD x24 x56 | s54 => DD x24 x57 | s55 => DD x24 x58 | s56 => DD x24 x59 | s57 => DD x24 x60 | s58 => DD x24 x61 | s59 => DD x24 x62 | s60 => DD x24 x63 | s61 => DD x25 x0 | s62 => DD x25 x1 | s63 => DD x25 x2 | s64 => DD x25 x3 | s65 => DD x25 x4 | s66 => DD x25 x5 | s67 => DD x25 x6 | s68 => DD x25 x7 | s69 => DD x25 x8 | s70 => DD x25 x9 | s71 => DD x25 x10 | s72 => DD x25 x11 | s73 => DD x25 x12 | s74 => DD x25 x13 | s75 => DD x25 x14 | s76 => DD x25 x15 | s77 => DD x25 x16 | s78 => DD x25 x17 | s79 => DD x25 x18 | s80 => DD x25 x19 | s81 => DD x25 x20 | s82 => DD x25 x21 | s83 => DD x25 x22 | s84 => DD x25 x23 | s85 => DD x25 x24 | s86 => DD x25 x25 | s87 => DD x25 x26 | s88 => DD x25 x27 | s89 => DD x25 x28 | s90 => DD x25 x29 | s91 => DD x25 x30 | s92 => DD x25 x31 | s93 => DD x25 x32 | s94 => DD x25 x33 | s95 => DD x25 x34 | s96 => DD x25 x35 | s97 => DD x25 x36 | s98 => DD x25 x37 | s99 => DD x25 x38 | s100 => DD x25 x39 | s101 => DD x25 x40 | s102 => DD x25 x41 | s103 => DD x25 x42 | s104 => DD x25 x43 | s105 => DD x25 x44 | s106 => DD x25 x45 | s107 => DD x25 x46 | s108 => DD x25 x47 | s109 => DD x25 x48 | s110 => DD x25 x49 | s111 => DD x25 x50 | s112 => DD x25 x51 | s113 => DD x25 x52 | s114 => DD x25 x53 | s115 => DD x25 x54 | s116 => DD x25 x55 | s117 => DD x25 x56 | s118 => DD x25 x57 | s119 => DD x25 x58 | s120 => DD x25 x59 | s121 => DD x25 x60 | s122 => DD x25 x61 | s123 => DD x25 x62 | s124 => DD x25 x63 | s125 => DD x26 x0 | s126 => DD x26 x1 end.
Definition m1540 (c : sum2) : dd := match c with s0 => DD x24 x4 | s1 => DD x24 x5 | s2 => DD x24 x6 | s3 => DD x24 x7 | s4 => DD x24 x8 | s5 => DD x24 x9 | s6 => DD x24 x10 | s7 => DD x24 x11 | s8 => DD x24 x12 | s9 => DD x24 x13 | s10 => DD x24 x14 | s11 => DD x24 x15 | s12 => DD x24 x16 | s13 => DD x24 x17 | s14 => DD x24 x18 | s15 => DD x24 x19 | s16 => DD x24 x20 | s17 => DD x24 x21 | s18 => DD x24 x22 | s19 => DD x24 x23 | s20 => DD x24 x24 | s21 => DD x24 x25 | s22 => DD x24 x26 | s23 => DD x24 x27 | s24 => DD x24 x28 | s25 => DD x24 x29 | s26 => DD x24 x30 | s27 => DD x24 x31 | s28 => DD x24 x32 | s29 => DD x24 x33 | s30 => DD x24 x34 | s31 => DD x24 x35 | s32 => DD x24 x36 | s33 => DD x24 x37 | s34 => DD x24 x38 | s35 => DD x24 x39 | s36 => DD x24 x40 | s37 => DD x24 x41 | s38 => DD x24 x42 | s39 => DD x24 x43 | s40 => DD x24 x44 | s41 => DD x24 x45 | s42 => DD x24 x46 | s43 => DD x24 x47 | s44 => DD x24 x48 | s45 => DD x24 x49 | s46 => DD x24 x50 | s47 => DD x24 x51 | s48 => DD x24 x52 | s49 => DD x24 x53 | s50 => DD x24 x54 | s51 => DD x24 x55 | s52 => DD x24 x56 | s53 => DD x24 x57 | s54 => DD x24 x58 | s55 => DD x24 x59 | s56 => DD x24 x60 | s57 => DD x24 x61 | s58 => DD x24 x62 | s59 => DD x24 x63 | s60 => DD x25 x0 | s61 => DD x25 x1 | s62 => DD x25 x2 | s63 => DD x25 x3 | s64 => DD x25 x4 | s65 => DD x25 x5 | s66 => DD x25 x6 | s67 => DD x25 x7 | s68 => DD x25 x8 | s69 => DD x25 x9 | s70 => DD x25 x10 | s71 => DD x25 x11 | s72 => DD x25 x12 | s73 => DD x25 x13 | s74 => DD x25 x14 | s75 => DD x25 x15 | s76 => DD x25 x16 | s77 => DD x25 x17 | s78 => DD x25 x18 | s79 => DD x25 x19 | s80 => DD x25 x20 | s81 => DD x25 x21 | s82 => DD x25 x22 | s83 => DD x25 x23 | s84 => DD x25 x24 | s85 => DD x25 x25 | s86 => DD x25 x26 | s87 => DD x25 x27 | s88 => DD x25 x28 | s89 => DD x25 x29 | s90 => DD x25 x30 | s91 => DD x25 x31 | s92 => DD x25 x32 | s93 => DD x25 x33 | s94 => DD x25 x34 | s95 => DD x25 x35 | s96 => DD x25 x36 | s97 => DD x25 x37 | s98 => DD x25 x38 | s99 => DD x25 x39 | s100 => DD x25 x40 | s101 => DD x25 x41 | s102 => DD x25 x42 | s103 => DD x25 x43 | s104 => DD x25 x44 | s105 => DD x25 x45 | s106 => DD x25 x46 | s107 => DD x25 x47 | s108 => DD x25 x48 | s109 => DD x25 x49 | s110 => DD x25 x50 | s111 => DD x25 x51 | s112 => DD x25 x52 | s113 => DD x25 x53 | s114 => DD x25 x54 | s115 => DD x25 x55 | s116 => DD x25 x56 | s117 => DD x25 x57 | s118 => DD x25 x58 | s119 => DD x25 x59 | s120 => DD x25 x60 | s121 => DD x25 x61 | s122 => DD x25 x62 | s123 => DD x25 x63 | s124 => DD x26 x0 | s125 => DD x26 x1 | s126 => DD x26 x2 end.
Definition m1548 (c : sum2) : dd := match c with s0 => DD x24 x12 | s1 => DD x24 x13 | s2 => DD x24 x14 | s3 => DD x24 x15 | s4 => DD x24 x16 | s5 => DD x24 x17 | s6 => DD x24 x18 | s7 => DD x24 x19 | s8 => DD x24 x20 | s9 => DD x24 x21 | s10 => DD x24 x22 | s11 => DD x24 x23 | s12 => DD x24 x24 | s13 => DD x24 x25 | s14 => DD x24 x26 | s15 => DD x24 x27 | s16 => DD x24 x28 | s17 => DD x24 x29 | s18 => DD x24 x30 | s19 => DD x24 x31 | s20 => DD x24 x32 | s21 => DD x24 x33 | s22 => DD x24 x34 | s23 => DD x24 x35 | s24 => DD x24 x36 | s25 => DD x24 x37 | s26 => DD x24 x38 | s27 => DD x24 x39 | s28 => DD x24 x40 | s29 => DD x24 x41 | s30 => DD x24 x42 | s31 => DD x24 x43 | s32 => DD x24 x44 | s33 => DD x24 x45 | s34 => DD x24 x46 | s35 => DD x24 x47 | s36 => DD x24 x48 | s37 => DD x24 x49 | s38 => DD x24 x50 | s39 => DD x24 x51 | s40 => DD x24 x52 | s41 => DD x24 x53 | s42 => DD x24 x54 | s43 => DD x24 x55 | s44 => DD x24 x56 | s45 => DD x24 x57 | s46 => DD x24 x58 | s47 => DD x24 x59 | s48 => DD x24 x60 | s49 => DD x24 x61 | s50 => DD x24 x62 | s51 => DD x24 x63 | s52 => DD x25 x0 | s53 => DD x25 x1 | s54 => DD x25 x2 | s55 => DD x25 x3 | s56 => DD x25 x4 | s57 => DD x25 x5 | s58 => DD x25 x6 | s59 => DD x25 x7 | s60 => DD x25 x8 | s61 => DD x25 x9 | s62 => DD x25 x10 | s63 => DD x25 x11 | s64 => DD x25 x12 | s65 => DD x25 x13 | s66 => DD x25 x14 | s67 => DD x25 x15 | s68 => DD x25 x16 | s69 => DD x25 x17 | s70 => DD x25 x18 | s71 => DD x25 x19 | s72 => DD x25 x20 | s73 => DD x25 x21 | s74 => DD x25 x22 | s75 => DD x25 x23 | s76 => DD x25 x24 | s77 => DD x25 x25 | s78 => DD x25 x26 | s79 => DD x25 x27 | s80 => DD x25 x28 | s81 => DD x25 x29 | s82 => DD x25 x30 | s83 => DD x25 x31 | s84 => DD x25 x32 | s85 => DD x25 x33 | s86 => DD x25 x34 | s87 => DD x25 x35 | s88 => DD x25 x36 | s89 => DD x25 x37 | s90 => DD x25 x38 | s91 => DD x25 x39 | s92 => DD x25 x40 | s93 => DD x25 x41 | s94 => DD x25 x42 | s95 => DD x25 x43 | s96 => DD x25 x44 | s97 => DD x25 x45 | s98 => DD x25 x46 | s99 => DD x25 x47 | s100 => DD x25 x48 | s101 => DD x25 x49 | s102 => DD x25 x50 | s103 => DD x25 x51 | s104 => DD x25 x52 | s105 => DD x25 x53 | s106 => DD x25 x54 | s107 => DD x25 x55 | s108 => DD x25 x56 | s109 => DD x25 x57 | s110 => DD x25 x58 | s111 => DD x25 x59 | s112 => DD x25 x60 | s113 => DD x25 x61 | s114 => DD x25 x62 | s115 => DD x25 x63 | s116 => DD x26 x0 | s117 => DD x26 x1 | s118 => DD x26 x2 | s119 => DD x26 x3 | s120 => DD x26 x4 | s121 => DD x26 x5 | s122 => DD x26 x6 | s123 => DD x26 x7 | s124 => DD x26 x8 | s125 => DD x26 x9 | s126 => DD x26 x10 end.
Definition m1550 (c : sum2) : dd := match c with s0 => DD x24 x14 | s1 => DD x24 x15 | s2 => DD x24 x16 | s3 => DD x24 x17 | s4 => DD x24 x18 | s5 => DD x24 x19 | s6 => DD x24 x20 | s7 => DD x24 x21 | s8 => DD x24 x22 | s9 => DD x24 x23 | s10 => DD x24 x24 | s11 => DD x24 x25 | s12 => DD x24 x26 | s13 => DD x24 x27 | s14 => DD x24 x28 | s15 => DD x24 x29 | s16 => DD x24 x30 | s17 => DD x24 x31 | s18 => DD x24 x32 | s19 => DD x24 x33 | s20 => DD x24 x34 | s21 => DD x24 x35 | s22 => DD x24 x36 | s23 => DD x24 x37 | s24 => DD x24 x38 | s25 => DD x24 x39 | s26 => DD x24 x40 | s27 => DD x24 x41 | s28 => DD x24 x42 | s29 => DD x24 x43 | s30 => DD x24 x44 | s31 => DD x24 x45 | s32 => DD x24 x46 | s33 => DD x24 x47 | s34 => DD x24 x48 | s35 => DD x24 x49 | s36 => DD x24 x50 | s37 => DD x24 x51 | s38 => DD x24 x52 | s39 => DD x24 x53 | s40 => DD x24 x54 | s41 => DD x24 x55 | s42 => DD x24 x56 | s43 => DD x24 x57 | s44 => DD x24 x58 | s45 => DD x24 x59 | s46 => DD x24 x60 | s47 => DD x24 x61 | s48 => DD x24 x62 | s49 => DD x24 x63 | s50 => DD x25 x0 | s51 => DD x25 x1 | s52 => DD x25 x2 | s53 => DD x25 x3 | s54 => DD x25 x4 | s55 => DD x25 x5 | s56 => DD x25 x6 | s57 => DD x25 x7 | s58 => DD x25 x8 | s59 => DD x25 x9 | s60 => DD x25 x10 | s61 => DD x25 x11 | s62 => DD x25 x12 | s63 => DD x25 x13 | s64 => DD x25 x14 | s65 => DD x25 x15 | s66 => DD x25 x16 | s67 => DD x25 x17 | s68 => DD x25 x18 | s69 => DD x25 x19 | s70 => DD x25 x20 | s71 => DD x25 x21 | s72 => DD x25 x22 | s73 => DD x25 x23 | s74 => DD x25 x24 | s75 => DD x25 x25 | s76 => DD x25 x26 | s77 => DD x25 x27 | s78 => DD x25 x28 | s79 => DD x25 x29 | s80 => DD x25 x30 | s81 => DD x25 x31 | s82 => DD x25 x32 | s83 => DD x25 x33 | s84 => DD x25 x34 | s85 => DD x25 x35 | s86 => DD x25 x36 | s87 => DD x25 x37 | s88 => DD x25 x38 | s89 => DD x25 x39 | s90 => DD x25 x40 | s91 => DD x25 x41 | s92 => DD x25 x42 | s93 => DD x25 x43 | s94 => DD x25 x44 | s95 => DD x25 x45 | s96 => DD x25 x46 | s97 => DD x25 x47 | s98 => DD x25 x48 | s99 => DD x25 x49 | s100 => DD x25 x50 | s101 => DD x25 x51 | s102 => DD x25 x52 | s103 => DD x25 x53 | s104 => DD x25 x54 | s105 => DD x25 x55 | s106 => DD x25 x56 | s107 => DD x25 x57 | s108 => DD x25 x58 | s109 => DD x25 x59 | s110 => DD x25 x60 | s111 => DD x25 x61 | s112 => DD x25 x62 | s113 => DD x25 x63 | s114 => DD x26 x0 | s115 => DD x26 x1 | s116 => DD x26 x2 | s117 => DD x26 x3 | s118 => DD x26 x4 | s119 => DD x26 x5 | s120 => DD x26 x6 | s121 => DD x26 x7 | s122 => DD x26 x8 | s123 => DD x26 x9 | s124 => DD x26 x10 | s125 => DD x26 x11 | s126 => DD x26 x12 end.
Definition m1551 (c : sum2) : dd := match c with s0 => DD x24 x15 | s1 => DD x24 x16 | s2 => DD x24 x17 | s3 => DD x24 x18 | s4 => DD x24 x19 | s5 => DD x24 x20 | s6 => DD x24 x21 | s7 => DD x24 x22 | s8 => DD x24 x23 | s9 => DD x24 x24 | s10 => DD x24 x25 | s11 => DD x24 x26 | s12 => DD x24 x27 | s13 => DD x24 x28 | s14 => DD x24 x29 | s15 => DD x24 x30 | s16 => DD x24 x31 | s17 => DD x24 x32 | s18 => DD x24 x33 | s19 => DD x24 x34 | s20 => DD x24 x35 | s21 => DD x24 x36 | s22 => DD x24 x37 | s23 => DD x24 x38 | s24 => DD x24 x39 | s25 => DD x24 x40 | s26 => DD x24 x41 | s27 => DD x24 x42 | s28 => DD x24 x43 | s29 => DD x24 x44 | s30 => DD x24 x45 | s31 => DD x24 x46 | s32 => DD x24 x47 | s33 => DD x24 x48 | s34 => DD x24 x49 | s35 => DD x24 x50 | s36 => DD x24 x51 | s37 => DD x24 x52 | s38 => DD x24 x53 | s39 => DD x24 x54 | s40 => DD x24 x55 | s41 => DD x24 x56 | s42 => DD x24 x57 | s43 => DD x24 x58 | s44 => DD x24 x59 | s45 => DD x24 x60 | s46 => DD x24 x61 | s47 => DD x24 x62 | s48 => DD x24 x63 | s49 => DD x25 x0 | s50 => DD x25 x1 | s51 => DD x25 x2 | s52 => DD x25 x3 | s53 => DD x25 x4 | s54 => DD x25 x5 | s55 => DD x25 x6 | s56 => DD x25 x7 | s57 => DD x25 x8 | s58 => DD x25 x9 | s59 => DD x25 x10 | s60 => DD x25 x11 | s61 => DD x25 x12 | s62 => DD x25 x13 | s63 => DD x25 x14 | s64 => DD x25 x15 | s65 => DD x25 x16 | s66 => DD x25 x17 | s67 => DD x25 x18 | s68 => DD x25 x19 | s69 => DD x25 x20 | s70 => DD x25 x21 | s71 => DD x25 x22 | s72 => DD x25 x23 | s73 => DD x25 x24 | s74 => DD x25 x25 | s75 => DD x25 x26 | s76 => DD x25 x27 | s77 => DD x25 x28 | s78 => DD x25 x29 | s79 => DD x25 x30 | s80 => DD x25 x31 | s81 => DD x25 x32 | s82 => DD x25 x33 | s83 => DD x25 x34 | s84 => DD x25 x35 | s85 => DD x25 x36 | s86 => DD x25 x37 | s87 => DD x25 x38 | s88 => DD x25 x39 | s89 => DD x25 x40 | s90 => DD x25 x41 | s91 => DD x25 x42 | s92 => DD x25 x43 | s93 => DD x25 x44 | s94 => DD x25 x45 | s95 => DD x25 x46 | s96 => DD x25 x47 | s97 => DD x25 x48 | s98 => DD x25 x49 | s99 => DD x25 x50 | s100 => DD x25 x51 | s101 => DD x25 x52 | s102 => DD x25 x53 | s103 => DD x25 x54 | s104 => DD x25 x55 | s105 => DD x25 x56 | s106 => DD x25 x57 | s107 => DD x25 x58 | s108 => DD x25 x59 | s109 => DD x25 x60 | s110 => DD x25 x61 | s111 => DD x25 x62 | s112 => DD x25 x63 | s113 => DD x26 x0 | s114 => DD x26 x1 | s115 => DD x26 x2 | s116 => DD x26 x3 | s117 => DD x26 x4 | s118 => DD x26 x5 | s119 => DD x26 x6 | s120 => DD x26 x7 | s121 => DD x26 x8 | s122 => DD x26 x9 | s123 => DD x26 x10 | s124 => DD x26 x11 | s125 => DD x26 x12 | s126 => DD x26 x13 end.
Definition m1554 (c : sum2) : dd := match c with s0 => DD x24 x18 | s1 => DD x24 x19 | s2 => DD x24 x20 | s3 => DD x24 x21 | s4 => DD x24 x22 | s5 => DD x24 x23 | s6 => DD x24 x24 | s7 => DD x24 x25 | s8 => DD x24 x26 | s9 => DD x24 x27 | s10 => DD x24 x28 | s11 => DD x24 x29 | s12 => DD x24 x30 | s13 => DD x24 x31 | s14 => DD x24 x32 | s15 => DD x24 x33 | s16 => DD x24 x34 | s17 => DD x24 x35 | s18 => DD x24 x36 | s19 => DD x24 x37 | s20 => DD x24 x38 | s21 => DD x24 x39 | s22 => DD x24 x40 | s23 => DD x24 x41 | s24 => DD x24 x42 | s25 => DD x24 x43 | s26 => DD x24 x44 | s27 => DD x24 x45 | s28 => DD x24 x46 | s29 => DD x24 x47 | s30 => DD x24 x48 | s31 => DD x24 x49 | s32 => DD x24 x50 | s33 => DD x24 x51 | s34 => DD x24 x52 | s35 => DD x24 x53 | s36 => DD x24 x54 | s37 => DD x24 x55 | s38 => DD x24 x56 | s39 => DD x24 x57 | s40 => DD x24 x58 | s41 => DD x24 x59 | s42 => DD x24 x60 | s43 => DD x24 x61 | s44 => DD x24 x62 | s45 => DD x24 x63 | s46 => DD x25 x0 | s47 => DD x25 x1 | s48 => DD x25 x2 | s49 => DD x25 x3 | s50 => DD x25 x4 | s51 => DD x25 x5 | s52 => DD x25 x6 | s53 => DD x25 x7 | s54 => DD x25 x8 | s55 => DD x25 x9 | s56 => DD x25 x10 | s57 => DD x25 x11 | s58 => DD x25 x12 | s59 => DD x25 x13 | s60 => DD x25 x14 | s61 => DD x25 x15 | s62 => DD x25 x16 | s63 => DD x25 x17 | s64 => DD x25 x18 | s65 => DD x25 x19 | s66 => DD x25 x20 | s67 => DD x25 x21 | s68 => DD x25 x22 | s69 => DD x25 x23 | s70 => DD x25 x24 | s71 => DD x25 x25 | s72 => DD x25 x26 | s73 => DD x25 x27 | s74 => DD x25 x28 | s75 => DD x25 x29 | s76 => DD x25 x30 | s77 => DD x25 x31 | s78 => DD x25 x32 | s79 => DD x25 x33 | s80 => DD x25 x34 | s81 => DD x25 x35 | s82 => DD x25 x36 | s83 => DD x25 x37 | s84 => DD x25 x38 | s85 => DD x25 x39 | s86 => DD x25 x40 | s87 => DD x25 x41 | s88 => DD x25 x42 | s89 => DD x25 x43 | s90 => DD x25 x44 | s91 => DD x25 x45 | s92 => DD x25 x46 | s93 => DD x25 x47 | s94 => DD x25 x48 | s95 => DD x25 x49 | s96 => DD x25 x50 | s97 => DD x25 x51 | s98 => DD x25 x52 | s99 => DD x25 x53 | s100 => DD x25 x54 | s101 => DD x25 x55 | s102 => DD x25 x56 | s103 => DD x25 x57 | s104 => DD x25 x58 | s105 => DD x25 x59 | s106 => DD x25 x60 | s107 => DD x25 x61 | s108 => DD x25 x62 | s109 => DD x25 x63 | s110 => DD x26 x0 | s111 => DD x26 x1 | s112 => DD x26 x2 | s113 => DD x26 x3 | s114 => DD x26 x4 | s115 => DD x26 x5 | s116 => DD x26 x6 | s117 => DD x26 x7 | s118 => DD x26 x8 | s119 => DD x26 x9 | s120 => DD x26 x10 | s121 => DD x26 x11 | s122 => DD x26 x12 | s123 => DD x26 x13 | s124 => DD x26 x14 | s125 => DD x26 x15 | s126 => DD x26 x16 end.
Definition m1558 (c : sum2) : dd := match c with s0 => DD x24 x22 | s1 => DD x24 x23 | s2 => DD x24 x24 | s3 => DD x24 x25 | s4 => DD x24 x26 | s5 => DD x24 x27 | s6 => DD x24 x28 | s7 => DD x24 x29 | s8 => DD x24 x30 | s9 => DD x24 x31 | s10 => DD x24 x32 | s11 => DD x24 x33 | s12 => DD x24 x34 | s13 => DD x24 x35 | s14 => DD x24 x36 | s15 => DD x24 x37 | s16 => DD x24 x38 | s17 => DD x24 x39 | s18 => DD x24 x40 | s19 => DD x24 x41 | s20 => DD x24 x42 | s21 => DD x24 x43 | s22 => DD x24 x44 | s23 => DD x24 x45 | s24 => DD x24 x46 | s25 => DD x24 x47 | s26 => DD x24 x48 | s27 => DD x24 x49 | s28 => DD x24 x50 | s29 => DD x24 x51 | s30 => DD x24 x52 | s31 => DD x24 x53 | s32 => DD x24 x54 | s33 => DD x24 x55 | s34 => DD x24 x56 | s35 => DD x24 x57 | s36 => DD x24 x58 | s37 => DD x24 x59 | s38 => DD x24 x60 | s39 => DD x24 x61 | s40 => DD x24 x62 | s41 => DD x24 x63 | s42 => DD x25 x0 | s43 => DD x25 x1 | s44 => DD x25 x2 | s45 => DD x25 x3 | s46 => DD x25 x4 | s47 => DD x25 x5 | s48 => DD x25 x6 | s49 => DD x25 x7 | s50 => DD x25 x8 | s51 => DD x25 x9 | s52 => DD x25 x10 | s53 => DD x25 x11 | s54 => DD x25 x12 | s55 => DD x25 x13 | s56 => DD x25 x14 | s57 => DD x25 x15 | s58 => DD x25 x16 | s59 => DD x25 x17 | s60 => DD x25 x18 | s61 => DD x25 x19 | s62 => DD x25 x20 | s63 => DD x25 x21 | s64 => DD x25 x22 | s65 => DD x25 x23 | s66 => DD x25 x24 | s67 => DD x25 x25 | s68 => DD x25 x26 | s69 => DD x25 x27 | s70 => DD x25 x28 | s71 => DD x25 x29 | s72 => DD x25 x30 | s73 => DD x25 x31 | s74 => DD x25 x32 | s75 => DD x25 x33 | s76 => DD x25 x34 | s77 => DD x25 x35 | s78 => DD x25 x36 | s79 => DD x25 x37 | s80 => DD x25 x38 | s81 => DD x25 x39 | s82 => DD x25 x40 | s83 => DD x25 x41 | s84 => DD x25 x42 | s85 => DD x25 x43 | s86 => DD x25 x44 | s87 => DD x25 x45 | s88 => DD x25 x46 | s89 => DD x25 x47 | s90 => DD x25 x48 | s91 => DD x25 x49 | s92 => DD x25 x50 | s93 => DD x25 x51 | s94 => DD x25 x52 | s95 => DD x25 x53 | s96 => DD x25 x54 | s97 => DD x25 x55 | s98 => DD x25 x56 | s99 => DD x25 x57 | s100 => DD x25 x58 | s101 => DD x25 x59 | s102 => DD x25 x60 | s103 => DD x25 x61 | s104 => DD x25 x62 | s105 => DD x25 x63 | s106 => DD x26 x0 | s107 => DD x26 x1 | s108 => DD x26 x2 | s109 => DD x26 x3 | s110 => DD x26 x4 | s111 => DD x26 x5 | s112 => DD x26 x6 | s113 => DD x26 x7 | s114 => DD x26 x8 | s115 => DD x26 x9 | s116 => DD x26 x10 | s117 => DD x26 x11 | s118 => DD x26 x12 | s119 => DD x26 x13 | s120 => DD x26 x14 | s121 => DD x26 x15 | s122 => DD x26 x16 | s123 => DD x26 x17 | s124 => DD x26 x18 | s125 => DD x26 x19 | s126 => DD x26 x20 end.
Definition m1560 (c : sum2) : dd := match c with s0 => DD x24 x24 | s1 => DD x24 x25 | s2 => DD x24 x26 | s3 => DD x24 x27 | s4 => DD x24 x28 | s5 => DD x24 x29 | s6 => DD x24 x30 | s7 => DD x24 x31 | s8 => DD x24 x32 | s9 => DD x24 x33 | s10 => DD x24 x34 | s11 => DD x24 x35 | s12 => DD x24 x36 | s13 => DD x24 x37 | s14 => DD x24 x38 | s15 => DD x24 x39 | s16 => DD x24 x40 | s17 => DD x24 x41 | s18 => DD x24 x42 | s19 => DD x24 x43 | s20 => DD x24 x44 | s21 => DD x24 x45 | s22 => DD x24 x46 | s23 => DD x24 x47 | s24 => DD x24 x48 | s25 => DD x24 x49 | s26 => DD x24 x50 | s27 => DD x24 x51 | s28 => DD x24 x52 | s29 => DD x24 x53 | s30 => DD x24 x54 | s31 => DD x24 x55 | s32 => DD x24 x56 | s33 => DD x24 x57 | s34 => DD x24 x58 | s35 => DD x24 x59 | s36 => DD x24 x60 | s37 => DD x24 x61 | s38 => DD x24 x62 | s39 => DD x24 x63 | s40 => DD x25 x0 | s41 => DD x25 x1 | s42 => DD x25 x2 | s43 => DD x25 x3 | s44 => DD x25 x4 | s45 => DD x25 x5 | s46 => DD x25 x6 | s47 => DD x25 x7 | s48 => DD x25 x8 | s49 => DD x25 x9 | s50 => DD x25 x10 | s51 => DD x25 x11 | s52 => DD x25 x12 | s53 => DD x25 x13 | s54 => DD x25 x14 | s55 => DD x25 x15 | s56 => DD x25 x16 | s57 => DD x25 x17 | s58 => DD x25 x18 | s59 => DD x25 x19 | s60 => DD x25 x20 | s61 => DD x25 x21 | s62 => DD x25 x22 | s63 => DD x25 x23 | s64 => DD x25 x24 | s65 => DD x25 x25 | s66 => DD x25 x26 | s67 => DD x25 x27 | s68 => DD x25 x28 | s69 => DD x25 x29 | s70 => DD x25 x30 | s71 => DD x25 x31 | s72 => DD x25 x32 | s73 => DD x25 x33 | s74 => DD x25 x34 | s75 => DD x25 x35 | s76 => DD x25 x36 | s77 => DD x25 x37 | s78 => DD x25 x38 | s79 => DD x25 x39 | s80 => DD x25 x40 | s81 => DD x25 x41 | s82 => DD x25 x42 | s83 => DD x25 x43 | s84 => DD x25 x44 | s85 => DD x25 x45 | s86 => DD x25 x46 | s87 => DD x25 x47 | s88 => DD x25 x48 | s89 => DD x25 x49 | s90 => DD x25 x50 | s91 => DD x25 x51 | s92 => DD x25 x52 | s93 => DD x25 x53 | s94 => DD x25 x54 | s95 => DD x25 x55 | s96 => DD x25 x56 | s97 => DD x25 x57 | s98 => DD x25 x58 | s99 => DD x25 x59 | s100 => DD x25 x60 | s101 => DD x25 x61 | s102 => DD x25 x62 | s103 => DD x25 x63 | s104 => DD x26 x0 | s105 => DD x26 x1 | s106 => DD x26 x2 | s107 => DD x26 x3 | s108 => DD x26 x4 | s109 => DD x26 x5 | s110 => DD x26 x6 | s111 => DD x26 x7 | s112 => DD x26 x8 | s113 => DD x26 x9 | s114 => DD x26 x10 | s115 => DD x26 x11 | s116 => DD x26 x12 | s117 => DD x26 x13 | s118 => DD x26 x14 | s119 => DD x26 x15 | s120 => DD x26 x16 | s121 => DD x26 x17 | s122 => DD x26 x18 | s123 => DD x26 x19 | s124 => DD x26 x20 | s125 => DD x26 x21 | s126 => DD x26 x22 end.
Definition m1564 (c : sum2) : dd := match c with s0 => DD x24 x28 | s1 => DD x24 x29 | s2 => DD x24 x30 | s3 => DD x24 x31 | s4 => DD x24 x32 | s5 => DD x24 x33 | s6 => DD x24 x34 | s7 => DD x24 x35 | s8 => DD x24 x36 | s9 => DD x24 x37 | s10 => DD x24 x38 | s11 => DD x24 x39 | s12 => DD x24 x40 | s13 => DD x24 x41 | s14 => DD x24 x42 | s15 => DD x24 x43 | s16 => DD x24 x44 | s17 => DD x24 x45 | s18 => DD x24 x46 | s19 => DD x24 x47 | s20 => DD x24 x48 | s21 => DD x24 x49 | s22 => DD x24 x50 | s23 => DD x24 x51 | s24 => DD x24 x52 | s25 => DD x24 x53 | s26 => DD x24 x54 | s27 => DD x24 x55 | s28 => DD x24 x56 | s29 => DD x24 x57 | s30 => DD x24 x58 | s31 => DD x24 x59 | s32 => DD x24 x60 | s33 => DD x24 x61 | s34 => DD x24 x62 | s35 => DD x24 x63 | s36 => DD x25 x0 | s37 => DD x25 x1 | s38 => DD x25 x2 | s39 => DD x25 x3 | s40 => DD x25 x4 | s41 => DD x25 x5 | s42 => DD x25 x6 | s43 => DD x25 x7 | s44 => DD x25 x8 | s45 => DD x25 x9 | s46 => DD x25 x10 | s47 => DD x25 x11 | s48 => DD x25 x12 | s49 => DD x25 x13 | s50 => DD x25 x14 | s51 => DD x25 x15 | s52 => DD x25 x16 | s53 => DD x25 x17 | s54 => DD x25 x18 | s55 => DD x25 x19 | s56 => DD x25 x20 | s57 => DD x25 x21 | s58 => DD x25 x22 | s59 => DD x25 x23 | s60 => DD x25 x24 | s61 => DD x25 x25 | s62 => DD x25 x26 | s63 => DD x25 x27 | s64 => DD x25 x28 | s65 => DD x25 x29 | s66 => DD x25 x30 | s67 => DD x25 x31 | s68 => DD x25 x32 | s69 => DD x25 x33 | s70 => DD x25 x34 | s71 => DD x25 x35 | s72 => DD x25 x36 | s73 => DD x25 x37 | s74 => DD x25 x38 | s75 => DD x25 x39 | s76 => DD x25 x40 | s77 => DD x25 x41 | s78 => DD x25 x42 | s79 => DD x25 x43 | s80 => DD x25 x44 | s81 => DD x25 x45 | s82 => DD x25 x46 | s83 => DD x25 x47 | s84 => DD x25 x48 | s85 => DD x25 x49 | s86 => DD x25 x50 | s87 => DD x25 x51 | s88 => DD x25 x52 | s89 => DD x25 x53 | s90 => DD x25 x54 | s91 => DD x25 x55 | s92 => DD x25 x56 | s93 => DD x25 x57 | s94 => DD x25 x58 | s95 => DD x25 x59 | s96 => DD x25 x60 | s97 => DD x25 x61 | s98 => DD x25 x62 | s99 => DD x25 x63 | s100 => DD x26 x0 | s101 => DD x26 x1 | s102 => DD x26 x2 | s103 => DD x26 x3 | s104 => DD x26 x4 | s105 => DD x26 x5 | s106 => DD x26 x6 | s107 => DD x26 x7 | s108 => DD x26 x8 | s109 => DD x26 x9 | s110 => DD x26 x10 | s111 => DD x26 x11 | s112 => DD x26 x12 | s113 => DD x26 x13 | s114 => DD x26 x14 | s115 => DD x26 x15 | s116 => DD x26 x16 | s117 => DD x26 x17 | s118 => DD x26 x18 | s119 => DD x26 x19 | s120 => DD x26 x20 | s121 => DD x26 x21 | s122 => DD x26 x22 | s123 => DD x26 x23 | s124 => DD x26 x24 | s125 => DD x26 x25 | s126 => DD x26 x26 end.
Definition m1566 (c : sum2) : dd := match c with s0 => DD x24 x30 | s1 => DD x24 x31 | s2 => DD x24 x32 | s3 => DD x24 x33 | s4 => DD x24 x34 | s5 => DD x24 x35 | s6 => DD x24 x36 | s7 => DD x24 x37 | s8 => DD x24 x38 | s9 => DD x24 x39 | s10 => DD x24 x40 | s11 => DD x24 x41 | s12 => DD x24 x42 | s13 => DD x24 x43 | s14 => DD x24 x44 | s15 => DD x24 x45 | s16 => DD x24 x46 | s17 => DD x24 x47 | s18 => DD x24 x48 | s19 => DD x24 x49 | s20 => DD x24 x50 | s21 => DD x24 x51 | s22 => DD x24 x52 | s23 => DD x24 x53 | s24 => DD x24 x54 | s25 => DD x24 x55 | s26 => DD x24 x56 | s27 => DD x24 x57 | s28 => DD x24 x58 | s29 => DD x24 x59 | s30 => DD x24 x60 | s31 => DD x24 x61 | s32 => DD x24 x62 | s33 => DD x24 x63 | s34 => DD x25 x0 | s35 => DD x25 x1 | s36 => DD x25 x2 | s37 => DD x25 x3 | s38 => DD x25 x4 | s39 => DD x25 x5 | s40 => DD x25 x6 | s41 => DD x25 x7 | s42 => DD x25 x8 | s43 => DD x25 x9 | s44 => DD x25 x10 | s45 => DD x25 x11 | s46 => DD x25 x12 | s47 => DD x25 x13 | s48 => DD x25 x14 | s49 => DD x25 x15 | s50 => DD x25 x16 | s51 => DD x25 x17 | s52 => DD x25 x18 | s53 => DD x25 x19 | s54 => DD x25 x20 | s55 => DD x25 x21 | s56 => DD x25 x22 | s57 => DD x25 x23 | s58 => DD x25 x24 | s59 => DD x25 x25 | s60 => DD x25 x26 | s61 => DD x25 x27 | s62 => DD x25 x28 | s63 => DD x25 x29 | s64 => DD x25 x30 | s65 => DD x25 x31 | s66 => DD x25 x32 | s67 => DD x25 x33 | s68 => DD x25 x34 | s69 => DD x25 x35 | s70 => DD x25 x36 | s71 => DD x25 x37 | s72 => DD x25 x38 | s73 => DD x25 x39 | s74 => DD x25 x40 | s75 => DD x25 x41 | s76 => DD x25 x42 | s77 => DD x25 x43 | s78 => DD x25 x44 | s79 => DD x25 x45 | s80 => DD x25 x46 | s81 => DD x25 x47 | s82 => DD x25 x48 | s83 => DD x25 x49 | s84 => DD x25 x50 | s85 => DD x25 x51 | s86 => DD x25 x52 | s87 => DD x25 x53 | s88 => DD x25 x54 | s89 => DD x25 x55 | s90 => DD x25 x56 | s91 => DD x25 x57 | s92 => DD x25 x58 | s93 => DD x25 x59 | s94 => DD x25 x60 | s95 => DD x25 x61 | s96 => DD x25 x62 | s97 => DD x25 x63 | s98 => DD x26 x0 | s99 => DD x26 x1 | s100 => DD x26 x2 | s101 => DD x26 x3 | s102 => DD x26 x4 | s103 => DD x26 x5 | s104 => DD x26 x6 | s105 => DD x26 x7 | s106 => DD x26 x8 | s107 => DD x26 x9 | s108 => DD x26 x10 | s109 => DD x26 x11 | s110 => DD x26 x12 | s111 => DD x26 x13 | s112 => DD x26 x14 | s113 => DD x26 x15 | s114 => DD x26 x16 | s115 => DD x26 x17 | s116 => DD x26 x18 | s117 => DD x26 x19 | s118 => DD x26 x20 | s119 => DD x26 x21 | s120 => DD x26 x22 | s121 => DD x26 x23 | s122 => DD x26 x24 | s123 => DD x26 x25 | s124 => DD x26 x26 | s125 => DD x26 x27 | s126 => DD x26 x28 end.
Definition m1568 (c : sum2) : dd := match c with s0 => DD x24 x32 | s1 => DD x24 x33 | s2 => DD x24 x34 | s3 => DD x24 x35 | s4 => DD x24 x36 | s5 => DD x24 x37 | s6 => DD x24 x38 | s7 => DD x24 x39 | s8 => DD x24 x40 | s9 => DD x24 x41 | s10 => DD x24 x42 | s11 => DD x24 x43 | s12 => DD x24 x44 | s13 => DD x24 x45 | s14 => DD x24 x46 | s15 => DD x24 x47 | s16 => DD x24 x48 | s17 => DD x24 x49 | s18 => DD x24 x50 | s19 => DD x24 x51 | s20 => DD x24 x52 | s21 => DD x24 x53 | s22 => DD x24 x54 | s23 => DD x24 x55 | s24 => DD x24 x56 | s25 => DD x24 x57 | s26 => DD x24 x58 | s27 => DD x24 x59 | s28 => DD x24 x60 | s29 => DD x24 x61 | s30 => DD x24 x62 | s31 => DD x24 x63 | s32 => DD x25 x0 | s33 => DD x25 x1 | s34 => DD x25 x2 | s35 => DD x25 x3 | s36 => DD x25 x4 | s37 => DD x25 x5 | s38 => DD x25 x6 | s39 => DD x25 x7 | s40 => DD x25 x8 | s41 => DD x25 x9 | s42 => DD x25 x10 | s43 => DD x25 x11 | s44 => DD x25 x12 | s45 => DD x25 x13 | s46 => DD x25 x14 | s47 => DD x25 x15 | s48 => DD x25 x16 | s49 => DD x25 x17 | s50 => DD x25 x18 | s51 => DD x25 x19 | s52 => DD x25 x20 | s53 => DD x25 x21 | s54 => DD x25 x22 | s55 => DD x25 x23 | s56 => DD x25 x24 | s57 => DD x25 x25 | s58 => DD x25 x26 | s59 => DD x25 x27 | s60 => DD x25 x28 | s61 => DD x25 x29 | s62 => DD x25 x30 | s63 => DD x25 x31 | s64 => DD x25 x32 | s65 => DD x25 x33 | s66 => DD x25 x34 | s67 => DD x25 x35 | s68 => DD x25 x36 | s69 => DD x25 x37 | s70 => DD x25 x38 | s71 => DD x25 x39 | s72 => DD x25 x40 | s73 => DD x25 x41 | s74 => DD x25 x42 | s75 => DD x25 x43 | s76 => DD x25 x44 | s77 => DD x25 x45 | s78 => DD x25 x46 | s79 => DD x25 x47 | s80 => DD x25 x48 | s81 => DD x25 x49 | s82 => DD x25 x50 | s83 => DD x25 x51 | s84 => DD x25 x52 | s85 => DD x25 x53 | s86 => DD x25 x54 | s87 => DD x25 x55 | s88 => DD x25 x56 | s89 => DD x25 x57 | s90 => DD x25 x58 | s91 => DD x25 x59 | s92 => DD x25 x60 | s93 => DD x25 x61 | s94 => DD x25 x62 | s95 => DD x25 x63 | s96 => DD x26 x0 | s97 => DD x26 x1 | s98 => DD x26 x2 | s99 => DD x26 x3 | s100 => DD x26 x4 | s101 => DD x26 x5 | s102 => DD x26 x6 | s103 => DD x26 x7 | s104 => DD x26 x8 | s105 => DD x26 x9 | s106 => DD x26 x10 | s107 => DD x26 x11 | s108 => DD x26 x12 | s109 => DD x26 x13 | s110 => DD x26 x14 | s111 => DD x26 x15 | s112 => DD x26 x16 | s113 => DD x26 x17 | s114 => DD x26 x18 | s115 => DD x26 x19 | s116 => DD x26 x20 | s117 => DD x26 x21 | s118 => DD x26 x22 | s119 => DD x26 x23 | s120 => DD x26 x24 | s121 => DD x26 x25 | s122 => DD x26 x26 | s123 => DD x26 x27 | s124 => DD x26 x28 | s125 => DD x26 x29 | s126 => DD x26 x30 end.
Definition m1575 (c : sum2) : dd := match c with s0 => DD x24 x39 | s1 => DD x24 x40 | s2 => DD x24 x41 | s3 => DD x24 x42 | s4 => DD x24 x43 | s5 => DD x24 x44 | s6 => DD x24 x45 | s7 => DD x24 x46 | s8 => DD x24 x47 | s9 => DD x24 x48 | s10 => DD x24 x49 | s11 => DD x24 x50 | s12 => DD x24 x51 | s13 => DD x24 x52 | s14 => DD x24 x53 | s15 => DD x24 x54 | s16 => DD x24 x55 | s17 => DD x24 x56 | s18 => DD x24 x57 | s19 => DD x24 x58 | s20 => DD x24 x59 | s21 => DD x24 x60 | s22 => DD x24 x61 | s23 => DD x24 x62 | s24 => DD x24 x63 | s25 => DD x25 x0 | s26 => DD x25 x1 | s27 => DD x25 x2 | s28 => DD x25 x3 | s29 => DD x25 x4 | s30 => DD x25 x5 | s31 => DD x25 x6 | s32 => DD x25 x7 | s33 => DD x25 x8 | s34 => DD x25 x9 | s35 => DD x25 x10 | s36 => DD x25 x11 | s37 => DD x25 x12 | s38 => DD x25 x13 | s39 => DD x25 x14 | s40 => DD x25 x15 | s41 => DD x25 x16 | s42 => DD x25 x17 | s43 => DD x25 x18 | s44 => DD x25 x19 | s45 => DD x25 x20 | s46 => DD x25 x21 | s47 => DD x25 x22 | s48 => DD x25 x23 | s49 => DD x25 x24 | s50 => DD x25 x25 | s51 => DD x25 x26 | s52 => DD x25 x27 | s53 => DD x25 x28 | s54 => DD x25 x29 | s55 => DD x25 x30 | s56 => DD x25 x31 | s57 => DD x25 x32 | s58 => DD x25 x33 | s59 => DD x25 x34 | s60 => DD x25 x35 | s61 => DD x25 x36 | s62 => DD x25 x37 | s63 => DD x25 x38 | s64 => DD x25 x39 | s65 => DD x25 x40 | s66 => DD x25 x41 | s67 => DD x25 x42 | s68 => DD x25 x43 | s69 => DD x25 x44 | s70 => DD x25 x45 | s71 => DD x25 x46 | s72 => DD x25 x47 | s73 => DD x25 x48 | s74 => DD x25 x49 | s75 => DD x25 x50 | s76 => DD x25 x51 | s77 => DD x25 x52 | s78 => DD x25 x53 | s79 => DD x25 x54 | s80 => DD x25 x55 | s81 => DD x25 x56 | s82 => DD x25 x57 | s83 => DD x25 x58 | s84 => DD x25 x59 | s85 => DD x25 x60 | s86 => DD x25 x61 | s87 => DD x25 x62 | s88 => DD x25 x63 | s89 => DD x26 x0 | s90 => DD x26 x1 | s91 => DD x26 x2 | s92 => DD x26 x3 | s93 => DD x26 x4 | s94 => DD x26 x5 | s95 => DD x26 x6 | s96 => DD x26 x7 | s97 => DD x26 x8 | s98 => DD x26 x9 | s99 => DD x26 x10 | s100 => DD x26 x11 | s101 => DD x26 x12 | s102 => DD x26 x13 | s103 => DD x26 x14 | s104 => DD x26 x15 | s105 => DD x26 x16 | s106 => DD x26 x17 | s107 => DD x26 x18 | s108 => DD x26 x19 | s109 => DD x26 x20 | s110 => DD x26 x21 | s111 => DD x26 x22 | s112 => DD x26 x23 | s113 => DD x26 x24 | s114 => DD x26 x25 | s115 => DD x26 x26 | s116 => DD x26 x27 | s117 => DD x26 x28 | s118 => DD x26 x29 | s119 => DD x26 x30 | s120 => DD x26 x31 | s121 => DD x26 x32 | s122 => DD x26 x33 | s123 => DD x26 x34 | s124 => DD x26 x35 | s125 => DD x26 x36 | s126 => DD x26 x37 end.
Definition m1581 (c : sum2) : dd := match c with s0 => DD x24 x45 | s1 => DD x24 x46 | s2 => DD x24 x47 | s3 => DD x24 x48 | s4 => DD x24 x49 | s5 => DD x24 x50 | s6 => DD x24 x51 | s7 => DD x24 x52 | s8 => DD x24 x53 | s9 => DD x24 x54 | s10 => DD x24 x55 | s11 => DD x24 x56 | s12 => DD x24 x57 | s13 => DD x24 x58 | s14 => DD x24 x59 | s15 => DD x24 x60 | s16 => DD x24 x61 | s17 => DD x24 x62 | s18 => DD x24 x63 | s19 => DD x25 x0 | s20 => DD x25 x1 | s21 => DD x25 x2 | s22 => DD x25 x3 | s23 => DD x25 x4 | s24 => DD x25 x5 | s25 => DD x25 x6 | s26 => DD x25 x7 | s27 => DD x25 x8 | s28 => DD x25 x9 | s29 => DD x25 x10 | s30 => DD x25 x11 | s31 => DD x25 x12 | s32 => DD x25 x13 | s33 => DD x25 x14 | s34 => DD x25 x15 | s35 => DD x25 x16 | s36 => DD x25 x17 | s37 => DD x25 x18 | s38 => DD x25 x19 | s39 => DD x25 x20 | s40 => DD x25 x21 | s41 => DD x25 x22 | s42 => DD x25 x23 | s43 => DD x25 x24 | s44 => DD x25 x25 | s45 => DD x25 x26 | s46 => DD x25 x27 | s47 => DD x25 x28 | s48 => DD x25 x29 | s49 => DD x25 x30 | s50 => DD x25 x31 | s51 => DD x25 x32 | s52 => DD x25 x33 | s53 => DD x25 x34 | s54 => DD x25 x35 | s55 => DD x25 x36 | s56 => DD x25 x37 | s57 => DD x25 x38 | s58 => DD x25 x39 | s59 => DD x25 x40 | s60 => DD x25 x41 | s61 => DD x25 x42 | s62 => DD x25 x43 | s63 => DD x25 x44 | s64 => DD x25 x45 | s65 => DD x25 x46 | s66 => DD x25 x47 | s67 => DD x25 x48 | s68 => DD x25 x49 | s69 => DD x25 x50 | s70 => DD x25 x51 | s71 => DD x25 x52 | s72 => DD x25 x53 | s73 => DD x25 x54 | s74 => DD x25 x55 | s75 => DD x25 x56 | s76 => DD x25 x57 | s77 => DD x25 x58 | s78 => DD x25 x59 | s79 => DD x25 x60 | s80 => DD x25 x61 | s81 => DD x25 x62 | s82 => DD x25 x63 | s83 => DD x26 x0 | s84 => DD x26 x1 | s85 => DD x26 x2 | s86 => DD x26 x3 | s87 => DD x26 x4 | s88 => DD x26 x5 | s89 => DD x26 x6 | s90 => DD x26 x7 | s91 => DD x26 x8 | s92 => DD x26 x9 | s93 => DD x26 x10 | s94 => DD x26 x11 | s95 => DD x26 x12 | s96 => DD x26 x13 | s97 => DD x26 x14 | s98 => DD x26 x15 | s99 => DD x26 x16 | s100 => DD x26 x17 | s101 => DD x26 x18 | s102 => DD x26 x19 | s103 => DD x26 x20 | s104 => DD x26 x21 | s105 => DD x26 x22 | s106 => DD x26 x23 | s107 => DD x26 x24 | s108 => DD x26 x25 | s109 => DD x26 x26 | s110 => DD x26 x27 | s111 => DD x26 x28 | s112 => DD x26 x29 | s113 => DD x26 x30 | s114 => DD x26 x31 | s115 => DD x26 x32 | s116 => DD x26 x33 | s117 => DD x26 x34 | s118 => DD x26 x35 | s119 => DD x26 x36 | s120 => DD x26 x37 | s121 => DD x26 x38 | s122 => DD x26 x39 | s123 => DD x26 x40 | s124 => DD x26 x41 | s125 => DD x26 x42 | s126 => DD x26 x43 end.
Definition m1584 (c : sum2) : dd := match c with s0 => DD x24 x48 | s1 => DD x24 x49 | s2 => DD x24 x50 | s3 => DD x24 x51 | s4 => DD x24 x52 | s5 => DD x24 x53 | s6 => DD x24 x54 | s7 => DD x24 x55 | s8 => DD x24 x56 | s9 => DD x24 x57 | s10 => DD x24 x58 | s11 => DD x24 x59 | s12 => DD x24 x60 | s13 => DD x24 x61 | s14 => DD x24 x62 | s15 => DD x24 x63 | s16 => DD x25 x0 | s17 => DD x25 x1 | s18 => DD x25 x2 | s19 => DD x25 x3 | s20 => DD x25 x4 | s21 => DD x25 x5 | s22 => DD x25 x6 | s23 => DD x25 x7 | s24 => DD x25 x8 | s25 => DD x25 x9 | s26 => DD x25 x10 | s27 => DD x25 x11 | s28 => DD x25 x12 | s29 => DD x25 x13 | s30 => DD x25 x14 | s31 => DD x25 x15 | s32 => DD x25 x16 | s33 => DD x25 x17 | s34 => DD x25 x18 | s35 => DD x25 x19 | s36 => DD x25 x20 | s37 => DD x25 x21 | s38 => DD x25 x22 | s39 => DD x25 x23 | s40 => DD x25 x24 | s41 => DD x25 x25 | s42 => DD x25 x26 | s43 => DD x25 x27 | s44 => DD x25 x28 | s45 => DD x25 x29 | s46 => DD x25 x30 | s47 => DD x25 x31 | s48 => DD x25 x32 | s49 => DD x25 x33 | s50 => DD x25 x34 | s51 => DD x25 x35 | s52 => DD x25 x36 | s53 => DD x25 x37 | s54 => DD x25 x38 | s55 => DD x25 x39 | s56 => DD x25 x40 | s57 => DD x25 x41 | s58 => DD x25 x42 | s59 => DD x25 x43 | s60 => DD x25 x44 | s61 => DD x25 x45 | s62 => DD x25 x46 | s63 => DD x25 x47 | s64 => DD x25 x48 | s65 => DD x25 x49 | s66 => DD x25 x50 | s67 => DD x25 x51 | s68 => DD x25 x52 | s69 => DD x25 x53 | s70 => DD x25 x54 | s71 => DD x25 x55 | s72 => DD x25 x56 | s73 => DD x25 x57 | s74 => DD x25 x58 | s75 => DD x25 x59 | s76 => DD x25 x60 | s77 => DD x25 x61 | s78 => DD x25 x62 | s79 => DD x25 x63 | s80 => DD x26 x0 | s81 => DD x26 x1 | s82 => DD x26 x2 | s83 => DD x26 x3 | s84 => DD x26 x4 | s85 => DD x26 x5 | s86 => DD x26 x6 | s87 => DD x26 x7 | s88 => DD x26 x8 | s89 => DD x26 x9 | s90 => DD x26 x10 | s91 => DD x26 x11 | s92 => DD x26 x12 | s93 => DD x26 x13 | s94 => DD x26 x14 | s95 => DD x26 x15 | s96 => DD x26 x16 | s97 => DD x26 x17 | s98 => DD x26 x18 | s99 => DD x26 x19 | s100 => DD x26 x20 | s101 => DD x26 x21 | s102 => DD x26 x22 | s103 => DD x26 x23 | s104 => DD x26 x24 | s105 => DD x26 x25 | s106 => DD x26 x26 | s107 => DD x26 x27 | s108 => DD x26 x28 | s109 => DD x26 x29 | s110 => DD x26 x30 | s111 => DD x26 x31 | s112 => DD x26 x32 | s113 => DD x26 x33 | s114 => DD x26 x34 | s115 => DD x26 x35 | s116 => DD x26 x36 | s117 => DD x26 x37 | s118 => DD x26 x38 | s119 => DD x26 x39 | s120 => DD x26 x40 | s121 => DD x26 x41 | s122 => DD x26 x42 | s123 => DD x26 x43 | s124 => DD x26 x44 | s125 => DD x26 x45 | s126 => DD x26 x46 end.
Definition m1586 (c : sum2) : dd := match c with s0 => DD x24 x50 | s1 => DD x24 x51 | s2 => DD x24 x52 | s3 => DD x24 x53 | s4 => DD x24 x54 | s5 => DD x24 x55 | s6 => DD x24 x56 | s7 => DD x24 x57 | s8 => DD x24 x58 | s9 => DD x24 x59 | s10 => DD x24 x60 | s11 => DD x24 x61 | s12 => DD x24 x62 | s13 => DD x24 x63 | s14 => DD x25 x0 | s15 => DD x25 x1 | s16 => DD x25 x2 | s17 => DD x25 x3 | s18 => DD x25 x4 | s19 => DD x25 x5 | s20 => DD x25 x6 | s21 => DD x25 x7 | s22 => DD x25 x8 | s23 => DD x25 x9 | s24 => DD x25 x10 | s25 => DD x25 x11 | s26 => DD x25 x12 | s27 => DD x25 x13 | s28 => DD x25 x14 | s29 => DD x25 x15 | s30 => DD x25 x16 | s31 => DD x25 x17 | s32 => DD x25 x18 | s33 => DD x25 x19 | s34 => DD x25 x20 | s35 => DD x25 x21 | s36 => DD x25 x22 | s37 => DD x25 x23 | s38 => DD x25 x24 | s39 => DD x25 x25 | s40 => DD x25 x26 | s41 => DD x25 x27 | s42 => DD x25 x28 | s43 => DD x25 x29 | s44 => DD x25 x30 | s45 => DD x25 x31 | s46 => DD x25 x32 | s47 => DD x25 x33 | s48 => DD x25 x34 | s49 => DD x25 x35 | s50 => DD x25 x36 | s51 => DD x25 x37 | s52 => DD x25 x38 | s53 => DD x25 x39 | s54 => DD x25 x40 | s55 => DD x25 x41 | s56 => DD x25 x42 | s57 => DD x25 x43 | s58 => DD x25 x44 | s59 => DD x25 x45 | s60 => DD x25 x46 | s61 => DD x25 x47 | s62 => DD x25 x48 | s63 => DD x25 x49 | s64 => DD x25 x50 | s65 => DD x25 x51 | s66 => DD x25 x52 | s67 => DD x25 x53 | s68 => DD x25 x54 | s69 => DD x25 x55 | s70 => DD x25 x56 | s71 => DD x25 x57 | s72 => DD x25 x58 | s73 => DD x25 x59 | s74 => DD x25 x60 | s75 => DD x25 x61 | s76 => DD x25 x62 | s77 => DD x25 x63 | s78 => DD x26 x0 | s79 => DD x26 x1 | s80 => DD x26 x2 | s81 => DD x26 x3 | s82 => DD x26 x4 | s83 => DD x26 x5 | s84 => DD x26 x6 | s85 => DD x26 x7 | s86 => DD x26 x8 | s87 => DD x26 x9 | s88 => DD x26 x10 | s89 => DD x26 x11 | s90 => DD x26 x12 | s91 => DD x26 x13 | s92 => DD x26 x14 | s93 => DD x26 x15 | s94 => DD x26 x16 | s95 => DD x26 x17 | s96 => DD x26 x18 | s97 => DD x26 x19 | s98 => DD x26 x20 | s99 => DD x26 x21 | s100 => DD x26 x22 | s101 => DD x26 x23 | s102 => DD x26 x24 | s103 => DD x26 x25 | s104 => DD x26 x26 | s105 => DD x26 x27 | s106 => DD x26 x28 | s107 => DD x26 x29 | s108 => DD x26 x30 | s109 => DD x26 x31 | s110 => DD x26 x32 | s111 => DD x26 x33 | s112 => DD x26 x34 | s113 => DD x26 x35 | s114 => DD x26 x36 | s115 => DD x26 x37 | s116 => DD x26 x38 | s117 => DD x26 x39 | s118 => DD x26 x40 | s119 => DD x26 x41 | s120 => DD x26 x42 | s121 => DD x26 x43 | s122 => DD x26 x44 | s123 => DD x26 x45 | s124 => DD x26 x46 | s125 => DD x26 x47 | s126 => DD x26 x48 end.
Definition m1590 (c : sum2) : dd := match c with s0 => DD x24 x54 | s1 => DD x24 x55 | s2 => DD x24 x56 | s3 => DD x24 x57 | s4 => DD x24 x58 | s5 => DD x24 x59 | s6 => DD x24 x60 | s7 => DD x24 x61 | s8 => DD x24 x62 | s9 => DD x24 x63 | s10 => DD x25 x0 | s11 => DD x25 x1 | s12 => DD x25 x2 | s13 => DD x25 x3 | s14 => DD x25 x4 | s15 => DD x25 x5 | s16 => DD x25 x6 | s17 => DD x25 x7 | s18 => DD x25 x8 | s19 => DD x25 x9 | s20 => DD x25 x10 | s21 => DD x25 x11 | s22 => DD x25 x12 | s23 => DD x25 x13 | s24 => DD x25 x14 | s25 => DD x25 x15 | s26 => DD x25 x16 | s27 => DD x25 x17 | s28 => DD x25 x18 | s29 => DD x25 x19 | s30 => DD x25 x20 | s31 => DD x25 x21 | s32 => DD x25 x22 | s33 => DD x25 x23 | s34 => DD x25 x24 | s35 => DD x25 x25 | s36 => DD x25 x26 | s37 => DD x25 x27 | s38 => DD x25 x28 | s39 => DD x25 x29 | s40 => DD x25 x30 | s41 => DD x25 x31 | s42 => DD x25 x32 | s43 => DD x25 x33 | s44 => DD x25 x34 | s45 => DD x25 x35 | s46 => DD x25 x36 | s47 => DD x25 x37 | s48 => DD x25 x38 | s49 => DD x25 x39 | s50 => DD x25 x40 | s51 => DD x25 x41 | s52 => DD x25 x42 | s53 => DD x25 x43 | s54 => DD x25 x44 | s55 => DD x25 x45 | s56 => DD x25 x46 | s57 => DD x25 x47 | s58 => DD x25 x48 | s59 => DD x25 x49 | s60 => DD x25 x50 | s61 => DD x25 x51 | s62 => DD x25 x52 | s63 => DD x25 x53 | s64 => DD x25 x54 | s65 => DD x25 x55 | s66 => DD x25 x56 | s67 => DD x25 x57 | s68 => DD x25 x58 | s69 => DD x25 x59 | s70 => DD x25 x60 | s71 => DD x25 x61 | s72 => DD x25 x62 | s73 => DD x25 x63 | s74 => DD x26 x0 | s75 => DD x26 x1 | s76 => DD x26 x2 | s77 => DD x26 x3 | s78 => DD x26 x4 | s79 => DD x26 x5 | s80 => DD x26 x6 | s81 => DD x26 x7 | s82 => DD x26 x8 | s83 => DD x26 x9 | s84 => DD x26 x10 | s85 => DD x26 x11 | s86 => DD x26 x12 | s87 => DD x26 x13 | s88 => DD x26 x14 | s89 => DD x26 x15 | s90 => DD x26 x16 | s91 => DD x26 x17 | s92 => DD x26 x18 | s93 => DD x26 x19 | s94 => DD x26 x20 | s95 => DD x26 x21 | s96 => DD x26 x22 | s97 => DD x26 x23 | s98 => DD x26 x24 | s99 => DD x26 x25 | s100 => DD x26 x26 | s101 => DD x26 x27 | s102 => DD x26 x28 | s103 => DD x26 x29 | s104 => DD x26 x30 | s105 => DD x26 x31 | s106 => DD x26 x32 | s107 => DD x26 x33 | s108 => DD x26 x34 | s109 => DD x26 x35 | s110 => DD x26 x36 | s111 => DD x26 x37 | s112 => DD x26 x38 | s113 => DD x26 x39 | s114 => DD x26 x40 | s115 => DD x26 x41 | s116 => DD x26 x42 | s117 => DD x26 x43 | s118 => DD x26 x44 | s119 => DD x26 x45 | s120 => DD x26 x46 | s121 => DD x26 x47 | s122 => DD x26 x48 | s123 => DD x26 x49 | s124 => DD x26 x50 | s125 => DD x26 x51 | s126 => DD x26 x52 end.
Definition m1591 (c : sum2) : dd := match c with s0 => DD x24 x55 | s1 => DD x24 x56 | s2 => DD x24 x57 | s3 => DD x24 x58 | s4 => DD x24 x59 | s5 => DD x24 x60 | s6 => DD x24 x61 | s7 => DD x24 x62 | s8 => DD x24 x63 | s9 => DD x25 x0 | s10 => DD x25 x1 | s11 => DD x25 x2 | s12 => DD x25 x3 | s13 => DD x25 x4 | s14 => DD x25 x5 | s15 => DD x25 x6 | s16 => DD x25 x7 | s17 => DD x25 x8 | s18 => DD x25 x9 | s19 => DD x25 x10 | s20 => DD x25 x11 | s21 => DD x25 x12 | s22 => DD x25 x13 | s23 => DD x25 x14 | s24 => DD x25 x15 | s25 => DD x25 x16 | s26 => DD x25 x17 | s27 => DD x25 x18 | s28 => DD x25 x19 | s29 => DD x25 x20 | s30 => DD x25 x21 | s31 => DD x25 x22 | s32 => DD x25 x23 | s33 => DD x25 x24 | s34 => DD x25 x25 | s35 => DD x25 x26 | s36 => DD x25 x27 | s37 => DD x25 x28 | s38 => DD x25 x29 | s39 => DD x25 x30 | s40 => DD x25 x31 | s41 => DD x25 x32 | s42 => DD x25 x33 | s43 => DD x25 x34 | s44 => DD x25 x35 | s45 => DD x25 x36 | s46 => DD x25 x37 | s47 => DD x25 x38 | s48 => DD x25 x39 | s49 => DD x25 x40 | s50 => DD x25 x41 | s51 => DD x25 x42 | s52 => DD x25 x43 | s53 => DD x25 x44 | s54 => DD x25 x45 | s55 => DD x25 x46 | s56 => DD x25 x47 | s57 => DD x25 x48 | s58 => DD x25 x49 | s59 => DD x25 x50 | s60 => DD x25 x51 | s61 => DD x25 x52 | s62 => DD x25 x53 | s63 => DD x25 x54 | s64 => DD x25 x55 | s65 => DD x25 x56 | s66 => DD x25 x57 | s67 => DD x25 x58 | s68 => DD x25 x59 | s69 => DD x25 x60 | s70 => DD x25 x61 | s71 => DD x25 x62 | s72 => DD x25 x63 | s73 => DD x26 x0 | s74 => DD x26 x1 | s75 => DD x26 x2 | s76 => DD x26 x3 | s77 => DD x26 x4 | s78 => DD x26 x5 | s79 => DD x26 x6 | s80 => DD x26 x7 | s81 => DD x26 x8 | s82 => DD x26 x9 | s83 => DD x26 x10 | s84 => DD x26 x11 | s85 => DD x26 x12 | s86 => DD x26 x13 | s87 => DD x26 x14 | s88 => DD x26 x15 | s89 => DD x26 x16 | s90 => DD x26 x17 | s91 => DD x26 x18 | s92 => DD x26 x19 | s93 => DD x26 x20 | s94 => DD x26 x21 | s95 => DD x26 x22 | s96 => DD x26 x23 | s97 => DD x26 x24 | s98 => DD x26 x25 | s99 => DD x26 x26 | s100 => DD x26 x27 | s101 => DD x26 x28 | s102 => DD x26 x29 | s103 => DD x26 x30 | s104 => DD x26 x31 | s105 => DD x26 x32 | s106 => DD x26 x33 | s107 => DD x26 x34 | s108 => DD x26 x35 | s109 => DD x26 x36 | s110 => DD x26 x37 | s111 => DD x26 x38 | s112 => DD x26 x39 | s113 => DD x26 x40 | s114 => DD x26 x41 | s115 => DD x26 x42 | s116 => DD x26 x43 | s117 => DD x26 x44 | s118 => DD x26 x45 | s119 => DD x26 x46 | s120 => DD x26 x47 | s121 => DD x26 x48 | s122 => DD x26 x49 | s123 => DD x26 x50 | s124 => DD x26 x51 | s125 => DD x26 x52 | s126 => DD x26 x53 end.
Definition m1593 (c : sum2) : dd := match c with s0 => DD x24 x57 | s1 => DD x24 x58 | s2 => DD x24 x59 | s3 => DD x24 x60 | s4 => DD x24 x61 | s5 => DD x24 x62 | s6 => DD x24 x63 | s7 => DD x25 x0 | s8 => DD x25 x1 | s9 => DD x25 x2 | s10 => DD x25 x3 | s11 => DD x25 x4 | s12 => DD x25 x5 | s13 => DD x25 x6 | s14 => DD x25 x7 | s15 => DD x25 x8 | s16 => DD x25 x9 | s17 => DD x25 x10 | s18 => DD x25 x11 | s19 => DD x25 x12 | s20 => DD x25 x13 | s21 => DD x25 x14 | s22 => DD x25 x15 | s23 => DD x25 x16 | s24 => DD x25 x17 | s25 => DD x25 x18 | s26 => DD x25 x19 | s27 => DD x25 x20 | s28 => DD x25 x21 | s29 => DD x25 x22 | s30 => DD x25 x23 | s31 => DD x25 x24 | s32 => DD x25 x25 | s33 => DD x25 x26 | s34 => DD x25 x27 | s35 => DD x25 x28 | s36 => DD x25 x29 | s37 => DD x25 x30 | s38 => DD x25 x31 | s39 => DD x25 x32 | s40 => DD x25 x33 | s41 => DD x25 x34 | s42 => DD x25 x35 | s43 => DD x25 x36 | s44 => DD x25 x37 | s45 => DD x25 x38 | s46 => DD x25 x39 | s47 => DD x25 x40 | s48 => DD x25 x41 | s49 => DD x25 x42 | s50 => DD x25 x43 | s51 => DD x25 x44 | s52 => DD x25 x45 | s53 => DD x25 x46 | s54 => DD x25 x47 | s55 => DD x25 x48 | s56 => DD x25 x49 | s57 => DD x25 x50 | s58 => DD x25 x51 | s59 => DD x25 x52 | s60 => DD x25 x53 | s61 => DD x25 x54 | s62 => DD x25 x55 | s63 => DD x25 x56 | s64 => DD x25 x57 | s65 => DD x25 x58 | s66 => DD x25 x59 | s67 => DD x25 x60 | s68 => DD x25 x61 | s69 => DD x25 x62 | s70 => DD x25 x63 | s71 => DD x26 x0 | s72 => DD x26 x1 | s73 => DD x26 x2 | s74 => DD x26 x3 | s75 => DD x26 x4 | s76 => DD x26 x5 | s77 => DD x26 x6 | s78 => DD x26 x7 | s79 => DD x26 x8 | s80 => DD x26 x9 | s81 => DD x26 x10 | s82 => DD x26 x11 | s83 => DD x26 x12 | s84 => DD x26 x13 | s85 => DD x26 x14 | s86 => DD x26 x15 | s87 => DD x26 x16 | s88 => DD x26 x17 | s89 => DD x26 x18 | s90 => DD x26 x19 | s91 => DD x26 x20 | s92 => DD x26 x21 | s93 => DD x26 x22 | s94 => DD x26 x23 | s95 => DD x26 x24 | s96 => DD x26 x25 | s97 => DD x26 x26 | s98 => DD x26 x27 | s99 => DD x26 x28 | s100 => DD x26 x29 | s101 => DD x26 x30 | s102 => DD x26 x31 | s103 => DD x26 x32 | s104 => DD x26 x33 | s105 => DD x26 x34 | s106 => DD x26 x35 | s107 => DD x26 x36 | s108 => DD x26 x37 | s109 => DD x26 x38 | s110 => DD x26 x39 | s111 => DD x26 x40 | s112 => DD x26 x41 | s113 => DD x26 x42 | s114 => DD x26 x43 | s115 => DD x26 x44 | s116 => DD x26 x45 | s117 => DD x26 x46 | s118 => DD x26 x47 | s119 => DD x26 x48 | s120 => DD x26 x49 | s121 => DD x26 x50 | s122 => DD x26 x51 | s123 => DD x26 x52 | s124 => DD x26 x53 | s125 => DD x26 x54 | s126 => DD x26 x55 end.
Definition m1595 (c : sum2) : dd := match c with s0 => DD x24 x59 | s1 => DD x24 x60 | s2 => DD x24 x61 | s3 => DD x24 x62 | s4 => DD x24 x63 | s5 => DD x25 x0 | s6 => DD x25 x1 | s7 => DD x25 x2 | s8 => DD x25 x3 | s9 => DD x25 x4 | s10 => DD x25 x5 | s11 => DD x25 x6 | s12 => DD x25 x7 | s13 => DD x25 x8 | s14 => DD x25 x9 | s15 => DD x25 x10 | s16 => DD x25 x11 | s17 => DD x25 x12 | s18 => DD x25 x13 | s19 => DD x25 x14 | s20 => DD x25 x15 | s21 => DD x25 x16 | s22 => DD x25 x17 | s23 => DD x25 x18 | s24 => DD x25 x19 | s25 => DD x25 x20 | s26 => DD x25 x21 | s27 => DD x25 x22 | s28 => DD x25 x23 | s29 => DD x25 x24 | s30 => DD x25 x25 | s31 => DD x25 x26 | s32 => DD x25 x27 | s33 => DD x25 x28 | s34 => DD x25 x29 | s35 => DD x25 x30 | s36 => DD x25 x31 | s37 => DD x25 x32 | s38 => DD x25 x33 | s39 => DD x25 x34 | s40 => DD x25 x35 | s41 => DD x25 x36 | s42 => DD x25 x37 | s43 => DD x25 x38 | s44 => DD x25 x39 | s45 => DD x25 x40 | s46 => DD x25 x41 | s47 => DD x25 x42 | s48 => DD x25 x43 | s49 => DD x25 x44 | s50 => DD x25 x45 | s51 => DD x25 x46 | s52 => DD x25 x47 | s53 => DD x25 x48 | s54 => DD x25 x49 | s55 => DD x25 x50 | s56 => DD x25 x51 | s57 => DD x25 x52 | s58 => DD x25 x53 | s59 => DD x25 x54 | s60 => DD x25 x55 | s61 => DD x25 x56 | s62 => DD x25 x57 | s63 => DD x25 x58 | s64 => DD x25 x59 | s65 => DD x25 x60 | s66 => DD x25 x61 | s67 => DD x25 x62 | s68 => DD x25 x63 | s69 => DD x26 x0 | s70 => DD x26 x1 | s71 => DD x26 x2 | s72 => DD x26 x3 | s73 => DD x26 x4 | s74 => DD x26 x5 | s75 => DD x26 x6 | s76 => DD x26 x7 | s77 => DD x26 x8 | s78 => DD x26 x9 | s79 => DD x26 x10 | s80 => DD x26 x11 | s81 => DD x26 x12 | s82 => DD x26 x13 | s83 => DD x26 x14 | s84 => DD x26 x15 | s85 => DD x26 x16 | s86 => DD x26 x17 | s87 => DD x26 x18 | s88 => DD x26 x19 | s89 => DD x26 x20 | s90 => DD x26 x21 | s91 => DD x26 x22 | s92 => DD x26 x23 | s93 => DD x26 x24 | s94 => DD x26 x25 | s95 => DD x26 x26 | s96 => DD x26 x27 | s97 => DD x26 x28 | s98 => DD x26 x29 | s99 => DD x26 x30 | s100 => DD x26 x31 | s101 => DD x26 x32 | s102 => DD x26 x33 | s103 => DD x26 x34 | s104 => DD x26 x35 | s105 => DD x26 x36 | s106 => DD x26 x37 | s107 => DD x26 x38 | s108 => DD x26 x39 | s109 => DD x26 x40 | s110 => DD x26 x41 | s111 => DD x26 x42 | s112 => DD x26 x43 | s113 => DD x26 x44 | s114 => DD x26 x45 | s115 => DD x26 x46 | s116 => DD x26 x47 | s117 => DD x26 x48 | s118 => DD x26 x49 | s119 => DD x26 x50 | s120 => DD x26 x51 | s121 => DD x26 x52 | s122 => DD x26 x53 | s123 => DD x26 x54 | s124 => DD x26 x55 | s125 => DD x26 x56 | s126 => DD x26 x57 end.
Definition m1596 (c : sum2) : dd := match c with s0 => DD x24 x60 | s1 => DD x24 x61 | s2 => DD x24 x62 | s3 => DD x24 x63 | s4 => DD x25 x0 | s5 => DD x25 x1 | s6 => DD x25 x2 | s7 => DD x25 x3 | s8 => DD x25 x4 | s9 => DD x25 x5 | s10 => DD x25 x6 | s11 => DD x25 x7 | s12 => DD x25 x8 | s13 => DD x25 x9 | s14 => DD x25 x10 | s15 => DD x25 x11 | s16 => DD x25 x12 | s17 => DD x25 x13 | s18 => DD x25 x14 | s19 => DD x25 x15 | s20 => DD x25 x16 | s21 => DD x25 x17 | s22 => DD x25 x18 | s23 => DD x25 x19 | s24 => DD x25 x20 | s25 => DD x25 x21 | s26 => DD x25 x22 | s27 => DD x25 x23 | s28 => DD x25 x24 | s29 => DD x25 x25 | s30 => DD x25 x26 | s31 => DD x25 x27 | s32 => DD x25 x28 | s33 => DD x25 x29 | s34 => DD x25 x30 | s35 => DD x25 x31 | s36 => DD x25 x32 | s37 => DD x25 x33 | s38 => DD x25 x34 | s39 => DD x25 x35 | s40 => DD x25 x36 | s41 => DD x25 x37 | s42 => DD x25 x38 | s43 => DD x25 x39 | s44 => DD x25 x40 | s45 => DD x25 x41 | s46 => DD x25 x42 | s47 => DD x25 x43 | s48 => DD x25 x44 | s49 => DD x25 x45 | s50 => DD x25 x46 | s51 => DD x25 x47 | s52 => DD x25 x48 | s53 => DD x25 x49 | s54 => DD x25 x50 | s55 => DD x25 x51 | s56 => DD x25 x52 | s57 => DD x25 x53 | s58 => DD x25 x54 | s59 => DD x25 x55 | s60 => DD x25 x56 | s61 => DD x25 x57 | s62 => DD x25 x58 | s63 => DD x25 x59 | s64 => DD x25 x60 | s65 => DD x25 x61 | s66 => DD x25 x62 | s67 => DD x25 x63 | s68 => DD x26 x0 | s69 => DD x26 x1 | s70 => DD x26 x2 | s71 => DD x26 x3 | s72 => DD x26 x4 | s73 => DD x26 x5 | s74 => DD x26 x6 | s75 => DD x26 x7 | s76 => DD x26 x8 | s77 => DD x26 x9 | s78 => DD x26 x10 | s79 => DD x26 x11 | s80 => DD x26 x12 | s81 => DD x26 x13 | s82 => DD x26 x14 | s83 => DD x26 x15 | s84 => DD x26 x16 | s85 => DD x26 x17 | s86 => DD x26 x18 | s87 => DD x26 x19 | s88 => DD x26 x20 | s89 => DD x26 x21 | s90 => DD x26 x22 | s91 => DD x26 x23 | s92 => DD x26 x24 | s93 => DD x26 x25 | s94 => DD x26 x26 | s95 => DD x26 x27 | s96 => DD x26 x28 | s97 => DD x26 x29 | s98 => DD x26 x30 | s99 => DD x26 x31 | s100 => DD x26 x32 | s101 => DD x26 x33 | s102 => DD x26 x34 | s103 => DD x26 x35 | s104 => DD x26 x36 | s105 => DD x26 x37 | s106 => DD x26 x38 | s107 => DD x26 x39 | s108 => DD x26 x40 | s109 => DD x26 x41 | s110 => DD x26 x42 | s111 => DD x26 x43 | s112 => DD x26 x44 | s113 => DD x26 x45 | s114 => DD x26 x46 | s115 => DD x26 x47 | s116 => DD x26 x48 | s117 => DD x26 x49 | s118 => DD x26 x50 | s119 => DD x26 x51 | s120 => DD x26 x52 | s121 => DD x26 x53 | s122 => DD x26 x54 | s123 => DD x26 x55 | s124 => DD x26 x56 | s125 => DD x26 x57 | s126 => DD x26 x58 end.
Definition m1598 (c : sum2) : dd := match c with s0 => DD x24 x62 | s1 => DD x24 x63 | s2 => DD x25 x0 | s3 => DD x25 x1 | s4 => DD x25 x2 | s5 => DD x25 x3 | s6 => DD x25 x4 | s7 => DD x25 x5 | s8 => DD x25 x6 | s9 => DD x25 x7 | s10 => DD x25 x8 | s11 => DD x25 x9 | s12 => DD x25 x10 | s13 => DD x25 x11 | s14 => DD x25 x12 | s15 => DD x25 x13 | s16 => DD x25 x14 | s17 => DD x25 x15 | s18 => DD x25 x16 | s19 => DD x25 x17 | s20 => DD x25 x18 | s21 => DD x25 x19 | s22 => DD x25 x20 | s23 => DD x25 x21 | s24 => DD x25 x22 | s25 => DD x25 x23 | s26 => DD x25 x24 | s27 => DD x25 x25 | s28 => DD x25 x26 | s29 => DD x25 x27 | s30 => DD x25 x28 | s31 => DD x25 x29 | s32 => DD x25 x30 | s33 => DD x25 x31 | s34 => DD x25 x32 | s35 => DD x25 x33 | s36 => DD x25 x34 | s37 => DD x25 x35 | s38 => DD x25 x36 | s39 => DD x25 x37 | s40 => DD x25 x38 | s41 => DD x25 x39 | s42 => DD x25 x40 | s43 => DD x25 x41 | s44 => DD x25 x42 | s45 => DD x25 x43 | s46 => DD x25 x44 | s47 => DD x25 x45 | s48 => DD x25 x46 | s49 => DD x25 x47 | s50 => DD x25 x48 | s51 => DD x25 x49 | s52 => DD x25 x50 | s53 => DD x25 x51 | s54 => DD x25 x52 | s55 => DD x25 x53 | s56 => DD x25 x54 | s57 => DD x25 x55 | s58 => DD x25 x56 | s59 => DD x25 x57 | s60 => DD x25 x58 | s61 => DD x25 x59 | s62 => DD x25 x60 | s63 => DD x25 x61 | s64 => DD x25 x62 | s65 => DD x25 x63 | s66 => DD x26 x0 | s67 => DD x26 x1 | s68 => DD x26 x2 | s69 => DD x26 x3 | s70 => DD x26 x4 | s71 => DD x26 x5 | s72 => DD x26 x6 | s73 => DD x26 x7 | s74 => DD x26 x8 | s75 => DD x26 x9 | s76 => DD x26 x10 | s77 => DD x26 x11 | s78 => DD x26 x12 | s79 => DD x26 x13 | s80 => DD x26 x14 | s81 => DD x26 x15 | s82 => DD x26 x16 | s83 => DD x26 x17 | s84 => DD x26 x18 | s85 => DD x26 x19 | s86 => DD x26 x20 | s87 => DD x26 x21 | s88 => DD x26 x22 | s89 => DD x26 x23 | s90 => DD x26 x24 | s91 => DD x26 x25 | s92 => DD x26 x26 | s93 => DD x26 x27 | s94 => DD x26 x28 | s95 => DD x26 x29 | s96 => DD x26 x30 | s97 => DD x26 x31 | s98 => DD x26 x32 | s99 => DD x26 x33 | s100 => DD x26 x34 | s101 => DD x26 x35 | s102 => DD x26 x36 | s103 => DD x26 x37 | s104 => DD x26 x38 | s105 => DD x26 x39 | s106 => DD x26 x40 | s107 => DD x26 x41 | s108 => DD x26 x42 | s109 => DD x26 x43 | s110 => DD x26 x44 | s111 => DD x26 x45 | s112 => DD x26 x46 | s113 => DD x26 x47 | s114 => DD x26 x48 | s115 => DD x26 x49 | s116 => DD x26 x50 | s117 => DD x26 x51 | s118 => DD x26 x52 | s119 => DD x26 x53 | s120 => DD x26 x54 | s121 => DD x26 x55 | s122 => DD x26 x56 | s123 => DD x26 x57 | s124 => DD x26 x58 | s125 => DD x26 x59 | s126 => DD x26 x60 end.
Definition m1599 (c : sum2) : dd := match c with s0 => DD x24 x63 | s1 => DD x25 x0 | s2 => DD x25 x1 | s3 => DD x25 x2 | s4 => DD x25 x3 | s5 => DD x25 x4 | s6 => DD x25 x5 | s7 => DD x25 x6 | s8 => DD x25 x7 | s9 => DD x25 x8 | s10 => DD x25 x9 | s11 => DD x25 x10 | s12 => DD x25 x11 | s13 => DD x25 x12 | s14 => DD x25 x13 | s15 => DD x25 x14 | s16 => DD x25 x15 | s17 => DD x25 x16 | s18 => DD x25 x17 | s19 => DD x25 x18 | s20 => DD x25 x19 | s21 => DD x25 x20 | s22 => DD x25 x21 | s23 => DD x25 x22 | s24 => DD x25 x23 | s25 => DD x25 x24 | s26 => DD x25 x25 | s27 => DD x25 x26 | s28 => DD x25 x27 | s29 => DD x25 x28 | s30 => DD x25 x29 | s31 => DD x25 x30 | s32 => DD x25 x31 | s33 => DD x25 x32 | s34 => DD x25 x33 | s35 => DD x25 x34 | s36 => DD x25 x35 | s37 => DD x25 x36 | s38 => DD x25 x37 | s39 => DD x25 x38 | s40 => DD x25 x39 | s41 => DD x25 x40 | s42 => DD x25 x41 | s43 => DD x25 x42 | s44 => DD x25 x43 | s45 => DD x25 x44 | s46 => DD x25 x45 | s47 => DD x25 x46 | s48 => DD x25 x47 | s49 => DD x25 x48 | s50 => DD x25 x49 | s51 => DD x25 x50 | s52 => DD x25 x51 | s53 => DD x25 x52 | s54 => DD x25 x53 | s55 => DD x25 x54 | s56 => DD x25 x55 | s57 => DD x25 x56 | s58 => DD x25 x57 | s59 => DD x25 x58 | s60 => DD x25 x59 | s61 => DD x25 x60 | s62 => DD x25 x61 | s63 => DD x25 x62 | s64 => DD x25 x63 | s65 => DD x26 x0 | s66 => DD x26 x1 | s67 => DD x26 x2 | s68 => DD x26 x3 | s69 => DD x26 x4 | s70 => DD x26 x5 | s71 => DD x26 x6 | s72 => DD x26 x7 | s73 => DD x26 x8 | s74 => DD x26 x9 | s75 => DD x26 x10 | s76 => DD x26 x11 | s77 => DD x26 x12 | s78 => DD x26 x13 | s79 => DD x26 x14 | s80 => DD x26 x15 | s81 => DD x26 x16 | s82 => DD x26 x17 | s83 => DD x26 x18 | s84 => DD x26 x19 | s85 => DD x26 x20 | s86 => DD x26 x21 | s87 => DD x26 x22 | s88 => DD x26 x23 | s89 => DD x26 x24 | s90 => DD x26 x25 | s91 => DD x26 x26 | s92 => DD x26 x27 | s93 => DD x26 x28 | s94 => DD x26 x29 | s95 => DD x26 x30 | s96 => DD x26 x31 | s97 => DD x26 x32 | s98 => DD x26 x33 | s99 => DD x26 x34 | s100 => DD x26 x35 | s101 => DD x26 x36 | s102 => DD x26 x37 | s103 => DD x26 x38 | s104 => DD x26 x39 | s105 => DD x26 x40 | s106 => DD x26 x41 | s107 => DD x26 x42 | s108 => DD x26 x43 | s109 => DD x26 x44 | s110 => DD x26 x45 | s111 => DD x26 x46 | s112 => DD x26 x47 | s113 => DD x26 x48 | s114 => DD x26 x49 | s115 => DD x26 x50 | s116 => DD x26 x51 | s117 => DD x26 x52 | s118 => DD x26 x53 | s119 => DD x26 x54 | s120 => DD x26 x55 | s121 => DD x26 x56 | s122 => DD x26 x57 | s123 => DD x26 x58 | s124 => DD x26 x59 | s125 => DD x26 x60 | s126 => DD x26 x61 end.
Definition m1600 (c : sum2) : dd := match c with s0 => DD x25 x0 | s1 => DD x25 x1 | s2 => DD x25 x2 | s3 => DD x25 x3 | s4 => DD x25 x4 | s5 => DD x25 x5 | s6 => DD x25 x6 | s7 => DD x25 x7 | s8 => DD x25 x8 | s9 => DD x25 x9 | s10 => DD x25 x10 | s11 => DD x25 x11 | s12 => DD x25 x12 | s13 => DD x25 x13 | s14 => DD x25 x14 | s15 => DD x25 x15 | s16 => DD x25 x16 | s17 => DD x25 x17 | s18 => DD x25 x18 | s19 => DD x25 x19 | s20 => DD x25 x20 | s21 => DD x25 x21 | s22 => DD x25 x22 | s23 => DD x25 x23 | s24 => DD x25 x24 | s25 => DD x25 x25 | s26 => DD x25 x26 | s27 => DD x25 x27 | s28 => DD x25 x28 | s29 => DD x25 x29 | s30 => DD x25 x30 | s31 => DD x25 x31 | s32 => DD x25 x32 | s33 => DD x25 x33 | s34 => DD x25 x34 | s35 => DD x25 x35 | s36 => DD x25 x36 | s37 => DD x25 x37 | s38 => DD x25 x38 | s39 => DD x25 x39 | s40 => DD x25 x40 | s41 => DD x25 x41 | s42 => DD x25 x42 | s43 => DD x25 x43 | s44 => DD x25 x44 | s45 => DD x25 x45 | s46 => DD x25 x46 | s47 => DD x25 x47 | s48 => DD x25 x48 | s49 => DD x25 x49 | s50 => DD x25 x50 | s51 => DD x25 x51 | s52 => DD x25 x52 | s53 => DD x25 x53 | s54 => DD x25 x54 | s55 => DD x25 x55 | s56 => DD x25 x56 | s57 => DD x25 x57 | s58 => DD x25 x58 | s59 => DD x25 x59 | s60 => DD x25 x60 | s61 => DD x25 x61 | s62 => DD x25 x62 | s63 => DD x25 x63 | s64 => DD x26 x0 | s65 => DD x26 x1 | s66 => DD x26 x2 | s67 => DD x26 x3 | s68 => DD x26 x4 | s69 => DD x26 x5 | s70 => DD x26 x6 | s71 => DD x26 x7 | s72 => DD x26 x8 | s73 => DD x26 x9 | s74 => DD x26 x10 | s75 => DD x26 x11 | s76 => DD x26 x12 | s77 => DD x26 x13 | s78 => DD x26 x14 | s79 => DD x26 x15 | s80 => DD x26 x16 | s81 => DD x26 x17 | s82 => DD x26 x18 | s83 => DD x26 x19 | s84 => DD x26 x20 | s85 => DD x26 x21 | s86 => DD x26 x22 | s87 => DD x26 x23 | s88 => DD x26 x24 | s89 => DD x26 x25 | s90 => DD x26 x26 | s91 => DD x26 x27 | s92 => DD x26 x28 | s93 => DD x26 x29 | s94 => DD x26 x30 | s95 => DD x26 x31 | s96 => DD x26 x32 | s97 => DD x26 x33 | s98 => DD x26 x34 | s99 => DD x26 x35 | s100 => DD x26 x36 | s101 => DD x26 x37 | s102 => DD x26 x38 | s103 => DD x26 x39 | s104 => DD x26 x40 | s105 => DD x26 x41 | s106 => DD x26 x42 | s107 => DD x26 x43 | s108 => DD x26 x44 | s109 => DD x26 x45 | s110 => DD x26 x46 | s111 => DD x26 x47 | s112 => DD x26 x48 | s113 => DD x26 x49 | s114 => DD x26 x50 | s115 => DD x26 x51 | s116 => DD x26 x52 | s117 => DD x26 x53 | s118 => DD x26 x54 | s119 => DD x26 x55 | s120 => DD x26 x56 | s121 => DD x26 x57 | s122 => DD x26 x58 | s123 => DD x26 x59 | s124 => DD x26 x60 | s125 => DD x26 x61 | s126 => DD x26 x62 end.
Definition m1610 (c : sum2) : dd := match c with s0 => DD x25 x10 | s1 => DD x25 x11 | s2 => DD x25 x12 | s3 => DD x25 x13 | s4 => DD x25 x14 | s5 => DD x25 x15 | s6 => DD x25 x16 | s7 => DD x25 x17 | s8 => DD x25 x18 | s9 => DD x25 x19 | s10 => DD x25 x20 | s11 => DD x25 x21 | s12 => DD x25 x22 | s13 => DD x25 x23 | s14 => DD x25 x24 | s15 => DD x25 x25 | s16 => DD x25 x26 | s17 => DD x25 x27 | s18 => DD x25 x28 | s19 => DD x25 x29 | s20 => DD x25 x30 | s21 => DD x25 x31 | s22 => DD x25 x32 | s23 => DD x25 x33 | s24 => DD x25 x34 | s25 => DD x25 x35 | s26 => DD x25 x36 | s27 => DD x25 x37 | s28 => DD x25 x38 | s29 => DD x25 x39 | s30 => DD x25 x40 | s31 => DD x25 x41 | s32 => DD x25 x42 | s33 => DD x25 x43 | s34 => DD x25 x44 | s35 => DD x25 x45 | s36 => DD x25 x46 | s37 => DD x25 x47 | s38 => DD x25 x48 | s39 => DD x25 x49 | s40 => DD x25 x50 | s41 => DD x25 x51 | s42 => DD x25 x52 | s43 => DD x25 x53 | s44 => DD x25 x54 | s45 => DD x25 x55 | s46 => DD x25 x56 | s47 => DD x25 x57 | s48 => DD x25 x58 | s49 => DD x25 x59 | s50 => DD x25 x60 | s51 => DD x25 x61 | s52 => DD x25 x62 | s53 => DD x25 x63 | s54 => DD x26 x0 | s55 => DD x26 x1 | s56 => DD x26 x2 | s57 => DD x26 x3 | s58 => DD x26 x4 | s59 => DD x26 x5 | s60 => DD x26 x6 | s61 => DD x26 x7 | s62 => DD x26 x8 | s63 => DD x26 x9 | s64 => DD x26 x10 | s65 => DD x26 x11 | s66 => DD x26 x12 | s67 => DD x26 x13 | s68 => DD x26 x14 | s69 => DD x26 x15 | s70 => DD x26 x16 | s71 => DD x26 x17 | s72 => DD x26 x18 | s73 => DD x26 x19 | s74 => DD x26 x20 | s75 => DD x26 x21 | s76 => DD x26 x22 | s77 => DD x26 x23 | s78 => DD x26 x24 | s79 => DD x26 x25 | s80 => DD x26 x26 | s81 => DD x26 x27 | s82 => DD x26 x28 | s83 => DD x26 x29 | s84 => DD x26 x30 | s85 => DD x26 x31 | s86 => DD x26 x32 | s87 => DD x26 x33 | s88 => DD x26 x34 | s89 => DD x26 x35 | s90 => DD x26 x36 | s91 => DD x26 x37 | s92 => DD x26 x38 | s93 => DD x26 x39 | s94 => DD x26 x40 | s95 => DD x26 x41 | s96 => DD x26 x42 | s97 => DD x26 x43 | s98 => DD x26 x44 | s99 => DD x26 x45 | s100 => DD x26 x46 | s101 => DD x26 x47 | s102 => DD x26 x48 | s103 => DD x26 x49 | s104 => DD x26 x50 | s105 => DD x26 x51 | s106 => DD x26 x52 | s107 => DD x26 x53 | s108 => DD x26 x54 | s109 => DD x26 x55 | s110 => DD x26 x56 | s111 => DD x26 x57 | s112 => DD x26 x58 | s113 => DD x26 x59 | s114 => DD x26 x60 | s115 => DD x26 x61 | s116 => DD x26 x62 | s117 => DD x26 x63 | s118 => DD x27 x0 | s119 => DD x27 x1 | s120 => DD x27 x2 | s121 => DD x27 x3 | s122 => DD x27 x4 | s123 => DD x27 x5 | s124 => DD x27 x6 | s125 => DD x27 x7 | s126 => DD x27 x8 end.
Definition m1612 (c : sum2) : dd := match c with s0 => DD x25 x12 | s1 => DD x25 x13 | s2 => DD x25 x14 | s3 => DD x25 x15 | s4 => DD x25 x16 | s5 => DD x25 x17 | s6 => DD x25 x18 | s7 => DD x25 x19 | s8 => DD x25 x20 | s9 => DD x25 x21 | s10 => DD x25 x22 | s11 => DD x25 x23 | s12 => DD x25 x24 | s13 => DD x25 x25 | s14 => DD x25 x26 | s15 => DD x25 x27 | s16 => DD x25 x28 | s17 => DD x25 x29 | s18 => DD x25 x30 | s19 => DD x25 x31 | s20 => DD x25 x32 | s21 => DD x25 x33 | s22 => DD x25 x34 | s23 => DD x25 x35 | s24 => DD x25 x36 | s25 => DD x25 x37 | s26 => DD x25 x38 | s27 => DD x25 x39 | s28 => DD x25 x40 | s29 => DD x25 x41 | s30 => DD x25 x42 | s31 => DD x25 x43 | s32 => DD x25 x44 | s33 => DD x25 x45 | s34 => DD x25 x46 | s35 => DD x25 x47 | s36 => DD x25 x48 | s37 => DD x25 x49 | s38 => DD x25 x50 | s39 => DD x25 x51 | s40 => DD x25 x52 | s41 => DD x25 x53 | s42 => DD x25 x54 | s43 => DD x25 x55 | s44 => DD x25 x56 | s45 => DD x25 x57 | s46 => DD x25 x58 | s47 => DD x25 x59 | s48 => DD x25 x60 | s49 => DD x25 x61 | s50 => DD x25 x62 | s51 => DD x25 x63 | s52 => DD x26 x0 | s53 => DD x26 x1 | s54 => DD x26 x2 | s55 => DD x26 x3 | s56 => DD x26 x4 | s57 => DD x26 x5 | s58 => DD x26 x6 | s59 => DD x26 x7 | s60 => DD x26 x8 | s61 => DD x26 x9 | s62 => DD x26 x10 | s63 => DD x26 x11 | s64 => DD x26 x12 | s65 => DD x26 x13 | s66 => DD x26 x14 | s67 => DD x26 x15 | s68 => DD x26 x16 | s69 => DD x26 x17 | s70 => DD x26 x18 | s71 => DD x26 x19 | s72 => DD x26 x20 | s73 => DD x26 x21 | s74 => DD x26 x22 | s75 => DD x26 x23 | s76 => DD x26 x24 | s77 => DD x26 x25 | s78 => DD x26 x26 | s79 => DD x26 x27 | s80 => DD x26 x28 | s81 => DD x26 x29 | s82 => DD x26 x30 | s83 => DD x26 x31 | s84 => DD x26 x32 | s85 => DD x26 x33 | s86 => DD x26 x34 | s87 => DD x26 x35 | s88 => DD x26 x36 | s89 => DD x26 x37 | s90 => DD x26 x38 | s91 => DD x26 x39 | s92 => DD x26 x40 | s93 => DD x26 x41 | s94 => DD x26 x42 | s95 => DD x26 x43 | s96 => DD x26 x44 | s97 => DD x26 x45 | s98 => DD x26 x46 | s99 => DD x26 x47 | s100 => DD x26 x48 | s101 => DD x26 x49 | s102 => DD x26 x50 | s103 => DD x26 x51 | s104 => DD x26 x52 | s105 => DD x26 x53 | s106 => DD x26 x54 | s107 => DD x26 x55 | s108 => DD x26 x56 | s109 => DD x26 x57 | s110 => DD x26 x58 | s111 => DD x26 x59 | s112 => DD x26 x60 | s113 => DD x26 x61 | s114 => DD x26 x62 | s115 => DD x26 x63 | s116 => DD x27 x0 | s117 => DD x27 x1 | s118 => DD x27 x2 | s119 => DD x27 x3 | s120 => DD x27 x4 | s121 => DD x27 x5 | s122 => DD x27 x6 | s123 => DD x27 x7 | s124 => DD x27 x8 | s125 => DD x27 x9 | s126 => DD x27 x10 end.
Definition m1617 (c : sum2) : dd := match c with s0 => DD x25 x17 | s1 => DD x25 x18 | s2 => DD x25 x19 | s3 => DD x25 x20 | s4 => DD x25 x21 | s5 => DD x25 x22 | s6 => DD x25 x23 | s7 => DD x25 x24 | s8 => DD x25 x25 | s9 => DD x25 x26 | s10 => DD x25 x27 | s11 => DD x25 x28 | s12 => DD x25 x29 | s13 => DD x25 x30 | s14 => DD x25 x31 | s15 => DD x25 x32 | s16 => DD x25 x33 | s17 => DD x25 x34 | s18 => DD x25 x35 | s19 => DD x25 x36 | s20 => DD x25 x37 | s21 => DD x25 x38 | s22 => DD x25 x39 | s23 => DD x25 x40 | s24 => DD x25 x41 | s25 => DD x25 x42 | s26 => DD x25 x43 | s27 => DD x25 x44 | s28 => DD x25 x45 | s29 => DD x25 x46 | s30 => DD x25 x47 | s31 => DD x25 x48 | s32 => DD x25 x49 | s33 => DD x25 x50 | s34 => DD x25 x51 | s35 => DD x25 x52 | s36 => DD x25 x53 | s37 => DD x25 x54 | s38 => DD x25 x55 | s39 => DD x25 x56 | s40 => DD x25 x57 | s41 => DD x25 x58 | s42 => DD x25 x59 | s43 => DD x25 x60 | s44 => DD x25 x61 | s45 => DD x25 x62 | s46 => DD x25 x63 | s47 => DD x26 x0 | s48 => DD x26 x1 | s49 => DD x26 x2 | s50 => DD x26 x3 | s51 => DD x26 x4 | s52 => DD x26 x5 | s53 => DD x26 x6 | s54 => DD x26 x7 | s55 => DD x26 x8 | s56 => DD x26 x9 | s57 => DD x26 x10 | s58 => DD x26 x11 | s59 => DD x26 x12 | s60 => DD x26 x13 | s61 => DD x26 x14 | s62 => DD x26 x15 | s63 => DD x26 x16 | s64 => DD x26 x17 | s65 => DD x26 x18 | s66 => DD x26 x19 | s67 => DD x26 x20 | s68 => DD x26 x21 | s69 => DD x26 x22 | s70 => DD x26 x23 | s71 => DD x26 x24 | s72 => DD x26 x25 | s73 => DD x26 x26 | s74 => DD x26 x27 | s75 => DD x26 x28 | s76 => DD x26 x29 | s77 => DD x26 x30 | s78 => DD x26 x31 | s79 => DD x26 x32 | s80 => DD x26 x33 | s81 => DD x26 x34 | s82 => DD x26 x35 | s83 => DD x26 x36 | s84 => DD x26 x37 | s85 => DD x26 x38 | s86 => DD x26 x39 | s87 => DD x26 x40 | s88 => DD x26 x41 | s89 => DD x26 x42 | s90 => DD x26 x43 | s91 => DD x26 x44 | s92 => DD x26 x45 | s93 => DD x26 x46 | s94 => DD x26 x47 | s95 => DD x26 x48 | s96 => DD x26 x49 | s97 => DD x26 x50 | s98 => DD x26 x51 | s99 => DD x26 x52 | s100 => DD x26 x53 | s101 => DD x26 x54 | s102 => DD x26 x55 | s103 => DD x26 x56 | s104 => DD x26 x57 | s105 => DD x26 x58 | s106 => DD x26 x59 | s107 => DD x26 x60 | s108 => DD x26 x61 | s109 => DD x26 x62 | s110 => DD x26 x63 | s111 => DD x27 x0 | s112 => DD x27 x1 | s113 => DD x27 x2 | s114 => DD x27 x3 | s115 => DD x27 x4 | s116 => DD x27 x5 | s117 => DD x27 x6 | s118 => DD x27 x7 | s119 => DD x27 x8 | s120 => DD x27 x9 | s121 => DD x27 x10 | s122 => DD x27 x11 | s123 => DD x27 x12 | s124 => DD x27 x13 | s125 => DD x27 x14 | s126 => DD x27 x15 end.
Definition m1620 (c : sum2) : dd := match c with s0 => DD x25 x20 | s1 => DD x25 x21 | s2 => DD x25 x22 | s3 => DD x25 x23 | s4 => DD x25 x24 | s5 => DD x25 x25 | s6 => DD x25 x26 | s7 => DD x25 x27 | s8 => DD x25 x28 | s9 => DD x25 x29 | s10 => DD x25 x30 | s11 => DD x25 x31 | s12 => DD x25 x32 | s13 => DD x25 x33 | s14 => DD x25 x34 | s15 => DD x25 x35 | s16 => DD x25 x36 | s17 => DD x25 x37 | s18 => DD x25 x38 | s19 => DD x25 x39 | s20 => DD x25 x40 | s21 => DD x25 x41 | s22 => DD x25 x42 | s23 => DD x25 x43 | s24 => DD x25 x44 | s25 => DD x25 x45 | s26 => DD x25 x46 | s27 => DD x25 x47 | s28 => DD x25 x48 | s29 => DD x25 x49 | s30 => DD x25 x50 | s31 => DD x25 x51 | s32 => DD x25 x52 | s33 => DD x25 x53 | s34 => DD x25 x54 | s35 => DD x25 x55 | s36 => DD x25 x56 | s37 => DD x25 x57 | s38 => DD x25 x58 | s39 => DD x25 x59 | s40 => DD x25 x60 | s41 => DD x25 x61 | s42 => DD x25 x62 | s43 => DD x25 x63 | s44 => DD x26 x0 | s45 => DD x26 x1 | s46 => DD x26 x2 | s47 => DD x26 x3 | s48 => DD x26 x4 | s49 => DD x26 x5 | s50 => DD x26 x6 | s51 => DD x26 x7 | s52 => DD x26 x8 | s53 => DD x26 x9 | s54 => DD x26 x10 | s55 => DD x26 x11 | s56 => DD x26 x12 | s57 => DD x26 x13 | s58 => DD x26 x14 | s59 => DD x26 x15 | s60 => DD x26 x16 | s61 => DD x26 x17 | s62 => DD x26 x18 | s63 => DD x26 x19 | s64 => DD x26 x20 | s65 => DD x26 x21 | s66 => DD x26 x22 | s67 => DD x26 x23 | s68 => DD x26 x24 | s69 => DD x26 x25 | s70 => DD x26 x26 | s71 => DD x26 x27 | s72 => DD x26 x28 | s73 => DD x26 x29 | s74 => DD x26 x30 | s75 => DD x26 x31 | s76 => DD x26 x32 | s77 => DD x26 x33 | s78 => DD x26 x34 | s79 => DD x26 x35 | s80 => DD x26 x36 | s81 => DD x26 x37 | s82 => DD x26 x38 | s83 => DD x26 x39 | s84 => DD x26 x40 | s85 => DD x26 x41 | s86 => DD x26 x42 | s87 => DD x26 x43 | s88 => DD x26 x44 | s89 => DD x26 x45 | s90 => DD x26 x46 | s91 => DD x26 x47 | s92 => DD x26 x48 | s93 => DD x26 x49 | s94 => DD x26 x50 | s95 => DD x26 x51 | s96 => DD x26 x52 | s97 => DD x26 x53 | s98 => DD x26 x54 | s99 => DD x26 x55 | s100 => DD x26 x56 | s101 => DD x26 x57 | s102 => DD x26 x58 | s103 => DD x26 x59 | s104 => DD x26 x60 | s105 => DD x26 x61 | s106 => DD x26 x62 | s107 => DD x26 x63 | s108 => DD x27 x0 | s109 => DD x27 x1 | s110 => DD x27 x2 | s111 => DD x27 x3 | s112 => DD x27 x4 | s113 => DD x27 x5 | s114 => DD x27 x6 | s115 => DD x27 x7 | s116 => DD x27 x8 | s117 => DD x27 x9 | s118 => DD x27 x10 | s119 => DD x27 x11 | s120 => DD x27 x12 | s121 => DD x27 x13 | s122 => DD x27 x14 | s123 => DD x27 x15 | s124 => DD x27 x16 | s125 => DD x27 x17 | s126 => DD x27 x18 end.
Definition m1624 (c : sum2) : dd := match c with s0 => DD x25 x24 | s1 => DD x25 x25 | s2 => DD x25 x26 | s3 => DD x25 x27 | s4 => DD x25 x28 | s5 => DD x25 x29 | s6 => DD x25 x30 | s7 => DD x25 x31 | s8 => DD x25 x32 | s9 => DD x25 x33 | s10 => DD x25 x34 | s11 => DD x25 x35 | s12 => DD x25 x36 | s13 => DD x25 x37 | s14 => DD x25 x38 | s15 => DD x25 x39 | s16 => DD x25 x40 | s17 => DD x25 x41 | s18 => DD x25 x42 | s19 => DD x25 x43 | s20 => DD x25 x44 | s21 => DD x25 x45 | s22 => DD x25 x46 | s23 => DD x25 x47 | s24 => DD x25 x48 | s25 => DD x25 x49 | s26 => DD x25 x50 | s27 => DD x25 x51 | s28 => DD x25 x52 | s29 => DD x25 x53 | s30 => DD x25 x54 | s31 => DD x25 x55 | s32 => DD x25 x56 | s33 => DD x25 x57 | s34 => DD x25 x58 | s35 => DD x25 x59 | s36 => DD x25 x60 | s37 => DD x25 x61 | s38 => DD x25 x62 | s39 => DD x25 x63 | s40 => DD x26 x0 | s41 => DD x26 x1 | s42 => DD x26 x2 | s43 => DD x26 x3 | s44 => DD x26 x4 | s45 => DD x26 x5 | s46 => DD x26 x6 | s47 => DD x26 x7 | s48 => DD x26 x8 | s49 => DD x26 x9 | s50 => DD x26 x10 | s51 => DD x26 x11 | s52 => DD x26 x12 | s53 => DD x26 x13 | s54 => DD x26 x14 | s55 => DD x26 x15 | s56 => DD x26 x16 | s57 => DD x26 x17 | s58 => DD x26 x18 | s59 => DD x26 x19 | s60 => DD x26 x20 | s61 => DD x26 x21 | s62 => DD x26 x22 | s63 => DD x26 x23 | s64 => DD x26 x24 | s65 => DD x26 x25 | s66 => DD x26 x26 | s67 => DD x26 x27 | s68 => DD x26 x28 | s69 => DD x26 x29 | s70 => DD x26 x30 | s71 => DD x26 x31 | s72 => DD x26 x32 | s73 => DD x26 x33 | s74 => DD x26 x34 | s75 => DD x26 x35 | s76 => DD x26 x36 | s77 => DD x26 x37 | s78 => DD x26 x38 | s79 => DD x26 x39 | s80 => DD x26 x40 | s81 => DD x26 x41 | s82 => DD x26 x42 | s83 => DD x26 x43 | s84 => DD x26 x44 | s85 => DD x26 x45 | s86 => DD x26 x46 | s87 => DD x26 x47 | s88 => DD x26 x48 | s89 => DD x26 x49 | s90 => DD x26 x50 | s91 => DD x26 x51 | s92 => DD x26 x52 | s93 => DD x26 x53 | s94 => DD x26 x54 | s95 => DD x26 x55 | s96 => DD x26 x56 | s97 => DD x26 x57 | s98 => DD x26 x58 | s99 => DD x26 x59 | s100 => DD x26 x60 | s101 => DD x26 x61 | s102 => DD x26 x62 | s103 => DD x26 x63 | s104 => DD x27 x0 | s105 => DD x27 x1 | s106 => DD x27 x2 | s107 => DD x27 x3 | s108 => DD x27 x4 | s109 => DD x27 x5 | s110 => DD x27 x6 | s111 => DD x27 x7 | s112 => DD x27 x8 | s113 => DD x27 x9 | s114 => DD x27 x10 | s115 => DD x27 x11 | s116 => DD x27 x12 | s117 => DD x27 x13 | s118 => DD x27 x14 | s119 => DD x27 x15 | s120 => DD x27 x16 | s121 => DD x27 x17 | s122 => DD x27 x18 | s123 => DD x27 x19 | s124 => DD x27 x20 | s125 => DD x27 x21 | s126 => DD x27 x22 end.
Definition m1628 (c : sum2) : dd := match c with s0 => DD x25 x28 | s1 => DD x25 x29 | s2 => DD x25 x30 | s3 => DD x25 x31 | s4 => DD x25 x32 | s5 => DD x25 x33 | s6 => DD x25 x34 | s7 => DD x25 x35 | s8 => DD x25 x36 | s9 => DD x25 x37 | s10 => DD x25 x38 | s11 => DD x25 x39 | s12 => DD x25 x40 | s13 => DD x25 x41 | s14 => DD x25 x42 | s15 => DD x25 x43 | s16 => DD x25 x44 | s17 => DD x25 x45 | s18 => DD x25 x46 | s19 => DD x25 x47 | s20 => DD x25 x48 | s21 => DD x25 x49 | s22 => DD x25 x50 | s23 => DD x25 x51 | s24 => DD x25 x52 | s25 => DD x25 x53 | s26 => DD x25 x54 | s27 => DD x25 x55 | s28 => DD x25 x56 | s29 => DD x25 x57 | s30 => DD x25 x58 | s31 => DD x25 x59 | s32 => DD x25 x60 | s33 => DD x25 x61 | s34 => DD x25 x62 | s35 => DD x25 x63 | s36 => DD x26 x0 | s37 => DD x26 x1 | s38 => DD x26 x2 | s39 => DD x26 x3 | s40 => DD x26 x4 | s41 => DD x26 x5 | s42 => DD x26 x6 | s43 => DD x26 x7 | s44 => DD x26 x8 | s45 => DD x26 x9 | s46 => DD x26 x10 | s47 => DD x26 x11 | s48 => DD x26 x12 | s49 => DD x26 x13 | s50 => DD x26 x14 | s51 => DD x26 x15 | s52 => DD x26 x16 | s53 => DD x26 x17 | s54 => DD x26 x18 | s55 => DD x26 x19 | s56 => DD x26 x20 | s57 => DD x26 x21 | s58 => DD x26 x22 | s59 => DD x26 x23 | s60 => DD x26 x24 | s61 => DD x26 x25 | s62 => DD x26 x26 | s63 => DD x26 x27 | s64 => DD x26 x28 | s65 => DD x26 x29 | s66 => DD x26 x30 | s67 => DD x26 x31 | s68 => DD x26 x32 | s69 => DD x26 x33 | s70 => DD x26 x34 | s71 => DD x26 x35 | s72 => DD x26 x36 | s73 => DD x26 x37 | s74 => DD x26 x38 | s75 => DD x26 x39 | s76 => DD x26 x40 | s77 => DD x26 x41 | s78 => DD x26 x42 | s79 => DD x26 x43 | s80 => DD x26 x44 | s81 => DD x26 x45 | s82 => DD x26 x46 | s83 => DD x26 x47 | s84 => DD x26 x48 | s85 => DD x26 x49 | s86 => DD x26 x50 | s87 => DD x26 x51 | s88 => DD x26 x52 | s89 => DD x26 x53 | s90 => DD x26 x54 | s91 => DD x26 x55 | s92 => DD x26 x56 | s93 => DD x26 x57 | s94 => DD x26 x58 | s95 => DD x26 x59 | s96 => DD x26 x60 | s97 => DD x26 x61 | s98 => DD x26 x62 | s99 => DD x26 x63 | s100 => DD x27 x0 | s101 => DD x27 x1 | s102 => DD x27 x2 | s103 => DD x27 x3 | s104 => DD x27 x4 | s105 => DD x27 x5 | s106 => DD x27 x6 | s107 => DD x27 x7 | s108 => DD x27 x8 | s109 => DD x27 x9 | s110 => DD x27 x10 | s111 => DD x27 x11 | s112 => DD x27 x12 | s113 => DD x27 x13 | s114 => DD x27 x14 | s115 => DD x27 x15 | s116 => DD x27 x16 | s117 => DD x27 x17 | s118 => DD x27 x18 | s119 => DD x27 x19 | s120 => DD x27 x20 | s121 => DD x27 x21 | s122 => DD x27 x22 | s123 => DD x27 x23 | s124 => DD x27 x24 | s125 => DD x27 x25 | s126 => DD x27 x26 end.
Definition m1632 (c : sum2) : dd := match c with s0 => DD x25 x32 | s1 => DD x25 x33 | s2 => DD x25 x34 | s3 => DD x25 x35 | s4 => DD x25 x36 | s5 => DD x25 x37 | s6 => DD x25 x38 | s7 => DD x25 x39 | s8 => DD x25 x40 | s9 => DD x25 x41 | s10 => DD x25 x42 | s11 => DD x25 x43 | s12 => DD x25 x44 | s13 => DD x25 x45 | s14 => DD x25 x46 | s15 => DD x25 x47 | s16 => DD x25 x48 | s17 => DD x25 x49 | s18 => DD x25 x50 | s19 => DD x25 x51 | s20 => DD x25 x52 | s21 => DD x25 x53 | s22 => DD x25 x54 | s23 => DD x25 x55 | s24 => DD x25 x56 | s25 => DD x25 x57 | s26 => DD x25 x58 | s27 => DD x25 x59 | s28 => DD x25 x60 | s29 => DD x25 x61 | s30 => DD x25 x62 | s31 => DD x25 x63 | s32 => DD x26 x0 | s33 => DD x26 x1 | s34 => DD x26 x2 | s35 => DD x26 x3 | s36 => DD x26 x4 | s37 => DD x26 x5 | s38 => DD x26 x6 | s39 => DD x26 x7 | s40 => DD x26 x8 | s41 => DD x26 x9 | s42 => DD x26 x10 | s43 => DD x26 x11 | s44 => DD x26 x12 | s45 => DD x26 x13 | s46 => DD x26 x14 | s47 => DD x26 x15 | s48 => DD x26 x16 | s49 => DD x26 x17 | s50 => DD x26 x18 | s51 => DD x26 x19 | s52 => DD x26 x20 | s53 => DD x26 x21 | s54 => DD x26 x22 | s55 => DD x26 x23 | s56 => DD x26 x24 | s57 => DD x26 x25 | s58 => DD x26 x26 | s59 => DD x26 x27 | s60 => DD x26 x28 | s61 => DD x26 x29 | s62 => DD x26 x30 | s63 => DD x26 x31 | s64 => DD x26 x32 | s65 => DD x26 x33 | s66 => DD x26 x34 | s67 => DD x26 x35 | s68 => DD x26 x36 | s69 => DD x26 x37 | s70 => DD x26 x38 | s71 => DD x26 x39 | s72 => DD x26 x40 | s73 => DD x26 x41 | s74 => DD x26 x42 | s75 => DD x26 x43 | s76 => DD x26 x44 | s77 => DD x26 x45 | s78 => DD x26 x46 | s79 => DD x26 x47 | s80 => DD x26 x48 | s81 => DD x26 x49 | s82 => DD x26 x50 | s83 => DD x26 x51 | s84 => DD x26 x52 | s85 => DD x26 x53 | s86 => DD x26 x54 | s87 => DD x26 x55 | s88 => DD x26 x56 | s89 => DD x26 x57 | s90 => DD x26 x58 | s91 => DD x26 x59 | s92 => DD x26 x60 | s93 => DD x26 x61 | s94 => DD x26 x62 | s95 => DD x26 x63 | s96 => DD x27 x0 | s97 => DD x27 x1 | s98 => DD x27 x2 | s99 => DD x27 x3 | s100 => DD x27 x4 | s101 => DD x27 x5 | s102 => DD x27 x6 | s103 => DD x27 x7 | s104 => DD x27 x8 | s105 => DD x27 x9 | s106 => DD x27 x10 | s107 => DD x27 x11 | s108 => DD x27 x12 | s109 => DD x27 x13 | s110 => DD x27 x14 | s111 => DD x27 x15 | s112 => DD x27 x16 | s113 => DD x27 x17 | s114 => DD x27 x18 | s115 => DD x27 x19 | s116 => DD x27 x20 | s117 => DD x27 x21 | s118 => DD x27 x22 | s119 => DD x27 x23 | s120 => DD x27 x24 | s121 => DD x27 x25 | s122 => DD x27 x26 | s123 => DD x27 x27 | s124 => DD x27 x28 | s125 => DD x27 x29 | s126 => DD x27 x30 end.
Definition m1634 (c : sum2) : dd := match c with s0 => DD x25 x34 | s1 => DD x25 x35 | s2 => DD x25 x36 | s3 => DD x25 x37 | s4 => DD x25 x38 | s5 => DD x25 x39 | s6 => DD x25 x40 | s7 => DD x25 x41 | s8 => DD x25 x42 | s9 => DD x25 x43 | s10 => DD x25 x44 | s11 => DD x25 x45 | s12 => DD x25 x46 | s13 => DD x25 x47 | s14 => DD x25 x48 | s15 => DD x25 x49 | s16 => DD x25 x50 | s17 => DD x25 x51 | s18 => DD x25 x52 | s19 => DD x25 x53 | s20 => DD x25 x54 | s21 => DD x25 x55 | s22 => DD x25 x56 | s23 => DD x25 x57 | s24 => DD x25 x58 | s25 => DD x25 x59 | s26 => DD x25 x60 | s27 => DD x25 x61 | s28 => DD x25 x62 | s29 => DD x25 x63 | s30 => DD x26 x0 | s31 => DD x26 x1 | s32 => DD x26 x2 | s33 => DD x26 x3 | s34 => DD x26 x4 | s35 => DD x26 x5 | s36 => DD x26 x6 | s37 => DD x26 x7 | s38 => DD x26 x8 | s39 => DD x26 x9 | s40 => DD x26 x10 | s41 => DD x26 x11 | s42 => DD x26 x12 | s43 => DD x26 x13 | s44 => DD x26 x14 | s45 => DD x26 x15 | s46 => DD x26 x16 | s47 => DD x26 x17 | s48 => DD x26 x18 | s49 => DD x26 x19 | s50 => DD x26 x20 | s51 => DD x26 x21 | s52 => DD x26 x22 | s53 => DD x26 x23 | s54 => DD x26 x24 | s55 => DD x26 x25 | s56 => DD x26 x26 | s57 => DD x26 x27 | s58 => DD x26 x28 | s59 => DD x26 x29 | s60 => DD x26 x30 | s61 => DD x26 x31 | s62 => DD x26 x32 | s63 => DD x26 x33 | s64 => DD x26 x34 | s65 => DD x26 x35 | s66 => DD x26 x36 | s67 => DD x26 x37 | s68 => DD x26 x38 | s69 => DD x26 x39 | s70 => DD x26 x40 | s71 => DD x26 x41 | s72 => DD x26 x42 | s73 => DD x26 x43 | s74 => DD x26 x44 | s75 => DD x26 x45 | s76 => DD x26 x46 | s77 => DD x26 x47 | s78 => DD x26 x48 | s79 => DD x26 x49 | s80 => DD x26 x50 | s81 => DD x26 x51 | s82 => DD x26 x52 | s83 => DD x26 x53 | s84 => DD x26 x54 | s85 => DD x26 x55 | s86 => DD x26 x56 | s87 => DD x26 x57 | s88 => DD x26 x58 | s89 => DD x26 x59 | s90 => DD x26 x60 | s91 => DD x26 x61 | s92 => DD x26 x62 | s93 => DD x26 x63 | s94 => DD x27 x0 | s95 => DD x27 x1 | s96 => DD x27 x2 | s97 => DD x27 x3 | s98 => DD x27 x4 | s99 => DD x27 x5 | s100 => DD x27 x6 | s101 => DD x27 x7 | s102 => DD x27 x8 | s103 => DD x27 x9 | s104 => DD x27 x10 | s105 => DD x27 x11 | s106 => DD x27 x12 | s107 => DD x27 x13 | s108 => DD x27 x14 | s109 => DD x27 x15 | s110 => DD x27 x16 | s111 => DD x27 x17 | s112 => DD x27 x18 | s113 => DD x27 x19 | s114 => DD x27 x20 | s115 => DD x27 x21 | s116 => DD x27 x22 | s117 => DD x27 x23 | s118 => DD x27 x24 | s119 => DD x27 x25 | s120 => DD x27 x26 | s121 => DD x27 x27 | s122 => DD x27 x28 | s123 => DD x27 x29 | s124 => DD x27 x30 | s125 => DD x27 x31 | s126 => DD x27 x32 end.
Definition m1638 (c : sum2) : dd := match c with s0 => DD x25 x38 | s1 => DD x25 x39 | s2 => DD x25 x40 | s3 => DD x25 x41 | s4 => DD x25 x42 | s5 => DD x25 x43 | s6 => DD x25 x44 | s7 => DD x25 x45 | s8 => DD x25 x46 | s9 => DD x25 x47 | s10 => DD x25 x48 | s11 => DD x25 x49 | s12 => DD x25 x50 | s13 => DD x25 x51 | s14 => DD x25 x52 | s15 => DD x25 x53 | s16 => DD x25 x54 | s17 => DD x25 x55 | s18 => DD x25 x56 | s19 => DD x25 x57 | s20 => DD x25 x58 | s21 => DD x25 x59 | s22 => DD x25 x60 | s23 => DD x25 x61 | s24 => DD x25 x62 | s25 => DD x25 x63 | s26 => DD x26 x0 | s27 => DD x26 x1 | s28 => DD x26 x2 | s29 => DD x26 x3 | s30 => DD x26 x4 | s31 => DD x26 x5 | s32 => DD x26 x6 | s33 => DD x26 x7 | s34 => DD x26 x8 | s35 => DD x26 x9 | s36 => DD x26 x10 | s37 => DD x26 x11 | s38 => DD x26 x12 | s39 => DD x26 x13 | s40 => DD x26 x14 | s41 => DD x26 x15 | s42 => DD x26 x16 | s43 => DD x26 x17 | s44 => DD x26 x18 | s45 => DD x26 x19 | s46 => DD x26 x20 | s47 => DD x26 x21 | s48 => DD x26 x22 | s49 => DD x26 x23 | s50 => DD x26 x24 | s51 => DD x26 x25 | s52 => DD x26 x26 | s53 => DD x26 x27 | s54 => DD x26 x28 | s55 => DD x26 x29 | s56 => DD x26 x30 | s57 => DD x26 x31 | s58 => DD x26 x32 | s59 => DD x26 x33 | s60 => DD x26 x34 | s61 => DD x26 x35 | s62 => DD x26 x36 | s63 => DD x26 x37 | s64 => DD x26 x38 | s65 => DD x26 x39 | s66 => DD x26 x40 | s67 => DD x26 x41 | s68 => DD x26 x42 | s69 => DD x26 x43 | s70 => DD x26 x44 | s71 => DD x26 x45 | s72 => DD x26 x46 | s73 => DD x26 x47 | s74 => DD x26 x48 | s75 => DD x26 x49 | s76 => DD x26 x50 | s77 => DD x26 x51 | s78 => DD x26 x52 | s79 => DD x26 x53 | s80 => DD x26 x54 | s81 => DD x26 x55 | s82 => DD x26 x56 | s83 => DD x26 x57 | s84 => DD x26 x58 | s85 => DD x26 x59 | s86 => DD x26 x60 | s87 => DD x26 x61 | s88 => DD x26 x62 | s89 => DD x26 x63 | s90 => DD x27 x0 | s91 => DD x27 x1 | s92 => DD x27 x2 | s93 => DD x27 x3 | s94 => DD x27 x4 | s95 => DD x27 x5 | s96 => DD x27 x6 | s97 => DD x27 x7 | s98 => DD x27 x8 | s99 => DD x27 x9 | s100 => DD x27 x10 | s101 => DD x27 x11 | s102 => DD x27 x12 | s103 => DD x27 x13 | s104 => DD x27 x14 | s105 => DD x27 x15 | s106 => DD x27 x16 | s107 => DD x27 x17 | s108 => DD x27 x18 | s109 => DD x27 x19 | s110 => DD x27 x20 | s111 => DD x27 x21 | s112 => DD x27 x22 | s113 => DD x27 x23 | s114 => DD x27 x24 | s115 => DD x27 x25 | s116 => DD x27 x26 | s117 => DD x27 x27 | s118 => DD x27 x28 | s119 => DD x27 x29 | s120 => DD x27 x30 | s121 => DD x27 x31 | s122 => DD x27 x32 | s123 => DD x27 x33 | s124 => DD x27 x34 | s125 => DD x27 x35 | s126 => DD x27 x36 end.
Definition m1640 (c : sum2) : dd := match c with s0 => DD x25 x40 | s1 => DD x25 x41 | s2 => DD x25 x42 | s3 => DD x25 x43 | s4 => DD x25 x44 | s5 => DD x25 x45 | s6 => DD x25 x46 | s7 => DD x25 x47 | s8 => DD x25 x48 | s9 => DD x25 x49 | s10 => DD x25 x50 | s11 => DD x25 x51 | s12 => DD x25 x52 | s13 => DD x25 x53 | s14 => DD x25 x54 | s15 => DD x25 x55 | s16 => DD x25 x56 | s17 => DD x25 x57 | s18 => DD x25 x58 | s19 => DD x25 x59 | s20 => DD x25 x60 | s21 => DD x25 x61 | s22 => DD x25 x62 | s23 => DD x25 x63 | s24 => DD x26 x0 | s25 => DD x26 x1 | s26 => DD x26 x2 | s27 => DD x26 x3 | s28 => DD x26 x4 | s29 => DD x26 x5 | s30 => DD x26 x6 | s31 => DD x26 x7 | s32 => DD x26 x8 | s33 => DD x26 x9 | s34 => DD x26 x10 | s35 => DD x26 x11 | s36 => DD x26 x12 | s37 => DD x26 x13 | s38 => DD x26 x14 | s39 => DD x26 x15 | s40 => DD x26 x16 | s41 => DD x26 x17 | s42 => DD x26 x18 | s43 => DD x26 x19 | s44 => DD x26 x20 | s45 => DD x26 x21 | s46 => DD x26 x22 | s47 => DD x26 x23 | s48 => DD x26 x24 | s49 => DD x26 x25 | s50 => DD x26 x26 | s51 => DD x26 x27 | s52 => DD x26 x28 | s53 => DD x26 x29 | s54 => DD x26 x30 | s55 => DD x26 x31 | s56 => DD x26 x32 | s57 => DD x26 x33 | s58 => DD x26 x34 | s59 => DD x26 x35 | s60 => DD x26 x36 | s61 => DD x26 x37 | s62 => DD x26 x38 | s63 => DD x26 x39 | s64 => DD x26 x40 | s65 => DD x26 x41 | s66 => DD x26 x42 | s67 => DD x26 x43 | s68 => DD x26 x44 | s69 => DD x26 x45 | s70 => DD x26 x46 | s71 => DD x26 x47 | s72 => DD x26 x48 | s73 => DD x26 x49 | s74 => DD x26 x50 | s75 => DD x26 x51 | s76 => DD x26 x52 | s77 => DD x26 x53 | s78 => DD x26 x54 | s79 => DD x26 x55 | s80 => DD x26 x56 | s81 => DD x26 x57 | s82 => DD x26 x58 | s83 => DD x26 x59 | s84 => DD x26 x60 | s85 => DD x26 x61 | s86 => DD x26 x62 | s87 => DD x26 x63 | s88 => DD x27 x0 | s89 => DD x27 x1 | s90 => DD x27 x2 | s91 => DD x27 x3 | s92 => DD x27 x4 | s93 => DD x27 x5 | s94 => DD x27 x6 | s95 => DD x27 x7 | s96 => DD x27 x8 | s97 => DD x27 x9 | s98 => DD x27 x10 | s99 => DD x27 x11 | s100 => DD x27 x12 | s101 => DD x27 x13 | s102 => DD x27 x14 | s103 => DD x27 x15 | s104 => DD x27 x16 | s105 => DD x27 x17 | s106 => DD x27 x18 | s107 => DD x27 x19 | s108 => DD x27 x20 | s109 => DD x27 x21 | s110 => DD x27 x22 | s111 => DD x27 x23 | s112 => DD x27 x24 | s113 => DD x27 x25 | s114 => DD x27 x26 | s115 => DD x27 x27 | s116 => DD x27 x28 | s117 => DD x27 x29 | s118 => DD x27 x30 | s119 => DD x27 x31 | s120 => DD x27 x32 | s121 => DD x27 x33 | s122 => DD x27 x34 | s123 => DD x27 x35 | s124 => DD x27 x36 | s125 => DD x27 x37 | s126 => DD x27 x38 end.
Definition m1643 (c : sum2) : dd := match c with s0 => DD x25 x43 | s1 => DD x25 x44 | s2 => DD x25 x45 | s3 => DD x25 x46 | s4 => DD x25 x47 | s5 => DD x25 x48 | s6 => DD x25 x49 | s7 => DD x25 x50 | s8 => DD x25 x51 | s9 => DD x25 x52 | s10 => DD x25 x53 | s11 => DD x25 x54 | s12 => DD x25 x55 | s13 => DD x25 x56 | s14 => DD x25 x57 | s15 => DD x25 x58 | s16 => DD x25 x59 | s17 => DD x25 x60 | s18 => DD x25 x61 | s19 => DD x25 x62 | s20 => DD x25 x63 | s21 => DD x26 x0 | s22 => DD x26 x1 | s23 => DD x26 x2 | s24 => DD x26 x3 | s25 => DD x26 x4 | s26 => DD x26 x5 | s27 => DD x26 x6 | s28 => DD x26 x7 | s29 => DD x26 x8 | s30 => DD x26 x9 | s31 => DD x26 x10 | s32 => DD x26 x11 | s33 => DD x26 x12 | s34 => DD x26 x13 | s35 => DD x26 x14 | s36 => DD x26 x15 | s37 => DD x26 x16 | s38 => DD x26 x17 | s39 => DD x26 x18 | s40 => DD x26 x19 | s41 => DD x26 x20 | s42 => DD x26 x21 | s43 => DD x26 x22 | s44 => DD x26 x23 | s45 => DD x26 x24 | s46 => DD x26 x25 | s47 => DD x26 x26 | s48 => DD x26 x27 | s49 => DD x26 x28 | s50 => DD x26 x29 | s51 => DD x26 x30 | s52 => DD x26 x31 | s53 => DD x26 x32 | s54 => DD x26 x33 | s55 => DD x26 x34 | s56 => DD x26 x35 | s57 => DD x26 x36 | s58 => DD x26 x37 | s59 => DD x26 x38 | s60 => DD x26 x39 | s61 => DD x26 x40 | s62 => DD x26 x41 | s63 => DD x26 x42 | s64 => DD x26 x43 | s65 => DD x26 x44 | s66 => DD x26 x45 | s67 => DD x26 x46 | s68 => DD x26 x47 | s69 => DD x26 x48 | s70 => DD x26 x49 | s71 => DD x26 x50 | s72 => DD x26 x51 | s73 => DD x26 x52 | s74 => DD x26 x53 | s75 => DD x26 x54 | s76 => DD x26 x55 | s77 => DD x26 x56 | s78 => DD x26 x57 | s79 => DD x26 x58 | s80 => DD x26 x59 | s81 => DD x26 x60 | s82 => DD x26 x61 | s83 => DD x26 x62 | s84 => DD x26 x63 | s85 => DD x27 x0 | s86 => DD x27 x1 | s87 => DD x27 x2 | s88 => DD x27 x3 | s89 => DD x27 x4 | s90 => DD x27 x5 | s91 => DD x27 x6 | s92 => DD x27 x7 | s93 => DD x27 x8 | s94 => DD x27 x9 | s95 => DD x27 x10 | s96 => DD x27 x11 | s97 => DD x27 x12 | s98 => DD x27 x13 | s99 => DD x27 x14 | s100 => DD x27 x15 | s101 => DD x27 x16 | s102 => DD x27 x17 | s103 => DD x27 x18 | s104 => DD x27 x19 | s105 => DD x27 x20 | s106 => DD x27 x21 | s107 => DD x27 x22 | s108 => DD x27 x23 | s109 => DD x27 x24 | s110 => DD x27 x25 | s111 => DD x27 x26 | s112 => DD x27 x27 | s113 => DD x27 x28 | s114 => DD x27 x29 | s115 => DD x27 x30 | s116 => DD x27 x31 | s117 => DD x27 x32 | s118 => DD x27 x33 | s119 => DD x27 x34 | s120 => DD x27 x35 | s121 => DD x27 x36 | s122 => DD x27 x37 | s123 => DD x27 x38 | s124 => DD x27 x39 | s125 => DD x27 x40 | s126 => DD x27 x41 end.
Definition m1645 (c : sum2) : dd := match c with s0 => DD x25 x45 | s1 => DD x25 x46 | s2 => DD x25 x47 | s3 => DD x25 x48 | s4 => DD x25 x49 | s5 => DD x25 x50 | s6 => DD x25 x51 | s7 => DD x25 x52 | s8 => DD x25 x53 | s9 => DD x25 x54 | s10 => DD x25 x55 | s11 => DD x25 x56 | s12 => DD x25 x57 | s13 => DD x25 x58 | s14 => DD x25 x59 | s15 => DD x25 x60 | s16 => DD x25 x61 | s17 => DD x25 x62 | s18 => DD x25 x63 | s19 => DD x26 x0 | s20 => DD x26 x1 | s21 => DD x26 x2 | s22 => DD x26 x3 | s23 => DD x26 x4 | s24 => DD x26 x5 | s25 => DD x26 x6 | s26 => DD x26 x7 | s27 => DD x26 x8 | s28 => DD x26 x9 | s29 => DD x26 x10 | s30 => DD x26 x11 | s31 => DD x26 x12 | s32 => DD x26 x13 | s33 => DD x26 x14 | s34 => DD x26 x15 | s35 => DD x26 x16 | s36 => DD x26 x17 | s37 => DD x26 x18 | s38 => DD x26 x19 | s39 => DD x26 x20 | s40 => DD x26 x21 | s41 => DD x26 x22 | s42 => DD x26 x23 | s43 => DD x26 x24 | s44 => DD x26 x25 | s45 => DD x26 x26 | s46 => DD x26 x27 | s47 => DD x26 x28 | s48 => DD x26 x29 | s49 => DD x26 x30 | s50 => DD x26 x31 | s51 => DD x26 x32 | s52 => DD x26 x33 | s53 => DD x26 x34 | s54 => DD x26 x35 | s55 => DD x26 x36 | s56 => DD x26 x37 | s57 => DD x26 x38 | s58 => DD x26 x39 | s59 => DD x26 x40 | s60 => DD x26 x41 | s61 => DD x26 x42 | s62 => DD x26 x43 | s63 => DD x26 x44 | s64 => DD x26 x45 | s65 => DD x26 x46 | s66 => DD x26 x47 | s67 => DD x26 x48 | s68 => DD x26 x49 | s69 => DD x26 x50 | s70 => DD x26 x51 | s71 => DD x26 x52 | s72 => DD x26 x53 | s73 => DD x26 x54 | s74 => DD x26 x55 | s75 => DD x26 x56 | s76 => DD x26 x57 | s77 => DD x26 x58 | s78 => DD x26 x59 | s79 => DD x26 x60 | s80 => DD x26 x61 | s81 => DD x26 x62 | s82 => DD x26 x63 | s83 => DD x27 x0 | s84 => DD x27 x1 | s85 => DD x27 x2 | s86 => DD x27 x3 | s87 => DD x27 x4 | s88 => DD x27 x5 | s89 => DD x27 x6 | s90 => DD x27 x7 | s91 => DD x27 x8 | s92 => DD x27 x9 | s93 => DD x27 x10 | s94 => DD x27 x11 | s95 => DD x27 x12 | s96 => DD x27 x13 | s97 => DD x27 x14 | s98 => DD x27 x15 | s99 => DD x27 x16 | s100 => DD x27 x17 | s101 => DD x27 x18 | s102 => DD x27 x19 | s103 => DD x27 x20 | s104 => DD x27 x21 | s105 => DD x27 x22 | s106 => DD x27 x23 | s107 => DD x27 x24 | s108 => DD x27 x25 | s109 => DD x27 x26 | s110 => DD x27 x27 | s111 => DD x27 x28 | s112 => DD x27 x29 | s113 => DD x27 x30 | s114 => DD x27 x31 | s115 => DD x27 x32 | s116 => DD x27 x33 | s117 => DD x27 x34 | s118 => DD x27 x35 | s119 => DD x27 x36 | s120 => DD x27 x37 | s121 => DD x27 x38 | s122 => DD x27 x39 | s123 => DD x27 x40 | s124 => DD x27 x41 | s125 => DD x27 x42 | s126 => DD x27 x43 end.
Definition m1647 (c : sum2) : dd := match c with s0 => DD x25 x47 | s1 => DD x25 x48 | s2 => DD x25 x49 | s3 => DD x25 x50 | s4 => DD x25 x51 | s5 => DD x25 x52 | s6 => DD x25 x53 | s7 => DD x25 x54 | s8 => DD x25 x55 | s9 => DD x25 x56 | s10 => DD x25 x57 | s11 => DD x25 x58 | s12 => DD x25 x59 | s13 => DD x25 x60 | s14 => DD x25 x61 | s15 => DD x25 x62 | s16 => DD x25 x63 | s17 => DD x26 x0 | s18 => DD x26 x1 | s19 => DD x26 x2 | s20 => DD x26 x3 | s21 => DD x26 x4 | s22 => DD x26 x5 | s23 => DD x26 x6 | s24 => DD x26 x7 | s25 => DD x26 x8 | s26 => DD x26 x9 | s27 => DD x26 x10 | s28 => DD x26 x11 | s29 => DD x26 x12 | s30 => DD x26 x13 | s31 => DD x26 x14 | s32 => DD x26 x15 | s33 => DD x26 x16 | s34 => DD x26 x17 | s35 => DD x26 x18 | s36 => DD x26 x19 | s37 => DD x26 x20 | s38 => DD x26 x21 | s39 => DD x26 x22 | s40 => DD x26 x23 | s41 => DD x26 x24 | s42 => DD x26 x25 | s43 => DD x26 x26 | s44 => DD x26 x27 | s45 => DD x26 x28 | s46 => DD x26 x29 | s47 => DD x26 x30 | s48 => DD x26 x31 | s49 => DD x26 x32 | s50 => DD x26 x33 | s51 => DD x26 x34 | s52 => DD x26 x35 | s53 => DD x26 x36 | s54 => DD x26 x37 | s55 => DD x26 x38 | s56 => DD x26 x39 | s57 => DD x26 x40 | s58 => DD x26 x41 | s59 => DD x26 x42 | s60 => DD x26 x43 | s61 => DD x26 x44 | s62 => DD x26 x45 | s63 => DD x26 x46 | s64 => DD x26 x47 | s65 => DD x26 x48 | s66 => DD x26 x49 | s67 => DD x26 x50 | s68 => DD x26 x51 | s69 => DD x26 x52 | s70 => DD x26 x53 | s71 => DD x26 x54 | s72 => DD x26 x55 | s73 => DD x26 x56 | s74 => DD x26 x57 | s75 => DD x26 x58 | s76 => DD x26 x59 | s77 => DD x26 x60 | s78 => DD x26 x61 | s79 => DD x26 x62 | s80 => DD x26 x63 | s81 => DD x27 x0 | s82 => DD x27 x1 | s83 => DD x27 x2 | s84 => DD x27 x3 | s85 => DD x27 x4 | s86 => DD x27 x5 | s87 => DD x27 x6 | s88 => DD x27 x7 | s89 => DD x27 x8 | s90 => DD x27 x9 | s91 => DD x27 x10 | s92 => DD x27 x11 | s93 => DD x27 x12 | s94 => DD x27 x13 | s95 => DD x27 x14 | s96 => DD x27 x15 | s97 => DD x27 x16 | s98 => DD x27 x17 | s99 => DD x27 x18 | s100 => DD x27 x19 | s101 => DD x27 x20 | s102 => DD x27 x21 | s103 => DD x27 x22 | s104 => DD x27 x23 | s105 => DD x27 x24 | s106 => DD x27 x25 | s107 => DD x27 x26 | s108 => DD x27 x27 | s109 => DD x27 x28 | s110 => DD x27 x29 | s111 => DD x27 x30 | s112 => DD x27 x31 | s113 => DD x27 x32 | s114 => DD x27 x33 | s115 => DD x27 x34 | s116 => DD x27 x35 | s117 => DD x27 x36 | s118 => DD x27 x37 | s119 => DD x27 x38 | s120 => DD x27 x39 | s121 => DD x27 x40 | s122 => DD x27 x41 | s123 => DD x27 x42 | s124 => DD x27 x43 | s125 => DD x27 x44 | s126 => DD x27 x45 end.
Definition m1650 (c : sum2) : dd := match c with s0 => DD x25 x50 | s1 => DD x25 x51 | s2 => DD x25 x52 | s3 => DD x25 x53 | s4 => DD x25 x54 | s5 => DD x25 x55 | s6 => DD x25 x56 | s7 => DD x25 x57 | s8 => DD x25 x58 | s9 => DD x25 x59 | s10 => DD x25 x60 | s11 => DD x25 x61 | s12 => DD x25 x62 | s13 => DD x25 x63 | s14 => DD x26 x0 | s15 => DD x26 x1 | s16 => DD x26 x2 | s17 => DD x26 x3 | s18 => DD x26 x4 | s19 => DD x26 x5 | s20 => DD x26 x6 | s21 => DD x26 x7 | s22 => DD x26 x8 | s23 => DD x26 x9 | s24 => DD x26 x10 | s25 => DD x26 x11 | s26 => DD x26 x12 | s27 => DD x26 x13 | s28 => DD x26 x14 | s29 => DD x26 x15 | s30 => DD x26 x16 | s31 => DD x26 x17 | s32 => DD x26 x18 | s33 => DD x26 x19 | s34 => DD x26 x20 | s35 => DD x26 x21 | s36 => DD x26 x22 | s37 => DD x26 x23 | s38 => DD x26 x24 | s39 => DD x26 x25 | s40 => DD x26 x26 | s41 => DD x26 x27 | s42 => DD x26 x28 | s43 => DD x26 x29 | s44 => DD x26 x30 | s45 => DD x26 x31 | s46 => DD x26 x32 | s47 => DD x26 x33 | s48 => DD x26 x34 | s49 => DD x26 x35 | s50 => DD x26 x36 | s51 => DD x26 x37 | s52 => DD x26 x38 | s53 => DD x26 x39 | s54 => DD x26 x40 | s55 => DD x26 x41 | s56 => DD x26 x42 | s57 => DD x26 x43 | s58 => DD x26 x44 | s59 => DD x26 x45 | s60 => DD x26 x46 | s61 => DD x26 x47 | s62 => DD x26 x48 | s63 => DD x26 x49 | s64 => DD x26 x50 | s65 => DD x26 x51 | s66 => DD x26 x52 | s67 => DD x26 x53 | s68 => DD x26 x54 | s69 => DD x26 x55 | s70 => DD x26 x56 | s71 => DD x26 x57 | s72 => DD x26 x58 | s73 => DD x26 x59 | s74 => DD x26 x60 | s75 => DD x26 x61 | s76 => DD x26 x62 | s77 => DD x26 x63 | s78 => DD x27 x0 | s79 => DD x27 x1 | s80 => DD x27 x2 | s81 => DD x27 x3 | s82 => DD x27 x4 | s83 => DD x27 x5 | s84 => DD x27 x6 | s85 => DD x27 x7 | s86 => DD x27 x8 | s87 => DD x27 x9 | s88 => DD x27 x10 | s89 => DD x27 x11 | s90 => DD x27 x12 | s91 => DD x27 x13 | s92 => DD x27 x14 | s93 => DD x27 x15 | s94 => DD x27 x16 | s95 => DD x27 x17 | s96 => DD x27 x18 | s97 => DD x27 x19 | s98 => DD x27 x20 | s99 => DD x27 x21 | s100 => DD x27 x22 | s101 => DD x27 x23 | s102 => DD x27 x24 | s103 => DD x27 x25 | s104 => DD x27 x26 | s105 => DD x27 x27 | s106 => DD x27 x28 | s107 => DD x27 x29 | s108 => DD x27 x30 | s109 => DD x27 x31 | s110 => DD x27 x32 | s111 => DD x27 x33 | s112 => DD x27 x34 | s113 => DD x27 x35 | s114 => DD x27 x36 | s115 => DD x27 x37 | s116 => DD x27 x38 | s117 => DD x27 x39 | s118 => DD x27 x40 | s119 => DD x27 x41 | s120 => DD x27 x42 | s121 => DD x27 x43 | s122 => DD x27 x44 | s123 => DD x27 x45 | s124 => DD x27 x46 | s125 => DD x27 x47 | s126 => DD x27 x48 end.
Definition m1652 (c : sum2) : dd := match c with s0 => DD x25 x52 | s1 => DD x25 x53 | s2 => DD x25 x54 | s3 => DD x25 x55 | s4 => DD x25 x56 | s5 => DD x25 x57 | s6 => DD x25 x58 | s7 => DD x25 x59 | s8 => DD x25 x60 | s9 => DD x25 x61 | s10 => DD x25 x62 | s11 => DD x25 x63 | s12 => DD x26 x0 | s13 => DD x26 x1 | s14 => DD x26 x2 | s15 => DD x26 x3 | s16 => DD x26 x4 | s17 => DD x26 x5 | s18 => DD x26 x6 | s19 => DD x26 x7 | s20 => DD x26 x8 | s21 => DD x26 x9 | s22 => DD x26 x10 | s23 => DD x26 x11 | s24 => DD x26 x12 | s25 => DD x26 x13 | s26 => DD x26 x14 | s27 => DD x26 x15 | s28 => DD x26 x16 | s29 => DD x26 x17 | s30 => DD x26 x18 | s31 => DD x26 x19 | s32 => DD x26 x20 | s33 => DD x26 x21 | s34 => DD x26 x22 | s35 => DD x26 x23 | s36 => DD x26 x24 | s37 => DD x26 x25 | s38 => DD x26 x26 | s39 => DD x26 x27 | s40 => DD x26 x28 | s41 => DD x26 x29 | s42 => DD x26 x30 | s43 => DD x26 x31 | s44 => DD x26 x32 | s45 => DD x26 x33 | s46 => DD x26 x34 | s47 => DD x26 x35 | s48 => DD x26 x36 | s49 => DD x26 x37 | s50 => DD x26 x38 | s51 => DD x26 x39 | s52 => DD x26 x40 | s53 => DD x26 x41 | s54 => DD x26 x42 | s55 => DD x26 x43 | s56 => DD x26 x44 | s57 => DD x26 x45 | s58 => DD x26 x46 | s59 => DD x26 x47 | s60 => DD x26 x48 | s61 => DD x26 x49 | s62 => DD x26 x50 | s63 => DD x26 x51 | s64 => DD x26 x52 | s65 => DD x26 x53 | s66 => DD x26 x54 | s67 => DD x26 x55 | s68 => DD x26 x56 | s69 => DD x26 x57 | s70 => DD x26 x58 | s71 => DD x26 x59 | s72 => DD x26 x60 | s73 => DD x26 x61 | s74 => DD x26 x62 | s75 => DD x26 x63 | s76 => DD x27 x0 | s77 => DD x27 x1 | s78 => DD x27 x2 | s79 => DD x27 x3 | s80 => DD x27 x4 | s81 => DD x27 x5 | s82 => DD x27 x6 | s83 => DD x27 x7 | s84 => DD x27 x8 | s85 => DD x27 x9 | s86 => DD x27 x10 | s87 => DD x27 x11 | s88 => DD x27 x12 | s89 => DD x27 x13 | s90 => DD x27 x14 | s91 => DD x27 x15 | s92 => DD x27 x16 | s93 => DD x27 x17 | s94 => DD x27 x18 | s95 => DD x27 x19 | s96 => DD x27 x20 | s97 => DD x27 x21 | s98 => DD x27 x22 | s99 => DD x27 x23 | s100 => DD x27 x24 | s101 => DD x27 x25 | s102 => DD x27 x26 | s103 => DD x27 x27 | s104 => DD x27 x28 | s105 => DD x27 x29 | s106 => DD x27 x30 | s107 => DD x27 x31 | s108 => DD x27 x32 | s109 => DD x27 x33 | s110 => DD x27 x34 | s111 => DD x27 x35 | s112 => DD x27 x36 | s113 => DD x27 x37 | s114 => DD x27 x38 | s115 => DD x27 x39 | s116 => DD x27 x40 | s117 => DD x27 x41 | s118 => DD x27 x42 | s119 => DD x27 x43 | s120 => DD x27 x44 | s121 => DD x27 x45 | s122 => DD x27 x46 | s123 => DD x27 x47 | s124 => DD x27 x48 | s125 => DD x27 x49 | s126 => DD x27 x50 end.
Definition m1653 (c : sum2) : dd := match c with s0 => DD x25 x53 | s1 => DD x25 x54 | s2 => DD x25 x55 | s3 => DD x25 x56 | s4 => DD x25 x57 | s5 => DD x25 x58 | s6 => DD x25 x59 | s7 => DD x25 x60 | s8 => DD x25 x61 | s9 => DD x25 x62 | s10 => DD x25 x63 | s11 => DD x26 x0 | s12 => DD x26 x1 | s13 => DD x26 x2 | s14 => DD x26 x3 | s15 => DD x26 x4 | s16 => DD x26 x5 | s17 => DD x26 x6 | s18 => DD x26 x7 | s19 => DD x26 x8 | s20 => DD x26 x9 | s21 => DD x26 x10 | s22 => DD x26 x11 | s23 => DD x26 x12 | s24 => DD x26 x13 | s25 => DD x26 x14 | s26 => DD x26 x15 | s27 => DD x26 x16 | s28 => DD x26 x17 | s29 => DD x26 x18 | s30 => DD x26 x19 | s31 => DD x26 x20 | s32 => DD x26 x21 | s33 => DD x26 x22 | s34 => DD x26 x23 | s35 => DD x26 x24 | s36 => DD x26 x25 | s37 => DD x26 x26 | s38 => DD x26 x27 | s39 => DD x26 x28 | s40 => DD x26 x29 | s41 => DD x26 x30 | s42 => DD x26 x31 | s43 => DD x26 x32 | s44 => DD x26 x33 | s45 => DD x26 x34 | s46 => DD x26 x35 | s47 => DD x26 x36 | s48 => DD x26 x37 | s49 => DD x26 x38 | s50 => DD x26 x39 | s51 => DD x26 x40 | s52 => DD x26 x41 | s53 => DD x26 x42 | s54 => DD x26 x43 | s55 => DD x26 x44 | s56 => DD x26 x45 | s57 => DD x26 x46 | s58 => DD x26 x47 | s59 => DD x26 x48 | s60 => DD x26 x49 | s61 => DD x26 x50 | s62 => DD x26 x51 | s63 => DD x26 x52 | s64 => DD x26 x53 | s65 => DD x26 x54 | s66 => DD x26 x55 | s67 => DD x26 x56 | s68 => DD x26 x57 | s69 => DD x26 x58 | s70 => DD x26 x59 | s71 => DD x26 x60 | s72 => DD x26 x61 | s73 => DD x26 x62 | s74 => DD x26 x63 | s75 => DD x27 x0 | s76 => DD x27 x1 | s77 => DD x27 x2 | s78 => DD x27 x3 | s79 => DD x27 x4 | s80 => DD x27 x5 | s81 => DD x27 x6 | s82 => DD x27 x7 | s83 => DD x27 x8 | s84 => DD x27 x9 | s85 => DD x27 x10 | s86 => DD x27 x11 | s87 => DD x27 x12 | s88 => DD x27 x13 | s89 => DD x27 x14 | s90 => DD x27 x15 | s91 => DD x27 x16 | s92 => DD x27 x17 | s93 => DD x27 x18 | s94 => DD x27 x19 | s95 => DD x27 x20 | s96 => DD x27 x21 | s97 => DD x27 x22 | s98 => DD x27 x23 | s99 => DD x27 x24 | s100 => DD x27 x25 | s101 => DD x27 x26 | s102 => DD x27 x27 | s103 => DD x27 x28 | s104 => DD x27 x29 | s105 => DD x27 x30 | s106 => DD x27 x31 | s107 => DD x27 x32 | s108 => DD x27 x33 | s109 => DD x27 x34 | s110 => DD x27 x35 | s111 => DD x27 x36 | s112 => DD x27 x37 | s113 => DD x27 x38 | s114 => DD x27 x39 | s115 => DD x27 x40 | s116 => DD x27 x41 | s117 => DD x27 x42 | s118 => DD x27 x43 | s119 => DD x27 x44 | s120 => DD x27 x45 | s121 => DD x27 x46 | s122 => DD x27 x47 | s123 => DD x27 x48 | s124 => DD x27 x49 | s125 => DD x27 x50 | s126 => DD x27 x51 end.
Definition m1656 (c : sum2) : dd := match c with s0 => DD x25 x56 | s1 => DD x25 x57 | s2 => DD x25 x58 | s3 => DD x25 x59 | s4 => DD x25 x60 | s5 => DD x25 x61 | s6 => DD x25 x62 | s7 => DD x25 x63 | s8 => DD x26 x0 | s9 => DD x26 x1 | s10 => DD x26 x2 | s11 => DD x26 x3 | s12 => DD x26 x4 | s13 => DD x26 x5 | s14 => DD x26 x6 | s15 => DD x26 x7 | s16 => DD x26 x8 | s17 => DD x26 x9 | s18 => DD x26 x10 | s19 => DD x26 x11 | s20 => DD x26 x12 | s21 => DD x26 x13 | s22 => DD x26 x14 | s23 => DD x26 x15 | s24 => DD x26 x16 | s25 => DD x26 x17 | s26 => DD x26 x18 | s27 => DD x26 x19 | s28 => DD x26 x20 | s29 => DD x26 x21 | s30 => DD x26 x22 | s31 => DD x26 x23 | s32 => DD x26 x24 | s33 => DD x26 x25 | s34 => DD x26 x26 | s35 => DD x26 x27 | s36 => DD x26 x28 | s37 => DD x26 x29 | s38 => DD x26 x30 | s39 => DD x26 x31 | s40 => DD x26 x32 | s41 => DD x26 x33 | s42 => DD x26 x34 | s43 => DD x26 x35 | s44 => DD x26 x36 | s45 => DD x26 x37 | s46 => DD x26 x38 | s47 => DD x26 x39 | s48 => DD x26 x40 | s49 => DD x26 x41 | s50 => DD x26 x42 | s51 => DD x26 x43 | s52 => DD x26 x44 | s53 => DD x26 x45 | s54 => DD x26 x46 | s55 => DD x26 x47 | s56 => DD x26 x48 | s57 => DD x26 x49 | s58 => DD x26 x50 | s59 => DD x26 x51 | s60 => DD x26 x52 | s61 => DD x26 x53 | s62 => DD x26 x54 | s63 => DD x26 x55 | s64 => DD x26 x56 | s65 => DD x26 x57 | s66 => DD x26 x58 | s67 => DD x26 x59 | s68 => DD x26 x60 | s69 => DD x26 x61 | s70 => DD x26 x62 | s71 => DD x26 x63 | s72 => DD x27 x0 | s73 => DD x27 x1 | s74 => DD x27 x2 | s75 => DD x27 x3 | s76 => DD x27 x4 | s77 => DD x27 x5 | s78 => DD x27 x6 | s79 => DD x27 x7 | s80 => DD x27 x8 | s81 => DD x27 x9 | s82 => DD x27 x10 | s83 => DD x27 x11 | s84 => DD x27 x12 | s85 => DD x27 x13 | s86 => DD x27 x14 | s87 => DD x27 x15 | s88 => DD x27 x16 | s89 => DD x27 x17 | s90 => DD x27 x18 | s91 => DD x27 x19 | s92 => DD x27 x20 | s93 => DD x27 x21 | s94 => DD x27 x22 | s95 => DD x27 x23 | s96 => DD x27 x24 | s97 => DD x27 x25 | s98 => DD x27 x26 | s99 => DD x27 x27 | s100 => DD x27 x28 | s101 => DD x27 x29 | s102 => DD x27 x30 | s103 => DD x27 x31 | s104 => DD x27 x32 | s105 => DD x27 x33 | s106 => DD x27 x34 | s107 => DD x27 x35 | s108 => DD x27 x36 | s109 => DD x27 x37 | s110 => DD x27 x38 | s111 => DD x27 x39 | s112 => DD x27 x40 | s113 => DD x27 x41 | s114 => DD x27 x42 | s115 => DD x27 x43 | s116 => DD x27 x44 | s117 => DD x27 x45 | s118 => DD x27 x46 | s119 => DD x27 x47 | s120 => DD x27 x48 | s121 => DD x27 x49 | s122 => DD x27 x50 | s123 => DD x27 x51 | s124 => DD x27 x52 | s125 => DD x27 x53 | s126 => DD x27 x54 end.
Definition m1664 (c : sum2) : dd := match c with s0 => DD x26 x0 | s1 => DD x26 x1 | s2 => DD x26 x2 | s3 => DD x26 x3 | s4 => DD x26 x4 | s5 => DD x26 x5 | s6 => DD x26 x6 | s7 => DD x26 x7 | s8 => DD x26 x8 | s9 => DD x26 x9 | s10 => DD x26 x10 | s11 => DD x26 x11 | s12 => DD x26 x12 | s13 => DD x26 x13 | s14 => DD x26 x14 | s15 => DD x26 x15 | s16 => DD x26 x16 | s17 => DD x26 x17 | s18 => DD x26 x18 | s19 => DD x26 x19 | s20 => DD x26 x20 | s21 => DD x26 x21 | s22 => DD x26 x22 | s23 => DD x26 x23 | s24 => DD x26 x24 | s25 => DD x26 x25 | s26 => DD x26 x26 | s27 => DD x26 x27 | s28 => DD x26 x28 | s29 => DD x26 x29 | s30 => DD x26 x30 | s31 => DD x26 x31 | s32 => DD x26 x32 | s33 => DD x26 x33 | s34 => DD x26 x34 | s35 => DD x26 x35 | s36 => DD x26 x36 | s37 => DD x26 x37 | s38 => DD x26 x38 | s39 => DD x26 x39 | s40 => DD x26 x40 | s41 => DD x26 x41 | s42 => DD x26 x42 | s43 => DD x26 x43 | s44 => DD x26 x44 | s45 => DD x26 x45 | s46 => DD x26 x46 | s47 => DD x26 x47 | s48 => DD x26 x48 | s49 => DD x26 x49 | s50 => DD x26 x50 | s51 => DD x26 x51 | s52 => DD x26 x52 | s53 => DD x26 x53 | s54 => DD x26 x54 | s55 => DD x26 x55 | s56 => DD x26 x56 | s57 => DD x26 x57 | s58 => DD x26 x58 | s59 => DD x26 x59 | s60 => DD x26 x60 | s61 => DD x26 x61 | s62 => DD x26 x62 | s63 => DD x26 x63 | s64 => DD x27 x0 | s65 => DD x27 x1 | s66 => DD x27 x2 | s67 => DD x27 x3 | s68 => DD x27 x4 | s69 => DD x27 x5 | s70 => DD x27 x6 | s71 => DD x27 x7 | s72 => DD x27 x8 | s73 => DD x27 x9 | s74 => DD x27 x10 | s75 => DD x27 x11 | s76 => DD x27 x12 | s77 => DD x27 x13 | s78 => DD x27 x14 | s79 => DD x27 x15 | s80 => DD x27 x16 | s81 => DD x27 x17 | s82 => DD x27 x18 | s83 => DD x27 x19 | s84 => DD x27 x20 | s85 => DD x27 x21 | s86 => DD x27 x22 | s87 => DD x27 x23 | s88 => DD x27 x24 | s89 => DD x27 x25 | s90 => DD x27 x26 | s91 => DD x27 x27 | s92 => DD x27 x28 | s93 => DD x27 x29 | s94 => DD x27 x30 | s95 => DD x27 x31 | s96 => DD x27 x32 | s97 => DD x27 x33 | s98 => DD x27 x34 | s99 => DD x27 x35 | s100 => DD x27 x36 | s101 => DD x27 x37 | s102 => DD x27 x38 | s103 => DD x27 x39 | s104 => DD x27 x40 | s105 => DD x27 x41 | s106 => DD x27 x42 | s107 => DD x27 x43 | s108 => DD x27 x44 | s109 => DD x27 x45 | s110 => DD x27 x46 | s111 => DD x27 x47 | s112 => DD x27 x48 | s113 => DD x27 x49 | s114 => DD x27 x50 | s115 => DD x27 x51 | s116 => DD x27 x52 | s117 => DD x27 x53 | s118 => DD x27 x54 | s119 => DD x27 x55 | s120 => DD x27 x56 | s121 => DD x27 x57 | s122 => DD x27 x58 | s123 => DD x27 x59 | s124 => DD x27 x60 | s125 => DD x27 x61 | s126 => DD x27 x62 end.
Definition m1665 (c : sum2) : dd := match c with s0 => DD x26 x1 | s1 => DD x26 x2 | s2 => DD x26 x3 | s3 => DD x26 x4 | s4 => DD x26 x5 | s5 => DD x26 x6 | s6 => DD x26 x7 | s7 => DD x26 x8 | s8 => DD x26 x9 | s9 => DD x26 x10 | s10 => DD x26 x11 | s11 => DD x26 x12 | s12 => DD x26 x13 | s13 => DD x26 x14 | s14 => DD x26 x15 | s15 => DD x26 x16 | s16 => DD x26 x17 | s17 => DD x26 x18 | s18 => DD x26 x19 | s19 => DD x26 x20 | s20 => DD x26 x21 | s21 => DD x26 x22 | s22 => DD x26 x23 | s23 => DD x26 x24 | s24 => DD x26 x25 | s25 => DD x26 x26 | s26 => DD x26 x27 | s27 => DD x26 x28 | s28 => DD x26 x29 | s29 => DD x26 x30 | s30 => DD x26 x31 | s31 => DD x26 x32 | s32 => DD x26 x33 | s33 => DD x26 x34 | s34 => DD x26 x35 | s35 => DD x26 x36 | s36 => DD x26 x37 | s37 => DD x26 x38 | s38 => DD x26 x39 | s39 => DD x26 x40 | s40 => DD x26 x41 | s41 => DD x26 x42 | s42 => DD x26 x43 | s43 => DD x26 x44 | s44 => DD x26 x45 | s45 => DD x26 x46 | s46 => DD x26 x47 | s47 => DD x26 x48 | s48 => DD x26 x49 | s49 => DD x26 x50 | s50 => DD x26 x51 | s51 => DD x26 x52 | s52 => DD x26 x53 | s53 => DD x26 x54 | s54 => DD x26 x55 | s55 => DD x26 x56 | s56 => DD x26 x57 | s57 => DD x26 x58 | s58 => DD x26 x59 | s59 => DD x26 x60 | s60 => DD x26 x61 | s61 => DD x26 x62 | s62 => DD x26 x63 | s63 => DD x27 x0 | s64 => DD x27 x1 | s65 => DD x27 x2 | s66 => DD x27 x3 | s67 => DD x27 x4 | s68 => DD x27 x5 | s69 => DD x27 x6 | s70 => DD x27 x7 | s71 => DD x27 x8 | s72 => DD x27 x9 | s73 => DD x27 x10 | s74 => DD x27 x11 | s75 => DD x27 x12 | s76 => DD x27 x13 | s77 => DD x27 x14 | s78 => DD x27 x15 | s79 => DD x27 x16 | s80 => DD x27 x17 | s81 => DD x27 x18 | s82 => DD x27 x19 | s83 => DD x27 x20 | s84 => DD x27 x21 | s85 => DD x27 x22 | s86 => DD x27 x23 | s87 => DD x27 x24 | s88 => DD x27 x25 | s89 => DD x27 x26 | s90 => DD x27 x27 | s91 => DD x27 x28 | s92 => DD x27 x29 | s93 => DD x27 x30 | s94 => DD x27 x31 | s95 => DD x27 x32 | s96 => DD x27 x33 | s97 => DD x27 x34 | s98 => DD x27 x35 | s99 => DD x27 x36 | s100 => DD x27 x37 | s101 => DD x27 x38 | s102 => DD x27 x39 | s103 => DD x27 x40 | s104 => DD x27 x41 | s105 => DD x27 x42 | s106 => DD x27 x43 | s107 => DD x27 x44 | s108 => DD x27 x45 | s109 => DD x27 x46 | s110 => DD x27 x47 | s111 => DD x27 x48 | s112 => DD x27 x49 | s113 => DD x27 x50 | s114 => DD x27 x51 | s115 => DD x27 x52 | s116 => DD x27 x53 | s117 => DD x27 x54 | s118 => DD x27 x55 | s119 => DD x27 x56 | s120 => DD x27 x57 | s121 => DD x27 x58 | s122 => DD x27 x59 | s123 => DD x27 x60 | s124 => DD x27 x61 | s125 => DD x27 x62 | s126 => DD x27 x63 end.
Definition m1666 (c : sum2) : dd := match c with s0 => DD x26 x2 | s1 => DD x26 x3 | s2 => DD x26 x4 | s3 => DD x26 x5 | s4 => DD x26 x6 | s5 => DD x26 x7 | s6 => DD x26 x8 | s7 => DD x26 x9 | s8 => DD x26 x10 | s9 => DD x26 x11 | s10 => DD x26 x12 | s11 => DD x26 x13 | s12 => DD x26 x14 | s13 => DD x26 x15 | s14 => DD x26 x16 | s15 => DD x26 x17 | s16 => DD x26 x18 | s17 => DD x26 x19 | s18 => DD x26 x20 | s19 => DD x26 x21 | s20 => DD x26 x22 | s21 => DD x26 x23 | s22 => DD x26 x24 | s23 => DD x26 x25 | s24 => DD x26 x26 | s25 => DD x26 x27 | s26 => DD x26 x28 | s27 => DD x26 x29 | s28 => DD x26 x30 | s29 => DD x26 x31 | s30 => DD x26 x32 | s31 => DD x26 x33 | s32 => DD x26 x34 | s33 => DD x26 x35 | s34 => DD x26 x36 | s35 => DD x26 x37 | s36 => DD x26 x38 | s37 => DD x26 x39 | s38 => DD x26 x40 | s39 => DD x26 x41 | s40 => DD x26 x42 | s41 => DD x26 x43 | s42 => DD x26 x44 | s43 => DD x26 x45 | s44 => DD x26 x46 | s45 => DD x26 x47 | s46 => DD x26 x48 | s47 => DD x26 x49 | s48 => DD x26 x50 | s49 => DD x26 x51 | s50 => DD x26 x52 | s51 => DD x26 x53 | s52 => DD x26 x54 | s53 => DD x26 x55 | s54 => DD x26 x56 | s55 => DD x26 x57 | s56 => DD x26 x58 | s57 => DD x26 x59 | s58 => DD x26 x60 | s59 => DD x26 x61 | s60 => DD x26 x62 | s61 => DD x26 x63 | s62 => DD x27 x0 | s63 => DD x27 x1 | s64 => DD x27 x2 | s65 => DD x27 x3 | s66 => DD x27 x4 | s67 => DD x27 x5 | s68 => DD x27 x6 | s69 => DD x27 x7 | s70 => DD x27 x8 | s71 => DD x27 x9 | s72 => DD x27 x10 | s73 => DD x27 x11 | s74 => DD x27 x12 | s75 => DD x27 x13 | s76 => DD x27 x14 | s77 => DD x27 x15 | s78 => DD x27 x16 | s79 => DD x27 x17 | s80 => DD x27 x18 | s81 => DD x27 x19 | s82 => DD x27 x20 | s83 => DD x27 x21 | s84 => DD x27 x22 | s85 => DD x27 x23 | s86 => DD x27 x24 | s87 => DD x27 x25 | s88 => DD x27 x26 | s89 => DD x27 x27 | s90 => DD x27 x28 | s91 => DD x27 x29 | s92 => DD x27 x30 | s93 => DD x27 x31 | s94 => DD x27 x32 | s95 => DD x27 x33 | s96 => DD x27 x34 | s97 => DD x27 x35 | s98 => DD x27 x36 | s99 => DD x27 x37 | s100 => DD x27 x38 | s101 => DD x27 x39 | s102 => DD x27 x40 | s103 => DD x27 x41 | s104 => DD x27 x42 | s105 => DD x27 x43 | s106 => DD x27 x44 | s107 => DD x27 x45 | s108 => DD x27 x46 | s109 => DD x27 x47 | s110 => DD x27 x48 | s111 => DD x27 x49 | s112 => DD x27 x50 | s113 => DD x27 x51 | s114 => DD x27 x52 | s115 => DD x27 x53 | s116 => DD x27 x54 | s117 => DD x27 x55 | s118 => DD x27 x56 | s119 => DD x27 x57 | s120 => DD x27 x58 | s121 => DD x27 x59 | s122 => DD x27 x60 | s123 => DD x27 x61 | s124 => DD x27 x62 | s125 => DD x27 x63 | s126 => DD x28 x0 end.
Definition m1672 (c : sum2) : dd := match c with s0 => DD x26 x8 | s1 => DD x26 x9 | s2 => DD x26 x10 | s3 => DD x26 x11 | s4 => DD x26 x12 | s5 => DD x26 x13 | s6 => DD x26 x14 | s7 => DD x26 x15 | s8 => DD x26 x16 | s9 => DD x26 x17 | s10 => DD x26 x18 | s11 => DD x26 x19 | s12 => DD x26 x20 | s13 => DD x26 x21 | s14 => DD x26 x22 | s15 => DD x26 x23 | s16 => DD x26 x24 | s17 => DD x26 x25 | s18 => DD x26 x26 | s19 => DD x26 x27 | s20 => DD x26 x28 | s21 => DD x26 x29 | s22 => DD x26 x30 | s23 => DD x26 x31 | s24 => DD x26 x32 | s25 => DD x26 x33 | s26 => DD x26 x34 | s27 => DD x26 x35 | s28 => DD x26 x36 | s29 => DD x26 x37 | s30 => DD x26 x38 | s31 => DD x26 x39 | s32 => DD x26 x40 | s33 => DD x26 x41 | s34 => DD x26 x42 | s35 => DD x26 x43 | s36 => DD x26 x44 | s37 => DD x26 x45 | s38 => DD x26 x46 | s39 => DD x26 x47 | s40 => DD x26 x48 | s41 => DD x26 x49 | s42 => DD x26 x50 | s43 => DD x26 x51 | s44 => DD x26 x52 | s45 => DD x26 x53 | s46 => DD x26 x54 | s47 => DD x26 x55 | s48 => DD x26 x56 | s49 => DD x26 x57 | s50 => DD x26 x58 | s51 => DD x26 x59 | s52 => DD x26 x60 | s53 => DD x26 x61 | s54 => DD x26 x62 | s55 => DD x26 x63 | s56 => DD x27 x0 | s57 => DD x27 x1 | s58 => DD x27 x2 | s59 => DD x27 x3 | s60 => DD x27 x4 | s61 => DD x27 x5 | s62 => DD x27 x6 | s63 => DD x27 x7 | s64 => DD x27 x8 | s65 => DD x27 x9 | s66 => DD x27 x10 | s67 => DD x27 x11 | s68 => DD x27 x12 | s69 => DD x27 x13 | s70 => DD x27 x14 | s71 => DD x27 x15 | s72 => DD x27 x16 | s73 => DD x27 x17 | s74 => DD x27 x18 | s75 => DD x27 x19 | s76 => DD x27 x20 | s77 => DD x27 x21 | s78 => DD x27 x22 | s79 => DD x27 x23 | s80 => DD x27 x24 | s81 => DD x27 x25 | s82 => DD x27 x26 | s83 => DD x27 x27 | s84 => DD x27 x28 | s85 => DD x27 x29 | s86 => DD x27 x30 | s87 => DD x27 x31 | s88 => DD x27 x32 | s89 => DD x27 x33 | s90 => DD x27 x34 | s91 => DD x27 x35 | s92 => DD x27 x36 | s93 => DD x27 x37 | s94 => DD x27 x38 | s95 => DD x27 x39 | s96 => DD x27 x40 | s97 => DD x27 x41 | s98 => DD x27 x42 | s99 => DD x27 x43 | s100 => DD x27 x44 | s101 => DD x27 x45 | s102 => DD x27 x46 | s103 => DD x27 x47 | s104 => DD x27 x48 | s105 => DD x27 x49 | s106 => DD x27 x50 | s107 => DD x27 x51 | s108 => DD x27 x52 | s109 => DD x27 x53 | s110 => DD x27 x54 | s111 => DD x27 x55 | s112 => DD x27 x56 | s113 => DD x27 x57 | s114 => DD x27 x58 | s115 => DD x27 x59 | s116 => DD x27 x60 | s117 => DD x27 x61 | s118 => DD x27 x62 | s119 => DD x27 x63 | s120 => DD x28 x0 | s121 => DD x28 x1 | s122 => DD x28 x2 | s123 => DD x28 x3 | s124 => DD x28 x4 | s125 => DD x28 x5 | s126 => DD x28 x6 end.
Definition m1674 (c : sum2) : dd := match c with s0 => DD x26 x10 | s1 => DD x26 x11 | s2 => DD x26 x12 | s3 => DD x26 x13 | s4 => DD x26 x14 | s5 => DD x26 x15 | s6 => DD x26 x16 | s7 => DD x26 x17 | s8 => DD x26 x18 | s9 => DD x26 x19 | s10 => DD x26 x20 | s11 => DD x26 x21 | s12 => DD x26 x22 | s13 => DD x26 x23 | s14 => DD x26 x24 | s15 => DD x26 x25 | s16 => DD x26 x26 | s17 => DD x26 x27 | s18 => DD x26 x28 | s19 => DD x26 x29 | s20 => DD x26 x30 | s21 => DD x26 x31 | s22 => DD x26 x32 | s23 => DD x26 x33 | s24 => DD x26 x34 | s25 => DD x26 x35 | s26 => DD x26 x36 | s27 => DD x26 x37 | s28 => DD x26 x38 | s29 => DD x26 x39 | s30 => DD x26 x40 | s31 => DD x26 x41 | s32 => DD x26 x42 | s33 => DD x26 x43 | s34 => DD x26 x44 | s35 => DD x26 x45 | s36 => DD x26 x46 | s37 => DD x26 x47 | s38 => DD x26 x48 | s39 => DD x26 x49 | s40 => DD x26 x50 | s41 => DD x26 x51 | s42 => DD x26 x52 | s43 => DD x26 x53 | s44 => DD x26 x54 | s45 => DD x26 x55 | s46 => DD x26 x56 | s47 => DD x26 x57 | s48 => DD x26 x58 | s49 => DD x26 x59 | s50 => DD x26 x60 | s51 => DD x26 x61 | s52 => DD x26 x62 | s53 => DD x26 x63 | s54 => DD x27 x0 | s55 => DD x27 x1 | s56 => DD x27 x2 | s57 => DD x27 x3 | s58 => DD x27 x4 | s59 => DD x27 x5 | s60 => DD x27 x6 | s61 => DD x27 x7 | s62 => DD x27 x8 | s63 => DD x27 x9 | s64 => DD x27 x10 | s65 => DD x27 x11 | s66 => DD x27 x12 | s67 => DD x27 x13 | s68 => DD x27 x14 | s69 => DD x27 x15 | s70 => DD x27 x16 | s71 => DD x27 x17 | s72 => DD x27 x18 | s73 => DD x27 x19 | s74 => DD x27 x20 | s75 => DD x27 x21 | s76 => DD x27 x22 | s77 => DD x27 x23 | s78 => DD x27 x24 | s79 => DD x27 x25 | s80 => DD x27 x26 | s81 => DD x27 x27 | s82 => DD x27 x28 | s83 => DD x27 x29 | s84 => DD x27 x30 | s85 => DD x27 x31 | s86 => DD x27 x32 | s87 => DD x27 x33 | s88 => DD x27 x34 | s89 => DD x27 x35 | s90 => DD x27 x36 | s91 => DD x27 x37 | s92 => DD x27 x38 | s93 => DD x27 x39 | s94 => DD x27 x40 | s95 => DD x27 x41 | s96 => DD x27 x42 | s97 => DD x27 x43 | s98 => DD x27 x44 | s99 => DD x27 x45 | s100 => DD x27 x46 | s101 => DD x27 x47 | s102 => DD x27 x48 | s103 => DD x27 x49 | s104 => DD x27 x50 | s105 => DD x27 x51 | s106 => DD x27 x52 | s107 => DD x27 x53 | s108 => DD x27 x54 | s109 => DD x27 x55 | s110 => DD x27 x56 | s111 => DD x27 x57 | s112 => DD x27 x58 | s113 => DD x27 x59 | s114 => DD x27 x60 | s115 => DD x27 x61 | s116 => DD x27 x62 | s117 => DD x27 x63 | s118 => DD x28 x0 | s119 => DD x28 x1 | s120 => DD x28 x2 | s121 => DD x28 x3 | s122 => DD x28 x4 | s123 => DD x28 x5 | s124 => DD x28 x6 | s125 => DD x28 x7 | s126 => DD x28 x8 end.
Definition m1677 (c : sum2) : dd := match c with s0 => DD x26 x13 | s1 => DD x26 x14 | s2 => DD x26 x15 | s3 => DD x26 x16 | s4 => DD x26 x17 | s5 => DD x26 x18 | s6 => DD x26 x19 | s7 => DD x26 x20 | s8 => DD x26 x21 | s9 => DD x26 x22 | s10 => DD x26 x23 | s11 => DD x26 x24 | s12 => DD x26 x25 | s13 => DD x26 x26 | s14 => DD x26 x27 | s15 => DD x26 x28 | s16 => DD x26 x29 | s17 => DD x26 x30 | s18 => DD x26 x31 | s19 => DD x26 x32 | s20 => DD x26 x33 | s21 => DD x26 x34 | s22 => DD x26 x35 | s23 => DD x26 x36 | s24 => DD x26 x37 | s25 => DD x26 x38 | s26 => DD x26 x39 | s27 => DD x26 x40 | s28 => DD x26 x41 | s29 => DD x26 x42 | s30 => DD x26 x43 | s31 => DD x26 x44 | s32 => DD x26 x45 | s33 => DD x26 x46 | s34 => DD x26 x47 | s35 => DD x26 x48 | s36 => DD x26 x49 | s37 => DD x26 x50 | s38 => DD x26 x51 | s39 => DD x26 x52 | s40 => DD x26 x53 | s41 => DD x26 x54 | s42 => DD x26 x55 | s43 => DD x26 x56 | s44 => DD x26 x57 | s45 => DD x26 x58 | s46 => DD x26 x59 | s47 => DD x26 x60 | s48 => DD x26 x61 | s49 => DD x26 x62 | s50 => DD x26 x63 | s51 => DD x27 x0 | s52 => DD x27 x1 | s53 => DD x27 x2 | s54 => DD x27 x3 | s55 => DD x27 x4 | s56 => DD x27 x5 | s57 => DD x27 x6 | s58 => DD x27 x7 | s59 => DD x27 x8 | s60 => DD x27 x9 | s61 => DD x27 x10 | s62 => DD x27 x11 | s63 => DD x27 x12 | s64 => DD x27 x13 | s65 => DD x27 x14 | s66 => DD x27 x15 | s67 => DD x27 x16 | s68 => DD x27 x17 | s69 => DD x27 x18 | s70 => DD x27 x19 | s71 => DD x27 x20 | s72 => DD x27 x21 | s73 => DD x27 x22 | s74 => DD x27 x23 | s75 => DD x27 x24 | s76 => DD x27 x25 | s77 => DD x27 x26 | s78 => DD x27 x27 | s79 => DD x27 x28 | s80 => DD x27 x29 | s81 => DD x27 x30 | s82 => DD x27 x31 | s83 => DD x27 x32 | s84 => DD x27 x33 | s85 => DD x27 x34 | s86 => DD x27 x35 | s87 => DD x27 x36 | s88 => DD x27 x37 | s89 => DD x27 x38 | s90 => DD x27 x39 | s91 => DD x27 x40 | s92 => DD x27 x41 | s93 => DD x27 x42 | s94 => DD x27 x43 | s95 => DD x27 x44 | s96 => DD x27 x45 | s97 => DD x27 x46 | s98 => DD x27 x47 | s99 => DD x27 x48 | s100 => DD x27 x49 | s101 => DD x27 x50 | s102 => DD x27 x51 | s103 => DD x27 x52 | s104 => DD x27 x53 | s105 => DD x27 x54 | s106 => DD x27 x55 | s107 => DD x27 x56 | s108 => DD x27 x57 | s109 => DD x27 x58 | s110 => DD x27 x59 | s111 => DD x27 x60 | s112 => DD x27 x61 | s113 => DD x27 x62 | s114 => DD x27 x63 | s115 => DD x28 x0 | s116 => DD x28 x1 | s117 => DD x28 x2 | s118 => DD x28 x3 | s119 => DD x28 x4 | s120 => DD x28 x5 | s121 => DD x28 x6 | s122 => DD x28 x7 | s123 => DD x28 x8 | s124 => DD x28 x9 | s125 => DD x28 x10 | s126 => DD x28 x11 end.
Definition m1680 (c : sum2) : dd := match c with s0 => DD x26 x16 | s1 => DD x26 x17 | s2 => DD x26 x18 | s3 => DD x26 x19 | s4 => DD x26 x20 | s5 => DD x26 x21 | s6 => DD x26 x22 | s7 => DD x26 x23 | s8 => DD x26 x24 | s9 => DD x26 x25 | s10 => DD x26 x26 | s11 => DD x26 x27 | s12 => DD x26 x28 | s13 => DD x26 x29 | s14 => DD x26 x30 | s15 => DD x26 x31 | s16 => DD x26 x32 | s17 => DD x26 x33 | s18 => DD x26 x34 | s19 => DD x26 x35 | s20 => DD x26 x36 | s21 => DD x26 x37 | s22 => DD x26 x38 | s23 => DD x26 x39 | s24 => DD x26 x40 | s25 => DD x26 x41 | s26 => DD x26 x42 | s27 => DD x26 x43 | s28 => DD x26 x44 | s29 => DD x26 x45 | s30 => DD x26 x46 | s31 => DD x26 x47 | s32 => DD x26 x48 | s33 => DD x26 x49 | s34 => DD x26 x50 | s35 => DD x26 x51 | s36 => DD x26 x52 | s37 => DD x26 x53 | s38 => DD x26 x54 | s39 => DD x26 x55 | s40 => DD x26 x56 | s41 => DD x26 x57 | s42 => DD x26 x58 | s43 => DD x26 x59 | s44 => DD x26 x60 | s45 => DD x26 x61 | s46 => DD x26 x62 | s47 => DD x26 x63 | s48 => DD x27 x0 | s49 => DD x27 x1 | s50 => DD x27 x2 | s51 => DD x27 x3 | s52 => DD x27 x4 | s53 => DD x27 x5 | s54 => DD x27 x6 | s55 => DD x27 x7 | s56 => DD x27 x8 | s57 => DD x27 x9 | s58 => DD x27 x10 | s59 => DD x27 x11 | s60 => DD x27 x12 | s61 => DD x27 x13 | s62 => DD x27 x14 | s63 => DD x27 x15 | s64 => DD x27 x16 | s65 => DD x27 x17 | s66 => DD x27 x18 | s67 => DD x27 x19 | s68 => DD x27 x20 | s69 => DD x27 x21 | s70 => DD x27 x22 | s71 => DD x27 x23 | s72 => DD x27 x24 | s73 => DD x27 x25 | s74 => DD x27 x26 | s75 => DD x27 x27 | s76 => DD x27 x28 | s77 => DD x27 x29 | s78 => DD x27 x30 | s79 => DD x27 x31 | s80 => DD x27 x32 | s81 => DD x27 x33 | s82 => DD x27 x34 | s83 => DD x27 x35 | s84 => DD x27 x36 | s85 => DD x27 x37 | s86 => DD x27 x38 | s87 => DD x27 x39 | s88 => DD x27 x40 | s89 => DD x27 x41 | s90 => DD x27 x42 | s91 => DD x27 x43 | s92 => DD x27 x44 | s93 => DD x27 x45 | s94 => DD x27 x46 | s95 => DD x27 x47 | s96 => DD x27 x48 | s97 => DD x27 x49 | s98 => DD x27 x50 | s99 => DD x27 x51 | s100 => DD x27 x52 | s101 => DD x27 x53 | s102 => DD x27 x54 | s103 => DD x27 x55 | s104 => DD x27 x56 | s105 => DD x27 x57 | s106 => DD x27 x58 | s107 => DD x27 x59 | s108 => DD x27 x60 | s109 => DD x27 x61 | s110 => DD x27 x62 | s111 => DD x27 x63 | s112 => DD x28 x0 | s113 => DD x28 x1 | s114 => DD x28 x2 | s115 => DD x28 x3 | s116 => DD x28 x4 | s117 => DD x28 x5 | s118 => DD x28 x6 | s119 => DD x28 x7 | s120 => DD x28 x8 | s121 => DD x28 x9 | s122 => DD x28 x10 | s123 => DD x28 x11 | s124 => DD x28 x12 | s125 => DD x28 x13 | s126 => DD x28 x14 end.
Definition m1681 (c : sum2) : dd := match c with s0 => DD x26 x17 | s1 => DD x26 x18 | s2 => DD x26 x19 | s3 => DD x26 x20 | s4 => DD x26 x21 | s5 => DD x26 x22 | s6 => DD x26 x23 | s7 => DD x26 x24 | s8 => DD x26 x25 | s9 => DD x26 x26 | s10 => DD x26 x27 | s11 => DD x26 x28 | s12 => DD x26 x29 | s13 => DD x26 x30 | s14 => DD x26 x31 | s15 => DD x26 x32 | s16 => DD x26 x33 | s17 => DD x26 x34 | s18 => DD x26 x35 | s19 => DD x26 x36 | s20 => DD x26 x37 | s21 => DD x26 x38 | s22 => DD x26 x39 | s23 => DD x26 x40 | s24 => DD x26 x41 | s25 => DD x26 x42 | s26 => DD x26 x43 | s27 => DD x26 x44 | s28 => DD x26 x45 | s29 => DD x26 x46 | s30 => DD x26 x47 | s31 => DD x26 x48 | s32 => DD x26 x49 | s33 => DD x26 x50 | s34 => DD x26 x51 | s35 => DD x26 x52 | s36 => DD x26 x53 | s37 => DD x26 x54 | s38 => DD x26 x55 | s39 => DD x26 x56 | s40 => DD x26 x57 | s41 => DD x26 x58 | s42 => DD x26 x59 | s43 => DD x26 x60 | s44 => DD x26 x61 | s45 => DD x26 x62 | s46 => DD x26 x63 | s47 => DD x27 x0 | s48 => DD x27 x1 | s49 => DD x27 x2 | s50 => DD x27 x3 | s51 => DD x27 x4 | s52 => DD x27 x5 | s53 => DD x27 x6 | s54 => DD x27 x7 | s55 => DD x27 x8 | s56 => DD x27 x9 | s57 => DD x27 x10 | s58 => DD x27 x11 | s59 => DD x27 x12 | s60 => DD x27 x13 | s61 => DD x27 x14 | s62 => DD x27 x15 | s63 => DD x27 x16 | s64 => DD x27 x17 | s65 => DD x27 x18 | s66 => DD x27 x19 | s67 => DD x27 x20 | s68 => DD x27 x21 | s69 => DD x27 x22 | s70 => DD x27 x23 | s71 => DD x27 x24 | s72 => DD x27 x25 | s73 => DD x27 x26 | s74 => DD x27 x27 | s75 => DD x27 x28 | s76 => DD x27 x29 | s77 => DD x27 x30 | s78 => DD x27 x31 | s79 => DD x27 x32 | s80 => DD x27 x33 | s81 => DD x27 x34 | s82 => DD x27 x35 | s83 => DD x27 x36 | s84 => DD x27 x37 | s85 => DD x27 x38 | s86 => DD x27 x39 | s87 => DD x27 x40 | s88 => DD x27 x41 | s89 => DD x27 x42 | s90 => DD x27 x43 | s91 => DD x27 x44 | s92 => DD x27 x45 | s93 => DD x27 x46 | s94 => DD x27 x47 | s95 => DD x27 x48 | s96 => DD x27 x49 | s97 => DD x27 x50 | s98 => DD x27 x51 | s99 => DD x27 x52 | s100 => DD x27 x53 | s101 => DD x27 x54 | s102 => DD x27 x55 | s103 => DD x27 x56 | s104 => DD x27 x57 | s105 => DD x27 x58 | s106 => DD x27 x59 | s107 => DD x27 x60 | s108 => DD x27 x61 | s109 => DD x27 x62 | s110 => DD x27 x63 | s111 => DD x28 x0 | s112 => DD x28 x1 | s113 => DD x28 x2 | s114 => DD x28 x3 | s115 => DD x28 x4 | s116 => DD x28 x5 | s117 => DD x28 x6 | s118 => DD x28 x7 | s119 => DD x28 x8 | s120 => DD x28 x9 | s121 => DD x28 x10 | s122 => DD x28 x11 | s123 => DD x28 x12 | s124 => DD x28 x13 | s125 => DD x28 x14 | s126 => DD x28 x15 end.
Definition m1682 (c : sum2) : dd := match c with s0 => DD x26 x18 | s1 => DD x26 x19 | s2 => DD x26 x20 | s3 => DD x26 x21 | s4 => DD x26 x22 | s5 => DD x26 x23 | s6 => DD x26 x24 | s7 => DD x26 x25 | s8 => DD x26 x26 | s9 => DD x26 x27 | s10 => DD x26 x28 | s11 => DD x26 x29 | s12 => DD x26 x30 | s13 => DD x26 x31 | s14 => DD x26 x32 | s15 => DD x26 x33 | s16 => DD x26 x34 | s17 => DD x26 x35 | s18 => DD x26 x36 | s19 => DD x26 x37 | s20 => DD x26 x38 | s21 => DD x26 x39 | s22 => DD x26 x40 | s23 => DD x26 x41 | s24 => DD x26 x42 | s25 => DD x26 x43 | s26 => DD x26 x44 | s27 => DD x26 x45 | s28 => DD x26 x46 | s29 => DD x26 x47 | s30 => DD x26 x48 | s31 => DD x26 x49 | s32 => DD x26 x50 | s33 => DD x26 x51 | s34 => DD x26 x52 | s35 => DD x26 x53 | s36 => DD x26 x54 | s37 => DD x26 x55 | s38 => DD x26 x56 | s39 => DD x26 x57 | s40 => DD x26 x58 | s41 => DD x26 x59 | s42 => DD x26 x60 | s43 => DD x26 x61 | s44 => DD x26 x62 | s45 => DD x26 x63 | s46 => DD x27 x0 | s47 => DD x27 x1 | s48 => DD x27 x2 | s49 => DD x27 x3 | s50 => DD x27 x4 | s51 => DD x27 x5 | s52 => DD x27 x6 | s53 => DD x27 x7 | s54 => DD x27 x8 | s55 => DD x27 x9 | s56 => DD x27 x10 | s57 => DD x27 x11 | s58 => DD x27 x12 | s59 => DD x27 x13 | s60 => DD x27 x14 | s61 => DD x27 x15 | s62 => DD x27 x16 | s63 => DD x27 x17 | s64 => DD x27 x18 | s65 => DD x27 x19 | s66 => DD x27 x20 | s67 => DD x27 x21 | s68 => DD x27 x22 | s69 => DD x27 x23 | s70 => DD x27 x24 | s71 => DD x27 x25 | s72 => DD x27 x26 | s73 => DD x27 x27 | s74 => DD x27 x28 | s75 => DD x27 x29 | s76 => DD x27 x30 | s77 => DD x27 x31 | s78 => DD x27 x32 | s79 => DD x27 x33 | s80 => DD x27 x34 | s81 => DD x27 x35 | s82 => DD x27 x36 | s83 => DD x27 x37 | s84 => DD x27 x38 | s85 => DD x27 x39 | s86 => DD x27 x40 | s87 => DD x27 x41 | s88 => DD x27 x42 | s89 => DD x27 x43 | s90 => DD x27 x44 | s91 => DD x27 x45 | s92 => DD x27 x46 | s93 => DD x27 x47 | s94 => DD x27 x48 | s95 => DD x27 x49 | s96 => DD x27 x50 | s97 => DD x27 x51 | s98 => DD x27 x52 | s99 => DD x27 x53 | s100 => DD x27 x54 | s101 => DD x27 x55 | s102 => DD x27 x56 | s103 => DD x27 x57 | s104 => DD x27 x58 | s105 => DD x27 x59 | s106 => DD x27 x60 | s107 => DD x27 x61 | s108 => DD x27 x62 | s109 => DD x27 x63 | s110 => DD x28 x0 | s111 => DD x28 x1 | s112 => DD x28 x2 | s113 => DD x28 x3 | s114 => DD x28 x4 | s115 => DD x28 x5 | s116 => DD x28 x6 | s117 => DD x28 x7 | s118 => DD x28 x8 | s119 => DD x28 x9 | s120 => DD x28 x10 | s121 => DD x28 x11 | s122 => DD x28 x12 | s123 => DD x28 x13 | s124 => DD x28 x14 | s125 => DD x28 x15 | s126 => DD x28 x16 end.
Definition m1683 (c : sum2) : dd := match c with s0 => DD x26 x19 | s1 => DD x26 x20 | s2 => DD x26 x21 | s3 => DD x26 x22 | s4 => DD x26 x23 | s5 => DD x26 x24 | s6 => DD x26 x25 | s7 => DD x26 x26 | s8 => DD x26 x27 | s9 => DD x26 x28 | s10 => DD x26 x29 | s11 => DD x26 x30 | s12 => DD x26 x31 | s13 => DD x26 x32 | s14 => DD x26 x33 | s15 => DD x26 x34 | s16 => DD x26 x35 | s17 => DD x26 x36 | s18 => DD x26 x37 | s19 => DD x26 x38 | s20 => DD x26 x39 | s21 => DD x26 x40 | s22 => DD x26 x41 | s23 => DD x26 x42 | s24 => DD x26 x43 | s25 => DD x26 x44 | s26 => DD x26 x45 | s27 => DD x26 x46 | s28 => DD x26 x47 | s29 => DD x26 x48 | s30 => DD x26 x49 | s31 => DD x26 x50 | s32 => DD x26 x51 | s33 => DD x26 x52 | s34 => DD x26 x53 | s35 => DD x26 x54 | s36 => DD x26 x55 | s37 => DD x26 x56 | s38 => DD x26 x57 | s39 => DD x26 x58 | s40 => DD x26 x59 | s41 => DD x26 x60 | s42 => DD x26 x61 | s43 => DD x26 x62 | s44 => DD x26 x63 | s45 => DD x27 x0 | s46 => DD x27 x1 | s47 => DD x27 x2 | s48 => DD x27 x3 | s49 => DD x27 x4 | s50 => DD x27 x5 | s51 => DD x27 x6 | s52 => DD x27 x7 | s53 => DD x27 x8 | s54 => DD x27 x9 | s55 => DD x27 x10 | s56 => DD x27 x11 | s57 => DD x27 x12 | s58 => DD x27 x13 | s59 => DD x27 x14 | s60 => DD x27 x15 | s61 => DD x27 x16 | s62 => DD x27 x17 | s63 => DD x27 x18 | s64 => DD x27 x19 | s65 => DD x27 x20 | s66 => DD x27 x21 | s67 => DD x27 x22 | s68 => DD x27 x23 | s69 => DD x27 x24 | s70 => DD x27 x25 | s71 => DD x27 x26 | s72 => DD x27 x27 | s73 => DD x27 x28 | s74 => DD x27 x29 | s75 => DD x27 x30 | s76 => DD x27 x31 | s77 => DD x27 x32 | s78 => DD x27 x33 | s79 => DD x27 x34 | s80 => DD x27 x35 | s81 => DD x27 x36 | s82 => DD x27 x37 | s83 => DD x27 x38 | s84 => DD x27 x39 | s85 => DD x27 x40 | s86 => DD x27 x41 | s87 => DD x27 x42 | s88 => DD x27 x43 | s89 => DD x27 x44 | s90 => DD x27 x45 | s91 => DD x27 x46 | s92 => DD x27 x47 | s93 => DD x27 x48 | s94 => DD x27 x49 | s95 => DD x27 x50 | s96 => DD x27 x51 | s97 => DD x27 x52 | s98 => DD x27 x53 | s99 => DD x27 x54 | s100 => DD x27 x55 | s101 => DD x27 x56 | s102 => DD x27 x57 | s103 => DD x27 x58 | s104 => DD x27 x59 | s105 => DD x27 x60 | s106 => DD x27 x61 | s107 => DD x27 x62 | s108 => DD x27 x63 | s109 => DD x28 x0 | s110 => DD x28 x1 | s111 => DD x28 x2 | s112 => DD x28 x3 | s113 => DD x28 x4 | s114 => DD x28 x5 | s115 => DD x28 x6 | s116 => DD x28 x7 | s117 => DD x28 x8 | s118 => DD x28 x9 | s119 => DD x28 x10 | s120 => DD x28 x11 | s121 => DD x28 x12 | s122 => DD x28 x13 | s123 => DD x28 x14 | s124 => DD x28 x15 | s125 => DD x28 x16 | s126 => DD x28 x17 end.
Definition m1692 (c : sum2) : dd := match c with s0 => DD x26 x28 | s1 => DD x26 x29 | s2 => DD x26 x30 | s3 => DD x26 x31 | s4 => DD x26 x32 | s5 => DD x26 x33 | s6 => DD x26 x34 | s7 => DD x26 x35 | s8 => DD x26 x36 | s9 => DD x26 x37 | s10 => DD x26 x38 | s11 => DD x26 x39 | s12 => DD x26 x40 | s13 => DD x26 x41 | s14 => DD x26 x42 | s15 => DD x26 x43 | s16 => DD x26 x44 | s17 => DD x26 x45 | s18 => DD x26 x46 | s19 => DD x26 x47 | s20 => DD x26 x48 | s21 => DD x26 x49 | s22 => DD x26 x50 | s23 => DD x26 x51 | s24 => DD x26 x52 | s25 => DD x26 x53 | s26 => DD x26 x54 | s27 => DD x26 x55 | s28 => DD x26 x56 | s29 => DD x26 x57 | s30 => DD x26 x58 | s31 => DD x26 x59 | s32 => DD x26 x60 | s33 => DD x26 x61 | s34 => DD x26 x62 | s35 => DD x26 x63 | s36 => DD x27 x0 | s37 => DD x27 x1 | s38 => DD x27 x2 | s39 => DD x27 x3 | s40 => DD x27 x4 | s41 => DD x27 x5 | s42 => DD x27 x6 | s43 => DD x27 x7 | s44 => DD x27 x8 | s45 => DD x27 x9 | s46 => DD x27 x10 | s47 => DD x27 x11 | s48 => DD x27 x12 | s49 => DD x27 x13 | s50 => DD x27 x14 | s51 => DD x27 x15 | s52 => DD x27 x16 | s53 => DD x27 x17 | s54 => DD x27 x18 | s55 => DD x27 x19 | s56 => DD x27 x20 | s57 => DD x27 x21 | s58 => DD x27 x22 | s59 => DD x27 x23 | s60 => DD x27 x24 | s61 => DD x27 x25 | s62 => DD x27 x26 | s63 => DD x27 x27 | s64 => DD x27 x28 | s65 => DD x27 x29 | s66 => DD x27 x30 | s67 => DD x27 x31 | s68 => DD x27 x32 | s69 => DD x27 x33 | s70 => DD x27 x34 | s71 => DD x27 x35 | s72 => DD x27 x36 | s73 => DD x27 x37 | s74 => DD x27 x38 | s75 => DD x27 x39 | s76 => DD x27 x40 | s77 => DD x27 x41 | s78 => DD x27 x42 | s79 => DD x27 x43 | s80 => DD x27 x44 | s81 => DD x27 x45 | s82 => DD x27 x46 | s83 => DD x27 x47 | s84 => DD x27 x48 | s85 => DD x27 x49 | s86 => DD x27 x50 | s87 => DD x27 x51 | s88 => DD x27 x52 | s89 => DD x27 x53 | s90 => DD x27 x54 | s91 => DD x27 x55 | s92 => DD x27 x56 | s93 => DD x27 x57 | s94 => DD x27 x58 | s95 => DD x27 x59 | s96 => DD x27 x60 | s97 => DD x27 x61 | s98 => DD x27 x62 | s99 => DD x27 x63 | s100 => DD x28 x0 | s101 => DD x28 x1 | s102 => DD x28 x2 | s103 => DD x28 x3 | s104 => DD x28 x4 | s105 => DD x28 x5 | s106 => DD x28 x6 | s107 => DD x28 x7 | s108 => DD x28 x8 | s109 => DD x28 x9 | s110 => DD x28 x10 | s111 => DD x28 x11 | s112 => DD x28 x12 | s113 => DD x28 x13 | s114 => DD x28 x14 | s115 => DD x28 x15 | s116 => DD x28 x16 | s117 => DD x28 x17 | s118 => DD x28 x18 | s119 => DD x28 x19 | s120 => DD x28 x20 | s121 => DD x28 x21 | s122 => DD x28 x22 | s123 => DD x28 x23 | s124 => DD x28 x24 | s125 => DD x28 x25 | s126 => DD x28 x26 end.
Definition m1696 (c : sum2) : dd := match c with s0 => DD x26 x32 | s1 => DD x26 x33 | s2 => DD x26 x34 | s3 => DD x26 x35 | s4 => DD x26 x36 | s5 => DD x26 x37 | s6 => DD x26 x38 | s7 => DD x26 x39 | s8 => DD x26 x40 | s9 => DD x26 x41 | s10 => DD x26 x42 | s11 => DD x26 x43 | s12 => DD x26 x44 | s13 => DD x26 x45 | s14 => DD x26 x46 | s15 => DD x26 x47 | s16 => DD x26 x48 | s17 => DD x26 x49 | s18 => DD x26 x50 | s19 => DD x26 x51 | s20 => DD x26 x52 | s21 => DD x26 x53 | s22 => DD x26 x54 | s23 => DD x26 x55 | s24 => DD x26 x56 | s25 => DD x26 x57 | s26 => DD x26 x58 | s27 => DD x26 x59 | s28 => DD x26 x60 | s29 => DD x26 x61 | s30 => DD x26 x62 | s31 => DD x26 x63 | s32 => DD x27 x0 | s33 => DD x27 x1 | s34 => DD x27 x2 | s35 => DD x27 x3 | s36 => DD x27 x4 | s37 => DD x27 x5 | s38 => DD x27 x6 | s39 => DD x27 x7 | s40 => DD x27 x8 | s41 => DD x27 x9 | s42 => DD x27 x10 | s43 => DD x27 x11 | s44 => DD x27 x12 | s45 => DD x27 x13 | s46 => DD x27 x14 | s47 => DD x27 x15 | s48 => DD x27 x16 | s49 => DD x27 x17 | s50 => DD x27 x18 | s51 => DD x27 x19 | s52 => DD x27 x20 | s53 => DD x27 x21 | s54 => DD x27 x22 | s55 => DD x27 x23 | s56 => DD x27 x24 | s57 => DD x27 x25 | s58 => DD x27 x26 | s59 => DD x27 x27 | s60 => DD x27 x28 | s61 => DD x27 x29 | s62 => DD x27 x30 | s63 => DD x27 x31 | s64 => DD x27 x32 | s65 => DD x27 x33 | s66 => DD x27 x34 | s67 => DD x27 x35 | s68 => DD x27 x36 | s69 => DD x27 x37 | s70 => DD x27 x38 | s71 => DD x27 x39 | s72 => DD x27 x40 | s73 => DD x27 x41 | s74 => DD x27 x42 | s75 => DD x27 x43 | s76 => DD x27 x44 | s77 => DD x27 x45 | s78 => DD x27 x46 | s79 => DD x27 x47 | s80 => DD x27 x48 | s81 => DD x27 x49 | s82 => DD x27 x50 | s83 => DD x27 x51 | s84 => DD x27 x52 | s85 => DD x27 x53 | s86 => DD x27 x54 | s87 => DD x27 x55 | s88 => DD x27 x56 | s89 => DD x27 x57 | s90 => DD x27 x58 | s91 => DD x27 x59 | s92 => DD x27 x60 | s93 => DD x27 x61 | s94 => DD x27 x62 | s95 => DD x27 x63 | s96 => DD x28 x0 | s97 => DD x28 x1 | s98 => DD x28 x2 | s99 => DD x28 x3 | s100 => DD x28 x4 | s101 => DD x28 x5 | s102 => DD x28 x6 | s103 => DD x28 x7 | s104 => DD x28 x8 | s105 => DD x28 x9 | s106 => DD x28 x10 | s107 => DD x28 x11 | s108 => DD x28 x12 | s109 => DD x28 x13 | s110 => DD x28 x14 | s111 => DD x28 x15 | s112 => DD x28 x16 | s113 => DD x28 x17 | s114 => DD x28 x18 | s115 => DD x28 x19 | s116 => DD x28 x20 | s117 => DD x28 x21 | s118 => DD x28 x22 | s119 => DD x28 x23 | s120 => DD x28 x24 | s121 => DD x28 x25 | s122 => DD x28 x26 | s123 => DD x28 x27 | s124 => DD x28 x28 | s125 => DD x28 x29 | s126 => DD x28 x30 end.
Definition m1700 (c : sum2) : dd := match c with s0 => DD x26 x36 | s1 => DD x26 x37 | s2 => DD x26 x38 | s3 => DD x26 x39 | s4 => DD x26 x40 | s5 => DD x26 x41 | s6 => DD x26 x42 | s7 => DD x26 x43 | s8 => DD x26 x44 | s9 => DD x26 x45 | s10 => DD x26 x46 | s11 => DD x26 x47 | s12 => DD x26 x48 | s13 => DD x26 x49 | s14 => DD x26 x50 | s15 => DD x26 x51 | s16 => DD x26 x52 | s17 => DD x26 x53 | s18 => DD x26 x54 | s19 => DD x26 x55 | s20 => DD x26 x56 | s21 => DD x26 x57 | s22 => DD x26 x58 | s23 => DD x26 x59 | s24 => DD x26 x60 | s25 => DD x26 x61 | s26 => DD x26 x62 | s27 => DD x26 x63 | s28 => DD x27 x0 | s29 => DD x27 x1 | s30 => DD x27 x2 | s31 => DD x27 x3 | s32 => DD x27 x4 | s33 => DD x27 x5 | s34 => DD x27 x6 | s35 => DD x27 x7 | s36 => DD x27 x8 | s37 => DD x27 x9 | s38 => DD x27 x10 | s39 => DD x27 x11 | s40 => DD x27 x12 | s41 => DD x27 x13 | s42 => DD x27 x14 | s43 => DD x27 x15 | s44 => DD x27 x16 | s45 => DD x27 x17 | s46 => DD x27 x18 | s47 => DD x27 x19 | s48 => DD x27 x20 | s49 => DD x27 x21 | s50 => DD x27 x22 | s51 => DD x27 x23 | s52 => DD x27 x24 | s53 => DD x27 x25 | s54 => DD x27 x26 | s55 => DD x27 x27 | s56 => DD x27 x28 | s57 => DD x27 x29 | s58 => DD x27 x30 | s59 => DD x27 x31 | s60 => DD x27 x32 | s61 => DD x27 x33 | s62 => DD x27 x34 | s63 => DD x27 x35 | s64 => DD x27 x36 | s65 => DD x27 x37 | s66 => DD x27 x38 | s67 => DD x27 x39 | s68 => DD x27 x40 | s69 => DD x27 x41 | s70 => DD x27 x42 | s71 => DD x27 x43 | s72 => DD x27 x44 | s73 => DD x27 x45 | s74 => DD x27 x46 | s75 => DD x27 x47 | s76 => DD x27 x48 | s77 => DD x27 x49 | s78 => DD x27 x50 | s79 => DD x27 x51 | s80 => DD x27 x52 | s81 => DD x27 x53 | s82 => DD x27 x54 | s83 => DD x27 x55 | s84 => DD x27 x56 | s85 => DD x27 x57 | s86 => DD x27 x58 | s87 => DD x27 x59 | s88 => DD x27 x60 | s89 => DD x27 x61 | s90 => DD x27 x62 | s91 => DD x27 x63 | s92 => DD x28 x0 | s93 => DD x28 x1 | s94 => DD x28 x2 | s95 => DD x28 x3 | s96 => DD x28 x4 | s97 => DD x28 x5 | s98 => DD x28 x6 | s99 => DD x28 x7 | s100 => DD x28 x8 | s101 => DD x28 x9 | s102 => DD x28 x10 | s103 => DD x28 x11 | s104 => DD x28 x12 | s105 => DD x28 x13 | s106 => DD x28 x14 | s107 => DD x28 x15 | s108 => DD x28 x16 | s109 => DD x28 x17 | s110 => DD x28 x18 | s111 => DD x28 x19 | s112 => DD x28 x20 | s113 => DD x28 x21 | s114 => DD x28 x22 | s115 => DD x28 x23 | s116 => DD x28 x24 | s117 => DD x28 x25 | s118 => DD x28 x26 | s119 => DD x28 x27 | s120 => DD x28 x28 | s121 => DD x28 x29 | s122 => DD x28 x30 | s123 => DD x28 x31 | s124 => DD x28 x32 | s125 => DD x28 x33 | s126 => DD x28 x34 end.
Definition m1701 (c : sum2) : dd := match c with s0 => DD x26 x37 | s1 => DD x26 x38 | s2 => DD x26 x39 | s3 => DD x26 x40 | s4 => DD x26 x41 | s5 => DD x26 x42 | s6 => DD x26 x43 | s7 => DD x26 x44 | s8 => DD x26 x45 | s9 => DD x26 x46 | s10 => DD x26 x47 | s11 => DD x26 x48 | s12 => DD x26 x49 | s13 => DD x26 x50 | s14 => DD x26 x51 | s15 => DD x26 x52 | s16 => DD x26 x53 | s17 => DD x26 x54 | s18 => DD x26 x55 | s19 => DD x26 x56 | s20 => DD x26 x57 | s21 => DD x26 x58 | s22 => DD x26 x59 | s23 => DD x26 x60 | s24 => DD x26 x61 | s25 => DD x26 x62 | s26 => DD x26 x63 | s27 => DD x27 x0 | s28 => DD x27 x1 | s29 => DD x27 x2 | s30 => DD x27 x3 | s31 => DD x27 x4 | s32 => DD x27 x5 | s33 => DD x27 x6 | s34 => DD x27 x7 | s35 => DD x27 x8 | s36 => DD x27 x9 | s37 => DD x27 x10 | s38 => DD x27 x11 | s39 => DD x27 x12 | s40 => DD x27 x13 | s41 => DD x27 x14 | s42 => DD x27 x15 | s43 => DD x27 x16 | s44 => DD x27 x17 | s45 => DD x27 x18 | s46 => DD x27 x19 | s47 => DD x27 x20 | s48 => DD x27 x21 | s49 => DD x27 x22 | s50 => DD x27 x23 | s51 => DD x27 x24 | s52 => DD x27 x25 | s53 => DD x27 x26 | s54 => DD x27 x27 | s55 => DD x27 x28 | s56 => DD x27 x29 | s57 => DD x27 x30 | s58 => DD x27 x31 | s59 => DD x27 x32 | s60 => DD x27 x33 | s61 => DD x27 x34 | s62 => DD x27 x35 | s63 => DD x27 x36 | s64 => DD x27 x37 | s65 => DD x27 x38 | s66 => DD x27 x39 | s67 => DD x27 x40 | s68 => DD x27 x41 | s69 => DD x27 x42 | s70 => DD x27 x43 | s71 => DD x27 x44 | s72 => DD x27 x45 | s73 => DD x27 x46 | s74 => DD x27 x47 | s75 => DD x27 x48 | s76 => DD x27 x49 | s77 => DD x27 x50 | s78 => DD x27 x51 | s79 => DD x27 x52 | s80 => DD x27 x53 | s81 => DD x27 x54 | s82 => DD x27 x55 | s83 => DD x27 x56 | s84 => DD x27 x57 | s85 => DD x27 x58 | s86 => DD x27 x59 | s87 => DD x27 x60 | s88 => DD x27 x61 | s89 => DD x27 x62 | s90 => DD x27 x63 | s91 => DD x28 x0 | s92 => DD x28 x1 | s93 => DD x28 x2 | s94 => DD x28 x3 | s95 => DD x28 x4 | s96 => DD x28 x5 | s97 => DD x28 x6 | s98 => DD x28 x7 | s99 => DD x28 x8 | s100 => DD x28 x9 | s101 => DD x28 x10 | s102 => DD x28 x11 | s103 => DD x28 x12 | s104 => DD x28 x13 | s105 => DD x28 x14 | s106 => DD x28 x15 | s107 => DD x28 x16 | s108 => DD x28 x17 | s109 => DD x28 x18 | s110 => DD x28 x19 | s111 => DD x28 x20 | s112 => DD x28 x21 | s113 => DD x28 x22 | s114 => DD x28 x23 | s115 => DD x28 x24 | s116 => DD x28 x25 | s117 => DD x28 x26 | s118 => DD x28 x27 | s119 => DD x28 x28 | s120 => DD x28 x29 | s121 => DD x28 x30 | s122 => DD x28 x31 | s123 => DD x28 x32 | s124 => DD x28 x33 | s125 => DD x28 x34 | s126 => DD x28 x35 end.
Definition m1702 (c : sum2) : dd := match c with s0 => DD x26 x38 | s1 => DD x26 x39 | s2 => DD x26 x40 | s3 => DD x26 x41 | s4 => DD x26 x42 | s5 => DD x26 x43 | s6 => DD x26 x44 | s7 => DD x26 x45 | s8 => DD x26 x46 | s9 => DD x26 x47 | s10 => DD x26 x48 | s11 => DD x26 x49 | s12 => DD x26 x50 | s13 => DD x26 x51 | s14 => DD x26 x52 | s15 => DD x26 x53 | s16 => DD x26 x54 | s17 => DD x26 x55 | s18 => DD x26 x56 | s19 => DD x26 x57 | s20 => DD x26 x58 | s21 => DD x26 x59 | s22 => DD x26 x60 | s23 => DD x26 x61 | s24 => DD x26 x62 | s25 => DD x26 x63 | s26 => DD x27 x0 | s27 => DD x27 x1 | s28 => DD x27 x2 | s29 => DD x27 x3 | s30 => DD x27 x4 | s31 => DD x27 x5 | s32 => DD x27 x6 | s33 => DD x27 x7 | s34 => DD x27 x8 | s35 => DD x27 x9 | s36 => DD x27 x10 | s37 => DD x27 x11 | s38 => DD x27 x12 | s39 => DD x27 x13 | s40 => DD x27 x14 | s41 => DD x27 x15 | s42 => DD x27 x16 | s43 => DD x27 x17 | s44 => DD x27 x18 | s45 => DD x27 x19 | s46 => DD x27 x20 | s47 => DD x27 x21 | s48 => DD x27 x22 | s49 => DD x27 x23 | s50 => DD x27 x24 | s51 => DD x27 x25 | s52 => DD x27 x26 | s53 => DD x27 x27 | s54 => DD x27 x28 | s55 => DD x27 x29 | s56 => DD x27 x30 | s57 => DD x27 x31 | s58 => DD x27 x32 | s59 => DD x27 x33 | s60 => DD x27 x34 | s61 => DD x27 x35 | s62 => DD x27 x36 | s63 => DD x27 x37 | s64 => DD x27 x38 | s65 => DD x27 x39 | s66 => DD x27 x40 | s67 => DD x27 x41 | s68 => DD x27 x42 | s69 => DD x27 x43 | s70 => DD x27 x44 | s71 => DD x27 x45 | s72 => DD x27 x46 | s73 => DD x27 x47 | s74 => DD x27 x48 | s75 => DD x27 x49 | s76 => DD x27 x50 | s77 => DD x27 x51 | s78 => DD x27 x52 | s79 => DD x27 x53 | s80 => DD x27 x54 | s81 => DD x27 x55 | s82 => DD x27 x56 | s83 => DD x27 x57 | s84 => DD x27 x58 | s85 => DD x27 x59 | s86 => DD x27 x60 | s87 => DD x27 x61 | s88 => DD x27 x62 | s89 => DD x27 x63 | s90 => DD x28 x0 | s91 => DD x28 x1 | s92 => DD x28 x2 | s93 => DD x28 x3 | s94 => DD x28 x4 | s95 => DD x28 x5 | s96 => DD x28 x6 | s97 => DD x28 x7 | s98 => DD x28 x8 | s99 => DD x28 x9 | s100 => DD x28 x10 | s101 => DD x28 x11 | s102 => DD x28 x12 | s103 => DD x28 x13 | s104 => DD x28 x14 | s105 => DD x28 x15 | s106 => DD x28 x16 | s107 => DD x28 x17 | s108 => DD x28 x18 | s109 => DD x28 x19 | s110 => DD x28 x20 | s111 => DD x28 x21 | s112 => DD x28 x22 | s113 => DD x28 x23 | s114 => DD x28 x24 | s115 => DD x28 x25 | s116 => DD x28 x26 | s117 => DD x28 x27 | s118 => DD x28 x28 | s119 => DD x28 x29 | s120 => DD x28 x30 | s121 => DD x28 x31 | s122 => DD x28 x32 | s123 => DD x28 x33 | s124 => DD x28 x34 | s125 => DD x28 x35 | s126 => DD x28 x36 end.
Definition m1705 (c : sum2) : dd := match c with s0 => DD x26 x41 | s1 => DD x26 x42 | s2 => DD x26 x43 | s3 => DD x26 x44 | s4 => DD x26 x45 | s5 => DD x26 x46 | s6 => DD x26 x47 | s7 => DD x26 x48 | s8 => DD x26 x49 | s9 => DD x26 x50 | s10 => DD x26 x51 | s11 => DD x26 x52 | s12 => DD x26 x53 | s13 => DD x26 x54 | s14 => DD x26 x55 | s15 => DD x26 x56 | s16 => DD x26 x57 | s17 => DD x26 x58 | s18 => DD x26 x59 | s19 => DD x26 x60 | s20 => DD x26 x61 | s21 => DD x26 x62 | s22 => DD x26 x63 | s23 => DD x27 x0 | s24 => DD x27 x1 | s25 => DD x27 x2 | s26 => DD x27 x3 | s27 => DD x27 x4 | s28 => DD x27 x5 | s29 => DD x27 x6 | s30 => DD x27 x7 | s31 => DD x27 x8 | s32 => DD x27 x9 | s33 => DD x27 x10 | s34 => DD x27 x11 | s35 => DD x27 x12 | s36 => DD x27 x13 | s37 => DD x27 x14 | s38 => DD x27 x15 | s39 => DD x27 x16 | s40 => DD x27 x17 | s41 => DD x27 x18 | s42 => DD x27 x19 | s43 => DD x27 x20 | s44 => DD x27 x21 | s45 => DD x27 x22 | s46 => DD x27 x23 | s47 => DD x27 x24 | s48 => DD x27 x25 | s49 => DD x27 x26 | s50 => DD x27 x27 | s51 => DD x27 x28 | s52 => DD x27 x29 | s53 => DD x27 x30 | s54 => DD x27 x31 | s55 => DD x27 x32 | s56 => DD x27 x33 | s57 => DD x27 x34 | s58 => DD x27 x35 | s59 => DD x27 x36 | s60 => DD x27 x37 | s61 => DD x27 x38 | s62 => DD x27 x39 | s63 => DD x27 x40 | s64 => DD x27 x41 | s65 => DD x27 x42 | s66 => DD x27 x43 | s67 => DD x27 x44 | s68 => DD x27 x45 | s69 => DD x27 x46 | s70 => DD x27 x47 | s71 => DD x27 x48 | s72 => DD x27 x49 | s73 => DD x27 x50 | s74 => DD x27 x51 | s75 => DD x27 x52 | s76 => DD x27 x53 | s77 => DD x27 x54 | s78 => DD x27 x55 | s79 => DD x27 x56 | s80 => DD x27 x57 | s81 => DD x27 x58 | s82 => DD x27 x59 | s83 => DD x27 x60 | s84 => DD x27 x61 | s85 => DD x27 x62 | s86 => DD x27 x63 | s87 => DD x28 x0 | s88 => DD x28 x1 | s89 => DD x28 x2 | s90 => DD x28 x3 | s91 => DD x28 x4 | s92 => DD x28 x5 | s93 => DD x28 x6 | s94 => DD x28 x7 | s95 => DD x28 x8 | s96 => DD x28 x9 | s97 => DD x28 x10 | s98 => DD x28 x11 | s99 => DD x28 x12 | s100 => DD x28 x13 | s101 => DD x28 x14 | s102 => DD x28 x15 | s103 => DD x28 x16 | s104 => DD x28 x17 | s105 => DD x28 x18 | s106 => DD x28 x19 | s107 => DD x28 x20 | s108 => DD x28 x21 | s109 => DD x28 x22 | s110 => DD x28 x23 | s111 => DD x28 x24 | s112 => DD x28 x25 | s113 => DD x28 x26 | s114 => DD x28 x27 | s115 => DD x28 x28 | s116 => DD x28 x29 | s117 => DD x28 x30 | s118 => DD x28 x31 | s119 => DD x28 x32 | s120 => DD x28 x33 | s121 => DD x28 x34 | s122 => DD x28 x35 | s123 => DD x28 x36 | s124 => DD x28 x37 | s125 => DD x28 x38 | s126 => DD x28 x39 end.
Definition m1708 (c : sum2) : dd := match c with s0 => DD x26 x44 | s1 => DD x26 x45 | s2 => DD x26 x46 | s3 => DD x26 x47 | s4 => DD x26 x48 | s5 => DD x26 x49 | s6 => DD x26 x50 | s7 => DD x26 x51 | s8 => DD x26 x52 | s9 => DD x26 x53 | s10 => DD x26 x54 | s11 => DD x26 x55 | s12 => DD x26 x56 | s13 => DD x26 x57 | s14 => DD x26 x58 | s15 => DD x26 x59 | s16 => DD x26 x60 | s17 => DD x26 x61 | s18 => DD x26 x62 | s19 => DD x26 x63 | s20 => DD x27 x0 | s21 => DD x27 x1 | s22 => DD x27 x2 | s23 => DD x27 x3 | s24 => DD x27 x4 | s25 => DD x27 x5 | s26 => DD x27 x6 | s27 => DD x27 x7 | s28 => DD x27 x8 | s29 => DD x27 x9 | s30 => DD x27 x10 | s31 => DD x27 x11 | s32 => DD x27 x12 | s33 => DD x27 x13 | s34 => DD x27 x14 | s35 => DD x27 x15 | s36 => DD x27 x16 | s37 => DD x27 x17 | s38 => DD x27 x18 | s39 => DD x27 x19 | s40 => DD x27 x20 | s41 => DD x27 x21 | s42 => DD x27 x22 | s43 => DD x27 x23 | s44 => DD x27 x24 | s45 => DD x27 x25 | s46 => DD x27 x26 | s47 => DD x27 x27 | s48 => DD x27 x28 | s49 => DD x27 x29 | s50 => DD x27 x30 | s51 => DD x27 x31 | s52 => DD x27 x32 | s53 => DD x27 x33 | s54 => DD x27 x34 | s55 => DD x27 x35 | s56 => DD x27 x36 | s57 => DD x27 x37 | s58 => DD x27 x38 | s59 => DD x27 x39 | s60 => DD x27 x40 | s61 => DD x27 x41 | s62 => DD x27 x42 | s63 => DD x27 x43 | s64 => DD x27 x44 | s65 => DD x27 x45 | s66 => DD x27 x46 | s67 => DD x27 x47 | s68 => DD x27 x48 | s69 => DD x27 x49 | s70 => DD x27 x50 | s71 => DD x27 x51 | s72 => DD x27 x52 | s73 => DD x27 x53 | s74 => DD x27 x54 | s75 => DD x27 x55 | s76 => DD x27 x56 | s77 => DD x27 x57 | s78 => DD x27 x58 | s79 => DD x27 x59 | s80 => DD x27 x60 | s81 => DD x27 x61 | s82 => DD x27 x62 | s83 => DD x27 x63 | s84 => DD x28 x0 | s85 => DD x28 x1 | s86 => DD x28 x2 | s87 => DD x28 x3 | s88 => DD x28 x4 | s89 => DD x28 x5 | s90 => DD x28 x6 | s91 => DD x28 x7 | s92 => DD x28 x8 | s93 => DD x28 x9 | s94 => DD x28 x10 | s95 => DD x28 x11 | s96 => DD x28 x12 | s97 => DD x28 x13 | s98 => DD x28 x14 | s99 => DD x28 x15 | s100 => DD x28 x16 | s101 => DD x28 x17 | s102 => DD x28 x18 | s103 => DD x28 x19 | s104 => DD x28 x20 | s105 => DD x28 x21 | s106 => DD x28 x22 | s107 => DD x28 x23 | s108 => DD x28 x24 | s109 => DD x28 x25 | s110 => DD x28 x26 | s111 => DD x28 x27 | s112 => DD x28 x28 | s113 => DD x28 x29 | s114 => DD x28 x30 | s115 => DD x28 x31 | s116 => DD x28 x32 | s117 => DD x28 x33 | s118 => DD x28 x34 | s119 => DD x28 x35 | s120 => DD x28 x36 | s121 => DD x28 x37 | s122 => DD x28 x38 | s123 => DD x28 x39 | s124 => DD x28 x40 | s125 => DD x28 x41 | s126 => DD x28 x42 end.
Definition m1710 (c : sum2) : dd := match c with s0 => DD x26 x46 | s1 => DD x26 x47 | s2 => DD x26 x48 | s3 => DD x26 x49 | s4 => DD x26 x50 | s5 => DD x26 x51 | s6 => DD x26 x52 | s7 => DD x26 x53 | s8 => DD x26 x54 | s9 => DD x26 x55 | s10 => DD x26 x56 | s11 => DD x26 x57 | s12 => DD x26 x58 | s13 => DD x26 x59 | s14 => DD x26 x60 | s15 => DD x26 x61 | s16 => DD x26 x62 | s17 => DD x26 x63 | s18 => DD x27 x0 | s19 => DD x27 x1 | s20 => DD x27 x2 | s21 => DD x27 x3 | s22 => DD x27 x4 | s23 => DD x27 x5 | s24 => DD x27 x6 | s25 => DD x27 x7 | s26 => DD x27 x8 | s27 => DD x27 x9 | s28 => DD x27 x10 | s29 => DD x27 x11 | s30 => DD x27 x12 | s31 => DD x27 x13 | s32 => DD x27 x14 | s33 => DD x27 x15 | s34 => DD x27 x16 | s35 => DD x27 x17 | s36 => DD x27 x18 | s37 => DD x27 x19 | s38 => DD x27 x20 | s39 => DD x27 x21 | s40 => DD x27 x22 | s41 => DD x27 x23 | s42 => DD x27 x24 | s43 => DD x27 x25 | s44 => DD x27 x26 | s45 => DD x27 x27 | s46 => DD x27 x28 | s47 => DD x27 x29 | s48 => DD x27 x30 | s49 => DD x27 x31 | s50 => DD x27 x32 | s51 => DD x27 x33 | s52 => DD x27 x34 | s53 => DD x27 x35 | s54 => DD x27 x36 | s55 => DD x27 x37 | s56 => DD x27 x38 | s57 => DD x27 x39 | s58 => DD x27 x40 | s59 => DD x27 x41 | s60 => DD x27 x42 | s61 => DD x27 x43 | s62 => DD x27 x44 | s63 => DD x27 x45 | s64 => DD x27 x46 | s65 => DD x27 x47 | s66 => DD x27 x48 | s67 => DD x27 x49 | s68 => DD x27 x50 | s69 => DD x27 x51 | s70 => DD x27 x52 | s71 => DD x27 x53 | s72 => DD x27 x54 | s73 => DD x27 x55 | s74 => DD x27 x56 | s75 => DD x27 x57 | s76 => DD x27 x58 | s77 => DD x27 x59 | s78 => DD x27 x60 | s79 => DD x27 x61 | s80 => DD x27 x62 | s81 => DD x27 x63 | s82 => DD x28 x0 | s83 => DD x28 x1 | s84 => DD x28 x2 | s85 => DD x28 x3 | s86 => DD x28 x4 | s87 => DD x28 x5 | s88 => DD x28 x6 | s89 => DD x28 x7 | s90 => DD x28 x8 | s91 => DD x28 x9 | s92 => DD x28 x10 | s93 => DD x28 x11 | s94 => DD x28 x12 | s95 => DD x28 x13 | s96 => DD x28 x14 | s97 => DD x28 x15 | s98 => DD x28 x16 | s99 => DD x28 x17 | s100 => DD x28 x18 | s101 => DD x28 x19 | s102 => DD x28 x20 | s103 => DD x28 x21 | s104 => DD x28 x22 | s105 => DD x28 x23 | s106 => DD x28 x24 | s107 => DD x28 x25 | s108 => DD x28 x26 | s109 => DD x28 x27 | s110 => DD x28 x28 | s111 => DD x28 x29 | s112 => DD x28 x30 | s113 => DD x28 x31 | s114 => DD x28 x32 | s115 => DD x28 x33 | s116 => DD x28 x34 | s117 => DD x28 x35 | s118 => DD x28 x36 | s119 => DD x28 x37 | s120 => DD x28 x38 | s121 => DD x28 x39 | s122 => DD x28 x40 | s123 => DD x28 x41 | s124 => DD x28 x42 | s125 => DD x28 x43 | s126 => DD x28 x44 end.
Definition m1711 (c : sum2) : dd := match c with s0 => DD x26 x47 | s1 => DD x26 x48 | s2 => DD x26 x49 | s3 => DD x26 x50 | s4 => DD x26 x51 | s5 => DD x26 x52 | s6 => DD x26 x53 | s7 => DD x26 x54 | s8 => DD x26 x55 | s9 => DD x26 x56 | s10 => DD x26 x57 | s11 => DD x26 x58 | s12 => DD x26 x59 | s13 => DD x26 x60 | s14 => DD x26 x61 | s15 => DD x26 x62 | s16 => DD x26 x63 | s17 => DD x27 x0 | s18 => DD x27 x1 | s19 => DD x27 x2 | s20 => DD x27 x3 | s21 => DD x27 x4 | s22 => DD x27 x5 | s23 => DD x27 x6 | s24 => DD x27 x7 | s25 => DD x27 x8 | s26 => DD x27 x9 | s27 => DD x27 x10 | s28 => DD x27 x11 | s29 => DD x27 x12 | s30 => DD x27 x13 | s31 => DD x27 x14 | s32 => DD x27 x15 | s33 => DD x27 x16 | s34 => DD x27 x17 | s35 => DD x27 x18 | s36 => DD x27 x19 | s37 => DD x27 x20 | s38 => DD x27 x21 | s39 => DD x27 x22 | s40 => DD x27 x23 | s41 => DD x27 x24 | s42 => DD x27 x25 | s43 => DD x27 x26 | s44 => DD x27 x27 | s45 => DD x27 x28 | s46 => DD x27 x29 | s47 => DD x27 x30 | s48 => DD x27 x31 | s49 => DD x27 x32 | s50 => DD x27 x33 | s51 => DD x27 x34 | s52 => DD x27 x35 | s53 => DD x27 x36 | s54 => DD x27 x37 | s55 => DD x27 x38 | s56 => DD x27 x39 | s57 => DD x27 x40 | s58 => DD x27 x41 | s59 => DD x27 x42 | s60 => DD x27 x43 | s61 => DD x27 x44 | s62 => DD x27 x45 | s63 => DD x27 x46 | s64 => DD x27 x47 | s65 => DD x27 x48 | s66 => DD x27 x49 | s67 => DD x27 x50 | s68 => DD x27 x51 | s69 => DD x27 x52 | s70 => DD x27 x53 | s71 => DD x27 x54 | s72 => DD x27 x55 | s73 => DD x27 x56 | s74 => DD x27 x57 | s75 => DD x27 x58 | s76 => DD x27 x59 | s77 => DD x27 x60 | s78 => DD x27 x61 | s79 => DD x27 x62 | s80 => DD x27 x63 | s81 => DD x28 x0 | s82 => DD x28 x1 | s83 => DD x28 x2 | s84 => DD x28 x3 | s85 => DD x28 x4 | s86 => DD x28 x5 | s87 => DD x28 x6 | s88 => DD x28 x7 | s89 => DD x28 x8 | s90 => DD x28 x9 | s91 => DD x28 x10 | s92 => DD x28 x11 | s93 => DD x28 x12 | s94 => DD x28 x13 | s95 => DD x28 x14 | s96 => DD x28 x15 | s97 => DD x28 x16 | s98 => DD x28 x17 | s99 => DD x28 x18 | s100 => DD x28 x19 | s101 => DD x28 x20 | s102 => DD x28 x21 | s103 => DD x28 x22 | s104 => DD x28 x23 | s105 => DD x28 x24 | s106 => DD x28 x25 | s107 => DD x28 x26 | s108 => DD x28 x27 | s109 => DD x28 x28 | s110 => DD x28 x29 | s111 => DD x28 x30 | s112 => DD x28 x31 | s113 => DD x28 x32 | s114 => DD x28 x33 | s115 => DD x28 x34 | s116 => DD x28 x35 | s117 => DD x28 x36 | s118 => DD x28 x37 | s119 => DD x28 x38 | s120 => DD x28 x39 | s121 => DD x28 x40 | s122 => DD x28 x41 | s123 => DD x28 x42 | s124 => DD x28 x43 | s125 => DD x28 x44 | s126 => DD x28 x45 end.
Definition m1715 (c : sum2) : dd := match c with s0 => DD x26 x51 | s1 => DD x26 x52 | s2 => DD x26 x53 | s3 => DD x26 x54 | s4 => DD x26 x55 | s5 => DD x26 x56 | s6 => DD x26 x57 | s7 => DD x26 x58 | s8 => DD x26 x59 | s9 => DD x26 x60 | s10 => DD x26 x61 | s11 => DD x26 x62 | s12 => DD x26 x63 | s13 => DD x27 x0 | s14 => DD x27 x1 | s15 => DD x27 x2 | s16 => DD x27 x3 | s17 => DD x27 x4 | s18 => DD x27 x5 | s19 => DD x27 x6 | s20 => DD x27 x7 | s21 => DD x27 x8 | s22 => DD x27 x9 | s23 => DD x27 x10 | s24 => DD x27 x11 | s25 => DD x27 x12 | s26 => DD x27 x13 | s27 => DD x27 x14 | s28 => DD x27 x15 | s29 => DD x27 x16 | s30 => DD x27 x17 | s31 => DD x27 x18 | s32 => DD x27 x19 | s33 => DD x27 x20 | s34 => DD x27 x21 | s35 => DD x27 x22 | s36 => DD x27 x23 | s37 => DD x27 x24 | s38 => DD x27 x25 | s39 => DD x27 x26 | s40 => DD x27 x27 | s41 => DD x27 x28 | s42 => DD x27 x29 | s43 => DD x27 x30 | s44 => DD x27 x31 | s45 => DD x27 x32 | s46 => DD x27 x33 | s47 => DD x27 x34 | s48 => DD x27 x35 | s49 => DD x27 x36 | s50 => DD x27 x37 | s51 => DD x27 x38 | s52 => DD x27 x39 | s53 => DD x27 x40 | s54 => DD x27 x41 | s55 => DD x27 x42 | s56 => DD x27 x43 | s57 => DD x27 x44 | s58 => DD x27 x45 | s59 => DD x27 x46 | s60 => DD x27 x47 | s61 => DD x27 x48 | s62 => DD x27 x49 | s63 => DD x27 x50 | s64 => DD x27 x51 | s65 => DD x27 x52 | s66 => DD x27 x53 | s67 => DD x27 x54 | s68 => DD x27 x55 | s69 => DD x27 x56 | s70 => DD x27 x57 | s71 => DD x27 x58 | s72 => DD x27 x59 | s73 => DD x27 x60 | s74 => DD x27 x61 | s75 => DD x27 x62 | s76 => DD x27 x63 | s77 => DD x28 x0 | s78 => DD x28 x1 | s79 => DD x28 x2 | s80 => DD x28 x3 | s81 => DD x28 x4 | s82 => DD x28 x5 | s83 => DD x28 x6 | s84 => DD x28 x7 | s85 => DD x28 x8 | s86 => DD x28 x9 | s87 => DD x28 x10 | s88 => DD x28 x11 | s89 => DD x28 x12 | s90 => DD x28 x13 | s91 => DD x28 x14 | s92 => DD x28 x15 | s93 => DD x28 x16 | s94 => DD x28 x17 | s95 => DD x28 x18 | s96 => DD x28 x19 | s97 => DD x28 x20 | s98 => DD x28 x21 | s99 => DD x28 x22 | s100 => DD x28 x23 | s101 => DD x28 x24 | s102 => DD x28 x25 | s103 => DD x28 x26 | s104 => DD x28 x27 | s105 => DD x28 x28 | s106 => DD x28 x29 | s107 => DD x28 x30 | s108 => DD x28 x31 | s109 => DD x28 x32 | s110 => DD x28 x33 | s111 => DD x28 x34 | s112 => DD x28 x35 | s113 => DD x28 x36 | s114 => DD x28 x37 | s115 => DD x28 x38 | s116 => DD x28 x39 | s117 => DD x28 x40 | s118 => DD x28 x41 | s119 => DD x28 x42 | s120 => DD x28 x43 | s121 => DD x28 x44 | s122 => DD x28 x45 | s123 => DD x28 x46 | s124 => DD x28 x47 | s125 => DD x28 x48 | s126 => DD x28 x49 end.
Definition m1716 (c : sum2) : dd := match c with s0 => DD x26 x52 | s1 => DD x26 x53 | s2 => DD x26 x54 | s3 => DD x26 x55 | s4 => DD x26 x56 | s5 => DD x26 x57 | s6 => DD x26 x58 | s7 => DD x26 x59 | s8 => DD x26 x60 | s9 => DD x26 x61 | s10 => DD x26 x62 | s11 => DD x26 x63 | s12 => DD x27 x0 | s13 => DD x27 x1 | s14 => DD x27 x2 | s15 => DD x27 x3 | s16 => DD x27 x4 | s17 => DD x27 x5 | s18 => DD x27 x6 | s19 => DD x27 x7 | s20 => DD x27 x8 | s21 => DD x27 x9 | s22 => DD x27 x10 | s23 => DD x27 x11 | s24 => DD x27 x12 | s25 => DD x27 x13 | s26 => DD x27 x14 | s27 => DD x27 x15 | s28 => DD x27 x16 | s29 => DD x27 x17 | s30 => DD x27 x18 | s31 => DD x27 x19 | s32 => DD x27 x20 | s33 => DD x27 x21 | s34 => DD x27 x22 | s35 => DD x27 x23 | s36 => DD x27 x24 | s37 => DD x27 x25 | s38 => DD x27 x26 | s39 => DD x27 x27 | s40 => DD x27 x28 | s41 => DD x27 x29 | s42 => DD x27 x30 | s43 => DD x27 x31 | s44 => DD x27 x32 | s45 => DD x27 x33 | s46 => DD x27 x34 | s47 => DD x27 x35 | s48 => DD x27 x36 | s49 => DD x27 x37 | s50 => DD x27 x38 | s51 => DD x27 x39 | s52 => DD x27 x40 | s53 => DD x27 x41 | s54 => DD x27 x42 | s55 => DD x27 x43 | s56 => DD x27 x44 | s57 => DD x27 x45 | s58 => DD x27 x46 | s59 => DD x27 x47 | s60 => DD x27 x48 | s61 => DD x27 x49 | s62 => DD x27 x50 | s63 => DD x27 x51 | s64 => DD x27 x52 | s65 => DD x27 x53 | s66 => DD x27 x54 | s67 => DD x27 x55 | s68 => DD x27 x56 | s69 => DD x27 x57 | s70 => DD x27 x58 | s71 => DD x27 x59 | s72 => DD x27 x60 | s73 => DD x27 x61 | s74 => DD x27 x62 | s75 => DD x27 x63 | s76 => DD x28 x0 | s77 => DD x28 x1 | s78 => DD x28 x2 | s79 => DD x28 x3 | s80 => DD x28 x4 | s81 => DD x28 x5 | s82 => DD x28 x6 | s83 => DD x28 x7 | s84 => DD x28 x8 | s85 => DD x28 x9 | s86 => DD x28 x10 | s87 => DD x28 x11 | s88 => DD x28 x12 | s89 => DD x28 x13 | s90 => DD x28 x14 | s91 => DD x28 x15 | s92 => DD x28 x16 | s93 => DD x28 x17 | s94 => DD x28 x18 | s95 => DD x28 x19 | s96 => DD x28 x20 | s97 => DD x28 x21 | s98 => DD x28 x22 | s99 => DD x28 x23 | s100 => DD x28 x24 | s101 => DD x28 x25 | s102 => DD x28 x26 | s103 => DD x28 x27 | s104 => DD x28 x28 | s105 => DD x28 x29 | s106 => DD x28 x30 | s107 => DD x28 x31 | s108 => DD x28 x32 | s109 => DD x28 x33 | s110 => DD x28 x34 | s111 => DD x28 x35 | s112 => DD x28 x36 | s113 => DD x28 x37 | s114 => DD x28 x38 | s115 => DD x28 x39 | s116 => DD x28 x40 | s117 => DD x28 x41 | s118 => DD x28 x42 | s119 => DD x28 x43 | s120 => DD x28 x44 | s121 => DD x28 x45 | s122 => DD x28 x46 | s123 => DD x28 x47 | s124 => DD x28 x48 | s125 => DD x28 x49 | s126 => DD x28 x50 end.
Definition m1720 (c : sum2) : dd := match c with s0 => DD x26 x56 | s1 => DD x26 x57 | s2 => DD x26 x58 | s3 => DD x26 x59 | s4 => DD x26 x60 | s5 => DD x26 x61 | s6 => DD x26 x62 | s7 => DD x26 x63 | s8 => DD x27 x0 | s9 => DD x27 x1 | s10 => DD x27 x2 | s11 => DD x27 x3 | s12 => DD x27 x4 | s13 => DD x27 x5 | s14 => DD x27 x6 | s15 => DD x27 x7 | s16 => DD x27 x8 | s17 => DD x27 x9 | s18 => DD x27 x10 | s19 => DD x27 x11 | s20 => DD x27 x12 | s21 => DD x27 x13 | s22 => DD x27 x14 | s23 => DD x27 x15 | s24 => DD x27 x16 | s25 => DD x27 x17 | s26 => DD x27 x18 | s27 => DD x27 x19 | s28 => DD x27 x20 | s29 => DD x27 x21 | s30 => DD x27 x22 | s31 => DD x27 x23 | s32 => DD x27 x24 | s33 => DD x27 x25 | s34 => DD x27 x26 | s35 => DD x27 x27 | s36 => DD x27 x28 | s37 => DD x27 x29 | s38 => DD x27 x30 | s39 => DD x27 x31 | s40 => DD x27 x32 | s41 => DD x27 x33 | s42 => DD x27 x34 | s43 => DD x27 x35 | s44 => DD x27 x36 | s45 => DD x27 x37 | s46 => DD x27 x38 | s47 => DD x27 x39 | s48 => DD x27 x40 | s49 => DD x27 x41 | s50 => DD x27 x42 | s51 => DD x27 x43 | s52 => DD x27 x44 | s53 => DD x27 x45 | s54 => DD x27 x46 | s55 => DD x27 x47 | s56 => DD x27 x48 | s57 => DD x27 x49 | s58 => DD x27 x50 | s59 => DD x27 x51 | s60 => DD x27 x52 | s61 => DD x27 x53 | s62 => DD x27 x54 | s63 => DD x27 x55 | s64 => DD x27 x56 | s65 => DD x27 x57 | s66 => DD x27 x58 | s67 => DD x27 x59 | s68 => DD x27 x60 | s69 => DD x27 x61 | s70 => DD x27 x62 | s71 => DD x27 x63 | s72 => DD x28 x0 | s73 => DD x28 x1 | s74 => DD x28 x2 | s75 => DD x28 x3 | s76 => DD x28 x4 | s77 => DD x28 x5 | s78 => DD x28 x6 | s79 => DD x28 x7 | s80 => DD x28 x8 | s81 => DD x28 x9 | s82 => DD x28 x10 | s83 => DD x28 x11 | s84 => DD x28 x12 | s85 => DD x28 x13 | s86 => DD x28 x14 | s87 => DD x28 x15 | s88 => DD x28 x16 | s89 => DD x28 x17 | s90 => DD x28 x18 | s91 => DD x28 x19 | s92 => DD x28 x20 | s93 => DD x28 x21 | s94 => DD x28 x22 | s95 => DD x28 x23 | s96 => DD x28 x24 | s97 => DD x28 x25 | s98 => DD x28 x26 | s99 => DD x28 x27 | s100 => DD x28 x28 | s101 => DD x28 x29 | s102 => DD x28 x30 | s103 => DD x28 x31 | s104 => DD x28 x32 | s105 => DD x28 x33 | s106 => DD x28 x34 | s107 => DD x28 x35 | s108 => DD x28 x36 | s109 => DD x28 x37 | s110 => DD x28 x38 | s111 => DD x28 x39 | s112 => DD x28 x40 | s113 => DD x28 x41 | s114 => DD x28 x42 | s115 => DD x28 x43 | s116 => DD x28 x44 | s117 => DD x28 x45 | s118 => DD x28 x46 | s119 => DD x28 x47 | s120 => DD x28 x48 | s121 => DD x28 x49 | s122 => DD x28 x50 | s123 => DD x28 x51 | s124 => DD x28 x52 | s125 => DD x28 x53 | s126 => DD x28 x54 end.
Definition m1722 (c : sum2) : dd := match c with s0 => DD x26 x58 | s1 => DD x26 x59 | s2 => DD x26 x60 | s3 => DD x26 x61 | s4 => DD x26 x62 | s5 => DD x26 x63 | s6 => DD x27 x0 | s7 => DD x27 x1 | s8 => DD x27 x2 | s9 => DD x27 x3 | s10 => DD x27 x4 | s11 => DD x27 x5 | s12 => DD x27 x6 | s13 => DD x27 x7 | s14 => DD x27 x8 | s15 => DD x27 x9 | s16 => DD x27 x10 | s17 => DD x27 x11 | s18 => DD x27 x12 | s19 => DD x27 x13 | s20 => DD x27 x14 | s21 => DD x27 x15 | s22 => DD x27 x16 | s23 => DD x27 x17 | s24 => DD x27 x18 | s25 => DD x27 x19 | s26 => DD x27 x20 | s27 => DD x27 x21 | s28 => DD x27 x22 | s29 => DD x27 x23 | s30 => DD x27 x24 | s31 => DD x27 x25 | s32 => DD x27 x26 | s33 => DD x27 x27 | s34 => DD x27 x28 | s35 => DD x27 x29 | s36 => DD x27 x30 | s37 => DD x27 x31 | s38 => DD x27 x32 | s39 => DD x27 x33 | s40 => DD x27 x34 | s41 => DD x27 x35 | s42 => DD x27 x36 | s43 => DD x27 x37 | s44 => DD x27 x38 | s45 => DD x27 x39 | s46 => DD x27 x40 | s47 => DD x27 x41 | s48 => DD x27 x42 | s49 => DD x27 x43 | s50 => DD x27 x44 | s51 => DD x27 x45 | s52 => DD x27 x46 | s53 => DD x27 x47 | s54 => DD x27 x48 | s55 => DD x27 x49 | s56 => DD x27 x50 | s57 => DD x27 x51 | s58 => DD x27 x52 | s59 => DD x27 x53 | s60 => DD x27 x54 | s61 => DD x27 x55 | s62 => DD x27 x56 | s63 => DD x27 x57 | s64 => DD x27 x58 | s65 => DD x27 x59 | s66 => DD x27 x60 | s67 => DD x27 x61 | s68 => DD x27 x62 | s69 => DD x27 x63 | s70 => DD x28 x0 | s71 => DD x28 x1 | s72 => DD x28 x2 | s73 => DD x28 x3 | s74 => DD x28 x4 | s75 => DD x28 x5 | s76 => DD x28 x6 | s77 => DD x28 x7 | s78 => DD x28 x8 | s79 => DD x28 x9 | s80 => DD x28 x10 | s81 => DD x28 x11 | s82 => DD x28 x12 | s83 => DD x28 x13 | s84 => DD x28 x14 | s85 => DD x28 x15 | s86 => DD x28 x16 | s87 => DD x28 x17 | s88 => DD x28 x18 | s89 => DD x28 x19 | s90 => DD x28 x20 | s91 => DD x28 x21 | s92 => DD x28 x22 | s93 => DD x28 x23 | s94 => DD x28 x24 | s95 => DD x28 x25 | s96 => DD x28 x26 | s97 => DD x28 x27 | s98 => DD x28 x28 | s99 => DD x28 x29 | s100 => DD x28 x30 | s101 => DD x28 x31 | s102 => DD x28 x32 | s103 => DD x28 x33 | s104 => DD x28 x34 | s105 => DD x28 x35 | s106 => DD x28 x36 | s107 => DD x28 x37 | s108 => DD x28 x38 | s109 => DD x28 x39 | s110 => DD x28 x40 | s111 => DD x28 x41 | s112 => DD x28 x42 | s113 => DD x28 x43 | s114 => DD x28 x44 | s115 => DD x28 x45 | s116 => DD x28 x46 | s117 => DD x28 x47 | s118 => DD x28 x48 | s119 => DD x28 x49 | s120 => DD x28 x50 | s121 => DD x28 x51 | s122 => DD x28 x52 | s123 => DD x28 x53 | s124 => DD x28 x54 | s125 => DD x28 x55 | s126 => DD x28 x56 end.
Definition m1728 (c : sum2) : dd := match c with s0 => DD x27 x0 | s1 => DD x27 x1 | s2 => DD x27 x2 | s3 => DD x27 x3 | s4 => DD x27 x4 | s5 => DD x27 x5 | s6 => DD x27 x6 | s7 => DD x27 x7 | s8 => DD x27 x8 | s9 => DD x27 x9 | s10 => DD x27 x10 | s11 => DD x27 x11 | s12 => DD x27 x12 | s13 => DD x27 x13 | s14 => DD x27 x14 | s15 => DD x27 x15 | s16 => DD x27 x16 | s17 => DD x27 x17 | s18 => DD x27 x18 | s19 => DD x27 x19 | s20 => DD x27 x20 | s21 => DD x27 x21 | s22 => DD x27 x22 | s23 => DD x27 x23 | s24 => DD x27 x24 | s25 => DD x27 x25 | s26 => DD x27 x26 | s27 => DD x27 x27 | s28 => DD x27 x28 | s29 => DD x27 x29 | s30 => DD x27 x30 | s31 => DD x27 x31 | s32 => DD x27 x32 | s33 => DD x27 x33 | s34 => DD x27 x34 | s35 => DD x27 x35 | s36 => DD x27 x36 | s37 => DD x27 x37 | s38 => DD x27 x38 | s39 => DD x27 x39 | s40 => DD x27 x40 | s41 => DD x27 x41 | s42 => DD x27 x42 | s43 => DD x27 x43 | s44 => DD x27 x44 | s45 => DD x27 x45 | s46 => DD x27 x46 | s47 => DD x27 x47 | s48 => DD x27 x48 | s49 => DD x27 x49 | s50 => DD x27 x50 | s51 => DD x27 x51 | s52 => DD x27 x52 | s53 => DD x27 x53 | s54 => DD x27 x54 | s55 => DD x27 x55 | s56 => DD x27 x56 | s57 => DD x27 x57 | s58 => DD x27 x58 | s59 => DD x27 x59 | s60 => DD x27 x60 | s61 => DD x27 x61 | s62 => DD x27 x62 | s63 => DD x27 x63 | s64 => DD x28 x0 | s65 => DD x28 x1 | s66 => DD x28 x2 | s67 => DD x28 x3 | s68 => DD x28 x4 | s69 => DD x28 x5 | s70 => DD x28 x6 | s71 => DD x28 x7 | s72 => DD x28 x8 | s73 => DD x28 x9 | s74 => DD x28 x10 | s75 => DD x28 x11 | s76 => DD x28 x12 | s77 => DD x28 x13 | s78 => DD x28 x14 | s79 => DD x28 x15 | s80 => DD x28 x16 | s81 => DD x28 x17 | s82 => DD x28 x18 | s83 => DD x28 x19 | s84 => DD x28 x20 | s85 => DD x28 x21 | s86 => DD x28 x22 | s87 => DD x28 x23 | s88 => DD x28 x24 | s89 => DD x28 x25 | s90 => DD x28 x26 | s91 => DD x28 x27 | s92 => DD x28 x28 | s93 => DD x28 x29 | s94 => DD x28 x30 | s95 => DD x28 x31 | s96 => DD x28 x32 | s97 => DD x28 x33 | s98 => DD x28 x34 | s99 => DD x28 x35 | s100 => DD x28 x36 | s101 => DD x28 x37 | s102 => DD x28 x38 | s103 => DD x28 x39 | s104 => DD x28 x40 | s105 => DD x28 x41 | s106 => DD x28 x42 | s107 => DD x28 x43 | s108 => DD x28 x44 | s109 => DD x28 x45 | s110 => DD x28 x46 | s111 => DD x28 x47 | s112 => DD x28 x48 | s113 => DD x28 x49 | s114 => DD x28 x50 | s115 => DD x28 x51 | s116 => DD x28 x52 | s117 => DD x28 x53 | s118 => DD x28 x54 | s119 => DD x28 x55 | s120 => DD x28 x56 | s121 => DD x28 x57 | s122 => DD x28 x58 | s123 => DD x28 x59 | s124 => DD x28 x60 | s125 => DD x28 x61 | s126 => DD x28 x62 end.
Definition m1734 (c : sum2) : dd := match c with s0 => DD x27 x6 | s1 => DD x27 x7 | s2 => DD x27 x8 | s3 => DD x27 x9 | s4 => DD x27 x10 | s5 => DD x27 x11 | s6 => DD x27 x12 | s7 => DD x27 x13 | s8 => DD x27 x14 | s9 => DD x27 x15 | s10 => DD x27 x16 | s11 => DD x27 x17 | s12 => DD x27 x18 | s13 => DD x27 x19 | s14 => DD x27 x20 | s15 => DD x27 x21 | s16 => DD x27 x22 | s17 => DD x27 x23 | s18 => DD x27 x24 | s19 => DD x27 x25 | s20 => DD x27 x26 | s21 => DD x27 x27 | s22 => DD x27 x28 | s23 => DD x27 x29 | s24 => DD x27 x30 | s25 => DD x27 x31 | s26 => DD x27 x32 | s27 => DD x27 x33 | s28 => DD x27 x34 | s29 => DD x27 x35 | s30 => DD x27 x36 | s31 => DD x27 x37 | s32 => DD x27 x38 | s33 => DD x27 x39 | s34 => DD x27 x40 | s35 => DD x27 x41 | s36 => DD x27 x42 | s37 => DD x27 x43 | s38 => DD x27 x44 | s39 => DD x27 x45 | s40 => DD x27 x46 | s41 => DD x27 x47 | s42 => DD x27 x48 | s43 => DD x27 x49 | s44 => DD x27 x50 | s45 => DD x27 x51 | s46 => DD x27 x52 | s47 => DD x27 x53 | s48 => DD x27 x54 | s49 => DD x27 x55 | s50 => DD x27 x56 | s51 => DD x27 x57 | s52 => DD x27 x58 | s53 => DD x27 x59 | s54 => DD x27 x60 | s55 => DD x27 x61 | s56 => DD x27 x62 | s57 => DD x27 x63 | s58 => DD x28 x0 | s59 => DD x28 x1 | s60 => DD x28 x2 | s61 => DD x28 x3 | s62 => DD x28 x4 | s63 => DD x28 x5 | s64 => DD x28 x6 | s65 => DD x28 x7 | s66 => DD x28 x8 | s67 => DD x28 x9 | s68 => DD x28 x10 | s69 => DD x28 x11 | s70 => DD x28 x12 | s71 => DD x28 x13 | s72 => DD x28 x14 | s73 => DD x28 x15 | s74 => DD x28 x16 | s75 => DD x28 x17 | s76 => DD x28 x18 | s77 => DD x28 x19 | s78 => DD x28 x20 | s79 => DD x28 x21 | s80 => DD x28 x22 | s81 => DD x28 x23 | s82 => DD x28 x24 | s83 => DD x28 x25 | s84 => DD x28 x26 | s85 => DD x28 x27 | s86 => DD x28 x28 | s87 => DD x28 x29 | s88 => DD x28 x30 | s89 => DD x28 x31 | s90 => DD x28 x32 | s91 => DD x28 x33 | s92 => DD x28 x34 | s93 => DD x28 x35 | s94 => DD x28 x36 | s95 => DD x28 x37 | s96 => DD x28 x38 | s97 => DD x28 x39 | s98 => DD x28 x40 | s99 => DD x28 x41 | s100 => DD x28 x42 | s101 => DD x28 x43 | s102 => DD x28 x44 | s103 => DD x28 x45 | s104 => DD x28 x46 | s105 => DD x28 x47 | s106 => DD x28 x48 | s107 => DD x28 x49 | s108 => DD x28 x50 | s109 => DD x28 x51 | s110 => DD x28 x52 | s111 => DD x28 x53 | s112 => DD x28 x54 | s113 => DD x28 x55 | s114 => DD x28 x56 | s115 => DD x28 x57 | s116 => DD x28 x58 | s117 => DD x28 x59 | s118 => DD x28 x60 | s119 => DD x28 x61 | s120 => DD x28 x62 | s121 => DD x28 x63 | s122 => DD x29 x0 | s123 => DD x29 x1 | s124 => DD x29 x2 | s125 => DD x29 x3 | s126 => DD x29 x4 end.
Definition m1736 (c : sum2) : dd := match c with s0 => DD x27 x8 | s1 => DD x27 x9 | s2 => DD x27 x10 | s3 => DD x27 x11 | s4 => DD x27 x12 | s5 => DD x27 x13 | s6 => DD x27 x14 | s7 => DD x27 x15 | s8 => DD x27 x16 | s9 => DD x27 x17 | s10 => DD x27 x18 | s11 => DD x27 x19 | s12 => DD x27 x20 | s13 => DD x27 x21 | s14 => DD x27 x22 | s15 => DD x27 x23 | s16 => DD x27 x24 | s17 => DD x27 x25 | s18 => DD x27 x26 | s19 => DD x27 x27 | s20 => DD x27 x28 | s21 => DD x27 x29 | s22 => DD x27 x30 | s23 => DD x27 x31 | s24 => DD x27 x32 | s25 => DD x27 x33 | s26 => DD x27 x34 | s27 => DD x27 x35 | s28 => DD x27 x36 | s29 => DD x27 x37 | s30 => DD x27 x38 | s31 => DD x27 x39 | s32 => DD x27 x40 | s33 => DD x27 x41 | s34 => DD x27 x42 | s35 => DD x27 x43 | s36 => DD x27 x44 | s37 => DD x27 x45 | s38 => DD x27 x46 | s39 => DD x27 x47 | s40 => DD x27 x48 | s41 => DD x27 x49 | s42 => DD x27 x50 | s43 => DD x27 x51 | s44 => DD x27 x52 | s45 => DD x27 x53 | s46 => DD x27 x54 | s47 => DD x27 x55 | s48 => DD x27 x56 | s49 => DD x27 x57 | s50 => DD x27 x58 | s51 => DD x27 x59 | s52 => DD x27 x60 | s53 => DD x27 x61 | s54 => DD x27 x62 | s55 => DD x27 x63 | s56 => DD x28 x0 | s57 => DD x28 x1 | s58 => DD x28 x2 | s59 => DD x28 x3 | s60 => DD x28 x4 | s61 => DD x28 x5 | s62 => DD x28 x6 | s63 => DD x28 x7 | s64 => DD x28 x8 | s65 => DD x28 x9 | s66 => DD x28 x10 | s67 => DD x28 x11 | s68 => DD x28 x12 | s69 => DD x28 x13 | s70 => DD x28 x14 | s71 => DD x28 x15 | s72 => DD x28 x16 | s73 => DD x28 x17 | s74 => DD x28 x18 | s75 => DD x28 x19 | s76 => DD x28 x20 | s77 => DD x28 x21 | s78 => DD x28 x22 | s79 => DD x28 x23 | s80 => DD x28 x24 | s81 => DD x28 x25 | s82 => DD x28 x26 | s83 => DD x28 x27 | s84 => DD x28 x28 | s85 => DD x28 x29 | s86 => DD x28 x30 | s87 => DD x28 x31 | s88 => DD x28 x32 | s89 => DD x28 x33 | s90 => DD x28 x34 | s91 => DD x28 x35 | s92 => DD x28 x36 | s93 => DD x28 x37 | s94 => DD x28 x38 | s95 => DD x28 x39 | s96 => DD x28 x40 | s97 => DD x28 x41 | s98 => DD x28 x42 | s99 => DD x28 x43 | s100 => DD x28 x44 | s101 => DD x28 x45 | s102 => DD x28 x46 | s103 => DD x28 x47 | s104 => DD x28 x48 | s105 => DD x28 x49 | s106 => DD x28 x50 | s107 => DD x28 x51 | s108 => DD x28 x52 | s109 => DD x28 x53 | s110 => DD x28 x54 | s111 => DD x28 x55 | s112 => DD x28 x56 | s113 => DD x28 x57 | s114 => DD x28 x58 | s115 => DD x28 x59 | s116 => DD x28 x60 | s117 => DD x28 x61 | s118 => DD x28 x62 | s119 => DD x28 x63 | s120 => DD x29 x0 | s121 => DD x29 x1 | s122 => DD x29 x2 | s123 => DD x29 x3 | s124 => DD x29 x4 | s125 => DD x29 x5 | s126 => DD x29 x6 end.
Definition m1739 (c : sum2) : dd := match c with s0 => DD x27 x11 | s1 => DD x27 x12 | s2 => DD x27 x13 | s3 => DD x27 x14 | s4 => DD x27 x15 | s5 => DD x27 x16 | s6 => DD x27 x17 | s7 => DD x27 x18 | s8 => DD x27 x19 | s9 => DD x27 x20 | s10 => DD x27 x21 | s11 => DD x27 x22 | s12 => DD x27 x23 | s13 => DD x27 x24 | s14 => DD x27 x25 | s15 => DD x27 x26 | s16 => DD x27 x27 | s17 => DD x27 x28 | s18 => DD x27 x29 | s19 => DD x27 x30 | s20 => DD x27 x31 | s21 => DD x27 x32 | s22 => DD x27 x33 | s23 => DD x27 x34 | s24 => DD x27 x35 | s25 => DD x27 x36 | s26 => DD x27 x37 | s27 => DD x27 x38 | s28 => DD x27 x39 | s29 => DD x27 x40 | s30 => DD x27 x41 | s31 => DD x27 x42 | s32 => DD x27 x43 | s33 => DD x27 x44 | s34 => DD x27 x45 | s35 => DD x27 x46 | s36 => DD x27 x47 | s37 => DD x27 x48 | s38 => DD x27 x49 | s39 => DD x27 x50 | s40 => DD x27 x51 | s41 => DD x27 x52 | s42 => DD x27 x53 | s43 => DD x27 x54 | s44 => DD x27 x55 | s45 => DD x27 x56 | s46 => DD x27 x57 | s47 => DD x27 x58 | s48 => DD x27 x59 | s49 => DD x27 x60 | s50 => DD x27 x61 | s51 => DD x27 x62 | s52 => DD x27 x63 | s53 => DD x28 x0 | s54 => DD x28 x1 | s55 => DD x28 x2 | s56 => DD x28 x3 | s57 => DD x28 x4 | s58 => DD x28 x5 | s59 => DD x28 x6 | s60 => DD x28 x7 | s61 => DD x28 x8 | s62 => DD x28 x9 | s63 => DD x28 x10 | s64 => DD x28 x11 | s65 => DD x28 x12 | s66 => DD x28 x13 | s67 => DD x28 x14 | s68 => DD x28 x15 | s69 => DD x28 x16 | s70 => DD x28 x17 | s71 => DD x28 x18 | s72 => DD x28 x19 | s73 => DD x28 x20 | s74 => DD x28 x21 | s75 => DD x28 x22 | s76 => DD x28 x23 | s77 => DD x28 x24 | s78 => DD x28 x25 | s79 => DD x28 x26 | s80 => DD x28 x27 | s81 => DD x28 x28 | s82 => DD x28 x29 | s83 => DD x28 x30 | s84 => DD x28 x31 | s85 => DD x28 x32 | s86 => DD x28 x33 | s87 => DD x28 x34 | s88 => DD x28 x35 | s89 => DD x28 x36 | s90 => DD x28 x37 | s91 => DD x28 x38 | s92 => DD x28 x39 | s93 => DD x28 x40 | s94 => DD x28 x41 | s95 => DD x28 x42 | s96 => DD x28 x43 | s97 => DD x28 x44 | s98 => DD x28 x45 | s99 => DD x28 x46 | s100 => DD x28 x47 | s101 => DD x28 x48 | s102 => DD x28 x49 | s103 => DD x28 x50 | s104 => DD x28 x51 | s105 => DD x28 x52 | s106 => DD x28 x53 | s107 => DD x28 x54 | s108 => DD x28 x55 | s109 => DD x28 x56 | s110 => DD x28 x57 | s111 => DD x28 x58 | s112 => DD x28 x59 | s113 => DD x28 x60 | s114 => DD x28 x61 | s115 => DD x28 x62 | s116 => DD x28 x63 | s117 => DD x29 x0 | s118 => DD x29 x1 | s119 => DD x29 x2 | s120 => DD x29 x3 | s121 => DD x29 x4 | s122 => DD x29 x5 | s123 => DD x29 x6 | s124 => DD x29 x7 | s125 => DD x29 x8 | s126 => DD x29 x9 end.
Definition m1740 (c : sum2) : dd := match c with s0 => DD x27 x12 | s1 => DD x27 x13 | s2 => DD x27 x14 | s3 => DD x27 x15 | s4 => DD x27 x16 | s5 => DD x27 x17 | s6 => DD x27 x18 | s7 => DD x27 x19 | s8 => DD x27 x20 | s9 => DD x27 x21 | s10 => DD x27 x22 | s11 => DD x27 x23 | s12 => DD x27 x24 | s13 => DD x27 x25 | s14 => DD x27 x26 | s15 => DD x27 x27 | s16 => DD x27 x28 | s17 => DD x27 x29 | s18 => DD x27 x30 | s19 => DD x27 x31 | s20 => DD x27 x32 | s21 => DD x27 x33 | s22 => DD x27 x34 | s23 => DD x27 x35 | s24 => DD x27 x36 | s25 => DD x27 x37 | s26 => DD x27 x38 | s27 => DD x27 x39 | s28 => DD x27 x40 | s29 => DD x27 x41 | s30 => DD x27 x42 | s31 => DD x27 x43 | s32 => DD x27 x44 | s33 => DD x27 x45 | s34 => DD x27 x46 | s35 => DD x27 x47 | s36 => DD x27 x48 | s37 => DD x27 x49 | s38 => DD x27 x50 | s39 => DD x27 x51 | s40 => DD x27 x52 | s41 => DD x27 x53 | s42 => DD x27 x54 | s43 => DD x27 x55 | s44 => DD x27 x56 | s45 => DD x27 x57 | s46 => DD x27 x58 | s47 => DD x27 x59 | s48 => DD x27 x60 | s49 => DD x27 x61 | s50 => DD x27 x62 | s51 => DD x27 x63 | s52 => DD x28 x0 | s53 => DD x28 x1 | s54 => DD x28 x2 | s55 => DD x28 x3 | s56 => DD x28 x4 | s57 => DD x28 x5 | s58 => DD x28 x6 | s59 => DD x28 x7 | s60 => DD x28 x8 | s61 => DD x28 x9 | s62 => DD x28 x10 | s63 => DD x28 x11 | s64 => DD x28 x12 | s65 => DD x28 x13 | s66 => DD x28 x14 | s67 => DD x28 x15 | s68 => DD x28 x16 | s69 => DD x28 x17 | s70 => DD x28 x18 | s71 => DD x28 x19 | s72 => DD x28 x20 | s73 => DD x28 x21 | s74 => DD x28 x22 | s75 => DD x28 x23 | s76 => DD x28 x24 | s77 => DD x28 x25 | s78 => DD x28 x26 | s79 => DD x28 x27 | s80 => DD x28 x28 | s81 => DD x28 x29 | s82 => DD x28 x30 | s83 => DD x28 x31 | s84 => DD x28 x32 | s85 => DD x28 x33 | s86 => DD x28 x34 | s87 => DD x28 x35 | s88 => DD x28 x36 | s89 => DD x28 x37 | s90 => DD x28 x38 | s91 => DD x28 x39 | s92 => DD x28 x40 | s93 => DD x28 x41 | s94 => DD x28 x42 | s95 => DD x28 x43 | s96 => DD x28 x44 | s97 => DD x28 x45 | s98 => DD x28 x46 | s99 => DD x28 x47 | s100 => DD x28 x48 | s101 => DD x28 x49 | s102 => DD x28 x50 | s103 => DD x28 x51 | s104 => DD x28 x52 | s105 => DD x28 x53 | s106 => DD x28 x54 | s107 => DD x28 x55 | s108 => DD x28 x56 | s109 => DD x28 x57 | s110 => DD x28 x58 | s111 => DD x28 x59 | s112 => DD x28 x60 | s113 => DD x28 x61 | s114 => DD x28 x62 | s115 => DD x28 x63 | s116 => DD x29 x0 | s117 => DD x29 x1 | s118 => DD x29 x2 | s119 => DD x29 x3 | s120 => DD x29 x4 | s121 => DD x29 x5 | s122 => DD x29 x6 | s123 => DD x29 x7 | s124 => DD x29 x8 | s125 => DD x29 x9 | s126 => DD x29 x10 end.
Definition m1748 (c : sum2) : dd := match c with s0 => DD x27 x20 | s1 => DD x27 x21 | s2 => DD x27 x22 | s3 => DD x27 x23 | s4 => DD x27 x24 | s5 => DD x27 x25 | s6 => DD x27 x26 | s7 => DD x27 x27 | s8 => DD x27 x28 | s9 => DD x27 x29 | s10 => DD x27 x30 | s11 => DD x27 x31 | s12 => DD x27 x32 | s13 => DD x27 x33 | s14 => DD x27 x34 | s15 => DD x27 x35 | s16 => DD x27 x36 | s17 => DD x27 x37 | s18 => DD x27 x38 | s19 => DD x27 x39 | s20 => DD x27 x40 | s21 => DD x27 x41 | s22 => DD x27 x42 | s23 => DD x27 x43 | s24 => DD x27 x44 | s25 => DD x27 x45 | s26 => DD x27 x46 | s27 => DD x27 x47 | s28 => DD x27 x48 | s29 => DD x27 x49 | s30 => DD x27 x50 | s31 => DD x27 x51 | s32 => DD x27 x52 | s33 => DD x27 x53 | s34 => DD x27 x54 | s35 => DD x27 x55 | s36 => DD x27 x56 | s37 => DD x27 x57 | s38 => DD x27 x58 | s39 => DD x27 x59 | s40 => DD x27 x60 | s41 => DD x27 x61 | s42 => DD x27 x62 | s43 => DD x27 x63 | s44 => DD x28 x0 | s45 => DD x28 x1 | s46 => DD x28 x2 | s47 => DD x28 x3 | s48 => DD x28 x4 | s49 => DD x28 x5 | s50 => DD x28 x6 | s51 => DD x28 x7 | s52 => DD x28 x8 | s53 => DD x28 x9 | s54 => DD x28 x10 | s55 => DD x28 x11 | s56 => DD x28 x12 | s57 => DD x28 x13 | s58 => DD x28 x14 | s59 => DD x28 x15 | s60 => DD x28 x16 | s61 => DD x28 x17 | s62 => DD x28 x18 | s63 => DD x28 x19 | s64 => DD x28 x20 | s65 => DD x28 x21 | s66 => DD x28 x22 | s67 => DD x28 x23 | s68 => DD x28 x24 | s69 => DD x28 x25 | s70 => DD x28 x26 | s71 => DD x28 x27 | s72 => DD x28 x28 | s73 => DD x28 x29 | s74 => DD x28 x30 | s75 => DD x28 x31 | s76 => DD x28 x32 | s77 => DD x28 x33 | s78 => DD x28 x34 | s79 => DD x28 x35 | s80 => DD x28 x36 | s81 => DD x28 x37 | s82 => DD x28 x38 | s83 => DD x28 x39 | s84 => DD x28 x40 | s85 => DD x28 x41 | s86 => DD x28 x42 | s87 => DD x28 x43 | s88 => DD x28 x44 | s89 => DD x28 x45 | s90 => DD x28 x46 | s91 => DD x28 x47 | s92 => DD x28 x48 | s93 => DD x28 x49 | s94 => DD x28 x50 | s95 => DD x28 x51 | s96 => DD x28 x52 | s97 => DD x28 x53 | s98 => DD x28 x54 | s99 => DD x28 x55 | s100 => DD x28 x56 | s101 => DD x28 x57 | s102 => DD x28 x58 | s103 => DD x28 x59 | s104 => DD x28 x60 | s105 => DD x28 x61 | s106 => DD x28 x62 | s107 => DD x28 x63 | s108 => DD x29 x0 | s109 => DD x29 x1 | s110 => DD x29 x2 | s111 => DD x29 x3 | s112 => DD x29 x4 | s113 => DD x29 x5 | s114 => DD x29 x6 | s115 => DD x29 x7 | s116 => DD x29 x8 | s117 => DD x29 x9 | s118 => DD x29 x10 | s119 => DD x29 x11 | s120 => DD x29 x12 | s121 => DD x29 x13 | s122 => DD x29 x14 | s123 => DD x29 x15 | s124 => DD x29 x16 | s125 => DD x29 x17 | s126 => DD x29 x18 end.
Definition m1749 (c : sum2) : dd := match c with s0 => DD x27 x21 | s1 => DD x27 x22 | s2 => DD x27 x23 | s3 => DD x27 x24 | s4 => DD x27 x25 | s5 => DD x27 x26 | s6 => DD x27 x27 | s7 => DD x27 x28 | s8 => DD x27 x29 | s9 => DD x27 x30 | s10 => DD x27 x31 | s11 => DD x27 x32 | s12 => DD x27 x33 | s13 => DD x27 x34 | s14 => DD x27 x35 | s15 => DD x27 x36 | s16 => DD x27 x37 | s17 => DD x27 x38 | s18 => DD x27 x39 | s19 => DD x27 x40 | s20 => DD x27 x41 | s21 => DD x27 x42 | s22 => DD x27 x43 | s23 => DD x27 x44 | s24 => DD x27 x45 | s25 => DD x27 x46 | s26 => DD x27 x47 | s27 => DD x27 x48 | s28 => DD x27 x49 | s29 => DD x27 x50 | s30 => DD x27 x51 | s31 => DD x27 x52 | s32 => DD x27 x53 | s33 => DD x27 x54 | s34 => DD x27 x55 | s35 => DD x27 x56 | s36 => DD x27 x57 | s37 => DD x27 x58 | s38 => DD x27 x59 | s39 => DD x27 x60 | s40 => DD x27 x61 | s41 => DD x27 x62 | s42 => DD x27 x63 | s43 => DD x28 x0 | s44 => DD x28 x1 | s45 => DD x28 x2 | s46 => DD x28 x3 | s47 => DD x28 x4 | s48 => DD x28 x5 | s49 => DD x28 x6 | s50 => DD x28 x7 | s51 => DD x28 x8 | s52 => DD x28 x9 | s53 => DD x28 x10 | s54 => DD x28 x11 | s55 => DD x28 x12 | s56 => DD x28 x13 | s57 => DD x28 x14 | s58 => DD x28 x15 | s59 => DD x28 x16 | s60 => DD x28 x17 | s61 => DD x28 x18 | s62 => DD x28 x19 | s63 => DD x28 x20 | s64 => DD x28 x21 | s65 => DD x28 x22 | s66 => DD x28 x23 | s67 => DD x28 x24 | s68 => DD x28 x25 | s69 => DD x28 x26 | s70 => DD x28 x27 | s71 => DD x28 x28 | s72 => DD x28 x29 | s73 => DD x28 x30 | s74 => DD x28 x31 | s75 => DD x28 x32 | s76 => DD x28 x33 | s77 => DD x28 x34 | s78 => DD x28 x35 | s79 => DD x28 x36 | s80 => DD x28 x37 | s81 => DD x28 x38 | s82 => DD x28 x39 | s83 => DD x28 x40 | s84 => DD x28 x41 | s85 => DD x28 x42 | s86 => DD x28 x43 | s87 => DD x28 x44 | s88 => DD x28 x45 | s89 => DD x28 x46 | s90 => DD x28 x47 | s91 => DD x28 x48 | s92 => DD x28 x49 | s93 => DD x28 x50 | s94 => DD x28 x51 | s95 => DD x28 x52 | s96 => DD x28 x53 | s97 => DD x28 x54 | s98 => DD x28 x55 | s99 => DD x28 x56 | s100 => DD x28 x57 | s101 => DD x28 x58 | s102 => DD x28 x59 | s103 => DD x28 x60 | s104 => DD x28 x61 | s105 => DD x28 x62 | s106 => DD x28 x63 | s107 => DD x29 x0 | s108 => DD x29 x1 | s109 => DD x29 x2 | s110 => DD x29 x3 | s111 => DD x29 x4 | s112 => DD x29 x5 | s113 => DD x29 x6 | s114 => DD x29 x7 | s115 => DD x29 x8 | s116 => DD x29 x9 | s117 => DD x29 x10 | s118 => DD x29 x11 | s119 => DD x29 x12 | s120 => DD x29 x13 | s121 => DD x29 x14 | s122 => DD x29 x15 | s123 => DD x29 x16 | s124 => DD x29 x17 | s125 => DD x29 x18 | s126 => DD x29 x19 end.
Definition m1750 (c : sum2) : dd := match c with s0 => DD x27 x22 | s1 => DD x27 x23 | s2 => DD x27 x24 | s3 => DD x27 x25 | s4 => DD x27 x26 | s5 => DD x27 x27 | s6 => DD x27 x28 | s7 => DD x27 x29 | s8 => DD x27 x30 | s9 => DD x27 x31 | s10 => DD x27 x32 | s11 => DD x27 x33 | s12 => DD x27 x34 | s13 => DD x27 x35 | s14 => DD x27 x36 | s15 => DD x27 x37 | s16 => DD x27 x38 | s17 => DD x27 x39 | s18 => DD x27 x40 | s19 => DD x27 x41 | s20 => DD x27 x42 | s21 => DD x27 x43 | s22 => DD x27 x44 | s23 => DD x27 x45 | s24 => DD x27 x46 | s25 => DD x27 x47 | s26 => DD x27 x48 | s27 => DD x27 x49 | s28 => DD x27 x50 | s29 => DD x27 x51 | s30 => DD x27 x52 | s31 => DD x27 x53 | s32 => DD x27 x54 | s33 => DD x27 x55 | s34 => DD x27 x56 | s35 => DD x27 x57 | s36 => DD x27 x58 | s37 => DD x27 x59 | s38 => DD x27 x60 | s39 => DD x27 x61 | s40 => DD x27 x62 | s41 => DD x27 x63 | s42 => DD x28 x0 | s43 => DD x28 x1 | s44 => DD x28 x2 | s45 => DD x28 x3 | s46 => DD x28 x4 | s47 => DD x28 x5 | s48 => DD x28 x6 | s49 => DD x28 x7 | s50 => DD x28 x8 | s51 => DD x28 x9 | s52 => DD x28 x10 | s53 => DD x28 x11 | s54 => DD x28 x12 | s55 => DD x28 x13 | s56 => DD x28 x14 | s57 => DD x28 x15 | s58 => DD x28 x16 | s59 => DD x28 x17 | s60 => DD x28 x18 | s61 => DD x28 x19 | s62 => DD x28 x20 | s63 => DD x28 x21 | s64 => DD x28 x22 | s65 => DD x28 x23 | s66 => DD x28 x24 | s67 => DD x28 x25 | s68 => DD x28 x26 | s69 => DD x28 x27 | s70 => DD x28 x28 | s71 => DD x28 x29 | s72 => DD x28 x30 | s73 => DD x28 x31 | s74 => DD x28 x32 | s75 => DD x28 x33 | s76 => DD x28 x34 | s77 => DD x28 x35 | s78 => DD x28 x36 | s79 => DD x28 x37 | s80 => DD x28 x38 | s81 => DD x28 x39 | s82 => DD x28 x40 | s83 => DD x28 x41 | s84 => DD x28 x42 | s85 => DD x28 x43 | s86 => DD x28 x44 | s87 => DD x28 x45 | s88 => DD x28 x46 | s89 => DD x28 x47 | s90 => DD x28 x48 | s91 => DD x28 x49 | s92 => DD x28 x50 | s93 => DD x28 x51 | s94 => DD x28 x52 | s95 => DD x28 x53 | s96 => DD x28 x54 | s97 => DD x28 x55 | s98 => DD x28 x56 | s99 => DD x28 x57 | s100 => DD x28 x58 | s101 => DD x28 x59 | s102 => DD x28 x60 | s103 => DD x28 x61 | s104 => DD x28 x62 | s105 => DD x28 x63 | s106 => DD x29 x0 | s107 => DD x29 x1 | s108 => DD x29 x2 | s109 => DD x29 x3 | s110 => DD x29 x4 | s111 => DD x29 x5 | s112 => DD x29 x6 | s113 => DD x29 x7 | s114 => DD x29 x8 | s115 => DD x29 x9 | s116 => DD x29 x10 | s117 => DD x29 x11 | s118 => DD x29 x12 | s119 => DD x29 x13 | s120 => DD x29 x14 | s121 => DD x29 x15 | s122 => DD x29 x16 | s123 => DD x29 x17 | s124 => DD x29 x18 | s125 => DD x29 x19 | s126 => DD x29 x20 end.
Definition m1755 (c : sum2) : dd := match c with s0 => DD x27 x27 | s1 => DD x27 x28 | s2 => DD x27 x29 | s3 => DD x27 x30 | s4 => DD x27 x31 | s5 => DD x27 x32 | s6 => DD x27 x33 | s7 => DD x27 x34 | s8 => DD x27 x35 | s9 => DD x27 x36 | s10 => DD x27 x37 | s11 => DD x27 x38 | s12 => DD x27 x39 | s13 => DD x27 x40 | s14 => DD x27 x41 | s15 => DD x27 x42 | s16 => DD x27 x43 | s17 => DD x27 x44 | s18 => DD x27 x45 | s19 => DD x27 x46 | s20 => DD x27 x47 | s21 => DD x27 x48 | s22 => DD x27 x49 | s23 => DD x27 x50 | s24 => DD x27 x51 | s25 => DD x27 x52 | s26 => DD x27 x53 | s27 => DD x27 x54 | s28 => DD x27 x55 | s29 => DD x27 x56 | s30 => DD x27 x57 | s31 => DD x27 x58 | s32 => DD x27 x59 | s33 => DD x27 x60 | s34 => DD x27 x61 | s35 => DD x27 x62 | s36 => DD x27 x63 | s37 => DD x28 x0 | s38 => DD x28 x1 | s39 => DD x28 x2 | s40 => DD x28 x3 | s41 => DD x28 x4 | s42 => DD x28 x5 | s43 => DD x28 x6 | s44 => DD x28 x7 | s45 => DD x28 x8 | s46 => DD x28 x9 | s47 => DD x28 x10 | s48 => DD x28 x11 | s49 => DD x28 x12 | s50 => DD x28 x13 | s51 => DD x28 x14 | s52 => DD x28 x15 | s53 => DD x28 x16 | s54 => DD x28 x17 | s55 => DD x28 x18 | s56 => DD x28 x19 | s57 => DD x28 x20 | s58 => DD x28 x21 | s59 => DD x28 x22 | s60 => DD x28 x23 | s61 => DD x28 x24 | s62 => DD x28 x25 | s63 => DD x28 x26 | s64 => DD x28 x27 | s65 => DD x28 x28 | s66 => DD x28 x29 | s67 => DD x28 x30 | s68 => DD x28 x31 | s69 => DD x28 x32 | s70 => DD x28 x33 | s71 => DD x28 x34 | s72 => DD x28 x35 | s73 => DD x28 x36 | s74 => DD x28 x37 | s75 => DD x28 x38 | s76 => DD x28 x39 | s77 => DD x28 x40 | s78 => DD x28 x41 | s79 => DD x28 x42 | s80 => DD x28 x43 | s81 => DD x28 x44 | s82 => DD x28 x45 | s83 => DD x28 x46 | s84 => DD x28 x47 | s85 => DD x28 x48 | s86 => DD x28 x49 | s87 => DD x28 x50 | s88 => DD x28 x51 | s89 => DD x28 x52 | s90 => DD x28 x53 | s91 => DD x28 x54 | s92 => DD x28 x55 | s93 => DD x28 x56 | s94 => DD x28 x57 | s95 => DD x28 x58 | s96 => DD x28 x59 | s97 => DD x28 x60 | s98 => DD x28 x61 | s99 => DD x28 x62 | s100 => DD x28 x63 | s101 => DD x29 x0 | s102 => DD x29 x1 | s103 => DD x29 x2 | s104 => DD x29 x3 | s105 => DD x29 x4 | s106 => DD x29 x5 | s107 => DD x29 x6 | s108 => DD x29 x7 | s109 => DD x29 x8 | s110 => DD x29 x9 | s111 => DD x29 x10 | s112 => DD x29 x11 | s113 => DD x29 x12 | s114 => DD x29 x13 | s115 => DD x29 x14 | s116 => DD x29 x15 | s117 => DD x29 x16 | s118 => DD x29 x17 | s119 => DD x29 x18 | s120 => DD x29 x19 | s121 => DD x29 x20 | s122 => DD x29 x21 | s123 => DD x29 x22 | s124 => DD x29 x23 | s125 => DD x29 x24 | s126 => DD x29 x25 end.
Definition m1760 (c : sum2) : dd := match c with s0 => DD x27 x32 | s1 => DD x27 x33 | s2 => DD x27 x34 | s3 => DD x27 x35 | s4 => DD x27 x36 | s5 => DD x27 x37 | s6 => DD x27 x38 | s7 => DD x27 x39 | s8 => DD x27 x40 | s9 => DD x27 x41 | s10 => DD x27 x42 | s11 => DD x27 x43 | s12 => DD x27 x44 | s13 => DD x27 x45 | s14 => DD x27 x46 | s15 => DD x27 x47 | s16 => DD x27 x48 | s17 => DD x27 x49 | s18 => DD x27 x50 | s19 => DD x27 x51 | s20 => DD x27 x52 | s21 => DD x27 x53 | s22 => DD x27 x54 | s23 => DD x27 x55 | s24 => DD x27 x56 | s25 => DD x27 x57 | s26 => DD x27 x58 | s27 => DD x27 x59 | s28 => DD x27 x60 | s29 => DD x27 x61 | s30 => DD x27 x62 | s31 => DD x27 x63 | s32 => DD x28 x0 | s33 => DD x28 x1 | s34 => DD x28 x2 | s35 => DD x28 x3 | s36 => DD x28 x4 | s37 => DD x28 x5 | s38 => DD x28 x6 | s39 => DD x28 x7 | s40 => DD x28 x8 | s41 => DD x28 x9 | s42 => DD x28 x10 | s43 => DD x28 x11 | s44 => DD x28 x12 | s45 => DD x28 x13 | s46 => DD x28 x14 | s47 => DD x28 x15 | s48 => DD x28 x16 | s49 => DD x28 x17 | s50 => DD x28 x18 | s51 => DD x28 x19 | s52 => DD x28 x20 | s53 => DD x28 x21 | s54 => DD x28 x22 | s55 => DD x28 x23 | s56 => DD x28 x24 | s57 => DD x28 x25 | s58 => DD x28 x26 | s59 => DD x28 x27 | s60 => DD x28 x28 | s61 => DD x28 x29 | s62 => DD x28 x30 | s63 => DD x28 x31 | s64 => DD x28 x32 | s65 => DD x28 x33 | s66 => DD x28 x34 | s67 => DD x28 x35 | s68 => DD x28 x36 | s69 => DD x28 x37 | s70 => DD x28 x38 | s71 => DD x28 x39 | s72 => DD x28 x40 | s73 => DD x28 x41 | s74 => DD x28 x42 | s75 => DD x28 x43 | s76 => DD x28 x44 | s77 => DD x28 x45 | s78 => DD x28 x46 | s79 => DD x28 x47 | s80 => DD x28 x48 | s81 => DD x28 x49 | s82 => DD x28 x50 | s83 => DD x28 x51 | s84 => DD x28 x52 | s85 => DD x28 x53 | s86 => DD x28 x54 | s87 => DD x28 x55 | s88 => DD x28 x56 | s89 => DD x28 x57 | s90 => DD x28 x58 | s91 => DD x28 x59 | s92 => DD x28 x60 | s93 => DD x28 x61 | s94 => DD x28 x62 | s95 => DD x28 x63 | s96 => DD x29 x0 | s97 => DD x29 x1 | s98 => DD x29 x2 | s99 => DD x29 x3 | s100 => DD x29 x4 | s101 => DD x29 x5 | s102 => DD x29 x6 | s103 => DD x29 x7 | s104 => DD x29 x8 | s105 => DD x29 x9 | s106 => DD x29 x10 | s107 => DD x29 x11 | s108 => DD x29 x12 | s109 => DD x29 x13 | s110 => DD x29 x14 | s111 => DD x29 x15 | s112 => DD x29 x16 | s113 => DD x29 x17 | s114 => DD x29 x18 | s115 => DD x29 x19 | s116 => DD x29 x20 | s117 => DD x29 x21 | s118 => DD x29 x22 | s119 => DD x29 x23 | s120 => DD x29 x24 | s121 => DD x29 x25 | s122 => DD x29 x26 | s123 => DD x29 x27 | s124 => DD x29 x28 | s125 => DD x29 x29 | s126 => DD x29 x30 end.
Definition m1763 (c : sum2) : dd := match c with s0 => DD x27 x35 | s1 => DD x27 x36 | s2 => DD x27 x37 | s3 => DD x27 x38 | s4 => DD x27 x39 | s5 => DD x27 x40 | s6 => DD x27 x41 | s7 => DD x27 x42 | s8 => DD x27 x43 | s9 => DD x27 x44 | s10 => DD x27 x45 | s11 => DD x27 x46 | s12 => DD x27 x47 | s13 => DD x27 x48 | s14 => DD x27 x49 | s15 => DD x27 x50 | s16 => DD x27 x51 | s17 => DD x27 x52 | s18 => DD x27 x53 | s19 => DD x27 x54 | s20 => DD x27 x55 | s21 => DD x27 x56 | s22 => DD x27 x57 | s23 => DD x27 x58 | s24 => DD x27 x59 | s25 => DD x27 x60 | s26 => DD x27 x61 | s27 => DD x27 x62 | s28 => DD x27 x63 | s29 => DD x28 x0 | s30 => DD x28 x1 | s31 => DD x28 x2 | s32 => DD x28 x3 | s33 => DD x28 x4 | s34 => DD x28 x5 | s35 => DD x28 x6 | s36 => DD x28 x7 | s37 => DD x28 x8 | s38 => DD x28 x9 | s39 => DD x28 x10 | s40 => DD x28 x11 | s41 => DD x28 x12 | s42 => DD x28 x13 | s43 => DD x28 x14 | s44 => DD x28 x15 | s45 => DD x28 x16 | s46 => DD x28 x17 | s47 => DD x28 x18 | s48 => DD x28 x19 | s49 => DD x28 x20 | s50 => DD x28 x21 | s51 => DD x28 x22 | s52 => DD x28 x23 | s53 => DD x28 x24 | s54 => DD x28 x25 | s55 => DD x28 x26 | s56 => DD x28 x27 | s57 => DD x28 x28 | s58 => DD x28 x29 | s59 => DD x28 x30 | s60 => DD x28 x31 | s61 => DD x28 x32 | s62 => DD x28 x33 | s63 => DD x28 x34 | s64 => DD x28 x35 | s65 => DD x28 x36 | s66 => DD x28 x37 | s67 => DD x28 x38 | s68 => DD x28 x39 | s69 => DD x28 x40 | s70 => DD x28 x41 | s71 => DD x28 x42 | s72 => DD x28 x43 | s73 => DD x28 x44 | s74 => DD x28 x45 | s75 => DD x28 x46 | s76 => DD x28 x47 | s77 => DD x28 x48 | s78 => DD x28 x49 | s79 => DD x28 x50 | s80 => DD x28 x51 | s81 => DD x28 x52 | s82 => DD x28 x53 | s83 => DD x28 x54 | s84 => DD x28 x55 | s85 => DD x28 x56 | s86 => DD x28 x57 | s87 => DD x28 x58 | s88 => DD x28 x59 | s89 => DD x28 x60 | s90 => DD x28 x61 | s91 => DD x28 x62 | s92 => DD x28 x63 | s93 => DD x29 x0 | s94 => DD x29 x1 | s95 => DD x29 x2 | s96 => DD x29 x3 | s97 => DD x29 x4 | s98 => DD x29 x5 | s99 => DD x29 x6 | s100 => DD x29 x7 | s101 => DD x29 x8 | s102 => DD x29 x9 | s103 => DD x29 x10 | s104 => DD x29 x11 | s105 => DD x29 x12 | s106 => DD x29 x13 | s107 => DD x29 x14 | s108 => DD x29 x15 | s109 => DD x29 x16 | s110 => DD x29 x17 | s111 => DD x29 x18 | s112 => DD x29 x19 | s113 => DD x29 x20 | s114 => DD x29 x21 | s115 => DD x29 x22 | s116 => DD x29 x23 | s117 => DD x29 x24 | s118 => DD x29 x25 | s119 => DD x29 x26 | s120 => DD x29 x27 | s121 => DD x29 x28 | s122 => DD x29 x29 | s123 => DD x29 x30 | s124 => DD x29 x31 | s125 => DD x29 x32 | s126 => DD x29 x33 end.
Definition m1764 (c : sum2) : dd := match c with s0 => DD x27 x36 | s1 => DD x27 x37 | s2 => DD x27 x38 | s3 => DD x27 x39 | s4 => DD x27 x40 | s5 => DD x27 x41 | s6 => DD x27 x42 | s7 => DD x27 x43 | s8 => DD x27 x44 | s9 => DD x27 x45 | s10 => DD x27 x46 | s11 => DD x27 x47 | s12 => DD x27 x48 | s13 => DD x27 x49 | s14 => DD x27 x50 | s15 => DD x27 x51 | s16 => DD x27 x52 | s17 => DD x27 x53 | s18 => DD x27 x54 | s19 => DD x27 x55 | s20 => DD x27 x56 | s21 => DD x27 x57 | s22 => DD x27 x58 | s23 => DD x27 x59 | s24 => DD x27 x60 | s25 => DD x27 x61 | s26 => DD x27 x62 | s27 => DD x27 x63 | s28 => DD x28 x0 | s29 => DD x28 x1 | s30 => DD x28 x2 | s31 => DD x28 x3 | s32 => DD x28 x4 | s33 => DD x28 x5 | s34 => DD x28 x6 | s35 => DD x28 x7 | s36 => DD x28 x8 | s37 => DD x28 x9 | s38 => DD x28 x10 | s39 => DD x28 x11 | s40 => DD x28 x12 | s41 => DD x28 x13 | s42 => DD x28 x14 | s43 => DD x28 x15 | s44 => DD x28 x16 | s45 => DD x28 x17 | s46 => DD x28 x18 | s47 => DD x28 x19 | s48 => DD x28 x20 | s49 => DD x28 x21 | s50 => DD x28 x22 | s51 => DD x28 x23 | s52 => DD x28 x24 | s53 => DD x28 x25 | s54 => DD x28 x26 | s55 => DD x28 x27 | s56 => DD x28 x28 | s57 => DD x28 x29 | s58 => DD x28 x30 | s59 => DD x28 x31 | s60 => DD x28 x32 | s61 => DD x28 x33 | s62 => DD x28 x34 | s63 => DD x28 x35 | s64 => DD x28 x36 | s65 => DD x28 x37 | s66 => DD x28 x38 | s67 => DD x28 x39 | s68 => DD x28 x40 | s69 => DD x28 x41 | s70 => DD x28 x42 | s71 => DD x28 x43 | s72 => DD x28 x44 | s73 => DD x28 x45 | s74 => DD x28 x46 | s75 => DD x28 x47 | s76 => DD x28 x48 | s77 => DD x28 x49 | s78 => DD x28 x50 | s79 => DD x28 x51 | s80 => DD x28 x52 | s81 => DD x28 x53 | s82 => DD x28 x54 | s83 => DD x28 x55 | s84 => DD x28 x56 | s85 => DD x28 x57 | s86 => DD x28 x58 | s87 => DD x28 x59 | s88 => DD x28 x60 | s89 => DD x28 x61 | s90 => DD x28 x62 | s91 => DD x28 x63 | s92 => DD x29 x0 | s93 => DD x29 x1 | s94 => DD x29 x2 | s95 => DD x29 x3 | s96 => DD x29 x4 | s97 => DD x29 x5 | s98 => DD x29 x6 | s99 => DD x29 x7 | s100 => DD x29 x8 | s101 => DD x29 x9 | s102 => DD x29 x10 | s103 => DD x29 x11 | s104 => DD x29 x12 | s105 => DD x29 x13 | s106 => DD x29 x14 | s107 => DD x29 x15 | s108 => DD x29 x16 | s109 => DD x29 x17 | s110 => DD x29 x18 | s111 => DD x29 x19 | s112 => DD x29 x20 | s113 => DD x29 x21 | s114 => DD x29 x22 | s115 => DD x29 x23 | s116 => DD x29 x24 | s117 => DD x29 x25 | s118 => DD x29 x26 | s119 => DD x29 x27 | s120 => DD x29 x28 | s121 => DD x29 x29 | s122 => DD x29 x30 | s123 => DD x29 x31 | s124 => DD x29 x32 | s125 => DD x29 x33 | s126 => DD x29 x34 end.
Definition m1767 (c : sum2) : dd := match c with s0 => DD x27 x39 | s1 => DD x27 x40 | s2 => DD x27 x41 | s3 => DD x27 x42 | s4 => DD x27 x43 | s5 => DD x27 x44 | s6 => DD x27 x45 | s7 => DD x27 x46 | s8 => DD x27 x47 | s9 => DD x27 x48 | s10 => DD x27 x49 | s11 => DD x27 x50 | s12 => DD x27 x51 | s13 => DD x27 x52 | s14 => DD x27 x53 | s15 => DD x27 x54 | s16 => DD x27 x55 | s17 => DD x27 x56 | s18 => DD x27 x57 | s19 => DD x27 x58 | s20 => DD x27 x59 | s21 => DD x27 x60 | s22 => DD x27 x61 | s23 => DD x27 x62 | s24 => DD x27 x63 | s25 => DD x28 x0 | s26 => DD x28 x1 | s27 => DD x28 x2 | s28 => DD x28 x3 | s29 => DD x28 x4 | s30 => DD x28 x5 | s31 => DD x28 x6 | s32 => DD x28 x7 | s33 => DD x28 x8 | s34 => DD x28 x9 | s35 => DD x28 x10 | s36 => DD x28 x11 | s37 => DD x28 x12 | s38 => DD x28 x13 | s39 => DD x28 x14 | s40 => DD x28 x15 | s41 => DD x28 x16 | s42 => DD x28 x17 | s43 => DD x28 x18 | s44 => DD x28 x19 | s45 => DD x28 x20 | s46 => DD x28 x21 | s47 => DD x28 x22 | s48 => DD x28 x23 | s49 => DD x28 x24 | s50 => DD x28 x25 | s51 => DD x28 x26 | s52 => DD x28 x27 | s53 => DD x28 x28 | s54 => DD x28 x29 | s55 => DD x28 x30 | s56 => DD x28 x31 | s57 => DD x28 x32 | s58 => DD x28 x33 | s59 => DD x28 x34 | s60 => DD x28 x35 | s61 => DD x28 x36 | s62 => DD x28 x37 | s63 => DD x28 x38 | s64 => DD x28 x39 | s65 => DD x28 x40 | s66 => DD x28 x41 | s67 => DD x28 x42 | s68 => DD x28 x43 | s69 => DD x28 x44 | s70 => DD x28 x45 | s71 => DD x28 x46 | s72 => DD x28 x47 | s73 => DD x28 x48 | s74 => DD x28 x49 | s75 => DD x28 x50 | s76 => DD x28 x51 | s77 => DD x28 x52 | s78 => DD x28 x53 | s79 => DD x28 x54 | s80 => DD x28 x55 | s81 => DD x28 x56 | s82 => DD x28 x57 | s83 => DD x28 x58 | s84 => DD x28 x59 | s85 => DD x28 x60 | s86 => DD x28 x61 | s87 => DD x28 x62 | s88 => DD x28 x63 | s89 => DD x29 x0 | s90 => DD x29 x1 | s91 => DD x29 x2 | s92 => DD x29 x3 | s93 => DD x29 x4 | s94 => DD x29 x5 | s95 => DD x29 x6 | s96 => DD x29 x7 | s97 => DD x29 x8 | s98 => DD x29 x9 | s99 => DD x29 x10 | s100 => DD x29 x11 | s101 => DD x29 x12 | s102 => DD x29 x13 | s103 => DD x29 x14 | s104 => DD x29 x15 | s105 => DD x29 x16 | s106 => DD x29 x17 | s107 => DD x29 x18 | s108 => DD x29 x19 | s109 => DD x29 x20 | s110 => DD x29 x21 | s111 => DD x29 x22 | s112 => DD x29 x23 | s113 => DD x29 x24 | s114 => DD x29 x25 | s115 => DD x29 x26 | s116 => DD x29 x27 | s117 => DD x29 x28 | s118 => DD x29 x29 | s119 => DD x29 x30 | s120 => DD x29 x31 | s121 => DD x29 x32 | s122 => DD x29 x33 | s123 => DD x29 x34 | s124 => DD x29 x35 | s125 => DD x29 x36 | s126 => DD x29 x37 end.
Definition m1768 (c : sum2) : dd := match c with s0 => DD x27 x40 | s1 => DD x27 x41 | s2 => DD x27 x42 | s3 => DD x27 x43 | s4 => DD x27 x44 | s5 => DD x27 x45 | s6 => DD x27 x46 | s7 => DD x27 x47 | s8 => DD x27 x48 | s9 => DD x27 x49 | s10 => DD x27 x50 | s11 => DD x27 x51 | s12 => DD x27 x52 | s13 => DD x27 x53 | s14 => DD x27 x54 | s15 => DD x27 x55 | s16 => DD x27 x56 | s17 => DD x27 x57 | s18 => DD x27 x58 | s19 => DD x27 x59 | s20 => DD x27 x60 | s21 => DD x27 x61 | s22 => DD x27 x62 | s23 => DD x27 x63 | s24 => DD x28 x0 | s25 => DD x28 x1 | s26 => DD x28 x2 | s27 => DD x28 x3 | s28 => DD x28 x4 | s29 => DD x28 x5 | s30 => DD x28 x6 | s31 => DD x28 x7 | s32 => DD x28 x8 | s33 => DD x28 x9 | s34 => DD x28 x10 | s35 => DD x28 x11 | s36 => DD x28 x12 | s37 => DD x28 x13 | s38 => DD x28 x14 | s39 => DD x28 x15 | s40 => DD x28 x16 | s41 => DD x28 x17 | s42 => DD x28 x18 | s43 => DD x28 x19 | s44 => DD x28 x20 | s45 => DD x28 x21 | s46 => DD x28 x22 | s47 => DD x28 x23 | s48 => DD x28 x24 | s49 => DD x28 x25 | s50 => DD x28 x26 | s51 => DD x28 x27 | s52 => DD x28 x28 | s53 => DD x28 x29 | s54 => DD x28 x30 | s55 => DD x28 x31 | s56 => DD x28 x32 | s57 => DD x28 x33 | s58 => DD x28 x34 | s59 => DD x28 x35 | s60 => DD x28 x36 | s61 => DD x28 x37 | s62 => DD x28 x38 | s63 => DD x28 x39 | s64 => DD x28 x40 | s65 => DD x28 x41 | s66 => DD x28 x42 | s67 => DD x28 x43 | s68 => DD x28 x44 | s69 => DD x28 x45 | s70 => DD x28 x46 | s71 => DD x28 x47 | s72 => DD x28 x48 | s73 => DD x28 x49 | s74 => DD x28 x50 | s75 => DD x28 x51 | s76 => DD x28 x52 | s77 => DD x28 x53 | s78 => DD x28 x54 | s79 => DD x28 x55 | s80 => DD x28 x56 | s81 => DD x28 x57 | s82 => DD x28 x58 | s83 => DD x28 x59 | s84 => DD x28 x60 | s85 => DD x28 x61 | s86 => DD x28 x62 | s87 => DD x28 x63 | s88 => DD x29 x0 | s89 => DD x29 x1 | s90 => DD x29 x2 | s91 => DD x29 x3 | s92 => DD x29 x4 | s93 => DD x29 x5 | s94 => DD x29 x6 | s95 => DD x29 x7 | s96 => DD x29 x8 | s97 => DD x29 x9 | s98 => DD x29 x10 | s99 => DD x29 x11 | s100 => DD x29 x12 | s101 => DD x29 x13 | s102 => DD x29 x14 | s103 => DD x29 x15 | s104 => DD x29 x16 | s105 => DD x29 x17 | s106 => DD x29 x18 | s107 => DD x29 x19 | s108 => DD x29 x20 | s109 => DD x29 x21 | s110 => DD x29 x22 | s111 => DD x29 x23 | s112 => DD x29 x24 | s113 => DD x29 x25 | s114 => DD x29 x26 | s115 => DD x29 x27 | s116 => DD x29 x28 | s117 => DD x29 x29 | s118 => DD x29 x30 | s119 => DD x29 x31 | s120 => DD x29 x32 | s121 => DD x29 x33 | s122 => DD x29 x34 | s123 => DD x29 x35 | s124 => DD x29 x36 | s125 => DD x29 x37 | s126 => DD x29 x38 end.
Definition m1769 (c : sum2) : dd := match c with s0 => DD x27 x41 | s1 => DD x27 x42 | s2 => DD x27 x43 | s3 => DD x27 x44 | s4 => DD x27 x45 | s5 => DD x27 x46 | s6 => DD x27 x47 | s7 => DD x27 x48 | s8 => DD x27 x49 | s9 => DD x27 x50 | s10 => DD x27 x51 | s11 => DD x27 x52 | s12 => DD x27 x53 | s13 => DD x27 x54 | s14 => DD x27 x55 | s15 => DD x27 x56 | s16 => DD x27 x57 | s17 => DD x27 x58 | s18 => DD x27 x59 | s19 => DD x27 x60 | s20 => DD x27 x61 | s21 => DD x27 x62 | s22 => DD x27 x63 | s23 => DD x28 x0 | s24 => DD x28 x1 | s25 => DD x28 x2 | s26 => DD x28 x3 | s27 => DD x28 x4 | s28 => DD x28 x5 | s29 => DD x28 x6 | s30 => DD x28 x7 | s31 => DD x28 x8 | s32 => DD x28 x9 | s33 => DD x28 x10 | s34 => DD x28 x11 | s35 => DD x28 x12 | s36 => DD x28 x13 | s37 => DD x28 x14 | s38 => DD x28 x15 | s39 => DD x28 x16 | s40 => DD x28 x17 | s41 => DD x28 x18 | s42 => DD x28 x19 | s43 => DD x28 x20 | s44 => DD x28 x21 | s45 => DD x28 x22 | s46 => DD x28 x23 | s47 => DD x28 x24 | s48 => DD x28 x25 | s49 => DD x28 x26 | s50 => DD x28 x27 | s51 => DD x28 x28 | s52 => DD x28 x29 | s53 => DD x28 x30 | s54 => DD x28 x31 | s55 => DD x28 x32 | s56 => DD x28 x33 | s57 => DD x28 x34 | s58 => DD x28 x35 | s59 => DD x28 x36 | s60 => DD x28 x37 | s61 => DD x28 x38 | s62 => DD x28 x39 | s63 => DD x28 x40 | s64 => DD x28 x41 | s65 => DD x28 x42 | s66 => DD x28 x43 | s67 => DD x28 x44 | s68 => DD x28 x45 | s69 => DD x28 x46 | s70 => DD x28 x47 | s71 => DD x28 x48 | s72 => DD x28 x49 | s73 => DD x28 x50 | s74 => DD x28 x51 | s75 => DD x28 x52 | s76 => DD x28 x53 | s77 => DD x28 x54 | s78 => DD x28 x55 | s79 => DD x28 x56 | s80 => DD x28 x57 | s81 => DD x28 x58 | s82 => DD x28 x59 | s83 => DD x28 x60 | s84 => DD x28 x61 | s85 => DD x28 x62 | s86 => DD x28 x63 | s87 => DD x29 x0 | s88 => DD x29 x1 | s89 => DD x29 x2 | s90 => DD x29 x3 | s91 => DD x29 x4 | s92 => DD x29 x5 | s93 => DD x29 x6 | s94 => DD x29 x7 | s95 => DD x29 x8 | s96 => DD x29 x9 | s97 => DD x29 x10 | s98 => DD x29 x11 | s99 => DD x29 x12 | s100 => DD x29 x13 | s101 => DD x29 x14 | s102 => DD x29 x15 | s103 => DD x29 x16 | s104 => DD x29 x17 | s105 => DD x29 x18 | s106 => DD x29 x19 | s107 => DD x29 x20 | s108 => DD x29 x21 | s109 => DD x29 x22 | s110 => DD x29 x23 | s111 => DD x29 x24 | s112 => DD x29 x25 | s113 => DD x29 x26 | s114 => DD x29 x27 | s115 => DD x29 x28 | s116 => DD x29 x29 | s117 => DD x29 x30 | s118 => DD x29 x31 | s119 => DD x29 x32 | s120 => DD x29 x33 | s121 => DD x29 x34 | s122 => DD x29 x35 | s123 => DD x29 x36 | s124 => DD x29 x37 | s125 => DD x29 x38 | s126 => DD x29 x39 end.
Definition m1770 (c : sum2) : dd := match c with s0 => DD x27 x42 | s1 => DD x27 x43 | s2 => DD x27 x44 | s3 => DD x27 x45 | s4 => DD x27 x46 | s5 => DD x27 x47 | s6 => DD x27 x48 | s7 => DD x27 x49 | s8 => DD x27 x50 | s9 => DD x27 x51 | s10 => DD x27 x52 | s11 => DD x27 x53 | s12 => DD x27 x54 | s13 => DD x27 x55 | s14 => DD x27 x56 | s15 => DD x27 x57 | s16 => DD x27 x58 | s17 => DD x27 x59 | s18 => DD x27 x60 | s19 => DD x27 x61 | s20 => DD x27 x62 | s21 => DD x27 x63 | s22 => DD x28 x0 | s23 => DD x28 x1 | s24 => DD x28 x2 | s25 => DD x28 x3 | s26 => DD x28 x4 | s27 => DD x28 x5 | s28 => DD x28 x6 | s29 => DD x28 x7 | s30 => DD x28 x8 | s31 => DD x28 x9 | s32 => DD x28 x10 | s33 => DD x28 x11 | s34 => DD x28 x12 | s35 => DD x28 x13 | s36 => DD x28 x14 | s37 => DD x28 x15 | s38 => DD x28 x16 | s39 => DD x28 x17 | s40 => DD x28 x18 | s41 => DD x28 x19 | s42 => DD x28 x20 | s43 => DD x28 x21 | s44 => DD x28 x22 | s45 => DD x28 x23 | s46 => DD x28 x24 | s47 => DD x28 x25 | s48 => DD x28 x26 | s49 => DD x28 x27 | s50 => DD x28 x28 | s51 => DD x28 x29 | s52 => DD x28 x30 | s53 => DD x28 x31 | s54 => DD x28 x32 | s55 => DD x28 x33 | s56 => DD x28 x34 | s57 => DD x28 x35 | s58 => DD x28 x36 | s59 => DD x28 x37 | s60 => DD x28 x38 | s61 => DD x28 x39 | s62 => DD x28 x40 | s63 => DD x28 x41 | s64 => DD x28 x42 | s65 => DD x28 x43 | s66 => DD x28 x44 | s67 => DD x28 x45 | s68 => DD x28 x46 | s69 => DD x28 x47 | s70 => DD x28 x48 | s71 => DD x28 x49 | s72 => DD x28 x50 | s73 => DD x28 x51 | s74 => DD x28 x52 | s75 => DD x28 x53 | s76 => DD x28 x54 | s77 => DD x28 x55 | s78 => DD x28 x56 | s79 => DD x28 x57 | s80 => DD x28 x58 | s81 => DD x28 x59 | s82 => DD x28 x60 | s83 => DD x28 x61 | s84 => DD x28 x62 | s85 => DD x28 x63 | s86 => DD x29 x0 | s87 => DD x29 x1 | s88 => DD x29 x2 | s89 => DD x29 x3 | s90 => DD x29 x4 | s91 => DD x29 x5 | s92 => DD x29 x6 | s93 => DD x29 x7 | s94 => DD x29 x8 | s95 => DD x29 x9 | s96 => DD x29 x10 | s97 => DD x29 x11 | s98 => DD x29 x12 | s99 => DD x29 x13 | s100 => DD x29 x14 | s101 => DD x29 x15 | s102 => DD x29 x16 | s103 => DD x29 x17 | s104 => DD x29 x18 | s105 => DD x29 x19 | s106 => DD x29 x20 | s107 => DD x29 x21 | s108 => DD x29 x22 | s109 => DD x29 x23 | s110 => DD x29 x24 | s111 => DD x29 x25 | s112 => DD x29 x26 | s113 => DD x29 x27 | s114 => DD x29 x28 | s115 => DD x29 x29 | s116 => DD x29 x30 | s117 => DD x29 x31 | s118 => DD x29 x32 | s119 => DD x29 x33 | s120 => DD x29 x34 | s121 => DD x29 x35 | s122 => DD x29 x36 | s123 => DD x29 x37 | s124 => DD x29 x38 | s125 => DD x29 x39 | s126 => DD x29 x40 end.
Definition m1776 (c : sum2) : dd := match c with s0 => DD x27 x48 | s1 => DD x27 x49 | s2 => DD x27 x50 | s3 => DD x27 x51 | s4 => DD x27 x52 | s5 => DD x27 x53 | s6 => DD x27 x54 | s7 => DD x27 x55 | s8 => DD x27 x56 | s9 => DD x27 x57 | s10 => DD x27 x58 | s11 => DD x27 x59 | s12 => DD x27 x60 | s13 => DD x27 x61 | s14 => DD x27 x62 | s15 => DD x27 x63 | s16 => DD x28 x0 | s17 => DD x28 x1 | s18 => DD x28 x2 | s19 => DD x28 x3 | s20 => DD x28 x4 | s21 => DD x28 x5 | s22 => DD x28 x6 | s23 => DD x28 x7 | s24 => DD x28 x8 | s25 => DD x28 x9 | s26 => DD x28 x10 | s27 => DD x28 x11 | s28 => DD x28 x12 | s29 => DD x28 x13 | s30 => DD x28 x14 | s31 => DD x28 x15 | s32 => DD x28 x16 | s33 => DD x28 x17 | s34 => DD x28 x18 | s35 => DD x28 x19 | s36 => DD x28 x20 | s37 => DD x28 x21 | s38 => DD x28 x22 | s39 => DD x28 x23 | s40 => DD x28 x24 | s41 => DD x28 x25 | s42 => DD x28 x26 | s43 => DD x28 x27 | s44 => DD x28 x28 | s45 => DD x28 x29 | s46 => DD x28 x30 | s47 => DD x28 x31 | s48 => DD x28 x32 | s49 => DD x28 x33 | s50 => DD x28 x34 | s51 => DD x28 x35 | s52 => DD x28 x36 | s53 => DD x28 x37 | s54 => DD x28 x38 | s55 => DD x28 x39 | s56 => DD x28 x40 | s57 => DD x28 x41 | s58 => DD x28 x42 | s59 => DD x28 x43 | s60 => DD x28 x44 | s61 => DD x28 x45 | s62 => DD x28 x46 | s63 => DD x28 x47 | s64 => DD x28 x48 | s65 => DD x28 x49 | s66 => DD x28 x50 | s67 => DD x28 x51 | s68 => DD x28 x52 | s69 => DD x28 x53 | s70 => DD x28 x54 | s71 => DD x28 x55 | s72 => DD x28 x56 | s73 => DD x28 x57 | s74 => DD x28 x58 | s75 => DD x28 x59 | s76 => DD x28 x60 | s77 => DD x28 x61 | s78 => DD x28 x62 | s79 => DD x28 x63 | s80 => DD x29 x0 | s81 => DD x29 x1 | s82 => DD x29 x2 | s83 => DD x29 x3 | s84 => DD x29 x4 | s85 => DD x29 x5 | s86 => DD x29 x6 | s87 => DD x29 x7 | s88 => DD x29 x8 | s89 => DD x29 x9 | s90 => DD x29 x10 | s91 => DD x29 x11 | s92 => DD x29 x12 | s93 => DD x29 x13 | s94 => DD x29 x14 | s95 => DD x29 x15 | s96 => DD x29 x16 | s97 => DD x29 x17 | s98 => DD x29 x18 | s99 => DD x29 x19 | s100 => DD x29 x20 | s101 => DD x29 x21 | s102 => DD x29 x22 | s103 => DD x29 x23 | s104 => DD x29 x24 | s105 => DD x29 x25 | s106 => DD x29 x26 | s107 => DD x29 x27 | s108 => DD x29 x28 | s109 => DD x29 x29 | s110 => DD x29 x30 | s111 => DD x29 x31 | s112 => DD x29 x32 | s113 => DD x29 x33 | s114 => DD x29 x34 | s115 => DD x29 x35 | s116 => DD x29 x36 | s117 => DD x29 x37 | s118 => DD x29 x38 | s119 => DD x29 x39 | s120 => DD x29 x40 | s121 => DD x29 x41 | s122 => DD x29 x42 | s123 => DD x29 x43 | s124 => DD x29 x44 | s125 => DD x29 x45 | s126 => DD x29 x46 end.
Definition m1782 (c : sum2) : dd := match c with s0 => DD x27 x54 | s1 => DD x27 x55 | s2 => DD x27 x56 | s3 => DD x27 x57 | s4 => DD x27 x58 | s5 => DD x27 x59 | s6 => DD x27 x60 | s7 => DD x27 x61 | s8 => DD x27 x62 | s9 => DD x27 x63 | s10 => DD x28 x0 | s11 => DD x28 x1 | s12 => DD x28 x2 | s13 => DD x28 x3 | s14 => DD x28 x4 | s15 => DD x28 x5 | s16 => DD x28 x6 | s17 => DD x28 x7 | s18 => DD x28 x8 | s19 => DD x28 x9 | s20 => DD x28 x10 | s21 => DD x28 x11 | s22 => DD x28 x12 | s23 => DD x28 x13 | s24 => DD x28 x14 | s25 => DD x28 x15 | s26 => DD x28 x16 | s27 => DD x28 x17 | s28 => DD x28 x18 | s29 => DD x28 x19 | s30 => DD x28 x20 | s31 => DD x28 x21 | s32 => DD x28 x22 | s33 => DD x28 x23 | s34 => DD x28 x24 | s35 => DD x28 x25 | s36 => DD x28 x26 | s37 => DD x28 x27 | s38 => DD x28 x28 | s39 => DD x28 x29 | s40 => DD x28 x30 | s41 => DD x28 x31 | s42 => DD x28 x32 | s43 => DD x28 x33 | s44 => DD x28 x34 | s45 => DD x28 x35 | s46 => DD x28 x36 | s47 => DD x28 x37 | s48 => DD x28 x38 | s49 => DD x28 x39 | s50 => DD x28 x40 | s51 => DD x28 x41 | s52 => DD x28 x42 | s53 => DD x28 x43 | s54 => DD x28 x44 | s55 => DD x28 x45 | s56 => DD x28 x46 | s57 => DD x28 x47 | s58 => DD x28 x48 | s59 => DD x28 x49 | s60 => DD x28 x50 | s61 => DD x28 x51 | s62 => DD x28 x52 | s63 => DD x28 x53 | s64 => DD x28 x54 | s65 => DD x28 x55 | s66 => DD x28 x56 | s67 => DD x28 x57 | s68 => DD x28 x58 | s69 => DD x28 x59 | s70 => DD x28 x60 | s71 => DD x28 x61 | s72 => DD x28 x62 | s73 => DD x28 x63 | s74 => DD x29 x0 | s75 => DD x29 x1 | s76 => DD x29 x2 | s77 => DD x29 x3 | s78 => DD x29 x4 | s79 => DD x29 x5 | s80 => DD x29 x6 | s81 => DD x29 x7 | s82 => DD x29 x8 | s83 => DD x29 x9 | s84 => DD x29 x10 | s85 => DD x29 x11 | s86 => DD x29 x12 | s87 => DD x29 x13 | s88 => DD x29 x14 | s89 => DD x29 x15 | s90 => DD x29 x16 | s91 => DD x29 x17 | s92 => DD x29 x18 | s93 => DD x29 x19 | s94 => DD x29 x20 | s95 => DD x29 x21 | s96 => DD x29 x22 | s97 => DD x29 x23 | s98 => DD x29 x24 | s99 => DD x29 x25 | s100 => DD x29 x26 | s101 => DD x29 x27 | s102 => DD x29 x28 | s103 => DD x29 x29 | s104 => DD x29 x30 | s105 => DD x29 x31 | s106 => DD x29 x32 | s107 => DD x29 x33 | s108 => DD x29 x34 | s109 => DD x29 x35 | s110 => DD x29 x36 | s111 => DD x29 x37 | s112 => DD x29 x38 | s113 => DD x29 x39 | s114 => DD x29 x40 | s115 => DD x29 x41 | s116 => DD x29 x42 | s117 => DD x29 x43 | s118 => DD x29 x44 | s119 => DD x29 x45 | s120 => DD x29 x46 | s121 => DD x29 x47 | s122 => DD x29 x48 | s123 => DD x29 x49 | s124 => DD x29 x50 | s125 => DD x29 x51 | s126 => DD x29 x52 end.
Definition m1785 (c : sum2) : dd := match c with s0 => DD x27 x57 | s1 => DD x27 x58 | s2 => DD x27 x59 | s3 => DD x27 x60 | s4 => DD x27 x61 | s5 => DD x27 x62 | s6 => DD x27 x63 | s7 => DD x28 x0 | s8 => DD x28 x1 | s9 => DD x28 x2 | s10 => DD x28 x3 | s11 => DD x28 x4 | s12 => DD x28 x5 | s13 => DD x28 x6 | s14 => DD x28 x7 | s15 => DD x28 x8 | s16 => DD x28 x9 | s17 => DD x28 x10 | s18 => DD x28 x11 | s19 => DD x28 x12 | s20 => DD x28 x13 | s21 => DD x28 x14 | s22 => DD x28 x15 | s23 => DD x28 x16 | s24 => DD x28 x17 | s25 => DD x28 x18 | s26 => DD x28 x19 | s27 => DD x28 x20 | s28 => DD x28 x21 | s29 => DD x28 x22 | s30 => DD x28 x23 | s31 => DD x28 x24 | s32 => DD x28 x25 | s33 => DD x28 x26 | s34 => DD x28 x27 | s35 => DD x28 x28 | s36 => DD x28 x29 | s37 => DD x28 x30 | s38 => DD x28 x31 | s39 => DD x28 x32 | s40 => DD x28 x33 | s41 => DD x28 x34 | s42 => DD x28 x35 | s43 => DD x28 x36 | s44 => DD x28 x37 | s45 => DD x28 x38 | s46 => DD x28 x39 | s47 => DD x28 x40 | s48 => DD x28 x41 | s49 => DD x28 x42 | s50 => DD x28 x43 | s51 => DD x28 x44 | s52 => DD x28 x45 | s53 => DD x28 x46 | s54 => DD x28 x47 | s55 => DD x28 x48 | s56 => DD x28 x49 | s57 => DD x28 x50 | s58 => DD x28 x51 | s59 => DD x28 x52 | s60 => DD x28 x53 | s61 => DD x28 x54 | s62 => DD x28 x55 | s63 => DD x28 x56 | s64 => DD x28 x57 | s65 => DD x28 x58 | s66 => DD x28 x59 | s67 => DD x28 x60 | s68 => DD x28 x61 | s69 => DD x28 x62 | s70 => DD x28 x63 | s71 => DD x29 x0 | s72 => DD x29 x1 | s73 => DD x29 x2 | s74 => DD x29 x3 | s75 => DD x29 x4 | s76 => DD x29 x5 | s77 => DD x29 x6 | s78 => DD x29 x7 | s79 => DD x29 x8 | s80 => DD x29 x9 | s81 => DD x29 x10 | s82 => DD x29 x11 | s83 => DD x29 x12 | s84 => DD x29 x13 | s85 => DD x29 x14 | s86 => DD x29 x15 | s87 => DD x29 x16 | s88 => DD x29 x17 | s89 => DD x29 x18 | s90 => DD x29 x19 | s91 => DD x29 x20 | s92 => DD x29 x21 | s93 => DD x29 x22 | s94 => DD x29 x23 | s95 => DD x29 x24 | s96 => DD x29 x25 | s97 => DD x29 x26 | s98 => DD x29 x27 | s99 => DD x29 x28 | s100 => DD x29 x29 | s101 => DD x29 x30 | s102 => DD x29 x31 | s103 => DD x29 x32 | s104 => DD x29 x33 | s105 => DD x29 x34 | s106 => DD x29 x35 | s107 => DD x29 x36 | s108 => DD x29 x37 | s109 => DD x29 x38 | s110 => DD x29 x39 | s111 => DD x29 x40 | s112 => DD x29 x41 | s113 => DD x29 x42 | s114 => DD x29 x43 | s115 => DD x29 x44 | s116 => DD x29 x45 | s117 => DD x29 x46 | s118 => DD x29 x47 | s119 => DD x29 x48 | s120 => DD x29 x49 | s121 => DD x29 x50 | s122 => DD x29 x51 | s123 => DD x29 x52 | s124 => DD x29 x53 | s125 => DD x29 x54 | s126 => DD x29 x55 end.
Definition m1786 (c : sum2) : dd := match c with s0 => DD x27 x58 | s1 => DD x27 x59 | s2 => DD x27 x60 | s3 => DD x27 x61 | s4 => DD x27 x62 | s5 => DD x27 x63 | s6 => DD x28 x0 | s7 => DD x28 x1 | s8 => DD x28 x2 | s9 => DD x28 x3 | s10 => DD x28 x4 | s11 => DD x28 x5 | s12 => DD x28 x6 | s13 => DD x28 x7 | s14 => DD x28 x8 | s15 => DD x28 x9 | s16 => DD x28 x10 | s17 => DD x28 x11 | s18 => DD x28 x12 | s19 => DD x28 x13 | s20 => DD x28 x14 | s21 => DD x28 x15 | s22 => DD x28 x16 | s23 => DD x28 x17 | s24 => DD x28 x18 | s25 => DD x28 x19 | s26 => DD x28 x20 | s27 => DD x28 x21 | s28 => DD x28 x22 | s29 => DD x28 x23 | s30 => DD x28 x24 | s31 => DD x28 x25 | s32 => DD x28 x26 | s33 => DD x28 x27 | s34 => DD x28 x28 | s35 => DD x28 x29 | s36 => DD x28 x30 | s37 => DD x28 x31 | s38 => DD x28 x32 | s39 => DD x28 x33 | s40 => DD x28 x34 | s41 => DD x28 x35 | s42 => DD x28 x36 | s43 => DD x28 x37 | s44 => DD x28 x38 | s45 => DD x28 x39 | s46 => DD x28 x40 | s47 => DD x28 x41 | s48 => DD x28 x42 | s49 => DD x28 x43 | s50 => DD x28 x44 | s51 => DD x28 x45 | s52 => DD x28 x46 | s53 => DD x28 x47 | s54 => DD x28 x48 | s55 => DD x28 x49 | s56 => DD x28 x50 | s57 => DD x28 x51 | s58 => DD x28 x52 | s59 => DD x28 x53 | s60 => DD x28 x54 | s61 => DD x28 x55 | s62 => DD x28 x56 | s63 => DD x28 x57 | s64 => DD x28 x58 | s65 => DD x28 x59 | s66 => DD x28 x60 | s67 => DD x28 x61 | s68 => DD x28 x62 | s69 => DD x28 x63 | s70 => DD x29 x0 | s71 => DD x29 x1 | s72 => DD x29 x2 | s73 => DD x29 x3 | s74 => DD x29 x4 | s75 => DD x29 x5 | s76 => DD x29 x6 | s77 => DD x29 x7 | s78 => DD x29 x8 | s79 => DD x29 x9 | s80 => DD x29 x10 | s81 => DD x29 x11 | s82 => DD x29 x12 | s83 => DD x29 x13 | s84 => DD x29 x14 | s85 => DD x29 x15 | s86 => DD x29 x16 | s87 => DD x29 x17 | s88 => DD x29 x18 | s89 => DD x29 x19 | s90 => DD x29 x20 | s91 => DD x29 x21 | s92 => DD x29 x22 | s93 => DD x29 x23 | s94 => DD x29 x24 | s95 => DD x29 x25 | s96 => DD x29 x26 | s97 => DD x29 x27 | s98 => DD x29 x28 | s99 => DD x29 x29 | s100 => DD x29 x30 | s101 => DD x29 x31 | s102 => DD x29 x32 | s103 => DD x29 x33 | s104 => DD x29 x34 | s105 => DD x29 x35 | s106 => DD x29 x36 | s107 => DD x29 x37 | s108 => DD x29 x38 | s109 => DD x29 x39 | s110 => DD x29 x40 | s111 => DD x29 x41 | s112 => DD x29 x42 | s113 => DD x29 x43 | s114 => DD x29 x44 | s115 => DD x29 x45 | s116 => DD x29 x46 | s117 => DD x29 x47 | s118 => DD x29 x48 | s119 => DD x29 x49 | s120 => DD x29 x50 | s121 => DD x29 x51 | s122 => DD x29 x52 | s123 => DD x29 x53 | s124 => DD x29 x54 | s125 => DD x29 x55 | s126 => DD x29 x56 end.
Definition m1792 (c : sum2) : dd := match c with s0 => DD x28 x0 | s1 => DD x28 x1 | s2 => DD x28 x2 | s3 => DD x28 x3 | s4 => DD x28 x4 | s5 => DD x28 x5 | s6 => DD x28 x6 | s7 => DD x28 x7 | s8 => DD x28 x8 | s9 => DD x28 x9 | s10 => DD x28 x10 | s11 => DD x28 x11 | s12 => DD x28 x12 | s13 => DD x28 x13 | s14 => DD x28 x14 | s15 => DD x28 x15 | s16 => DD x28 x16 | s17 => DD x28 x17 | s18 => DD x28 x18 | s19 => DD x28 x19 | s20 => DD x28 x20 | s21 => DD x28 x21 | s22 => DD x28 x22 | s23 => DD x28 x23 | s24 => DD x28 x24 | s25 => DD x28 x25 | s26 => DD x28 x26 | s27 => DD x28 x27 | s28 => DD x28 x28 | s29 => DD x28 x29 | s30 => DD x28 x30 | s31 => DD x28 x31 | s32 => DD x28 x32 | s33 => DD x28 x33 | s34 => DD x28 x34 | s35 => DD x28 x35 | s36 => DD x28 x36 | s37 => DD x28 x37 | s38 => DD x28 x38 | s39 => DD x28 x39 | s40 => DD x28 x40 | s41 => DD x28 x41 | s42 => DD x28 x42 | s43 => DD x28 x43 | s44 => DD x28 x44 | s45 => DD x28 x45 | s46 => DD x28 x46 | s47 => DD x28 x47 | s48 => DD x28 x48 | s49 => DD x28 x49 | s50 => DD x28 x50 | s51 => DD x28 x51 | s52 => DD x28 x52 | s53 => DD x28 x53 | s54 => DD x28 x54 | s55 => DD x28 x55 | s56 => DD x28 x56 | s57 => DD x28 x57 | s58 => DD x28 x58 | s59 => DD x28 x59 | s60 => DD x28 x60 | s61 => DD x28 x61 | s62 => DD x28 x62 | s63 => DD x28 x63 | s64 => DD x29 x0 | s65 => DD x29 x1 | s66 => DD x29 x2 | s67 => DD x29 x3 | s68 => DD x29 x4 | s69 => DD x29 x5 | s70 => DD x29 x6 | s71 => DD x29 x7 | s72 => DD x29 x8 | s73 => DD x29 x9 | s74 => DD x29 x10 | s75 => DD x29 x11 | s76 => DD x29 x12 | s77 => DD x29 x13 | s78 => DD x29 x14 | s79 => DD x29 x15 | s80 => DD x29 x16 | s81 => DD x29 x17 | s82 => DD x29 x18 | s83 => DD x29 x19 | s84 => DD x29 x20 | s85 => DD x29 x21 | s86 => DD x29 x22 | s87 => DD x29 x23 | s88 => DD x29 x24 | s89 => DD x29 x25 | s90 => DD x29 x26 | s91 => DD x29 x27 | s92 => DD x29 x28 | s93 => DD x29 x29 | s94 => DD x29 x30 | s95 => DD x29 x31 | s96 => DD x29 x32 | s97 => DD x29 x33 | s98 => DD x29 x34 | s99 => DD x29 x35 | s100 => DD x29 x36 | s101 => DD x29 x37 | s102 => DD x29 x38 | s103 => DD x29 x39 | s104 => DD x29 x40 | s105 => DD x29 x41 | s106 => DD x29 x42 | s107 => DD x29 x43 | s108 => DD x29 x44 | s109 => DD x29 x45 | s110 => DD x29 x46 | s111 => DD x29 x47 | s112 => DD x29 x48 | s113 => DD x29 x49 | s114 => DD x29 x50 | s115 => DD x29 x51 | s116 => DD x29 x52 | s117 => DD x29 x53 | s118 => DD x29 x54 | s119 => DD x29 x55 | s120 => DD x29 x56 | s121 => DD x29 x57 | s122 => DD x29 x58 | s123 => DD x29 x59 | s124 => DD x29 x60 | s125 => DD x29 x61 | s126 => DD x29 x62 end.
Definition m1794 (c : sum2) : dd := match c with s0 => DD x28 x2 | s1 => DD x28 x3 | s2 => DD x28 x4 | s3 => DD x28 x5 | s4 => DD x28 x6 | s5 => DD x28 x7 | s6 => DD x28 x8 | s7 => DD x28 x9 | s8 => DD x28 x10 | s9 => DD x28 x11 | s10 => DD x28 x12 | s11 => DD x28 x13 | s12 => DD x28 x14 | s13 => DD x28 x15 | s14 => DD x28 x16 | s15 => DD x28 x17 | s16 => DD x28 x18 | s17 => DD x28 x19 | s18 => DD x28 x20 | s19 => DD x28 x21 | s20 => DD x28 x22 | s21 => DD x28 x23 | s22 => DD x28 x24 | s23 => DD x28 x25 | s24 => DD x28 x26 | s25 => DD x28 x27 | s26 => DD x28 x28 | s27 => DD x28 x29 | s28 => DD x28 x30 | s29 => DD x28 x31 | s30 => DD x28 x32 | s31 => DD x28 x33 | s32 => DD x28 x34 | s33 => DD x28 x35 | s34 => DD x28 x36 | s35 => DD x28 x37 | s36 => DD x28 x38 | s37 => DD x28 x39 | s38 => DD x28 x40 | s39 => DD x28 x41 | s40 => DD x28 x42 | s41 => DD x28 x43 | s42 => DD x28 x44 | s43 => DD x28 x45 | s44 => DD x28 x46 | s45 => DD x28 x47 | s46 => DD x28 x48 | s47 => DD x28 x49 | s48 => DD x28 x50 | s49 => DD x28 x51 | s50 => DD x28 x52 | s51 => DD x28 x53 | s52 => DD x28 x54 | s53 => DD x28 x55 | s54 => DD x28 x56 | s55 => DD x28 x57 | s56 => DD x28 x58 | s57 => DD x28 x59 | s58 => DD x28 x60 | s59 => DD x28 x61 | s60 => DD x28 x62 | s61 => DD x28 x63 | s62 => DD x29 x0 | s63 => DD x29 x1 | s64 => DD x29 x2 | s65 => DD x29 x3 | s66 => DD x29 x4 | s67 => DD x29 x5 | s68 => DD x29 x6 | s69 => DD x29 x7 | s70 => DD x29 x8 | s71 => DD x29 x9 | s72 => DD x29 x10 | s73 => DD x29 x11 | s74 => DD x29 x12 | s75 => DD x29 x13 | s76 => DD x29 x14 | s77 => DD x29 x15 | s78 => DD x29 x16 | s79 => DD x29 x17 | s80 => DD x29 x18 | s81 => DD x29 x19 | s82 => DD x29 x20 | s83 => DD x29 x21 | s84 => DD x29 x22 | s85 => DD x29 x23 | s86 => DD x29 x24 | s87 => DD x29 x25 | s88 => DD x29 x26 | s89 => DD x29 x27 | s90 => DD x29 x28 | s91 => DD x29 x29 | s92 => DD x29 x30 | s93 => DD x29 x31 | s94 => DD x29 x32 | s95 => DD x29 x33 | s96 => DD x29 x34 | s97 => DD x29 x35 | s98 => DD x29 x36 | s99 => DD x29 x37 | s100 => DD x29 x38 | s101 => DD x29 x39 | s102 => DD x29 x40 | s103 => DD x29 x41 | s104 => DD x29 x42 | s105 => DD x29 x43 | s106 => DD x29 x44 | s107 => DD x29 x45 | s108 => DD x29 x46 | s109 => DD x29 x47 | s110 => DD x29 x48 | s111 => DD x29 x49 | s112 => DD x29 x50 | s113 => DD x29 x51 | s114 => DD x29 x52 | s115 => DD x29 x53 | s116 => DD x29 x54 | s117 => DD x29 x55 | s118 => DD x29 x56 | s119 => DD x29 x57 | s120 => DD x29 x58 | s121 => DD x29 x59 | s122 => DD x29 x60 | s123 => DD x29 x61 | s124 => DD x29 x62 | s125 => DD x29 x63 | s126 => DD x30 x0 end.
Definition m1798 (c : sum2) : dd := match c with s0 => DD x28 x6 | s1 => DD x28 x7 | s2 => DD x28 x8 | s3 => DD x28 x9 | s4 => DD x28 x10 | s5 => DD x28 x11 | s6 => DD x28 x12 | s7 => DD x28 x13 | s8 => DD x28 x14 | s9 => DD x28 x15 | s10 => DD x28 x16 | s11 => DD x28 x17 | s12 => DD x28 x18 | s13 => DD x28 x19 | s14 => DD x28 x20 | s15 => DD x28 x21 | s16 => DD x28 x22 | s17 => DD x28 x23 | s18 => DD x28 x24 | s19 => DD x28 x25 | s20 => DD x28 x26 | s21 => DD x28 x27 | s22 => DD x28 x28 | s23 => DD x28 x29 | s24 => DD x28 x30 | s25 => DD x28 x31 | s26 => DD x28 x32 | s27 => DD x28 x33 | s28 => DD x28 x34 | s29 => DD x28 x35 | s30 => DD x28 x36 | s31 => DD x28 x37 | s32 => DD x28 x38 | s33 => DD x28 x39 | s34 => DD x28 x40 | s35 => DD x28 x41 | s36 => DD x28 x42 | s37 => DD x28 x43 | s38 => DD x28 x44 | s39 => DD x28 x45 | s40 => DD x28 x46 | s41 => DD x28 x47 | s42 => DD x28 x48 | s43 => DD x28 x49 | s44 => DD x28 x50 | s45 => DD x28 x51 | s46 => DD x28 x52 | s47 => DD x28 x53 | s48 => DD x28 x54 | s49 => DD x28 x55 | s50 => DD x28 x56 | s51 => DD x28 x57 | s52 => DD x28 x58 | s53 => DD x28 x59 | s54 => DD x28 x60 | s55 => DD x28 x61 | s56 => DD x28 x62 | s57 => DD x28 x63 | s58 => DD x29 x0 | s59 => DD x29 x1 | s60 => DD x29 x2 | s61 => DD x29 x3 | s62 => DD x29 x4 | s63 => DD x29 x5 | s64 => DD x29 x6 | s65 => DD x29 x7 | s66 => DD x29 x8 | s67 => DD x29 x9 | s68 => DD x29 x10 | s69 => DD x29 x11 | s70 => DD x29 x12 | s71 => DD x29 x13 | s72 => DD x29 x14 | s73 => DD x29 x15 | s74 => DD x29 x16 | s75 => DD x29 x17 | s76 => DD x29 x18 | s77 => DD x29 x19 | s78 => DD x29 x20 | s79 => DD x29 x21 | s80 => DD x29 x22 | s81 => DD x29 x23 | s82 => DD x29 x24 | s83 => DD x29 x25 | s84 => DD x29 x26 | s85 => DD x29 x27 | s86 => DD x29 x28 | s87 => DD x29 x29 | s88 => DD x29 x30 | s89 => DD x29 x31 | s90 => DD x29 x32 | s91 => DD x29 x33 | s92 => DD x29 x34 | s93 => DD x29 x35 | s94 => DD x29 x36 | s95 => DD x29 x37 | s96 => DD x29 x38 | s97 => DD x29 x39 | s98 => DD x29 x40 | s99 => DD x29 x41 | s100 => DD x29 x42 | s101 => DD x29 x43 | s102 => DD x29 x44 | s103 => DD x29 x45 | s104 => DD x29 x46 | s105 => DD x29 x47 | s106 => DD x29 x48 | s107 => DD x29 x49 | s108 => DD x29 x50 | s109 => DD x29 x51 | s110 => DD x29 x52 | s111 => DD x29 x53 | s112 => DD x29 x54 | s113 => DD x29 x55 | s114 => DD x29 x56 | s115 => DD x29 x57 | s116 => DD x29 x58 | s117 => DD x29 x59 | s118 => DD x29 x60 | s119 => DD x29 x61 | s120 => DD x29 x62 | s121 => DD x29 x63 | s122 => DD x30 x0 | s123 => DD x30 x1 | s124 => DD x30 x2 | s125 => DD x30 x3 | s126 => DD x30 x4 end.
Definition m1800 (c : sum2) : dd := match c with s0 => DD x28 x8 | s1 => DD x28 x9 | s2 => DD x28 x10 | s3 => DD x28 x11 | s4 => DD x28 x12 | s5 => DD x28 x13 | s6 => DD x28 x14 | s7 => DD x28 x15 | s8 => DD x28 x16 | s9 => DD x28 x17 | s10 => DD x28 x18 | s11 => DD x28 x19 | s12 => DD x28 x20 | s13 => DD x28 x21 | s14 => DD x28 x22 | s15 => DD x28 x23 | s16 => DD x28 x24 | s17 => DD x28 x25 | s18 => DD x28 x26 | s19 => DD x28 x27 | s20 => DD x28 x28 | s21 => DD x28 x29 | s22 => DD x28 x30 | s23 => DD x28 x31 | s24 => DD x28 x32 | s25 => DD x28 x33 | s26 => DD x28 x34 | s27 => DD x28 x35 | s28 => DD x28 x36 | s29 => DD x28 x37 | s30 => DD x28 x38 | s31 => DD x28 x39 | s32 => DD x28 x40 | s33 => DD x28 x41 | s34 => DD x28 x42 | s35 => DD x28 x43 | s36 => DD x28 x44 | s37 => DD x28 x45 | s38 => DD x28 x46 | s39 => DD x28 x47 | s40 => DD x28 x48 | s41 => DD x28 x49 | s42 => DD x28 x50 | s43 => DD x28 x51 | s44 => DD x28 x52 | s45 => DD x28 x53 | s46 => DD x28 x54 | s47 => DD x28 x55 | s48 => DD x28 x56 | s49 => DD x28 x57 | s50 => DD x28 x58 | s51 => DD x28 x59 | s52 => DD x28 x60 | s53 => DD x28 x61 | s54 => DD x28 x62 | s55 => DD x28 x63 | s56 => DD x29 x0 | s57 => DD x29 x1 | s58 => DD x29 x2 | s59 => DD x29 x3 | s60 => DD x29 x4 | s61 => DD x29 x5 | s62 => DD x29 x6 | s63 => DD x29 x7 | s64 => DD x29 x8 | s65 => DD x29 x9 | s66 => DD x29 x10 | s67 => DD x29 x11 | s68 => DD x29 x12 | s69 => DD x29 x13 | s70 => DD x29 x14 | s71 => DD x29 x15 | s72 => DD x29 x16 | s73 => DD x29 x17 | s74 => DD x29 x18 | s75 => DD x29 x19 | s76 => DD x29 x20 | s77 => DD x29 x21 | s78 => DD x29 x22 | s79 => DD x29 x23 | s80 => DD x29 x24 | s81 => DD x29 x25 | s82 => DD x29 x26 | s83 => DD x29 x27 | s84 => DD x29 x28 | s85 => DD x29 x29 | s86 => DD x29 x30 | s87 => DD x29 x31 | s88 => DD x29 x32 | s89 => DD x29 x33 | s90 => DD x29 x34 | s91 => DD x29 x35 | s92 => DD x29 x36 | s93 => DD x29 x37 | s94 => DD x29 x38 | s95 => DD x29 x39 | s96 => DD x29 x40 | s97 => DD x29 x41 | s98 => DD x29 x42 | s99 => DD x29 x43 | s100 => DD x29 x44 | s101 => DD x29 x45 | s102 => DD x29 x46 | s103 => DD x29 x47 | s104 => DD x29 x48 | s105 => DD x29 x49 | s106 => DD x29 x50 | s107 => DD x29 x51 | s108 => DD x29 x52 | s109 => DD x29 x53 | s110 => DD x29 x54 | s111 => DD x29 x55 | s112 => DD x29 x56 | s113 => DD x29 x57 | s114 => DD x29 x58 | s115 => DD x29 x59 | s116 => DD x29 x60 | s117 => DD x29 x61 | s118 => DD x29 x62 | s119 => DD x29 x63 | s120 => DD x30 x0 | s121 => DD x30 x1 | s122 => DD x30 x2 | s123 => DD x30 x3 | s124 => DD x30 x4 | s125 => DD x30 x5 | s126 => DD x30 x6 end.
Definition m1802 (c : sum2) : dd := match c with s0 => DD x28 x10 | s1 => DD x28 x11 | s2 => DD x28 x12 | s3 => DD x28 x13 | s4 => DD x28 x14 | s5 => DD x28 x15 | s6 => DD x28 x16 | s7 => DD x28 x17 | s8 => DD x28 x18 | s9 => DD x28 x19 | s10 => DD x28 x20 | s11 => DD x28 x21 | s12 => DD x28 x22 | s13 => DD x28 x23 | s14 => DD x28 x24 | s15 => DD x28 x25 | s16 => DD x28 x26 | s17 => DD x28 x27 | s18 => DD x28 x28 | s19 => DD x28 x29 | s20 => DD x28 x30 | s21 => DD x28 x31 | s22 => DD x28 x32 | s23 => DD x28 x33 | s24 => DD x28 x34 | s25 => DD x28 x35 | s26 => DD x28 x36 | s27 => DD x28 x37 | s28 => DD x28 x38 | s29 => DD x28 x39 | s30 => DD x28 x40 | s31 => DD x28 x41 | s32 => DD x28 x42 | s33 => DD x28 x43 | s34 => DD x28 x44 | s35 => DD x28 x45 | s36 => DD x28 x46 | s37 => DD x28 x47 | s38 => DD x28 x48 | s39 => DD x28 x49 | s40 => DD x28 x50 | s41 => DD x28 x51 | s42 => DD x28 x52 | s43 => DD x28 x53 | s44 => DD x28 x54 | s45 => DD x28 x55 | s46 => DD x28 x56 | s47 => DD x28 x57 | s48 => DD x28 x58 | s49 => DD x28 x59 | s50 => DD x28 x60 | s51 => DD x28 x61 | s52 => DD x28 x62 | s53 => DD x28 x63 | s54 => DD x29 x0 | s55 => DD x29 x1 | s56 => DD x29 x2 | s57 => DD x29 x3 | s58 => DD x29 x4 | s59 => DD x29 x5 | s60 => DD x29 x6 | s61 => DD x29 x7 | s62 => DD x29 x8 | s63 => DD x29 x9 | s64 => DD x29 x10 | s65 => DD x29 x11 | s66 => DD x29 x12 | s67 => DD x29 x13 | s68 => DD x29 x14 | s69 => DD x29 x15 | s70 => DD x29 x16 | s71 => DD x29 x17 | s72 => DD x29 x18 | s73 => DD x29 x19 | s74 => DD x29 x20 | s75 => DD x29 x21 | s76 => DD x29 x22 | s77 => DD x29 x23 | s78 => DD x29 x24 | s79 => DD x29 x25 | s80 => DD x29 x26 | s81 => DD x29 x27 | s82 => DD x29 x28 | s83 => DD x29 x29 | s84 => DD x29 x30 | s85 => DD x29 x31 | s86 => DD x29 x32 | s87 => DD x29 x33 | s88 => DD x29 x34 | s89 => DD x29 x35 | s90 => DD x29 x36 | s91 => DD x29 x37 | s92 => DD x29 x38 | s93 => DD x29 x39 | s94 => DD x29 x40 | s95 => DD x29 x41 | s96 => DD x29 x42 | s97 => DD x29 x43 | s98 => DD x29 x44 | s99 => DD x29 x45 | s100 => DD x29 x46 | s101 => DD x29 x47 | s102 => DD x29 x48 | s103 => DD x29 x49 | s104 => DD x29 x50 | s105 => DD x29 x51 | s106 => DD x29 x52 | s107 => DD x29 x53 | s108 => DD x29 x54 | s109 => DD x29 x55 | s110 => DD x29 x56 | s111 => DD x29 x57 | s112 => DD x29 x58 | s113 => DD x29 x59 | s114 => DD x29 x60 | s115 => DD x29 x61 | s116 => DD x29 x62 | s117 => DD x29 x63 | s118 => DD x30 x0 | s119 => DD x30 x1 | s120 => DD x30 x2 | s121 => DD x30 x3 | s122 => DD x30 x4 | s123 => DD x30 x5 | s124 => DD x30 x6 | s125 => DD x30 x7 | s126 => DD x30 x8 end.
Definition m1804 (c : sum2) : dd := match c with s0 => DD x28 x12 | s1 => DD x28 x13 | s2 => DD x28 x14 | s3 => DD x28 x15 | s4 => DD x28 x16 | s5 => DD x28 x17 | s6 => DD x28 x18 | s7 => DD x28 x19 | s8 => DD x28 x20 | s9 => DD x28 x21 | s10 => DD x28 x22 | s11 => DD x28 x23 | s12 => DD x28 x24 | s13 => DD x28 x25 | s14 => DD x28 x26 | s15 => DD x28 x27 | s16 => DD x28 x28 | s17 => DD x28 x29 | s18 => DD x28 x30 | s19 => DD x28 x31 | s20 => DD x28 x32 | s21 => DD x28 x33 | s22 => DD x28 x34 | s23 => DD x28 x35 | s24 => DD x28 x36 | s25 => DD x28 x37 | s26 => DD x28 x38 | s27 => DD x28 x39 | s28 => DD x28 x40 | s29 => DD x28 x41 | s30 => DD x28 x42 | s31 => DD x28 x43 | s32 => DD x28 x44 | s33 => DD x28 x45 | s34 => DD x28 x46 | s35 => DD x28 x47 | s36 => DD x28 x48 | s37 => DD x28 x49 | s38 => DD x28 x50 | s39 => DD x28 x51 | s40 => DD x28 x52 | s41 => DD x28 x53 | s42 => DD x28 x54 | s43 => DD x28 x55 | s44 => DD x28 x56 | s45 => DD x28 x57 | s46 => DD x28 x58 | s47 => DD x28 x59 | s48 => DD x28 x60 | s49 => DD x28 x61 | s50 => DD x28 x62 | s51 => DD x28 x63 | s52 => DD x29 x0 | s53 => DD x29 x1 | s54 => DD x29 x2 | s55 => DD x29 x3 | s56 => DD x29 x4 | s57 => DD x29 x5 | s58 => DD x29 x6 | s59 => DD x29 x7 | s60 => DD x29 x8 | s61 => DD x29 x9 | s62 => DD x29 x10 | s63 => DD x29 x11 | s64 => DD x29 x12 | s65 => DD x29 x13 | s66 => DD x29 x14 | s67 => DD x29 x15 | s68 => DD x29 x16 | s69 => DD x29 x17 | s70 => DD x29 x18 | s71 => DD x29 x19 | s72 => DD x29 x20 | s73 => DD x29 x21 | s74 => DD x29 x22 | s75 => DD x29 x23 | s76 => DD x29 x24 | s77 => DD x29 x25 | s78 => DD x29 x26 | s79 => DD x29 x27 | s80 => DD x29 x28 | s81 => DD x29 x29 | s82 => DD x29 x30 | s83 => DD x29 x31 | s84 => DD x29 x32 | s85 => DD x29 x33 | s86 => DD x29 x34 | s87 => DD x29 x35 | s88 => DD x29 x36 | s89 => DD x29 x37 | s90 => DD x29 x38 | s91 => DD x29 x39 | s92 => DD x29 x40 | s93 => DD x29 x41 | s94 => DD x29 x42 | s95 => DD x29 x43 | s96 => DD x29 x44 | s97 => DD x29 x45 | s98 => DD x29 x46 | s99 => DD x29 x47 | s100 => DD x29 x48 | s101 => DD x29 x49 | s102 => DD x29 x50 | s103 => DD x29 x51 | s104 => DD x29 x52 | s105 => DD x29 x53 | s106 => DD x29 x54 | s107 => DD x29 x55 | s108 => DD x29 x56 | s109 => DD x29 x57 | s110 => DD x29 x58 | s111 => DD x29 x59 | s112 => DD x29 x60 | s113 => DD x29 x61 | s114 => DD x29 x62 | s115 => DD x29 x63 | s116 => DD x30 x0 | s117 => DD x30 x1 | s118 => DD x30 x2 | s119 => DD x30 x3 | s120 => DD x30 x4 | s121 => DD x30 x5 | s122 => DD x30 x6 | s123 => DD x30 x7 | s124 => DD x30 x8 | s125 => DD x30 x9 | s126 => DD x30 x10 end.
Definition m1806 (c : sum2) : dd := match c with s0 => DD x28 x14 | s1 => DD x28 x15 | s2 => DD x28 x16 | s3 => DD x28 x17 | s4 => DD x28 x18 | s5 => DD x28 x19 | s6 => DD x28 x20 | s7 => DD x28 x21 | s8 => DD x28 x22 | s9 => DD x28 x23 | s10 => DD x28 x24 | s11 => DD x28 x25 | s12 => DD x28 x26 | s13 => DD x28 x27 | s14 => DD x28 x28 | s15 => DD x28 x29 | s16 => DD x28 x30 | s17 => DD x28 x31 | s18 => DD x28 x32 | s19 => DD x28 x33 | s20 => DD x28 x34 | s21 => DD x28 x35 | s22 => DD x28 x36 | s23 => DD x28 x37 | s24 => DD x28 x38 | s25 => DD x28 x39 | s26 => DD x28 x40 | s27 => DD x28 x41 | s28 => DD x28 x42 | s29 => DD x28 x43 | s30 => DD x28 x44 | s31 => DD x28 x45 | s32 => DD x28 x46 | s33 => DD x28 x47 | s34 => DD x28 x48 | s35 => DD x28 x49 | s36 => DD x28 x50 | s37 => DD x28 x51 | s38 => DD x28 x52 | s39 => DD x28 x53 | s40 => DD x28 x54 | s41 => DD x28 x55 | s42 => DD x28 x56 | s43 => DD x28 x57 | s44 => DD x28 x58 | s45 => DD x28 x59 | s46 => DD x28 x60 | s47 => DD x28 x61 | s48 => DD x28 x62 | s49 => DD x28 x63 | s50 => DD x29 x0 | s51 => DD x29 x1 | s52 => DD x29 x2 | s53 => DD x29 x3 | s54 => DD x29 x4 | s55 => DD x29 x5 | s56 => DD x29 x6 | s57 => DD x29 x7 | s58 => DD x29 x8 | s59 => DD x29 x9 | s60 => DD x29 x10 | s61 => DD x29 x11 | s62 => DD x29 x12 | s63 => DD x29 x13 | s64 => DD x29 x14 | s65 => DD x29 x15 | s66 => DD x29 x16 | s67 => DD x29 x17 | s68 => DD x29 x18 | s69 => DD x29 x19 | s70 => DD x29 x20 | s71 => DD x29 x21 | s72 => DD x29 x22 | s73 => DD x29 x23 | s74 => DD x29 x24 | s75 => DD x29 x25 | s76 => DD x29 x26 | s77 => DD x29 x27 | s78 => DD x29 x28 | s79 => DD x29 x29 | s80 => DD x29 x30 | s81 => DD x29 x31 | s82 => DD x29 x32 | s83 => DD x29 x33 | s84 => DD x29 x34 | s85 => DD x29 x35 | s86 => DD x29 x36 | s87 => DD x29 x37 | s88 => DD x29 x38 | s89 => DD x29 x39 | s90 => DD x29 x40 | s91 => DD x29 x41 | s92 => DD x29 x42 | s93 => DD x29 x43 | s94 => DD x29 x44 | s95 => DD x29 x45 | s96 => DD x29 x46 | s97 => DD x29 x47 | s98 => DD x29 x48 | s99 => DD x29 x49 | s100 => DD x29 x50 | s101 => DD x29 x51 | s102 => DD x29 x52 | s103 => DD x29 x53 | s104 => DD x29 x54 | s105 => DD x29 x55 | s106 => DD x29 x56 | s107 => DD x29 x57 | s108 => DD x29 x58 | s109 => DD x29 x59 | s110 => DD x29 x60 | s111 => DD x29 x61 | s112 => DD x29 x62 | s113 => DD x29 x63 | s114 => DD x30 x0 | s115 => DD x30 x1 | s116 => DD x30 x2 | s117 => DD x30 x3 | s118 => DD x30 x4 | s119 => DD x30 x5 | s120 => DD x30 x6 | s121 => DD x30 x7 | s122 => DD x30 x8 | s123 => DD x30 x9 | s124 => DD x30 x10 | s125 => DD x30 x11 | s126 => DD x30 x12 end.
Definition m1813 (c : sum2) : dd := match c with s0 => DD x28 x21 | s1 => DD x28 x22 | s2 => DD x28 x23 | s3 => DD x28 x24 | s4 => DD x28 x25 | s5 => DD x28 x26 | s6 => DD x28 x27 | s7 => DD x28 x28 | s8 => DD x28 x29 | s9 => DD x28 x30 | s10 => DD x28 x31 | s11 => DD x28 x32 | s12 => DD x28 x33 | s13 => DD x28 x34 | s14 => DD x28 x35 | s15 => DD x28 x36 | s16 => DD x28 x37 | s17 => DD x28 x38 | s18 => DD x28 x39 | s19 => DD x28 x40 | s20 => DD x28 x41 | s21 => DD x28 x42 | s22 => DD x28 x43 | s23 => DD x28 x44 | s24 => DD x28 x45 | s25 => DD x28 x46 | s26 => DD x28 x47 | s27 => DD x28 x48 | s28 => DD x28 x49 | s29 => DD x28 x50 | s30 => DD x28 x51 | s31 => DD x28 x52 | s32 => DD x28 x53 | s33 => DD x28 x54 | s34 => DD x28 x55 | s35 => DD x28 x56 | s36 => DD x28 x57 | s37 => DD x28 x58 | s38 => DD x28 x59 | s39 => DD x28 x60 | s40 => DD x28 x61 | s41 => DD x28 x62 | s42 => DD x28 x63 | s43 => DD x29 x0 | s44 => DD x29 x1 | s45 => DD x29 x2 | s46 => DD x29 x3 | s47 => DD x29 x4 | s48 => DD x29 x5 | s49 => DD x29 x6 | s50 => DD x29 x7 | s51 => DD x29 x8 | s52 => DD x29 x9 | s53 => DD x29 x10 | s54 => DD x29 x11 | s55 => DD x29 x12 | s56 => DD x29 x13 | s57 => DD x29 x14 | s58 => DD x29 x15 | s59 => DD x29 x16 | s60 => DD x29 x17 | s61 => DD x29 x18 | s62 => DD x29 x19 | s63 => DD x29 x20 | s64 => DD x29 x21 | s65 => DD x29 x22 | s66 => DD x29 x23 | s67 => DD x29 x24 | s68 => DD x29 x25 | s69 => DD x29 x26 | s70 => DD x29 x27 | s71 => DD x29 x28 | s72 => DD x29 x29 | s73 => DD x29 x30 | s74 => DD x29 x31 | s75 => DD x29 x32 | s76 => DD x29 x33 | s77 => DD x29 x34 | s78 => DD x29 x35 | s79 => DD x29 x36 | s80 => DD x29 x37 | s81 => DD x29 x38 | s82 => DD x29 x39 | s83 => DD x29 x40 | s84 => DD x29 x41 | s85 => DD x29 x42 | s86 => DD x29 x43 | s87 => DD x29 x44 | s88 => DD x29 x45 | s89 => DD x29 x46 | s90 => DD x29 x47 | s91 => DD x29 x48 | s92 => DD x29 x49 | s93 => DD x29 x50 | s94 => DD x29 x51 | s95 => DD x29 x52 | s96 => DD x29 x53 | s97 => DD x29 x54 | s98 => DD x29 x55 | s99 => DD x29 x56 | s100 => DD x29 x57 | s101 => DD x29 x58 | s102 => DD x29 x59 | s103 => DD x29 x60 | s104 => DD x29 x61 | s105 => DD x29 x62 | s106 => DD x29 x63 | s107 => DD x30 x0 | s108 => DD x30 x1 | s109 => DD x30 x2 | s110 => DD x30 x3 | s111 => DD x30 x4 | s112 => DD x30 x5 | s113 => DD x30 x6 | s114 => DD x30 x7 | s115 => DD x30 x8 | s116 => DD x30 x9 | s117 => DD x30 x10 | s118 => DD x30 x11 | s119 => DD x30 x12 | s120 => DD x30 x13 | s121 => DD x30 x14 | s122 => DD x30 x15 | s123 => DD x30 x16 | s124 => DD x30 x17 | s125 => DD x30 x18 | s126 => DD x30 x19 end.
Definition m1815 (c : sum2) : dd := match c with s0 => DD x28 x23 | s1 => DD x28 x24 | s2 => DD x28 x25 | s3 => DD x28 x26 | s4 => DD x28 x27 | s5 => DD x28 x28 | s6 => DD x28 x29 | s7 => DD x28 x30 | s8 => DD x28 x31 | s9 => DD x28 x32 | s10 => DD x28 x33 | s11 => DD x28 x34 | s12 => DD x28 x35 | s13 => DD x28 x36 | s14 => DD x28 x37 | s15 => DD x28 x38 | s16 => DD x28 x39 | s17 => DD x28 x40 | s18 => DD x28 x41 | s19 => DD x28 x42 | s20 => DD x28 x43 | s21 => DD x28 x44 | s22 => DD x28 x45 | s23 => DD x28 x46 | s24 => DD x28 x47 | s25 => DD x28 x48 | s26 => DD x28 x49 | s27 => DD x28 x50 | s28 => DD x28 x51 | s29 => DD x28 x52 | s30 => DD x28 x53 | s31 => DD x28 x54 | s32 => DD x28 x55 | s33 => DD x28 x56 | s34 => DD x28 x57 | s35 => DD x28 x58 | s36 => DD x28 x59 | s37 => DD x28 x60 | s38 => DD x28 x61 | s39 => DD x28 x62 | s40 => DD x28 x63 | s41 => DD x29 x0 | s42 => DD x29 x1 | s43 => DD x29 x2 | s44 => DD x29 x3 | s45 => DD x29 x4 | s46 => DD x29 x5 | s47 => DD x29 x6 | s48 => DD x29 x7 | s49 => DD x29 x8 | s50 => DD x29 x9 | s51 => DD x29 x10 | s52 => DD x29 x11 | s53 => DD x29 x12 | s54 => DD x29 x13 | s55 => DD x29 x14 | s56 => DD x29 x15 | s57 => DD x29 x16 | s58 => DD x29 x17 | s59 => DD x29 x18 | s60 => DD x29 x19 | s61 => DD x29 x20 | s62 => DD x29 x21 | s63 => DD x29 x22 | s64 => DD x29 x23 | s65 => DD x29 x24 | s66 => DD x29 x25 | s67 => DD x29 x26 | s68 => DD x29 x27 | s69 => DD x29 x28 | s70 => DD x29 x29 | s71 => DD x29 x30 | s72 => DD x29 x31 | s73 => DD x29 x32 | s74 => DD x29 x33 | s75 => DD x29 x34 | s76 => DD x29 x35 | s77 => DD x29 x36 | s78 => DD x29 x37 | s79 => DD x29 x38 | s80 => DD x29 x39 | s81 => DD x29 x40 | s82 => DD x29 x41 | s83 => DD x29 x42 | s84 => DD x29 x43 | s85 => DD x29 x44 | s86 => DD x29 x45 | s87 => DD x29 x46 | s88 => DD x29 x47 | s89 => DD x29 x48 | s90 => DD x29 x49 | s91 => DD x29 x50 | s92 => DD x29 x51 | s93 => DD x29 x52 | s94 => DD x29 x53 | s95 => DD x29 x54 | s96 => DD x29 x55 | s97 => DD x29 x56 | s98 => DD x29 x57 | s99 => DD x29 x58 | s100 => DD x29 x59 | s101 => DD x29 x60 | s102 => DD x29 x61 | s103 => DD x29 x62 | s104 => DD x29 x63 | s105 => DD x30 x0 | s106 => DD x30 x1 | s107 => DD x30 x2 | s108 => DD x30 x3 | s109 => DD x30 x4 | s110 => DD x30 x5 | s111 => DD x30 x6 | s112 => DD x30 x7 | s113 => DD x30 x8 | s114 => DD x30 x9 | s115 => DD x30 x10 | s116 => DD x30 x11 | s117 => DD x30 x12 | s118 => DD x30 x13 | s119 => DD x30 x14 | s120 => DD x30 x15 | s121 => DD x30 x16 | s122 => DD x30 x17 | s123 => DD x30 x18 | s124 => DD x30 x19 | s125 => DD x30 x20 | s126 => DD x30 x21 end.
Definition m1820 (c : sum2) : dd := match c with s0 => DD x28 x28 | s1 => DD x28 x29 | s2 => DD x28 x30 | s3 => DD x28 x31 | s4 => DD x28 x32 | s5 => DD x28 x33 | s6 => DD x28 x34 | s7 => DD x28 x35 | s8 => DD x28 x36 | s9 => DD x28 x37 | s10 => DD x28 x38 | s11 => DD x28 x39 | s12 => DD x28 x40 | s13 => DD x28 x41 | s14 => DD x28 x42 | s15 => DD x28 x43 | s16 => DD x28 x44 | s17 => DD x28 x45 | s18 => DD x28 x46 | s19 => DD x28 x47 | s20 => DD x28 x48 | s21 => DD x28 x49 | s22 => DD x28 x50 | s23 => DD x28 x51 | s24 => DD x28 x52 | s25 => DD x28 x53 | s26 => DD x28 x54 | s27 => DD x28 x55 | s28 => DD x28 x56 | s29 => DD x28 x57 | s30 => DD x28 x58 | s31 => DD x28 x59 | s32 => DD x28 x60 | s33 => DD x28 x61 | s34 => DD x28 x62 | s35 => DD x28 x63 | s36 => DD x29 x0 | s37 => DD x29 x1 | s38 => DD x29 x2 | s39 => DD x29 x3 | s40 => DD x29 x4 | s41 => DD x29 x5 | s42 => DD x29 x6 | s43 => DD x29 x7 | s44 => DD x29 x8 | s45 => DD x29 x9 | s46 => DD x29 x10 | s47 => DD x29 x11 | s48 => DD x29 x12 | s49 => DD x29 x13 | s50 => DD x29 x14 | s51 => DD x29 x15 | s52 => DD x29 x16 | s53 => DD x29 x17 | s54 => DD x29 x18 | s55 => DD x29 x19 | s56 => DD x29 x20 | s57 => DD x29 x21 | s58 => DD x29 x22 | s59 => DD x29 x23 | s60 => DD x29 x24 | s61 => DD x29 x25 | s62 => DD x29 x26 | s63 => DD x29 x27 | s64 => DD x29 x28 | s65 => DD x29 x29 | s66 => DD x29 x30 | s67 => DD x29 x31 | s68 => DD x29 x32 | s69 => DD x29 x33 | s70 => DD x29 x34 | s71 => DD x29 x35 | s72 => DD x29 x36 | s73 => DD x29 x37 | s74 => DD x29 x38 | s75 => DD x29 x39 | s76 => DD x29 x40 | s77 => DD x29 x41 | s78 => DD x29 x42 | s79 => DD x29 x43 | s80 => DD x29 x44 | s81 => DD x29 x45 | s82 => DD x29 x46 | s83 => DD x29 x47 | s84 => DD x29 x48 | s85 => DD x29 x49 | s86 => DD x29 x50 | s87 => DD x29 x51 | s88 => DD x29 x52 | s89 => DD x29 x53 | s90 => DD x29 x54 | s91 => DD x29 x55 | s92 => DD x29 x56 | s93 => DD x29 x57 | s94 => DD x29 x58 | s95 => DD x29 x59 | s96 => DD x29 x60 | s97 => DD x29 x61 | s98 => DD x29 x62 | s99 => DD x29 x63 | s100 => DD x30 x0 | s101 => DD x30 x1 | s102 => DD x30 x2 | s103 => DD x30 x3 | s104 => DD x30 x4 | s105 => DD x30 x5 | s106 => DD x30 x6 | s107 => DD x30 x7 | s108 => DD x30 x8 | s109 => DD x30 x9 | s110 => DD x30 x10 | s111 => DD x30 x11 | s112 => DD x30 x12 | s113 => DD x30 x13 | s114 => DD x30 x14 | s115 => DD x30 x15 | s116 => DD x30 x16 | s117 => DD x30 x17 | s118 => DD x30 x18 | s119 => DD x30 x19 | s120 => DD x30 x20 | s121 => DD x30 x21 | s122 => DD x30 x22 | s123 => DD x30 x23 | s124 => DD x30 x24 | s125 => DD x30 x25 | s126 => DD x30 x26 end.
Definition m1824 (c : sum2) : dd := match c with s0 => DD x28 x32 | s1 => DD x28 x33 | s2 => DD x28 x34 | s3 => DD x28 x35 | s4 => DD x28 x36 | s5 => DD x28 x37 | s6 => DD x28 x38 | s7 => DD x28 x39 | s8 => DD x28 x40 | s9 => DD x28 x41 | s10 => DD x28 x42 | s11 => DD x28 x43 | s12 => DD x28 x44 | s13 => DD x28 x45 | s14 => DD x28 x46 | s15 => DD x28 x47 | s16 => DD x28 x48 | s17 => DD x28 x49 | s18 => DD x28 x50 | s19 => DD x28 x51 | s20 => DD x28 x52 | s21 => DD x28 x53 | s22 => DD x28 x54 | s23 => DD x28 x55 | s24 => DD x28 x56 | s25 => DD x28 x57 | s26 => DD x28 x58 | s27 => DD x28 x59 | s28 => DD x28 x60 | s29 => DD x28 x61 | s30 => DD x28 x62 | s31 => DD x28 x63 | s32 => DD x29 x0 | s33 => DD x29 x1 | s34 => DD x29 x2 | s35 => DD x29 x3 | s36 => DD x29 x4 | s37 => DD x29 x5 | s38 => DD x29 x6 | s39 => DD x29 x7 | s40 => DD x29 x8 | s41 => DD x29 x9 | s42 => DD x29 x10 | s43 => DD x29 x11 | s44 => DD x29 x12 | s45 => DD x29 x13 | s46 => DD x29 x14 | s47 => DD x29 x15 | s48 => DD x29 x16 | s49 => DD x29 x17 | s50 => DD x29 x18 | s51 => DD x29 x19 | s52 => DD x29 x20 | s53 => DD x29 x21 | s54 => DD x29 x22 | s55 => DD x29 x23 | s56 => DD x29 x24 | s57 => DD x29 x25 | s58 => DD x29 x26 | s59 => DD x29 x27 | s60 => DD x29 x28 | s61 => DD x29 x29 | s62 => DD x29 x30 | s63 => DD x29 x31 | s64 => DD x29 x32 | s65 => DD x29 x33 | s66 => DD x29 x34 | s67 => DD x29 x35 | s68 => DD x29 x36 | s69 => DD x29 x37 | s70 => DD x29 x38 | s71 => DD x29 x39 | s72 => DD x29 x40 | s73 => DD x29 x41 | s74 => DD x29 x42 | s75 => DD x29 x43 | s76 => DD x29 x44 | s77 => DD x29 x45 | s78 => DD x29 x46 | s79 => DD x29 x47 | s80 => DD x29 x48 | s81 => DD x29 x49 | s82 => DD x29 x50 | s83 => DD x29 x51 | s84 => DD x29 x52 | s85 => DD x29 x53 | s86 => DD x29 x54 | s87 => DD x29 x55 | s88 => DD x29 x56 | s89 => DD x29 x57 | s90 => DD x29 x58 | s91 => DD x29 x59 | s92 => DD x29 x60 | s93 => DD x29 x61 | s94 => DD x29 x62 | s95 => DD x29 x63 | s96 => DD x30 x0 | s97 => DD x30 x1 | s98 => DD x30 x2 | s99 => DD x30 x3 | s100 => DD x30 x4 | s101 => DD x30 x5 | s102 => DD x30 x6 | s103 => DD x30 x7 | s104 => DD x30 x8 | s105 => DD x30 x9 | s106 => DD x30 x10 | s107 => DD x30 x11 | s108 => DD x30 x12 | s109 => DD x30 x13 | s110 => DD x30 x14 | s111 => DD x30 x15 | s112 => DD x30 x16 | s113 => DD x30 x17 | s114 => DD x30 x18 | s115 => DD x30 x19 | s116 => DD x30 x20 | s117 => DD x30 x21 | s118 => DD x30 x22 | s119 => DD x30 x23 | s120 => DD x30 x24 | s121 => DD x30 x25 | s122 => DD x30 x26 | s123 => DD x30 x27 | s124 => DD x30 x28 | s125 => DD x30 x29 | s126 => DD x30 x30 end.
Definition m1827 (c : sum2) : dd := match c with s0 => DD x28 x35 | s1 => DD x28 x36 | s2 => DD x28 x37 | s3 => DD x28 x38 | s4 => DD x28 x39 | s5 => DD x28 x40 | s6 => DD x28 x41 | s7 => DD x28 x42 | s8 => DD x28 x43 | s9 => DD x28 x44 | s10 => DD x28 x45 | s11 => DD x28 x46 | s12 => DD x28 x47 | s13 => DD x28 x48 | s14 => DD x28 x49 | s15 => DD x28 x50 | s16 => DD x28 x51 | s17 => DD x28 x52 | s18 => DD x28 x53 | s19 => DD x28 x54 | s20 => DD x28 x55 | s21 => DD x28 x56 | s22 => DD x28 x57 | s23 => DD x28 x58 | s24 => DD x28 x59 | s25 => DD x28 x60 | s26 => DD x28 x61 | s27 => DD x28 x62 | s28 => DD x28 x63 | s29 => DD x29 x0 | s30 => DD x29 x1 | s31 => DD x29 x2 | s32 => DD x29 x3 | s33 => DD x29 x4 | s34 => DD x29 x5 | s35 => DD x29 x6 | s36 => DD x29 x7 | s37 => DD x29 x8 | s38 => DD x29 x9 | s39 => DD x29 x10 | s40 => DD x29 x11 | s41 => DD x29 x12 | s42 => DD x29 x13 | s43 => DD x29 x14 | s44 => DD x29 x15 | s45 => DD x29 x16 | s46 => DD x29 x17 | s47 => DD x29 x18 | s48 => DD x29 x19 | s49 => DD x29 x20 | s50 => DD x29 x21 | s51 => DD x29 x22 | s52 => DD x29 x23 | s53 => DD x29 x24 | s54 => DD x29 x25 | s55 => DD x29 x26 | s56 => DD x29 x27 | s57 => DD x29 x28 | s58 => DD x29 x29 | s59 => DD x29 x30 | s60 => DD x29 x31 | s61 => DD x29 x32 | s62 => DD x29 x33 | s63 => DD x29 x34 | s64 => DD x29 x35 | s65 => DD x29 x36 | s66 => DD x29 x37 | s67 => DD x29 x38 | s68 => DD x29 x39 | s69 => DD x29 x40 | s70 => DD x29 x41 | s71 => DD x29 x42 | s72 => DD x29 x43 | s73 => DD x29 x44 | s74 => DD x29 x45 | s75 => DD x29 x46 | s76 => DD x29 x47 | s77 => DD x29 x48 | s78 => DD x29 x49 | s79 => DD x29 x50 | s80 => DD x29 x51 | s81 => DD x29 x52 | s82 => DD x29 x53 | s83 => DD x29 x54 | s84 => DD x29 x55 | s85 => DD x29 x56 | s86 => DD x29 x57 | s87 => DD x29 x58 | s88 => DD x29 x59 | s89 => DD x29 x60 | s90 => DD x29 x61 | s91 => DD x29 x62 | s92 => DD x29 x63 | s93 => DD x30 x0 | s94 => DD x30 x1 | s95 => DD x30 x2 | s96 => DD x30 x3 | s97 => DD x30 x4 | s98 => DD x30 x5 | s99 => DD x30 x6 | s100 => DD x30 x7 | s101 => DD x30 x8 | s102 => DD x30 x9 | s103 => DD x30 x10 | s104 => DD x30 x11 | s105 => DD x30 x12 | s106 => DD x30 x13 | s107 => DD x30 x14 | s108 => DD x30 x15 | s109 => DD x30 x16 | s110 => DD x30 x17 | s111 => DD x30 x18 | s112 => DD x30 x19 | s113 => DD x30 x20 | s114 => DD x30 x21 | s115 => DD x30 x22 | s116 => DD x30 x23 | s117 => DD x30 x24 | s118 => DD x30 x25 | s119 => DD x30 x26 | s120 => DD x30 x27 | s121 => DD x30 x28 | s122 => DD x30 x29 | s123 => DD x30 x30 | s124 => DD x30 x31 | s125 => DD x30 x32 | s126 => DD x30 x33 end.
Definition m1829 (c : sum2) : dd := match c with s0 => DD x28 x37 | s1 => DD x28 x38 | s2 => DD x28 x39 | s3 => DD x28 x40 | s4 => DD x28 x41 | s5 => DD x28 x42 | s6 => DD x28 x43 | s7 => DD x28 x44 | s8 => DD x28 x45 | s9 => DD x28 x46 | s10 => DD x28 x47 | s11 => DD x28 x48 | s12 => DD x28 x49 | s13 => DD x28 x50 | s14 => DD x28 x51 | s15 => DD x28 x52 | s16 => DD x28 x53 | s17 => DD x28 x54 | s18 => DD x28 x55 | s19 => DD x28 x56 | s20 => DD x28 x57 | s21 => DD x28 x58 | s22 => DD x28 x59 | s23 => DD x28 x60 | s24 => DD x28 x61 | s25 => DD x28 x62 | s26 => DD x28 x63 | s27 => DD x29 x0 | s28 => DD x29 x1 | s29 => DD x29 x2 | s30 => DD x29 x3 | s31 => DD x29 x4 | s32 => DD x29 x5 | s33 => DD x29 x6 | s34 => DD x29 x7 | s35 => DD x29 x8 | s36 => DD x29 x9 | s37 => DD x29 x10 | s38 => DD x29 x11 | s39 => DD x29 x12 | s40 => DD x29 x13 | s41 => DD x29 x14 | s42 => DD x29 x15 | s43 => DD x29 x16 | s44 => DD x29 x17 | s45 => DD x29 x18 | s46 => DD x29 x19 | s47 => DD x29 x20 | s48 => DD x29 x21 | s49 => DD x29 x22 | s50 => DD x29 x23 | s51 => DD x29 x24 | s52 => DD x29 x25 | s53 => DD x29 x26 | s54 => DD x29 x27 | s55 => DD x29 x28 | s56 => DD x29 x29 | s57 => DD x29 x30 | s58 => DD x29 x31 | s59 => DD x29 x32 | s60 => DD x29 x33 | s61 => DD x29 x34 | s62 => DD x29 x35 | s63 => DD x29 x36 | s64 => DD x29 x37 | s65 => DD x29 x38 | s66 => DD x29 x39 | s67 => DD x29 x40 | s68 => DD x29 x41 | s69 => DD x29 x42 | s70 => DD x29 x43 | s71 => DD x29 x44 | s72 => DD x29 x45 | s73 => DD x29 x46 | s74 => DD x29 x47 | s75 => DD x29 x48 | s76 => DD x29 x49 | s77 => DD x29 x50 | s78 => DD x29 x51 | s79 => DD x29 x52 | s80 => DD x29 x53 | s81 => DD x29 x54 | s82 => DD x29 x55 | s83 => DD x29 x56 | s84 => DD x29 x57 | s85 => DD x29 x58 | s86 => DD x29 x59 | s87 => DD x29 x60 | s88 => DD x29 x61 | s89 => DD x29 x62 | s90 => DD x29 x63 | s91 => DD x30 x0 | s92 => DD x30 x1 | s93 => DD x30 x2 | s94 => DD x30 x3 | s95 => DD x30 x4 | s96 => DD x30 x5 | s97 => DD x30 x6 | s98 => DD x30 x7 | s99 => DD x30 x8 | s100 => DD x30 x9 | s101 => DD x30 x10 | s102 => DD x30 x11 | s103 => DD x30 x12 | s104 => DD x30 x13 | s105 => DD x30 x14 | s106 => DD x30 x15 | s107 => DD x30 x16 | s108 => DD x30 x17 | s109 => DD x30 x18 | s110 => DD x30 x19 | s111 => DD x30 x20 | s112 => DD x30 x21 | s113 => DD x30 x22 | s114 => DD x30 x23 | s115 => DD x30 x24 | s116 => DD x30 x25 | s117 => DD x30 x26 | s118 => DD x30 x27 | s119 => DD x30 x28 | s120 => DD x30 x29 | s121 => DD x30 x30 | s122 => DD x30 x31 | s123 => DD x30 x32 | s124 => DD x30 x33 | s125 => DD x30 x34 | s126 => DD x30 x35 end.
Definition m1830 (c : sum2) : dd := match c with s0 => DD x28 x38 | s1 => DD x28 x39 | s2 => DD x28 x40 | s3 => DD x28 x41 | s4 => DD x28 x42 | s5 => DD x28 x43 | s6 => DD x28 x44 | s7 => DD x28 x45 | s8 => DD x28 x46 | s9 => DD x28 x47 | s10 => DD x28 x48 | s11 => DD x28 x49 | s12 => DD x28 x50 | s13 => DD x28 x51 | s14 => DD x28 x52 | s15 => DD x28 x53 | s16 => DD x28 x54 | s17 => DD x28 x55 | s18 => DD x28 x56 | s19 => DD x28 x57 | s20 => DD x28 x58 | s21 => DD x28 x59 | s22 => DD x28 x60 | s23 => DD x28 x61 | s24 => DD x28 x62 | s25 => DD x28 x63 | s26 => DD x29 x0 | s27 => DD x29 x1 | s28 => DD x29 x2 | s29 => DD x29 x3 | s30 => DD x29 x4 | s31 => DD x29 x5 | s32 => DD x29 x6 | s33 => DD x29 x7 | s34 => DD x29 x8 | s35 => DD x29 x9 | s36 => DD x29 x10 | s37 => DD x29 x11 | s38 => DD x29 x12 | s39 => DD x29 x13 | s40 => DD x29 x14 | s41 => DD x29 x15 | s42 => DD x29 x16 | s43 => DD x29 x17 | s44 => DD x29 x18 | s45 => DD x29 x19 | s46 => DD x29 x20 | s47 => DD x29 x21 | s48 => DD x29 x22 | s49 => DD x29 x23 | s50 => DD x29 x24 | s51 => DD x29 x25 | s52 => DD x29 x26 | s53 => DD x29 x27 | s54 => DD x29 x28 | s55 => DD x29 x29 | s56 => DD x29 x30 | s57 => DD x29 x31 | s58 => DD x29 x32 | s59 => DD x29 x33 | s60 => DD x29 x34 | s61 => DD x29 x35 | s62 => DD x29 x36 | s63 => DD x29 x37 | s64 => DD x29 x38 | s65 => DD x29 x39 | s66 => DD x29 x40 | s67 => DD x29 x41 | s68 => DD x29 x42 | s69 => DD x29 x43 | s70 => DD x29 x44 | s71 => DD x29 x45 | s72 => DD x29 x46 | s73 => DD x29 x47 | s74 => DD x29 x48 | s75 => DD x29 x49 | s76 => DD x29 x50 | s77 => DD x29 x51 | s78 => DD x29 x52 | s79 => DD x29 x53 | s80 => DD x29 x54 | s81 => DD x29 x55 | s82 => DD x29 x56 | s83 => DD x29 x57 | s84 => DD x29 x58 | s85 => DD x29 x59 | s86 => DD x29 x60 | s87 => DD x29 x61 | s88 => DD x29 x62 | s89 => DD x29 x63 | s90 => DD x30 x0 | s91 => DD x30 x1 | s92 => DD x30 x2 | s93 => DD x30 x3 | s94 => DD x30 x4 | s95 => DD x30 x5 | s96 => DD x30 x6 | s97 => DD x30 x7 | s98 => DD x30 x8 | s99 => DD x30 x9 | s100 => DD x30 x10 | s101 => DD x30 x11 | s102 => DD x30 x12 | s103 => DD x30 x13 | s104 => DD x30 x14 | s105 => DD x30 x15 | s106 => DD x30 x16 | s107 => DD x30 x17 | s108 => DD x30 x18 | s109 => DD x30 x19 | s110 => DD x30 x20 | s111 => DD x30 x21 | s112 => DD x30 x22 | s113 => DD x30 x23 | s114 => DD x30 x24 | s115 => DD x30 x25 | s116 => DD x30 x26 | s117 => DD x30 x27 | s118 => DD x30 x28 | s119 => DD x30 x29 | s120 => DD x30 x30 | s121 => DD x30 x31 | s122 => DD x30 x32 | s123 => DD x30 x33 | s124 => DD x30 x34 | s125 => DD x30 x35 | s126 => DD x30 x36 end.
Definition m1833 (c : sum2) : dd := match c with s0 => DD x28 x41 | s1 => DD x28 x42 | s2 => DD x28 x43 | s3 => DD x28 x44 | s4 => DD x28 x45 | s5 => DD x28 x46 | s6 => DD x28 x47 | s7 => DD x28 x48 | s8 => DD x28 x49 | s9 => DD x28 x50 | s10 => DD x28 x51 | s11 => DD x28 x52 | s12 => DD x28 x53 | s13 => DD x28 x54 | s14 => DD x28 x55 | s15 => DD x28 x56 | s16 => DD x28 x57 | s17 => DD x28 x58 | s18 => DD x28 x59 | s19 => DD x28 x60 | s20 => DD x28 x61 | s21 => DD x28 x62 | s22 => DD x28 x63 | s23 => DD x29 x0 | s24 => DD x29 x1 | s25 => DD x29 x2 | s26 => DD x29 x3 | s27 => DD x29 x4 | s28 => DD x29 x5 | s29 => DD x29 x6 | s30 => DD x29 x7 | s31 => DD x29 x8 | s32 => DD x29 x9 | s33 => DD x29 x10 | s34 => DD x29 x11 | s35 => DD x29 x12 | s36 => DD x29 x13 | s37 => DD x29 x14 | s38 => DD x29 x15 | s39 => DD x29 x16 | s40 => DD x29 x17 | s41 => DD x29 x18 | s42 => DD x29 x19 | s43 => DD x29 x20 | s44 => DD x29 x21 | s45 => DD x29 x22 | s46 => DD x29 x23 | s47 => DD x29 x24 | s48 => DD x29 x25 | s49 => DD x29 x26 | s50 => DD x29 x27 | s51 => DD x29 x28 | s52 => DD x29 x29 | s53 => DD x29 x30 | s54 => DD x29 x31 | s55 => DD x29 x32 | s56 => DD x29 x33 | s57 => DD x29 x34 | s58 => DD x29 x35 | s59 => DD x29 x36 | s60 => DD x29 x37 | s61 => DD x29 x38 | s62 => DD x29 x39 | s63 => DD x29 x40 | s64 => DD x29 x41 | s65 => DD x29 x42 | s66 => DD x29 x43 | s67 => DD x29 x44 | s68 => DD x29 x45 | s69 => DD x29 x46 | s70 => DD x29 x47 | s71 => DD x29 x48 | s72 => DD x29 x49 | s73 => DD x29 x50 | s74 => DD x29 x51 | s75 => DD x29 x52 | s76 => DD x29 x53 | s77 => DD x29 x54 | s78 => DD x29 x55 | s79 => DD x29 x56 | s80 => DD x29 x57 | s81 => DD x29 x58 | s82 => DD x29 x59 | s83 => DD x29 x60 | s84 => DD x29 x61 | s85 => DD x29 x62 | s86 => DD x29 x63 | s87 => DD x30 x0 | s88 => DD x30 x1 | s89 => DD x30 x2 | s90 => DD x30 x3 | s91 => DD x30 x4 | s92 => DD x30 x5 | s93 => DD x30 x6 | s94 => DD x30 x7 | s95 => DD x30 x8 | s96 => DD x30 x9 | s97 => DD x30 x10 | s98 => DD x30 x11 | s99 => DD x30 x12 | s100 => DD x30 x13 | s101 => DD x30 x14 | s102 => DD x30 x15 | s103 => DD x30 x16 | s104 => DD x30 x17 | s105 => DD x30 x18 | s106 => DD x30 x19 | s107 => DD x30 x20 | s108 => DD x30 x21 | s109 => DD x30 x22 | s110 => DD x30 x23 | s111 => DD x30 x24 | s112 => DD x30 x25 | s113 => DD x30 x26 | s114 => DD x30 x27 | s115 => DD x30 x28 | s116 => DD x30 x29 | s117 => DD x30 x30 | s118 => DD x30 x31 | s119 => DD x30 x32 | s120 => DD x30 x33 | s121 => DD x30 x34 | s122 => DD x30 x35 | s123 => DD x30 x36 | s124 => DD x30 x37 | s125 => DD x30 x38 | s126 => DD x30 x39 end.
Definition m1836 (c : sum2) : dd := match c with s0 => DD x28 x44 | s1 => DD x28 x45 | s2 => DD x28 x46 | s3 => DD x28 x47 | s4 => DD x28 x48 | s5 => DD x28 x49 | s6 => DD x28 x50 | s7 => DD x28 x51 | s8 => DD x28 x52 | s9 => DD x28 x53 | s10 => DD x28 x54 | s11 => DD x28 x55 | s12 => DD x28 x56 | s13 => DD x28 x57 | s14 => DD x28 x58 | s15 => DD x28 x59 | s16 => DD x28 x60 | s17 => DD x28 x61 | s18 => DD x28 x62 | s19 => DD x28 x63 | s20 => DD x29 x0 | s21 => DD x29 x1 | s22 => DD x29 x2 | s23 => DD x29 x3 | s24 => DD x29 x4 | s25 => DD x29 x5 | s26 => DD x29 x6 | s27 => DD x29 x7 | s28 => DD x29 x8 | s29 => DD x29 x9 | s30 => DD x29 x10 | s31 => DD x29 x11 | s32 => DD x29 x12 | s33 => DD x29 x13 | s34 => DD x29 x14 | s35 => DD x29 x15 | s36 => DD x29 x16 | s37 => DD x29 x17 | s38 => DD x29 x18 | s39 => DD x29 x19 | s40 => DD x29 x20 | s41 => DD x29 x21 | s42 => DD x29 x22 | s43 => DD x29 x23 | s44 => DD x29 x24 | s45 => DD x29 x25 | s46 => DD x29 x26 | s47 => DD x29 x27 | s48 => DD x29 x28 | s49 => DD x29 x29 | s50 => DD x29 x30 | s51 => DD x29 x31 | s52 => DD x29 x32 | s53 => DD x29 x33 | s54 => DD x29 x34 | s55 => DD x29 x35 | s56 => DD x29 x36 | s57 => DD x29 x37 | s58 => DD x29 x38 | s59 => DD x29 x39 | s60 => DD x29 x40 | s61 => DD x29 x41 | s62 => DD x29 x42 | s63 => DD x29 x43 | s64 => DD x29 x44 | s65 => DD x29 x45 | s66 => DD x29 x46 | s67 => DD x29 x47 | s68 => DD x29 x48 | s69 => DD x29 x49 | s70 => DD x29 x50 | s71 => DD x29 x51 | s72 => DD x29 x52 | s73 => DD x29 x53 | s74 => DD x29 x54 | s75 => DD x29 x55 | s76 => DD x29 x56 | s77 => DD x29 x57 | s78 => DD x29 x58 | s79 => DD x29 x59 | s80 => DD x29 x60 | s81 => DD x29 x61 | s82 => DD x29 x62 | s83 => DD x29 x63 | s84 => DD x30 x0 | s85 => DD x30 x1 | s86 => DD x30 x2 | s87 => DD x30 x3 | s88 => DD x30 x4 | s89 => DD x30 x5 | s90 => DD x30 x6 | s91 => DD x30 x7 | s92 => DD x30 x8 | s93 => DD x30 x9 | s94 => DD x30 x10 | s95 => DD x30 x11 | s96 => DD x30 x12 | s97 => DD x30 x13 | s98 => DD x30 x14 | s99 => DD x30 x15 | s100 => DD x30 x16 | s101 => DD x30 x17 | s102 => DD x30 x18 | s103 => DD x30 x19 | s104 => DD x30 x20 | s105 => DD x30 x21 | s106 => DD x30 x22 | s107 => DD x30 x23 | s108 => DD x30 x24 | s109 => DD x30 x25 | s110 => DD x30 x26 | s111 => DD x30 x27 | s112 => DD x30 x28 | s113 => DD x30 x29 | s114 => DD x30 x30 | s115 => DD x30 x31 | s116 => DD x30 x32 | s117 => DD x30 x33 | s118 => DD x30 x34 | s119 => DD x30 x35 | s120 => DD x30 x36 | s121 => DD x30 x37 | s122 => DD x30 x38 | s123 => DD x30 x39 | s124 => DD x30 x40 | s125 => DD x30 x41 | s126 => DD x30 x42 end.
Definition m1840 (c : sum2) : dd := match c with s0 => DD x28 x48 | s1 => DD x28 x49 | s2 => DD x28 x50 | s3 => DD x28 x51 | s4 => DD x28 x52 | s5 => DD x28 x53 | s6 => DD x28 x54 | s7 => DD x28 x55 | s8 => DD x28 x56 | s9 => DD x28 x57 | s10 => DD x28 x58 | s11 => DD x28 x59 | s12 => DD x28 x60 | s13 => DD x28 x61 | s14 => DD x28 x62 | s15 => DD x28 x63 | s16 => DD x29 x0 | s17 => DD x29 x1 | s18 => DD x29 x2 | s19 => DD x29 x3 | s20 => DD x29 x4 | s21 => DD x29 x5 | s22 => DD x29 x6 | s23 => DD x29 x7 | s24 => DD x29 x8 | s25 => DD x29 x9 | s26 => DD x29 x10 | s27 => DD x29 x11 | s28 => DD x29 x12 | s29 => DD x29 x13 | s30 => DD x29 x14 | s31 => DD x29 x15 | s32 => DD x29 x16 | s33 => DD x29 x17 | s34 => DD x29 x18 | s35 => DD x29 x19 | s36 => DD x29 x20 | s37 => DD x29 x21 | s38 => DD x29 x22 | s39 => DD x29 x23 | s40 => DD x29 x24 | s41 => DD x29 x25 | s42 => DD x29 x26 | s43 => DD x29 x27 | s44 => DD x29 x28 | s45 => DD x29 x29 | s46 => DD x29 x30 | s47 => DD x29 x31 | s48 => DD x29 x32 | s49 => DD x29 x33 | s50 => DD x29 x34 | s51 => DD x29 x35 | s52 => DD x29 x36 | s53 => DD x29 x37 | s54 => DD x29 x38 | s55 => DD x29 x39 | s56 => DD x29 x40 | s57 => DD x29 x41 | s58 => DD x29 x42 | s59 => DD x29 x43 | s60 => DD x29 x44 | s61 => DD x29 x45 | s62 => DD x29 x46 | s63 => DD x29 x47 | s64 => DD x29 x48 | s65 => DD x29 x49 | s66 => DD x29 x50 | s67 => DD x29 x51 | s68 => DD x29 x52 | s69 => DD x29 x53 | s70 => DD x29 x54 | s71 => DD x29 x55 | s72 => DD x29 x56 | s73 => DD x29 x57 | s74 => DD x29 x58 | s75 => DD x29 x59 | s76 => DD x29 x60 | s77 => DD x29 x61 | s78 => DD x29 x62 | s79 => DD x29 x63 | s80 => DD x30 x0 | s81 => DD x30 x1 | s82 => DD x30 x2 | s83 => DD x30 x3 | s84 => DD x30 x4 | s85 => DD x30 x5 | s86 => DD x30 x6 | s87 => DD x30 x7 | s88 => DD x30 x8 | s89 => DD x30 x9 | s90 => DD x30 x10 | s91 => DD x30 x11 | s92 => DD x30 x12 | s93 => DD x30 x13 | s94 => DD x30 x14 | s95 => DD x30 x15 | s96 => DD x30 x16 | s97 => DD x30 x17 | s98 => DD x30 x18 | s99 => DD x30 x19 | s100 => DD x30 x20 | s101 => DD x30 x21 | s102 => DD x30 x22 | s103 => DD x30 x23 | s104 => DD x30 x24 | s105 => DD x30 x25 | s106 => DD x30 x26 | s107 => DD x30 x27 | s108 => DD x30 x28 | s109 => DD x30 x29 | s110 => DD x30 x30 | s111 => DD x30 x31 | s112 => DD x30 x32 | s113 => DD x30 x33 | s114 => DD x30 x34 | s115 => DD x30 x35 | s116 => DD x30 x36 | s117 => DD x30 x37 | s118 => DD x30 x38 | s119 => DD x30 x39 | s120 => DD x30 x40 | s121 => DD x30 x41 | s122 => DD x30 x42 | s123 => DD x30 x43 | s124 => DD x30 x44 | s125 => DD x30 x45 | s126 => DD x30 x46 end.
Definition m1845 (c : sum2) : dd := match c with s0 => DD x28 x53 | s1 => DD x28 x54 | s2 => DD x28 x55 | s3 => DD x28 x56 | s4 => DD x28 x57 | s5 => DD x28 x58 | s6 => DD x28 x59 | s7 => DD x28 x60 | s8 => DD x28 x61 | s9 => DD x28 x62 | s10 => DD x28 x63 | s11 => DD x29 x0 | s12 => DD x29 x1 | s13 => DD x29 x2 | s14 => DD x29 x3 | s15 => DD x29 x4 | s16 => DD x29 x5 | s17 => DD x29 x6 | s18 => DD x29 x7 | s19 => DD x29 x8 | s20 => DD x29 x9 | s21 => DD x29 x10 | s22 => DD x29 x11 | s23 => DD x29 x12 | s24 => DD x29 x13 | s25 => DD x29 x14 | s26 => DD x29 x15 | s27 => DD x29 x16 | s28 => DD x29 x17 | s29 => DD x29 x18 | s30 => DD x29 x19 | s31 => DD x29 x20 | s32 => DD x29 x21 | s33 => DD x29 x22 | s34 => DD x29 x23 | s35 => DD x29 x24 | s36 => DD x29 x25 | s37 => DD x29 x26 | s38 => DD x29 x27 | s39 => DD x29 x28 | s40 => DD x29 x29 | s41 => DD x29 x30 | s42 => DD x29 x31 | s43 => DD x29 x32 | s44 => DD x29 x33 | s45 => DD x29 x34 | s46 => DD x29 x35 | s47 => DD x29 x36 | s48 => DD x29 x37 | s49 => DD x29 x38 | s50 => DD x29 x39 | s51 => DD x29 x40 | s52 => DD x29 x41 | s53 => DD x29 x42 | s54 => DD x29 x43 | s55 => DD x29 x44 | s56 => DD x29 x45 | s57 => DD x29 x46 | s58 => DD x29 x47 | s59 => DD x29 x48 | s60 => DD x29 x49 | s61 => DD x29 x50 | s62 => DD x29 x51 | s63 => DD x29 x52 | s64 => DD x29 x53 | s65 => DD x29 x54 | s66 => DD x29 x55 | s67 => DD x29 x56 | s68 => DD x29 x57 | s69 => DD x29 x58 | s70 => DD x29 x59 | s71 => DD x29 x60 | s72 => DD x29 x61 | s73 => DD x29 x62 | s74 => DD x29 x63 | s75 => DD x30 x0 | s76 => DD x30 x1 | s77 => DD x30 x2 | s78 => DD x30 x3 | s79 => DD x30 x4 | s80 => DD x30 x5 | s81 => DD x30 x6 | s82 => DD x30 x7 | s83 => DD x30 x8 | s84 => DD x30 x9 | s85 => DD x30 x10 | s86 => DD x30 x11 | s87 => DD x30 x12 | s88 => DD x30 x13 | s89 => DD x30 x14 | s90 => DD x30 x15 | s91 => DD x30 x16 | s92 => DD x30 x17 | s93 => DD x30 x18 | s94 => DD x30 x19 | s95 => DD x30 x20 | s96 => DD x30 x21 | s97 => DD x30 x22 | s98 => DD x30 x23 | s99 => DD x30 x24 | s100 => DD x30 x25 | s101 => DD x30 x26 | s102 => DD x30 x27 | s103 => DD x30 x28 | s104 => DD x30 x29 | s105 => DD x30 x30 | s106 => DD x30 x31 | s107 => DD x30 x32 | s108 => DD x30 x33 | s109 => DD x30 x34 | s110 => DD x30 x35 | s111 => DD x30 x36 | s112 => DD x30 x37 | s113 => DD x30 x38 | s114 => DD x30 x39 | s115 => DD x30 x40 | s116 => DD x30 x41 | s117 => DD x30 x42 | s118 => DD x30 x43 | s119 => DD x30 x44 | s120 => DD x30 x45 | s121 => DD x30 x46 | s122 => DD x30 x47 | s123 => DD x30 x48 | s124 => DD x30 x49 | s125 => DD x30 x50 | s126 => DD x30 x51 end.
Definition m1848 (c : sum2) : dd := match c with s0 => DD x28 x56 | s1 => DD x28 x57 | s2 => DD x28 x58 | s3 => DD x28 x59 | s4 => DD x28 x60 | s5 => DD x28 x61 | s6 => DD x28 x62 | s7 => DD x28 x63 | s8 => DD x29 x0 | s9 => DD x29 x1 | s10 => DD x29 x2 | s11 => DD x29 x3 | s12 => DD x29 x4 | s13 => DD x29 x5 | s14 => DD x29 x6 | s15 => DD x29 x7 | s16 => DD x29 x8 | s17 => DD x29 x9 | s18 => DD x29 x10 | s19 => DD x29 x11 | s20 => DD x29 x12 | s21 => DD x29 x13 | s22 => DD x29 x14 | s23 => DD x29 x15 | s24 => DD x29 x16 | s25 => DD x29 x17 | s26 => DD x29 x18 | s27 => DD x29 x19 | s28 => DD x29 x20 | s29 => DD x29 x21 | s30 => DD x29 x22 | s31 => DD x29 x23 | s32 => DD x29 x24 | s33 => DD x29 x25 | s34 => DD x29 x26 | s35 => DD x29 x27 | s36 => DD x29 x28 | s37 => DD x29 x29 | s38 => DD x29 x30 | s39 => DD x29 x31 | s40 => DD x29 x32 | s41 => DD x29 x33 | s42 => DD x29 x34 | s43 => DD x29 x35 | s44 => DD x29 x36 | s45 => DD x29 x37 | s46 => DD x29 x38 | s47 => DD x29 x39 | s48 => DD x29 x40 | s49 => DD x29 x41 | s50 => DD x29 x42 | s51 => DD x29 x43 | s52 => DD x29 x44 | s53 => DD x29 x45 | s54 => DD x29 x46 | s55 => DD x29 x47 | s56 => DD x29 x48 | s57 => DD x29 x49 | s58 => DD x29 x50 | s59 => DD x29 x51 | s60 => DD x29 x52 | s61 => DD x29 x53 | s62 => DD x29 x54 | s63 => DD x29 x55 | s64 => DD x29 x56 | s65 => DD x29 x57 | s66 => DD x29 x58 | s67 => DD x29 x59 | s68 => DD x29 x60 | s69 => DD x29 x61 | s70 => DD x29 x62 | s71 => DD x29 x63 | s72 => DD x30 x0 | s73 => DD x30 x1 | s74 => DD x30 x2 | s75 => DD x30 x3 | s76 => DD x30 x4 | s77 => DD x30 x5 | s78 => DD x30 x6 | s79 => DD x30 x7 | s80 => DD x30 x8 | s81 => DD x30 x9 | s82 => DD x30 x10 | s83 => DD x30 x11 | s84 => DD x30 x12 | s85 => DD x30 x13 | s86 => DD x30 x14 | s87 => DD x30 x15 | s88 => DD x30 x16 | s89 => DD x30 x17 | s90 => DD x30 x18 | s91 => DD x30 x19 | s92 => DD x30 x20 | s93 => DD x30 x21 | s94 => DD x30 x22 | s95 => DD x30 x23 | s96 => DD x30 x24 | s97 => DD x30 x25 | s98 => DD x30 x26 | s99 => DD x30 x27 | s100 => DD x30 x28 | s101 => DD x30 x29 | s102 => DD x30 x30 | s103 => DD x30 x31 | s104 => DD x30 x32 | s105 => DD x30 x33 | s106 => DD x30 x34 | s107 => DD x30 x35 | s108 => DD x30 x36 | s109 => DD x30 x37 | s110 => DD x30 x38 | s111 => DD x30 x39 | s112 => DD x30 x40 | s113 => DD x30 x41 | s114 => DD x30 x42 | s115 => DD x30 x43 | s116 => DD x30 x44 | s117 => DD x30 x45 | s118 => DD x30 x46 | s119 => DD x30 x47 | s120 => DD x30 x48 | s121 => DD x30 x49 | s122 => DD x30 x50 | s123 => DD x30 x51 | s124 => DD x30 x52 | s125 => DD x30 x53 | s126 => DD x30 x54 end.
Definition m1849 (c : sum2) : dd := match c with s0 => DD x28 x57 | s1 => DD x28 x58 | s2 => DD x28 x59 | s3 => DD x28 x60 | s4 => DD x28 x61 | s5 => DD x28 x62 | s6 => DD x28 x63 | s7 => DD x29 x0 | s8 => DD x29 x1 | s9 => DD x29 x2 | s10 => DD x29 x3 | s11 => DD x29 x4 | s12 => DD x29 x5 | s13 => DD x29 x6 | s14 => DD x29 x7 | s15 => DD x29 x8 | s16 => DD x29 x9 | s17 => DD x29 x10 | s18 => DD x29 x11 | s19 => DD x29 x12 | s20 => DD x29 x13 | s21 => DD x29 x14 | s22 => DD x29 x15 | s23 => DD x29 x16 | s24 => DD x29 x17 | s25 => DD x29 x18 | s26 => DD x29 x19 | s27 => DD x29 x20 | s28 => DD x29 x21 | s29 => DD x29 x22 | s30 => DD x29 x23 | s31 => DD x29 x24 | s32 => DD x29 x25 | s33 => DD x29 x26 | s34 => DD x29 x27 | s35 => DD x29 x28 | s36 => DD x29 x29 | s37 => DD x29 x30 | s38 => DD x29 x31 | s39 => DD x29 x32 | s40 => DD x29 x33 | s41 => DD x29 x34 | s42 => DD x29 x35 | s43 => DD x29 x36 | s44 => DD x29 x37 | s45 => DD x29 x38 | s46 => DD x29 x39 | s47 => DD x29 x40 | s48 => DD x29 x41 | s49 => DD x29 x42 | s50 => DD x29 x43 | s51 => DD x29 x44 | s52 => DD x29 x45 | s53 => DD x29 x46 | s54 => DD x29 x47 | s55 => DD x29 x48 | s56 => DD x29 x49 | s57 => DD x29 x50 | s58 => DD x29 x51 | s59 => DD x29 x52 | s60 => DD x29 x53 | s61 => DD x29 x54 | s62 => DD x29 x55 | s63 => DD x29 x56 | s64 => DD x29 x57 | s65 => DD x29 x58 | s66 => DD x29 x59 | s67 => DD x29 x60 | s68 => DD x29 x61 | s69 => DD x29 x62 | s70 => DD x29 x63 | s71 => DD x30 x0 | s72 => DD x30 x1 | s73 => DD x30 x2 | s74 => DD x30 x3 | s75 => DD x30 x4 | s76 => DD x30 x5 | s77 => DD x30 x6 | s78 => DD x30 x7 | s79 => DD x30 x8 | s80 => DD x30 x9 | s81 => DD x30 x10 | s82 => DD x30 x11 | s83 => DD x30 x12 | s84 => DD x30 x13 | s85 => DD x30 x14 | s86 => DD x30 x15 | s87 => DD x30 x16 | s88 => DD x30 x17 | s89 => DD x30 x18 | s90 => DD x30 x19 | s91 => DD x30 x20 | s92 => DD x30 x21 | s93 => DD x30 x22 | s94 => DD x30 x23 | s95 => DD x30 x24 | s96 => DD x30 x25 | s97 => DD x30 x26 | s98 => DD x30 x27 | s99 => DD x30 x28 | s100 => DD x30 x29 | s101 => DD x30 x30 | s102 => DD x30 x31 | s103 => DD x30 x32 | s104 => DD x30 x33 | s105 => DD x30 x34 | s106 => DD x30 x35 | s107 => DD x30 x36 | s108 => DD x30 x37 | s109 => DD x30 x38 | s110 => DD x30 x39 | s111 => DD x30 x40 | s112 => DD x30 x41 | s113 => DD x30 x42 | s114 => DD x30 x43 | s115 => DD x30 x44 | s116 => DD x30 x45 | s117 => DD x30 x46 | s118 => DD x30 x47 | s119 => DD x30 x48 | s120 => DD x30 x49 | s121 => DD x30 x50 | s122 => DD x30 x51 | s123 => DD x30 x52 | s124 => DD x30 x53 | s125 => DD x30 x54 | s126 => DD x30 x55 end.
Definition m1850 (c : sum2) : dd := match c with s0 => DD x28 x58 | s1 => DD x28 x59 | s2 => DD x28 x60 | s3 => DD x28 x61 | s4 => DD x28 x62 | s5 => DD x28 x63 | s6 => DD x29 x0 | s7 => DD x29 x1 | s8 => DD x29 x2 | s9 => DD x29 x3 | s10 => DD x29 x4 | s11 => DD x29 x5 | s12 => DD x29 x6 | s13 => DD x29 x7 | s14 => DD x29 x8 | s15 => DD x29 x9 | s16 => DD x29 x10 | s17 => DD x29 x11 | s18 => DD x29 x12 | s19 => DD x29 x13 | s20 => DD x29 x14 | s21 => DD x29 x15 | s22 => DD x29 x16 | s23 => DD x29 x17 | s24 => DD x29 x18 | s25 => DD x29 x19 | s26 => DD x29 x20 | s27 => DD x29 x21 | s28 => DD x29 x22 | s29 => DD x29 x23 | s30 => DD x29 x24 | s31 => DD x29 x25 | s32 => DD x29 x26 | s33 => DD x29 x27 | s34 => DD x29 x28 | s35 => DD x29 x29 | s36 => DD x29 x30 | s37 => DD x29 x31 | s38 => DD x29 x32 | s39 => DD x29 x33 | s40 => DD x29 x34 | s41 => DD x29 x35 | s42 => DD x29 x36 | s43 => DD x29 x37 | s44 => DD x29 x38 | s45 => DD x29 x39 | s46 => DD x29 x40 | s47 => DD x29 x41 | s48 => DD x29 x42 | s49 => DD x29 x43 | s50 => DD x29 x44 | s51 => DD x29 x45 | s52 => DD x29 x46 | s53 => DD x29 x47 | s54 => DD x29 x48 | s55 => DD x29 x49 | s56 => DD x29 x50 | s57 => DD x29 x51 | s58 => DD x29 x52 | s59 => DD x29 x53 | s60 => DD x29 x54 | s61 => DD x29 x55 | s62 => DD x29 x56 | s63 => DD x29 x57 | s64 => DD x29 x58 | s65 => DD x29 x59 | s66 => DD x29 x60 | s67 => DD x29 x61 | s68 => DD x29 x62 | s69 => DD x29 x63 | s70 => DD x30 x0 | s71 => DD x30 x1 | s72 => DD x30 x2 | s73 => DD x30 x3 | s74 => DD x30 x4 | s75 => DD x30 x5 | s76 => DD x30 x6 | s77 => DD x30 x7 | s78 => DD x30 x8 | s79 => DD x30 x9 | s80 => DD x30 x10 | s81 => DD x30 x11 | s82 => DD x30 x12 | s83 => DD x30 x13 | s84 => DD x30 x14 | s85 => DD x30 x15 | s86 => DD x30 x16 | s87 => DD x30 x17 | s88 => DD x30 x18 | s89 => DD x30 x19 | s90 => DD x30 x20 | s91 => DD x30 x21 | s92 => DD x30 x22 | s93 => DD x30 x23 | s94 => DD x30 x24 | s95 => DD x30 x25 | s96 => DD x30 x26 | s97 => DD x30 x27 | s98 => DD x30 x28 | s99 => DD x30 x29 | s100 => DD x30 x30 | s101 => DD x30 x31 | s102 => DD x30 x32 | s103 => DD x30 x33 | s104 => DD x30 x34 | s105 => DD x30 x35 | s106 => DD x30 x36 | s107 => DD x30 x37 | s108 => DD x30 x38 | s109 => DD x30 x39 | s110 => DD x30 x40 | s111 => DD x30 x41 | s112 => DD x30 x42 | s113 => DD x30 x43 | s114 => DD x30 x44 | s115 => DD x30 x45 | s116 => DD x30 x46 | s117 => DD x30 x47 | s118 => DD x30 x48 | s119 => DD x30 x49 | s120 => DD x30 x50 | s121 => DD x30 x51 | s122 => DD x30 x52 | s123 => DD x30 x53 | s124 => DD x30 x54 | s125 => DD x30 x55 | s126 => DD x30 x56 end.
Definition m1855 (c : sum2) : dd := match c with s0 => DD x28 x63 | s1 => DD x29 x0 | s2 => DD x29 x1 | s3 => DD x29 x2 | s4 => DD x29 x3 | s5 => DD x29 x4 | s6 => DD x29 x5 | s7 => DD x29 x6 | s8 => DD x29 x7 | s9 => DD x29 x8 | s10 => DD x29 x9 | s11 => DD x29 x10 | s12 => DD x29 x11 | s13 => DD x29 x12 | s14 => DD x29 x13 | s15 => DD x29 x14 | s16 => DD x29 x15 | s17 => DD x29 x16 | s18 => DD x29 x17 | s19 => DD x29 x18 | s20 => DD x29 x19 | s21 => DD x29 x20 | s22 => DD x29 x21 | s23 => DD x29 x22 | s24 => DD x29 x23 | s25 => DD x29 x24 | s26 => DD x29 x25 | s27 => DD x29 x26 | s28 => DD x29 x27 | s29 => DD x29 x28 | s30 => DD x29 x29 | s31 => DD x29 x30 | s32 => DD x29 x31 | s33 => DD x29 x32 | s34 => DD x29 x33 | s35 => DD x29 x34 | s36 => DD x29 x35 | s37 => DD x29 x36 | s38 => DD x29 x37 | s39 => DD x29 x38 | s40 => DD x29 x39 | s41 => DD x29 x40 | s42 => DD x29 x41 | s43 => DD x29 x42 | s44 => DD x29 x43 | s45 => DD x29 x44 | s46 => DD x29 x45 | s47 => DD x29 x46 | s48 => DD x29 x47 | s49 => DD x29 x48 | s50 => DD x29 x49 | s51 => DD x29 x50 | s52 => DD x29 x51 | s53 => DD x29 x52 | s54 => DD x29 x53 | s55 => DD x29 x54 | s56 => DD x29 x55 | s57 => DD x29 x56 | s58 => DD x29 x57 | s59 => DD x29 x58 | s60 => DD x29 x59 | s61 => DD x29 x60 | s62 => DD x29 x61 | s63 => DD x29 x62 | s64 => DD x29 x63 | s65 => DD x30 x0 | s66 => DD x30 x1 | s67 => DD x30 x2 | s68 => DD x30 x3 | s69 => DD x30 x4 | s70 => DD x30 x5 | s71 => DD x30 x6 | s72 => DD x30 x7 | s73 => DD x30 x8 | s74 => DD x30 x9 | s75 => DD x30 x10 | s76 => DD x30 x11 | s77 => DD x30 x12 | s78 => DD x30 x13 | s79 => DD x30 x14 | s80 => DD x30 x15 | s81 => DD x30 x16 | s82 => DD x30 x17 | s83 => DD x30 x18 | s84 => DD x30 x19 | s85 => DD x30 x20 | s86 => DD x30 x21 | s87 => DD x30 x22 | s88 => DD x30 x23 | s89 => DD x30 x24 | s90 => DD x30 x25 | s91 => DD x30 x26 | s92 => DD x30 x27 | s93 => DD x30 x28 | s94 => DD x30 x29 | s95 => DD x30 x30 | s96 => DD x30 x31 | s97 => DD x30 x32 | s98 => DD x30 x33 | s99 => DD x30 x34 | s100 => DD x30 x35 | s101 => DD x30 x36 | s102 => DD x30 x37 | s103 => DD x30 x38 | s104 => DD x30 x39 | s105 => DD x30 x40 | s106 => DD x30 x41 | s107 => DD x30 x42 | s108 => DD x30 x43 | s109 => DD x30 x44 | s110 => DD x30 x45 | s111 => DD x30 x46 | s112 => DD x30 x47 | s113 => DD x30 x48 | s114 => DD x30 x49 | s115 => DD x30 x50 | s116 => DD x30 x51 | s117 => DD x30 x52 | s118 => DD x30 x53 | s119 => DD x30 x54 | s120 => DD x30 x55 | s121 => DD x30 x56 | s122 => DD x30 x57 | s123 => DD x30 x58 | s124 => DD x30 x59 | s125 => DD x30 x60 | s126 => DD x30 x61 end.
Definition m1856 (c : sum2) : dd := match c with s0 => DD x29 x0 | s1 => DD x29 x1 | s2 => DD x29 x2 | s3 => DD x29 x3 | s4 => DD x29 x4 | s5 => DD x29 x5 | s6 => DD x29 x6 | s7 => DD x29 x7 | s8 => DD x29 x8 | s9 => DD x29 x9 | s10 => DD x29 x10 | s11 => DD x29 x11 | s12 => DD x29 x12 | s13 => DD x29 x13 | s14 => DD x29 x14 | s15 => DD x29 x15 | s16 => DD x29 x16 | s17 => DD x29 x17 | s18 => DD x29 x18 | s19 => DD x29 x19 | s20 => DD x29 x20 | s21 => DD x29 x21 | s22 => DD x29 x22 | s23 => DD x29 x23 | s24 => DD x29 x24 | s25 => DD x29 x25 | s26 => DD x29 x26 | s27 => DD x29 x27 | s28 => DD x29 x28 | s29 => DD x29 x29 | s30 => DD x29 x30 | s31 => DD x29 x31 | s32 => DD x29 x32 | s33 => DD x29 x33 | s34 => DD x29 x34 | s35 => DD x29 x35 | s36 => DD x29 x36 | s37 => DD x29 x37 | s38 => DD x29 x38 | s39 => DD x29 x39 | s40 => DD x29 x40 | s41 => DD x29 x41 | s42 => DD x29 x42 | s43 => DD x29 x43 | s44 => DD x29 x44 | s45 => DD x29 x45 | s46 => DD x29 x46 | s47 => DD x29 x47 | s48 => DD x29 x48 | s49 => DD x29 x49 | s50 => DD x29 x50 | s51 => DD x29 x51 | s52 => DD x29 x52 | s53 => DD x29 x53 | s54 => DD x29 x54 | s55 => DD x29 x55 | s56 => DD x29 x56 | s57 => DD x29 x57 | s58 => DD x29 x58 | s59 => DD x29 x59 | s60 => DD x29 x60 | s61 => DD x29 x61 | s62 => DD x29 x62 | s63 => DD x29 x63 | s64 => DD x30 x0 | s65 => DD x30 x1 | s66 => DD x30 x2 | s67 => DD x30 x3 | s68 => DD x30 x4 | s69 => DD x30 x5 | s70 => DD x30 x6 | s71 => DD x30 x7 | s72 => DD x30 x8 | s73 => DD x30 x9 | s74 => DD x30 x10 | s75 => DD x30 x11 | s76 => DD x30 x12 | s77 => DD x30 x13 | s78 => DD x30 x14 | s79 => DD x30 x15 | s80 => DD x30 x16 | s81 => DD x30 x17 | s82 => DD x30 x18 | s83 => DD x30 x19 | s84 => DD x30 x20 | s85 => DD x30 x21 | s86 => DD x30 x22 | s87 => DD x30 x23 | s88 => DD x30 x24 | s89 => DD x30 x25 | s90 => DD x30 x26 | s91 => DD x30 x27 | s92 => DD x30 x28 | s93 => DD x30 x29 | s94 => DD x30 x30 | s95 => DD x30 x31 | s96 => DD x30 x32 | s97 => DD x30 x33 | s98 => DD x30 x34 | s99 => DD x30 x35 | s100 => DD x30 x36 | s101 => DD x30 x37 | s102 => DD x30 x38 | s103 => DD x30 x39 | s104 => DD x30 x40 | s105 => DD x30 x41 | s106 => DD x30 x42 | s107 => DD x30 x43 | s108 => DD x30 x44 | s109 => DD x30 x45 | s110 => DD x30 x46 | s111 => DD x30 x47 | s112 => DD x30 x48 | s113 => DD x30 x49 | s114 => DD x30 x50 | s115 => DD x30 x51 | s116 => DD x30 x52 | s117 => DD x30 x53 | s118 => DD x30 x54 | s119 => DD x30 x55 | s120 => DD x30 x56 | s121 => DD x30 x57 | s122 => DD x30 x58 | s123 => DD x30 x59 | s124 => DD x30 x60 | s125 => DD x30 x61 | s126 => DD x30 x62 end.
Definition m1860 (c : sum2) : dd := match c with s0 => DD x29 x4 | s1 => DD x29 x5 | s2 => DD x29 x6 | s3 => DD x29 x7 | s4 => DD x29 x8 | s5 => DD x29 x9 | s6 => DD x29 x10 | s7 => DD x29 x11 | s8 => DD x29 x12 | s9 => DD x29 x13 | s10 => DD x29 x14 | s11 => DD x29 x15 | s12 => DD x29 x16 | s13 => DD x29 x17 | s14 => DD x29 x18 | s15 => DD x29 x19 | s16 => DD x29 x20 | s17 => DD x29 x21 | s18 => DD x29 x22 | s19 => DD x29 x23 | s20 => DD x29 x24 | s21 => DD x29 x25 | s22 => DD x29 x26 | s23 => DD x29 x27 | s24 => DD x29 x28 | s25 => DD x29 x29 | s26 => DD x29 x30 | s27 => DD x29 x31 | s28 => DD x29 x32 | s29 => DD x29 x33 | s30 => DD x29 x34 | s31 => DD x29 x35 | s32 => DD x29 x36 | s33 => DD x29 x37 | s34 => DD x29 x38 | s35 => DD x29 x39 | s36 => DD x29 x40 | s37 => DD x29 x41 | s38 => DD x29 x42 | s39 => DD x29 x43 | s40 => DD x29 x44 | s41 => DD x29 x45 | s42 => DD x29 x46 | s43 => DD x29 x47 | s44 => DD x29 x48 | s45 => DD x29 x49 | s46 => DD x29 x50 | s47 => DD x29 x51 | s48 => DD x29 x52 | s49 => DD x29 x53 | s50 => DD x29 x54 | s51 => DD x29 x55 | s52 => DD x29 x56 | s53 => DD x29 x57 | s54 => DD x29 x58 | s55 => DD x29 x59 | s56 => DD x29 x60 | s57 => DD x29 x61 | s58 => DD x29 x62 | s59 => DD x29 x63 | s60 => DD x30 x0 | s61 => DD x30 x1 | s62 => DD x30 x2 | s63 => DD x30 x3 | s64 => DD x30 x4 | s65 => DD x30 x5 | s66 => DD x30 x6 | s67 => DD x30 x7 | s68 => DD x30 x8 | s69 => DD x30 x9 | s70 => DD x30 x10 | s71 => DD x30 x11 | s72 => DD x30 x12 | s73 => DD x30 x13 | s74 => DD x30 x14 | s75 => DD x30 x15 | s76 => DD x30 x16 | s77 => DD x30 x17 | s78 => DD x30 x18 | s79 => DD x30 x19 | s80 => DD x30 x20 | s81 => DD x30 x21 | s82 => DD x30 x22 | s83 => DD x30 x23 | s84 => DD x30 x24 | s85 => DD x30 x25 | s86 => DD x30 x26 | s87 => DD x30 x27 | s88 => DD x30 x28 | s89 => DD x30 x29 | s90 => DD x30 x30 | s91 => DD x30 x31 | s92 => DD x30 x32 | s93 => DD x30 x33 | s94 => DD x30 x34 | s95 => DD x30 x35 | s96 => DD x30 x36 | s97 => DD x30 x37 | s98 => DD x30 x38 | s99 => DD x30 x39 | s100 => DD x30 x40 | s101 => DD x30 x41 | s102 => DD x30 x42 | s103 => DD x30 x43 | s104 => DD x30 x44 | s105 => DD x30 x45 | s106 => DD x30 x46 | s107 => DD x30 x47 | s108 => DD x30 x48 | s109 => DD x30 x49 | s110 => DD x30 x50 | s111 => DD x30 x51 | s112 => DD x30 x52 | s113 => DD x30 x53 | s114 => DD x30 x54 | s115 => DD x30 x55 | s116 => DD x30 x56 | s117 => DD x30 x57 | s118 => DD x30 x58 | s119 => DD x30 x59 | s120 => DD x30 x60 | s121 => DD x30 x61 | s122 => DD x30 x62 | s123 => DD x30 x63 | s124 => DD x31 x0 | s125 => DD x31 x1 | s126 => DD x31 x2 end.
Definition m1862 (c : sum2) : dd := match c with s0 => DD x29 x6 | s1 => DD x29 x7 | s2 => DD x29 x8 | s3 => DD x29 x9 | s4 => DD x29 x10 | s5 => DD x29 x11 | s6 => DD x29 x12 | s7 => DD x29 x13 | s8 => DD x29 x14 | s9 => DD x29 x15 | s10 => DD x29 x16 | s11 => DD x29 x17 | s12 => DD x29 x18 | s13 => DD x29 x19 | s14 => DD x29 x20 | s15 => DD x29 x21 | s16 => DD x29 x22 | s17 => DD x29 x23 | s18 => DD x29 x24 | s19 => DD x29 x25 | s20 => DD x29 x26 | s21 => DD x29 x27 | s22 => DD x29 x28 | s23 => DD x29 x29 | s24 => DD x29 x30 | s25 => DD x29 x31 | s26 => DD x29 x32 | s27 => DD x29 x33 | s28 => DD x29 x34 | s29 => DD x29 x35 | s30 => DD x29 x36 | s31 => DD x29 x37 | s32 => DD x29 x38 | s33 => DD x29 x39 | s34 => DD x29 x40 | s35 => DD x29 x41 | s36 => DD x29 x42 | s37 => DD x29 x43 | s38 => DD x29 x44 | s39 => DD x29 x45 | s40 => DD x29 x46 | s41 => DD x29 x47 | s42 => DD x29 x48 | s43 => DD x29 x49 | s44 => DD x29 x50 | s45 => DD x29 x51 | s46 => DD x29 x52 | s47 => DD x29 x53 | s48 => DD x29 x54 | s49 => DD x29 x55 | s50 => DD x29 x56 | s51 => DD x29 x57 | s52 => DD x29 x58 | s53 => DD x29 x59 | s54 => DD x29 x60 | s55 => DD x29 x61 | s56 => DD x29 x62 | s57 => DD x29 x63 | s58 => DD x30 x0 | s59 => DD x30 x1 | s60 => DD x30 x2 | s61 => DD x30 x3 | s62 => DD x30 x4 | s63 => DD x30 x5 | s64 => DD x30 x6 | s65 => DD x30 x7 | s66 => DD x30 x8 | s67 => DD x30 x9 | s68 => DD x30 x10 | s69 => DD x30 x11 | s70 => DD x30 x12 | s71 => DD x30 x13 | s72 => DD x30 x14 | s73 => DD x30 x15 | s74 => DD x30 x16 | s75 => DD x30 x17 | s76 => DD x30 x18 | s77 => DD x30 x19 | s78 => DD x30 x20 | s79 => DD x30 x21 | s80 => DD x30 x22 | s81 => DD x30 x23 | s82 => DD x30 x24 | s83 => DD x30 x25 | s84 => DD x30 x26 | s85 => DD x30 x27 | s86 => DD x30 x28 | s87 => DD x30 x29 | s88 => DD x30 x30 | s89 => DD x30 x31 | s90 => DD x30 x32 | s91 => DD x30 x33 | s92 => DD x30 x34 | s93 => DD x30 x35 | s94 => DD x30 x36 | s95 => DD x30 x37 | s96 => DD x30 x38 | s97 => DD x30 x39 | s98 => DD x30 x40 | s99 => DD x30 x41 | s100 => DD x30 x42 | s101 => DD x30 x43 | s102 => DD x30 x44 | s103 => DD x30 x45 | s104 => DD x30 x46 | s105 => DD x30 x47 | s106 => DD x30 x48 | s107 => DD x30 x49 | s108 => DD x30 x50 | s109 => DD x30 x51 | s110 => DD x30 x52 | s111 => DD x30 x53 | s112 => DD x30 x54 | s113 => DD x30 x55 | s114 => DD x30 x56 | s115 => DD x30 x57 | s116 => DD x30 x58 | s117 => DD x30 x59 | s118 => DD x30 x60 | s119 => DD x30 x61 | s120 => DD x30 x62 | s121 => DD x30 x63 | s122 => DD x31 x0 | s123 => DD x31 x1 | s124 => DD x31 x2 | s125 => DD x31 x3 | s126 => DD x31 x4 end.
Definition m1870 (c : sum2) : dd := match c with s0 => DD x29 x14 | s1 => DD x29 x15 | s2 => DD x29 x16 | s3 => DD x29 x17 | s4 => DD x29 x18 | s5 => DD x29 x19 | s6 => DD x29 x20 | s7 => DD x29 x21 | s8 => DD x29 x22 | s9 => DD x29 x23 | s10 => DD x29 x24 | s11 => DD x29 x25 | s12 => DD x29 x26 | s13 => DD x29 x27 | s14 => DD x29 x28 | s15 => DD x29 x29 | s16 => DD x29 x30 | s17 => DD x29 x31 | s18 => DD x29 x32 | s19 => DD x29 x33 | s20 => DD x29 x34 | s21 => DD x29 x35 | s22 => DD x29 x36 | s23 => DD x29 x37 | s24 => DD x29 x38 | s25 => DD x29 x39 | s26 => DD x29 x40 | s27 => DD x29 x41 | s28 => DD x29 x42 | s29 => DD x29 x43 | s30 => DD x29 x44 | s31 => DD x29 x45 | s32 => DD x29 x46 | s33 => DD x29 x47 | s34 => DD x29 x48 | s35 => DD x29 x49 | s36 => DD x29 x50 | s37 => DD x29 x51 | s38 => DD x29 x52 | s39 => DD x29 x53 | s40 => DD x29 x54 | s41 => DD x29 x55 | s42 => DD x29 x56 | s43 => DD x29 x57 | s44 => DD x29 x58 | s45 => DD x29 x59 | s46 => DD x29 x60 | s47 => DD x29 x61 | s48 => DD x29 x62 | s49 => DD x29 x63 | s50 => DD x30 x0 | s51 => DD x30 x1 | s52 => DD x30 x2 | s53 => DD x30 x3 | s54 => DD x30 x4 | s55 => DD x30 x5 | s56 => DD x30 x6 | s57 => DD x30 x7 | s58 => DD x30 x8 | s59 => DD x30 x9 | s60 => DD x30 x10 | s61 => DD x30 x11 | s62 => DD x30 x12 | s63 => DD x30 x13 | s64 => DD x30 x14 | s65 => DD x30 x15 | s66 => DD x30 x16 | s67 => DD x30 x17 | s68 => DD x30 x18 | s69 => DD x30 x19 | s70 => DD x30 x20 | s71 => DD x30 x21 | s72 => DD x30 x22 | s73 => DD x30 x23 | s74 => DD x30 x24 | s75 => DD x30 x25 | s76 => DD x30 x26 | s77 => DD x30 x27 | s78 => DD x30 x28 | s79 => DD x30 x29 | s80 => DD x30 x30 | s81 => DD x30 x31 | s82 => DD x30 x32 | s83 => DD x30 x33 | s84 => DD x30 x34 | s85 => DD x30 x35 | s86 => DD x30 x36 | s87 => DD x30 x37 | s88 => DD x30 x38 | s89 => DD x30 x39 | s90 => DD x30 x40 | s91 => DD x30 x41 | s92 => DD x30 x42 | s93 => DD x30 x43 | s94 => DD x30 x44 | s95 => DD x30 x45 | s96 => DD x30 x46 | s97 => DD x30 x47 | s98 => DD x30 x48 | s99 => DD x30 x49 | s100 => DD x30 x50 | s101 => DD x30 x51 | s102 => DD x30 x52 | s103 => DD x30 x53 | s104 => DD x30 x54 | s105 => DD x30 x55 | s106 => DD x30 x56 | s107 => DD x30 x57 | s108 => DD x30 x58 | s109 => DD x30 x59 | s110 => DD x30 x60 | s111 => DD x30 x61 | s112 => DD x30 x62 | s113 => DD x30 x63 | s114 => DD x31 x0 | s115 => DD x31 x1 | s116 => DD x31 x2 | s117 => DD x31 x3 | s118 => DD x31 x4 | s119 => DD x31 x5 | s120 => DD x31 x6 | s121 => DD x31 x7 | s122 => DD x31 x8 | s123 => DD x31 x9 | s124 => DD x31 x10 | s125 => DD x31 x11 | s126 => DD x31 x12 end.
Definition m1872 (c : sum2) : dd := match c with s0 => DD x29 x16 | s1 => DD x29 x17 | s2 => DD x29 x18 | s3 => DD x29 x19 | s4 => DD x29 x20 | s5 => DD x29 x21 | s6 => DD x29 x22 | s7 => DD x29 x23 | s8 => DD x29 x24 | s9 => DD x29 x25 | s10 => DD x29 x26 | s11 => DD x29 x27 | s12 => DD x29 x28 | s13 => DD x29 x29 | s14 => DD x29 x30 | s15 => DD x29 x31 | s16 => DD x29 x32 | s17 => DD x29 x33 | s18 => DD x29 x34 | s19 => DD x29 x35 | s20 => DD x29 x36 | s21 => DD x29 x37 | s22 => DD x29 x38 | s23 => DD x29 x39 | s24 => DD x29 x40 | s25 => DD x29 x41 | s26 => DD x29 x42 | s27 => DD x29 x43 | s28 => DD x29 x44 | s29 => DD x29 x45 | s30 => DD x29 x46 | s31 => DD x29 x47 | s32 => DD x29 x48 | s33 => DD x29 x49 | s34 => DD x29 x50 | s35 => DD x29 x51 | s36 => DD x29 x52 | s37 => DD x29 x53 | s38 => DD x29 x54 | s39 => DD x29 x55 | s40 => DD x29 x56 | s41 => DD x29 x57 | s42 => DD x29 x58 | s43 => DD x29 x59 | s44 => DD x29 x60 | s45 => DD x29 x61 | s46 => DD x29 x62 | s47 => DD x29 x63 | s48 => DD x30 x0 | s49 => DD x30 x1 | s50 => DD x30 x2 | s51 => DD x30 x3 | s52 => DD x30 x4 | s53 => DD x30 x5 | s54 => DD x30 x6 | s55 => DD x30 x7 | s56 => DD x30 x8 | s57 => DD x30 x9 | s58 => DD x30 x10 | s59 => DD x30 x11 | s60 => DD x30 x12 | s61 => DD x30 x13 | s62 => DD x30 x14 | s63 => DD x30 x15 | s64 => DD x30 x16 | s65 => DD x30 x17 | s66 => DD x30 x18 | s67 => DD x30 x19 | s68 => DD x30 x20 | s69 => DD x30 x21 | s70 => DD x30 x22 | s71 => DD x30 x23 | s72 => DD x30 x24 | s73 => DD x30 x25 | s74 => DD x30 x26 | s75 => DD x30 x27 | s76 => DD x30 x28 | s77 => DD x30 x29 | s78 => DD x30 x30 | s79 => DD x30 x31 | s80 => DD x30 x32 | s81 => DD x30 x33 | s82 => DD x30 x34 | s83 => DD x30 x35 | s84 => DD x30 x36 | s85 => DD x30 x37 | s86 => DD x30 x38 | s87 => DD x30 x39 | s88 => DD x30 x40 | s89 => DD x30 x41 | s90 => DD x30 x42 | s91 => DD x30 x43 | s92 => DD x30 x44 | s93 => DD x30 x45 | s94 => DD x30 x46 | s95 => DD x30 x47 | s96 => DD x30 x48 | s97 => DD x30 x49 | s98 => DD x30 x50 | s99 => DD x30 x51 | s100 => DD x30 x52 | s101 => DD x30 x53 | s102 => DD x30 x54 | s103 => DD x30 x55 | s104 => DD x30 x56 | s105 => DD x30 x57 | s106 => DD x30 x58 | s107 => DD x30 x59 | s108 => DD x30 x60 | s109 => DD x30 x61 | s110 => DD x30 x62 | s111 => DD x30 x63 | s112 => DD x31 x0 | s113 => DD x31 x1 | s114 => DD x31 x2 | s115 => DD x31 x3 | s116 => DD x31 x4 | s117 => DD x31 x5 | s118 => DD x31 x6 | s119 => DD x31 x7 | s120 => DD x31 x8 | s121 => DD x31 x9 | s122 => DD x31 x10 | s123 => DD x31 x11 | s124 => DD x31 x12 | s125 => DD x31 x13 | s126 => DD x31 x14 end.
Definition m1880 (c : sum2) : dd := match c with s0 => DD x29 x24 | s1 => DD x29 x25 | s2 => DD x29 x26 | s3 => DD x29 x27 | s4 => DD x29 x28 | s5 => DD x29 x29 | s6 => DD x29 x30 | s7 => DD x29 x31 | s8 => DD x29 x32 | s9 => DD x29 x33 | s10 => DD x29 x34 | s11 => DD x29 x35 | s12 => DD x29 x36 | s13 => DD x29 x37 | s14 => DD x29 x38 | s15 => DD x29 x39 | s16 => DD x29 x40 | s17 => DD x29 x41 | s18 => DD x29 x42 | s19 => DD x29 x43 | s20 => DD x29 x44 | s21 => DD x29 x45 | s22 => DD x29 x46 | s23 => DD x29 x47 | s24 => DD x29 x48 | s25 => DD x29 x49 | s26 => DD x29 x50 | s27 => DD x29 x51 | s28 => DD x29 x52 | s29 => DD x29 x53 | s30 => DD x29 x54 | s31 => DD x29 x55 | s32 => DD x29 x56 | s33 => DD x29 x57 | s34 => DD x29 x58 | s35 => DD x29 x59 | s36 => DD x29 x60 | s37 => DD x29 x61 | s38 => DD x29 x62 | s39 => DD x29 x63 | s40 => DD x30 x0 | s41 => DD x30 x1 | s42 => DD x30 x2 | s43 => DD x30 x3 | s44 => DD x30 x4 | s45 => DD x30 x5 | s46 => DD x30 x6 | s47 => DD x30 x7 | s48 => DD x30 x8 | s49 => DD x30 x9 | s50 => DD x30 x10 | s51 => DD x30 x11 | s52 => DD x30 x12 | s53 => DD x30 x13 | s54 => DD x30 x14 | s55 => DD x30 x15 | s56 => DD x30 x16 | s57 => DD x30 x17 | s58 => DD x30 x18 | s59 => DD x30 x19 | s60 => DD x30 x20 | s61 => DD x30 x21 | s62 => DD x30 x22 | s63 => DD x30 x23 | s64 => DD x30 x24 | s65 => DD x30 x25 | s66 => DD x30 x26 | s67 => DD x30 x27 | s68 => DD x30 x28 | s69 => DD x30 x29 | s70 => DD x30 x30 | s71 => DD x30 x31 | s72 => DD x30 x32 | s73 => DD x30 x33 | s74 => DD x30 x34 | s75 => DD x30 x35 | s76 => DD x30 x36 | s77 => DD x30 x37 | s78 => DD x30 x38 | s79 => DD x30 x39 | s80 => DD x30 x40 | s81 => DD x30 x41 | s82 => DD x30 x42 | s83 => DD x30 x43 | s84 => DD x30 x44 | s85 => DD x30 x45 | s86 => DD x30 x46 | s87 => DD x30 x47 | s88 => DD x30 x48 | s89 => DD x30 x49 | s90 => DD x30 x50 | s91 => DD x30 x51 | s92 => DD x30 x52 | s93 => DD x30 x53 | s94 => DD x30 x54 | s95 => DD x30 x55 | s96 => DD x30 x56 | s97 => DD x30 x57 | s98 => DD x30 x58 | s99 => DD x30 x59 | s100 => DD x30 x60 | s101 => DD x30 x61 | s102 => DD x30 x62 | s103 => DD x30 x63 | s104 => DD x31 x0 | s105 => DD x31 x1 | s106 => DD x31 x2 | s107 => DD x31 x3 | s108 => DD x31 x4 | s109 => DD x31 x5 | s110 => DD x31 x6 | s111 => DD x31 x7 | s112 => DD x31 x8 | s113 => DD x31 x9 | s114 => DD x31 x10 | s115 => DD x31 x11 | s116 => DD x31 x12 | s117 => DD x31 x13 | s118 => DD x31 x14 | s119 => DD x31 x15 | s120 => DD x31 x16 | s121 => DD x31 x17 | s122 => DD x31 x18 | s123 => DD x31 x19 | s124 => DD x31 x20 | s125 => DD x31 x21 | s126 => DD x31 x22 end.
Definition m1881 (c : sum2) : dd := match c with s0 => DD x29 x25 | s1 => DD x29 x26 | s2 => DD x29 x27 | s3 => DD x29 x28 | s4 => DD x29 x29 | s5 => DD x29 x30 | s6 => DD x29 x31 | s7 => DD x29 x32 | s8 => DD x29 x33 | s9 => DD x29 x34 | s10 => DD x29 x35 | s11 => DD x29 x36 | s12 => DD x29 x37 | s13 => DD x29 x38 | s14 => DD x29 x39 | s15 => DD x29 x40 | s16 => DD x29 x41 | s17 => DD x29 x42 | s18 => DD x29 x43 | s19 => DD x29 x44 | s20 => DD x29 x45 | s21 => DD x29 x46 | s22 => DD x29 x47 | s23 => DD x29 x48 | s24 => DD x29 x49 | s25 => DD x29 x50 | s26 => DD x29 x51 | s27 => DD x29 x52 | s28 => DD x29 x53 | s29 => DD x29 x54 | s30 => DD x29 x55 | s31 => DD x29 x56 | s32 => DD x29 x57 | s33 => DD x29 x58 | s34 => DD x29 x59 | s35 => DD x29 x60 | s36 => DD x29 x61 | s37 => DD x29 x62 | s38 => DD x29 x63 | s39 => DD x30 x0 | s40 => DD x30 x1 | s41 => DD x30 x2 | s42 => DD x30 x3 | s43 => DD x30 x4 | s44 => DD x30 x5 | s45 => DD x30 x6 | s46 => DD x30 x7 | s47 => DD x30 x8 | s48 => DD x30 x9 | s49 => DD x30 x10 | s50 => DD x30 x11 | s51 => DD x30 x12 | s52 => DD x30 x13 | s53 => DD x30 x14 | s54 => DD x30 x15 | s55 => DD x30 x16 | s56 => DD x30 x17 | s57 => DD x30 x18 | s58 => DD x30 x19 | s59 => DD x30 x20 | s60 => DD x30 x21 | s61 => DD x30 x22 | s62 => DD x30 x23 | s63 => DD x30 x24 | s64 => DD x30 x25 | s65 => DD x30 x26 | s66 => DD x30 x27 | s67 => DD x30 x28 | s68 => DD x30 x29 | s69 => DD x30 x30 | s70 => DD x30 x31 | s71 => DD x30 x32 | s72 => DD x30 x33 | s73 => DD x30 x34 | s74 => DD x30 x35 | s75 => DD x30 x36 | s76 => DD x30 x37 | s77 => DD x30 x38 | s78 => DD x30 x39 | s79 => DD x30 x40 | s80 => DD x30 x41 | s81 => DD x30 x42 | s82 => DD x30 x43 | s83 => DD x30 x44 | s84 => DD x30 x45 | s85 => DD x30 x46 | s86 => DD x30 x47 | s87 => DD x30 x48 | s88 => DD x30 x49 | s89 => DD x30 x50 | s90 => DD x30 x51 | s91 => DD x30 x52 | s92 => DD x30 x53 | s93 => DD x30 x54 | s94 => DD x30 x55 | s95 => DD x30 x56 | s96 => DD x30 x57 | s97 => DD x30 x58 | s98 => DD x30 x59 | s99 => DD x30 x60 | s100 => DD x30 x61 | s101 => DD x30 x62 | s102 => DD x30 x63 | s103 => DD x31 x0 | s104 => DD x31 x1 | s105 => DD x31 x2 | s106 => DD x31 x3 | s107 => DD x31 x4 | s108 => DD x31 x5 | s109 => DD x31 x6 | s110 => DD x31 x7 | s111 => DD x31 x8 | s112 => DD x31 x9 | s113 => DD x31 x10 | s114 => DD x31 x11 | s115 => DD x31 x12 | s116 => DD x31 x13 | s117 => DD x31 x14 | s118 => DD x31 x15 | s119 => DD x31 x16 | s120 => DD x31 x17 | s121 => DD x31 x18 | s122 => DD x31 x19 | s123 => DD x31 x20 | s124 => DD x31 x21 | s125 => DD x31 x22 | s126 => DD x31 x23 end.
Definition m1886 (c : sum2) : dd := match c with s0 => DD x29 x30 | s1 => DD x29 x31 | s2 => DD x29 x32 | s3 => DD x29 x33 | s4 => DD x29 x34 | s5 => DD x29 x35 | s6 => DD x29 x36 | s7 => DD x29 x37 | s8 => DD x29 x38 | s9 => DD x29 x39 | s10 => DD x29 x40 | s11 => DD x29 x41 | s12 => DD x29 x42 | s13 => DD x29 x43 | s14 => DD x29 x44 | s15 => DD x29 x45 | s16 => DD x29 x46 | s17 => DD x29 x47 | s18 => DD x29 x48 | s19 => DD x29 x49 | s20 => DD x29 x50 | s21 => DD x29 x51 | s22 => DD x29 x52 | s23 => DD x29 x53 | s24 => DD x29 x54 | s25 => DD x29 x55 | s26 => DD x29 x56 | s27 => DD x29 x57 | s28 => DD x29 x58 | s29 => DD x29 x59 | s30 => DD x29 x60 | s31 => DD x29 x61 | s32 => DD x29 x62 | s33 => DD x29 x63 | s34 => DD x30 x0 | s35 => DD x30 x1 | s36 => DD x30 x2 | s37 => DD x30 x3 | s38 => DD x30 x4 | s39 => DD x30 x5 | s40 => DD x30 x6 | s41 => DD x30 x7 | s42 => DD x30 x8 | s43 => DD x30 x9 | s44 => DD x30 x10 | s45 => DD x30 x11 | s46 => DD x30 x12 | s47 => DD x30 x13 | s48 => DD x30 x14 | s49 => DD x30 x15 | s50 => DD x30 x16 | s51 => DD x30 x17 | s52 => DD x30 x18 | s53 => DD x30 x19 | s54 => DD x30 x20 | s55 => DD x30 x21 | s56 => DD x30 x22 | s57 => DD x30 x23 | s58 => DD x30 x24 | s59 => DD x30 x25 | s60 => DD x30 x26 | s61 => DD x30 x27 | s62 => DD x30 x28 | s63 => DD x30 x29 | s64 => DD x30 x30 | s65 => DD x30 x31 | s66 => DD x30 x32 | s67 => DD x30 x33 | s68 => DD x30 x34 | s69 => DD x30 x35 | s70 => DD x30 x36 | s71 => DD x30 x37 | s72 => DD x30 x38 | s73 => DD x30 x39 | s74 => DD x30 x40 | s75 => DD x30 x41 | s76 => DD x30 x42 | s77 => DD x30 x43 | s78 => DD x30 x44 | s79 => DD x30 x45 | s80 => DD x30 x46 | s81 => DD x30 x47 | s82 => DD x30 x48 | s83 => DD x30 x49 | s84 => DD x30 x50 | s85 => DD x30 x51 | s86 => DD x30 x52 | s87 => DD x30 x53 | s88 => DD x30 x54 | s89 => DD x30 x55 | s90 => DD x30 x56 | s91 => DD x30 x57 | s92 => DD x30 x58 | s93 => DD x30 x59 | s94 => DD x30 x60 | s95 => DD x30 x61 | s96 => DD x30 x62 | s97 => DD x30 x63 | s98 => DD x31 x0 | s99 => DD x31 x1 | s100 => DD x31 x2 | s101 => DD x31 x3 | s102 => DD x31 x4 | s103 => DD x31 x5 | s104 => DD x31 x6 | s105 => DD x31 x7 | s106 => DD x31 x8 | s107 => DD x31 x9 | s108 => DD x31 x10 | s109 => DD x31 x11 | s110 => DD x31 x12 | s111 => DD x31 x13 | s112 => DD x31 x14 | s113 => DD x31 x15 | s114 => DD x31 x16 | s115 => DD x31 x17 | s116 => DD x31 x18 | s117 => DD x31 x19 | s118 => DD x31 x20 | s119 => DD x31 x21 | s120 => DD x31 x22 | s121 => DD x31 x23 | s122 => DD x31 x24 | s123 => DD x31 x25 | s124 => DD x31 x26 | s125 => DD x31 x27 | s126 => DD x31 x28 end.
Definition m1887 (c : sum2) : dd := match c with s0 => DD x29 x31 | s1 => DD x29 x32 | s2 => DD x29 x33 | s3 => DD x29 x34 | s4 => DD x29 x35 | s5 => DD x29 x36 | s6 => DD x29 x37 | s7 => DD x29 x38 | s8 => DD x29 x39 | s9 => DD x29 x40 | s10 => DD x29 x41 | s11 => DD x29 x42 | s12 => DD x29 x43 | s13 => DD x29 x44 | s14 => DD x29 x45 | s15 => DD x29 x46 | s16 => DD x29 x47 | s17 => DD x29 x48 | s18 => DD x29 x49 | s19 => DD x29 x50 | s20 => DD x29 x51 | s21 => DD x29 x52 | s22 => DD x29 x53 | s23 => DD x29 x54 | s24 => DD x29 x55 | s25 => DD x29 x56 | s26 => DD x29 x57 | s27 => DD x29 x58 | s28 => DD x29 x59 | s29 => DD x29 x60 | s30 => DD x29 x61 | s31 => DD x29 x62 | s32 => DD x29 x63 | s33 => DD x30 x0 | s34 => DD x30 x1 | s35 => DD x30 x2 | s36 => DD x30 x3 | s37 => DD x30 x4 | s38 => DD x30 x5 | s39 => DD x30 x6 | s40 => DD x30 x7 | s41 => DD x30 x8 | s42 => DD x30 x9 | s43 => DD x30 x10 | s44 => DD x30 x11 | s45 => DD x30 x12 | s46 => DD x30 x13 | s47 => DD x30 x14 | s48 => DD x30 x15 | s49 => DD x30 x16 | s50 => DD x30 x17 | s51 => DD x30 x18 | s52 => DD x30 x19 | s53 => DD x30 x20 | s54 => DD x30 x21 | s55 => DD x30 x22 | s56 => DD x30 x23 | s57 => DD x30 x24 | s58 => DD x30 x25 | s59 => DD x30 x26 | s60 => DD x30 x27 | s61 => DD x30 x28 | s62 => DD x30 x29 | s63 => DD x30 x30 | s64 => DD x30 x31 | s65 => DD x30 x32 | s66 => DD x30 x33 | s67 => DD x30 x34 | s68 => DD x30 x35 | s69 => DD x30 x36 | s70 => DD x30 x37 | s71 => DD x30 x38 | s72 => DD x30 x39 | s73 => DD x30 x40 | s74 => DD x30 x41 | s75 => DD x30 x42 | s76 => DD x30 x43 | s77 => DD x30 x44 | s78 => DD x30 x45 | s79 => DD x30 x46 | s80 => DD x30 x47 | s81 => DD x30 x48 | s82 => DD x30 x49 | s83 => DD x30 x50 | s84 => DD x30 x51 | s85 => DD x30 x52 | s86 => DD x30 x53 | s87 => DD x30 x54 | s88 => DD x30 x55 | s89 => DD x30 x56 | s90 => DD x30 x57 | s91 => DD x30 x58 | s92 => DD x30 x59 | s93 => DD x30 x60 | s94 => DD x30 x61 | s95 => DD x30 x62 | s96 => DD x30 x63 | s97 => DD x31 x0 | s98 => DD x31 x1 | s99 => DD x31 x2 | s100 => DD x31 x3 | s101 => DD x31 x4 | s102 => DD x31 x5 | s103 => DD x31 x6 | s104 => DD x31 x7 | s105 => DD x31 x8 | s106 => DD x31 x9 | s107 => DD x31 x10 | s108 => DD x31 x11 | s109 => DD x31 x12 | s110 => DD x31 x13 | s111 => DD x31 x14 | s112 => DD x31 x15 | s113 => DD x31 x16 | s114 => DD x31 x17 | s115 => DD x31 x18 | s116 => DD x31 x19 | s117 => DD x31 x20 | s118 => DD x31 x21 | s119 => DD x31 x22 | s120 => DD x31 x23 | s121 => DD x31 x24 | s122 => DD x31 x25 | s123 => DD x31 x26 | s124 => DD x31 x27 | s125 => DD x31 x28 | s126 => DD x31 x29 end.
Definition m1888 (c : sum2) : dd := match c with s0 => DD x29 x32 | s1 => DD x29 x33 | s2 => DD x29 x34 | s3 => DD x29 x35 | s4 => DD x29 x36 | s5 => DD x29 x37 | s6 => DD x29 x38 | s7 => DD x29 x39 | s8 => DD x29 x40 | s9 => DD x29 x41 | s10 => DD x29 x42 | s11 => DD x29 x43 | s12 => DD x29 x44 | s13 => DD x29 x45 | s14 => DD x29 x46 | s15 => DD x29 x47 | s16 => DD x29 x48 | s17 => DD x29 x49 | s18 => DD x29 x50 | s19 => DD x29 x51 | s20 => DD x29 x52 | s21 => DD x29 x53 | s22 => DD x29 x54 | s23 => DD x29 x55 | s24 => DD x29 x56 | s25 => DD x29 x57 | s26 => DD x29 x58 | s27 => DD x29 x59 | s28 => DD x29 x60 | s29 => DD x29 x61 | s30 => DD x29 x62 | s31 => DD x29 x63 | s32 => DD x30 x0 | s33 => DD x30 x1 | s34 => DD x30 x2 | s35 => DD x30 x3 | s36 => DD x30 x4 | s37 => DD x30 x5 | s38 => DD x30 x6 | s39 => DD x30 x7 | s40 => DD x30 x8 | s41 => DD x30 x9 | s42 => DD x30 x10 | s43 => DD x30 x11 | s44 => DD x30 x12 | s45 => DD x30 x13 | s46 => DD x30 x14 | s47 => DD x30 x15 | s48 => DD x30 x16 | s49 => DD x30 x17 | s50 => DD x30 x18 | s51 => DD x30 x19 | s52 => DD x30 x20 | s53 => DD x30 x21 | s54 => DD x30 x22 | s55 => DD x30 x23 | s56 => DD x30 x24 | s57 => DD x30 x25 | s58 => DD x30 x26 | s59 => DD x30 x27 | s60 => DD x30 x28 | s61 => DD x30 x29 | s62 => DD x30 x30 | s63 => DD x30 x31 | s64 => DD x30 x32 | s65 => DD x30 x33 | s66 => DD x30 x34 | s67 => DD x30 x35 | s68 => DD x30 x36 | s69 => DD x30 x37 | s70 => DD x30 x38 | s71 => DD x30 x39 | s72 => DD x30 x40 | s73 => DD x30 x41 | s74 => DD x30 x42 | s75 => DD x30 x43 | s76 => DD x30 x44 | s77 => DD x30 x45 | s78 => DD x30 x46 | s79 => DD x30 x47 | s80 => DD x30 x48 | s81 => DD x30 x49 | s82 => DD x30 x50 | s83 => DD x30 x51 | s84 => DD x30 x52 | s85 => DD x30 x53 | s86 => DD x30 x54 | s87 => DD x30 x55 | s88 => DD x30 x56 | s89 => DD x30 x57 | s90 => DD x30 x58 | s91 => DD x30 x59 | s92 => DD x30 x60 | s93 => DD x30 x61 | s94 => DD x30 x62 | s95 => DD x30 x63 | s96 => DD x31 x0 | s97 => DD x31 x1 | s98 => DD x31 x2 | s99 => DD x31 x3 | s100 => DD x31 x4 | s101 => DD x31 x5 | s102 => DD x31 x6 | s103 => DD x31 x7 | s104 => DD x31 x8 | s105 => DD x31 x9 | s106 => DD x31 x10 | s107 => DD x31 x11 | s108 => DD x31 x12 | s109 => DD x31 x13 | s110 => DD x31 x14 | s111 => DD x31 x15 | s112 => DD x31 x16 | s113 => DD x31 x17 | s114 => DD x31 x18 | s115 => DD x31 x19 | s116 => DD x31 x20 | s117 => DD x31 x21 | s118 => DD x31 x22 | s119 => DD x31 x23 | s120 => DD x31 x24 | s121 => DD x31 x25 | s122 => DD x31 x26 | s123 => DD x31 x27 | s124 => DD x31 x28 | s125 => DD x31 x29 | s126 => DD x31 x30 end.
Definition m1890 (c : sum2) : dd := match c with s0 => DD x29 x34 | s1 => DD x29 x35 | s2 => DD x29 x36 | s3 => DD x29 x37 | s4 => DD x29 x38 | s5 => DD x29 x39 | s6 => DD x29 x40 | s7 => DD x29 x41 | s8 => DD x29 x42 | s9 => DD x29 x43 | s10 => DD x29 x44 | s11 => DD x29 x45 | s12 => DD x29 x46 | s13 => DD x29 x47 | s14 => DD x29 x48 | s15 => DD x29 x49 | s16 => DD x29 x50 | s17 => DD x29 x51 | s18 => DD x29 x52 | s19 => DD x29 x53 | s20 => DD x29 x54 | s21 => DD x29 x55 | s22 => DD x29 x56 | s23 => DD x29 x57 | s24 => DD x29 x58 | s25 => DD x29 x59 | s26 => DD x29 x60 | s27 => DD x29 x61 | s28 => DD x29 x62 | s29 => DD x29 x63 | s30 => DD x30 x0 | s31 => DD x30 x1 | s32 => DD x30 x2 | s33 => DD x30 x3 | s34 => DD x30 x4 | s35 => DD x30 x5 | s36 => DD x30 x6 | s37 => DD x30 x7 | s38 => DD x30 x8 | s39 => DD x30 x9 | s40 => DD x30 x10 | s41 => DD x30 x11 | s42 => DD x30 x12 | s43 => DD x30 x13 | s44 => DD x30 x14 | s45 => DD x30 x15 | s46 => DD x30 x16 | s47 => DD x30 x17 | s48 => DD x30 x18 | s49 => DD x30 x19 | s50 => DD x30 x20 | s51 => DD x30 x21 | s52 => DD x30 x22 | s53 => DD x30 x23 | s54 => DD x30 x24 | s55 => DD x30 x25 | s56 => DD x30 x26 | s57 => DD x30 x27 | s58 => DD x30 x28 | s59 => DD x30 x29 | s60 => DD x30 x30 | s61 => DD x30 x31 | s62 => DD x30 x32 | s63 => DD x30 x33 | s64 => DD x30 x34 | s65 => DD x30 x35 | s66 => DD x30 x36 | s67 => DD x30 x37 | s68 => DD x30 x38 | s69 => DD x30 x39 | s70 => DD x30 x40 | s71 => DD x30 x41 | s72 => DD x30 x42 | s73 => DD x30 x43 | s74 => DD x30 x44 | s75 => DD x30 x45 | s76 => DD x30 x46 | s77 => DD x30 x47 | s78 => DD x30 x48 | s79 => DD x30 x49 | s80 => DD x30 x50 | s81 => DD x30 x51 | s82 => DD x30 x52 | s83 => DD x30 x53 | s84 => DD x30 x54 | s85 => DD x30 x55 | s86 => DD x30 x56 | s87 => DD x30 x57 | s88 => DD x30 x58 | s89 => DD x30 x59 | s90 => DD x30 x60 | s91 => DD x30 x61 | s92 => DD x30 x62 | s93 => DD x30 x63 | s94 => DD x31 x0 | s95 => DD x31 x1 | s96 => DD x31 x2 | s97 => DD x31 x3 | s98 => DD x31 x4 | s99 => DD x31 x5 | s100 => DD x31 x6 | s101 => DD x31 x7 | s102 => DD x31 x8 | s103 => DD x31 x9 | s104 => DD x31 x10 | s105 => DD x31 x11 | s106 => DD x31 x12 | s107 => DD x31 x13 | s108 => DD x31 x14 | s109 => DD x31 x15 | s110 => DD x31 x16 | s111 => DD x31 x17 | s112 => DD x31 x18 | s113 => DD x31 x19 | s114 => DD x31 x20 | s115 => DD x31 x21 | s116 => DD x31 x22 | s117 => DD x31 x23 | s118 => DD x31 x24 | s119 => DD x31 x25 | s120 => DD x31 x26 | s121 => DD x31 x27 | s122 => DD x31 x28 | s123 => DD x31 x29 | s124 => DD x31 x30 | s125 => DD x31 x31 | s126 => DD x31 x32 end.
Definition m1891 (c : sum2) : dd := match c with s0 => DD x29 x35 | s1 => DD x29 x36 | s2 => DD x29 x37 | s3 => DD x29 x38 | s4 => DD x29 x39 | s5 => DD x29 x40 | s6 => DD x29 x41 | s7 => DD x29 x42 | s8 => DD x29 x43 | s9 => DD x29 x44 | s10 => DD x29 x45 | s11 => DD x29 x46 | s12 => DD x29 x47 | s13 => DD x29 x48 | s14 => DD x29 x49 | s15 => DD x29 x50 | s16 => DD x29 x51 | s17 => DD x29 x52 | s18 => DD x29 x53 | s19 => DD x29 x54 | s20 => DD x29 x55 | s21 => DD x29 x56 | s22 => DD x29 x57 | s23 => DD x29 x58 | s24 => DD x29 x59 | s25 => DD x29 x60 | s26 => DD x29 x61 | s27 => DD x29 x62 | s28 => DD x29 x63 | s29 => DD x30 x0 | s30 => DD x30 x1 | s31 => DD x30 x2 | s32 => DD x30 x3 | s33 => DD x30 x4 | s34 => DD x30 x5 | s35 => DD x30 x6 | s36 => DD x30 x7 | s37 => DD x30 x8 | s38 => DD x30 x9 | s39 => DD x30 x10 | s40 => DD x30 x11 | s41 => DD x30 x12 | s42 => DD x30 x13 | s43 => DD x30 x14 | s44 => DD x30 x15 | s45 => DD x30 x16 | s46 => DD x30 x17 | s47 => DD x30 x18 | s48 => DD x30 x19 | s49 => DD x30 x20 | s50 => DD x30 x21 | s51 => DD x30 x22 | s52 => DD x30 x23 | s53 => DD x30 x24 | s54 => DD x30 x25 | s55 => DD x30 x26 | s56 => DD x30 x27 | s57 => DD x30 x28 | s58 => DD x30 x29 | s59 => DD x30 x30 | s60 => DD x30 x31 | s61 => DD x30 x32 | s62 => DD x30 x33 | s63 => DD x30 x34 | s64 => DD x30 x35 | s65 => DD x30 x36 | s66 => DD x30 x37 | s67 => DD x30 x38 | s68 => DD x30 x39 | s69 => DD x30 x40 | s70 => DD x30 x41 | s71 => DD x30 x42 | s72 => DD x30 x43 | s73 => DD x30 x44 | s74 => DD x30 x45 | s75 => DD x30 x46 | s76 => DD x30 x47 | s77 => DD x30 x48 | s78 => DD x30 x49 | s79 => DD x30 x50 | s80 => DD x30 x51 | s81 => DD x30 x52 | s82 => DD x30 x53 | s83 => DD x30 x54 | s84 => DD x30 x55 | s85 => DD x30 x56 | s86 => DD x30 x57 | s87 => DD x30 x58 | s88 => DD x30 x59 | s89 => DD x30 x60 | s90 => DD x30 x61 | s91 => DD x30 x62 | s92 => DD x30 x63 | s93 => DD x31 x0 | s94 => DD x31 x1 | s95 => DD x31 x2 | s96 => DD x31 x3 | s97 => DD x31 x4 | s98 => DD x31 x5 | s99 => DD x31 x6 | s100 => DD x31 x7 | s101 => DD x31 x8 | s102 => DD x31 x9 | s103 => DD x31 x10 | s104 => DD x31 x11 | s105 => DD x31 x12 | s106 => DD x31 x13 | s107 => DD x31 x14 | s108 => DD x31 x15 | s109 => DD x31 x16 | s110 => DD x31 x17 | s111 => DD x31 x18 | s112 => DD x31 x19 | s113 => DD x31 x20 | s114 => DD x31 x21 | s115 => DD x31 x22 | s116 => DD x31 x23 | s117 => DD x31 x24 | s118 => DD x31 x25 | s119 => DD x31 x26 | s120 => DD x31 x27 | s121 => DD x31 x28 | s122 => DD x31 x29 | s123 => DD x31 x30 | s124 => DD x31 x31 | s125 => DD x31 x32 | s126 => DD x31 x33 end.
Definition m1892 (c : sum2) : dd := match c with s0 => DD x29 x36 | s1 => DD x29 x37 | s2 => DD x29 x38 | s3 => DD x29 x39 | s4 => DD x29 x40 | s5 => DD x29 x41 | s6 => DD x29 x42 | s7 => DD x29 x43 | s8 => DD x29 x44 | s9 => DD x29 x45 | s10 => DD x29 x46 | s11 => DD x29 x47 | s12 => DD x29 x48 | s13 => DD x29 x49 | s14 => DD x29 x50 | s15 => DD x29 x51 | s16 => DD x29 x52 | s17 => DD x29 x53 | s18 => DD x29 x54 | s19 => DD x29 x55 | s20 => DD x29 x56 | s21 => DD x29 x57 | s22 => DD x29 x58 | s23 => DD x29 x59 | s24 => DD x29 x60 | s25 => DD x29 x61 | s26 => DD x29 x62 | s27 => DD x29 x63 | s28 => DD x30 x0 | s29 => DD x30 x1 | s30 => DD x30 x2 | s31 => DD x30 x3 | s32 => DD x30 x4 | s33 => DD x30 x5 | s34 => DD x30 x6 | s35 => DD x30 x7 | s36 => DD x30 x8 | s37 => DD x30 x9 | s38 => DD x30 x10 | s39 => DD x30 x11 | s40 => DD x30 x12 | s41 => DD x30 x13 | s42 => DD x30 x14 | s43 => DD x30 x15 | s44 => DD x30 x16 | s45 => DD x30 x17 | s46 => DD x30 x18 | s47 => DD x30 x19 | s48 => DD x30 x20 | s49 => DD x30 x21 | s50 => DD x30 x22 | s51 => DD x30 x23 | s52 => DD x30 x24 | s53 => DD x30 x25 | s54 => DD x30 x26 | s55 => DD x30 x27 | s56 => DD x30 x28 | s57 => DD x30 x29 | s58 => DD x30 x30 | s59 => DD x30 x31 | s60 => DD x30 x32 | s61 => DD x30 x33 | s62 => DD x30 x34 | s63 => DD x30 x35 | s64 => DD x30 x36 | s65 => DD x30 x37 | s66 => DD x30 x38 | s67 => DD x30 x39 | s68 => DD x30 x40 | s69 => DD x30 x41 | s70 => DD x30 x42 | s71 => DD x30 x43 | s72 => DD x30 x44 | s73 => DD x30 x45 | s74 => DD x30 x46 | s75 => DD x30 x47 | s76 => DD x30 x48 | s77 => DD x30 x49 | s78 => DD x30 x50 | s79 => DD x30 x51 | s80 => DD x30 x52 | s81 => DD x30 x53 | s82 => DD x30 x54 | s83 => DD x30 x55 | s84 => DD x30 x56 | s85 => DD x30 x57 | s86 => DD x30 x58 | s87 => DD x30 x59 | s88 => DD x30 x60 | s89 => DD x30 x61 | s90 => DD x30 x62 | s91 => DD x30 x63 | s92 => DD x31 x0 | s93 => DD x31 x1 | s94 => DD x31 x2 | s95 => DD x31 x3 | s96 => DD x31 x4 | s97 => DD x31 x5 | s98 => DD x31 x6 | s99 => DD x31 x7 | s100 => DD x31 x8 | s101 => DD x31 x9 | s102 => DD x31 x10 | s103 => DD x31 x11 | s104 => DD x31 x12 | s105 => DD x31 x13 | s106 => DD x31 x14 | s107 => DD x31 x15 | s108 => DD x31 x16 | s109 => DD x31 x17 | s110 => DD x31 x18 | s111 => DD x31 x19 | s112 => DD x31 x20 | s113 => DD x31 x21 | s114 => DD x31 x22 | s115 => DD x31 x23 | s116 => DD x31 x24 | s117 => DD x31 x25 | s118 => DD x31 x26 | s119 => DD x31 x27 | s120 => DD x31 x28 | s121 => DD x31 x29 | s122 => DD x31 x30 | s123 => DD x31 x31 | s124 => DD x31 x32 | s125 => DD x31 x33 | s126 => DD x31 x34 end.
Definition m1900 (c : sum2) : dd := match c with s0 => DD x29 x44 | s1 => DD x29 x45 | s2 => DD x29 x46 | s3 => DD x29 x47 | s4 => DD x29 x48 | s5 => DD x29 x49 | s6 => DD x29 x50 | s7 => DD x29 x51 | s8 => DD x29 x52 | s9 => DD x29 x53 | s10 => DD x29 x54 | s11 => DD x29 x55 | s12 => DD x29 x56 | s13 => DD x29 x57 | s14 => DD x29 x58 | s15 => DD x29 x59 | s16 => DD x29 x60 | s17 => DD x29 x61 | s18 => DD x29 x62 | s19 => DD x29 x63 | s20 => DD x30 x0 | s21 => DD x30 x1 | s22 => DD x30 x2 | s23 => DD x30 x3 | s24 => DD x30 x4 | s25 => DD x30 x5 | s26 => DD x30 x6 | s27 => DD x30 x7 | s28 => DD x30 x8 | s29 => DD x30 x9 | s30 => DD x30 x10 | s31 => DD x30 x11 | s32 => DD x30 x12 | s33 => DD x30 x13 | s34 => DD x30 x14 | s35 => DD x30 x15 | s36 => DD x30 x16 | s37 => DD x30 x17 | s38 => DD x30 x18 | s39 => DD x30 x19 | s40 => DD x30 x20 | s41 => DD x30 x21 | s42 => DD x30 x22 | s43 => DD x30 x23 | s44 => DD x30 x24 | s45 => DD x30 x25 | s46 => DD x30 x26 | s47 => DD x30 x27 | s48 => DD x30 x28 | s49 => DD x30 x29 | s50 => DD x30 x30 | s51 => DD x30 x31 | s52 => DD x30 x32 | s53 => DD x30 x33 | s54 => DD x30 x34 | s55 => DD x30 x35 | s56 => DD x30 x36 | s57 => DD x30 x37 | s58 => DD x30 x38 | s59 => DD x30 x39 | s60 => DD x30 x40 | s61 => DD x30 x41 | s62 => DD x30 x42 | s63 => DD x30 x43 | s64 => DD x30 x44 | s65 => DD x30 x45 | s66 => DD x30 x46 | s67 => DD x30 x47 | s68 => DD x30 x48 | s69 => DD x30 x49 | s70 => DD x30 x50 | s71 => DD x30 x51 | s72 => DD x30 x52 | s73 => DD x30 x53 | s74 => DD x30 x54 | s75 => DD x30 x55 | s76 => DD x30 x56 | s77 => DD x30 x57 | s78 => DD x30 x58 | s79 => DD x30 x59 | s80 => DD x30 x60 | s81 => DD x30 x61 | s82 => DD x30 x62 | s83 => DD x30 x63 | s84 => DD x31 x0 | s85 => DD x31 x1 | s86 => DD x31 x2 | s87 => DD x31 x3 | s88 => DD x31 x4 | s89 => DD x31 x5 | s90 => DD x31 x6 | s91 => DD x31 x7 | s92 => DD x31 x8 | s93 => DD x31 x9 | s94 => DD x31 x10 | s95 => DD x31 x11 | s96 => DD x31 x12 | s97 => DD x31 x13 | s98 => DD x31 x14 | s99 => DD x31 x15 | s100 => DD x31 x16 | s101 => DD x31 x17 | s102 => DD x31 x18 | s103 => DD x31 x19 | s104 => DD x31 x20 | s105 => DD x31 x21 | s106 => DD x31 x22 | s107 => DD x31 x23 | s108 => DD x31 x24 | s109 => DD x31 x25 | s110 => DD x31 x26 | s111 => DD x31 x27 | s112 => DD x31 x28 | s113 => DD x31 x29 | s114 => DD x31 x30 | s115 => DD x31 x31 | s116 => DD x31 x32 | s117 => DD x31 x33 | s118 => DD x31 x34 | s119 => DD x31 x35 | s120 => DD x31 x36 | s121 => DD x31 x37 | s122 => DD x31 x38 | s123 => DD x31 x39 | s124 => DD x31 x40 | s125 => DD x31 x41 | s126 => DD x31 x42 end.
Definition m1904 (c : sum2) : dd := match c with s0 => DD x29 x48 | s1 => DD x29 x49 | s2 => DD x29 x50 | s3 => DD x29 x51 | s4 => DD x29 x52 | s5 => DD x29 x53 | s6 => DD x29 x54 | s7 => DD x29 x55 | s8 => DD x29 x56 | s9 => DD x29 x57 | s10 => DD x29 x58 | s11 => DD x29 x59 | s12 => DD x29 x60 | s13 => DD x29 x61 | s14 => DD x29 x62 | s15 => DD x29 x63 | s16 => DD x30 x0 | s17 => DD x30 x1 | s18 => DD x30 x2 | s19 => DD x30 x3 | s20 => DD x30 x4 | s21 => DD x30 x5 | s22 => DD x30 x6 | s23 => DD x30 x7 | s24 => DD x30 x8 | s25 => DD x30 x9 | s26 => DD x30 x10 | s27 => DD x30 x11 | s28 => DD x30 x12 | s29 => DD x30 x13 | s30 => DD x30 x14 | s31 => DD x30 x15 | s32 => DD x30 x16 | s33 => DD x30 x17 | s34 => DD x30 x18 | s35 => DD x30 x19 | s36 => DD x30 x20 | s37 => DD x30 x21 | s38 => DD x30 x22 | s39 => DD x30 x23 | s40 => DD x30 x24 | s41 => DD x30 x25 | s42 => DD x30 x26 | s43 => DD x30 x27 | s44 => DD x30 x28 | s45 => DD x30 x29 | s46 => DD x30 x30 | s47 => DD x30 x31 | s48 => DD x30 x32 | s49 => DD x30 x33 | s50 => DD x30 x34 | s51 => DD x30 x35 | s52 => DD x30 x36 | s53 => DD x30 x37 | s54 => DD x30 x38 | s55 => DD x30 x39 | s56 => DD x30 x40 | s57 => DD x30 x41 | s58 => DD x30 x42 | s59 => DD x30 x43 | s60 => DD x30 x44 | s61 => DD x30 x45 | s62 => DD x30 x46 | s63 => DD x30 x47 | s64 => DD x30 x48 | s65 => DD x30 x49 | s66 => DD x30 x50 | s67 => DD x30 x51 | s68 => DD x30 x52 | s69 => DD x30 x53 | s70 => DD x30 x54 | s71 => DD x30 x55 | s72 => DD x30 x56 | s73 => DD x30 x57 | s74 => DD x30 x58 | s75 => DD x30 x59 | s76 => DD x30 x60 | s77 => DD x30 x61 | s78 => DD x30 x62 | s79 => DD x30 x63 | s80 => DD x31 x0 | s81 => DD x31 x1 | s82 => DD x31 x2 | s83 => DD x31 x3 | s84 => DD x31 x4 | s85 => DD x31 x5 | s86 => DD x31 x6 | s87 => DD x31 x7 | s88 => DD x31 x8 | s89 => DD x31 x9 | s90 => DD x31 x10 | s91 => DD x31 x11 | s92 => DD x31 x12 | s93 => DD x31 x13 | s94 => DD x31 x14 | s95 => DD x31 x15 | s96 => DD x31 x16 | s97 => DD x31 x17 | s98 => DD x31 x18 | s99 => DD x31 x19 | s100 => DD x31 x20 | s101 => DD x31 x21 | s102 => DD x31 x22 | s103 => DD x31 x23 | s104 => DD x31 x24 | s105 => DD x31 x25 | s106 => DD x31 x26 | s107 => DD x31 x27 | s108 => DD x31 x28 | s109 => DD x31 x29 | s110 => DD x31 x30 | s111 => DD x31 x31 | s112 => DD x31 x32 | s113 => DD x31 x33 | s114 => DD x31 x34 | s115 => DD x31 x35 | s116 => DD x31 x36 | s117 => DD x31 x37 | s118 => DD x31 x38 | s119 => DD x31 x39 | s120 => DD x31 x40 | s121 => DD x31 x41 | s122 => DD x31 x42 | s123 => DD x31 x43 | s124 => DD x31 x44 | s125 => DD x31 x45 | s126 => DD x31 x46 end.
Definition m1908 (c : sum2) : dd := match c with s0 => DD x29 x52 | s1 => DD x29 x53 | s2 => DD x29 x54 | s3 => DD x29 x55 | s4 => DD x29 x56 | s5 => DD x29 x57 | s6 => DD x29 x58 | s7 => DD x29 x59 | s8 => DD x29 x60 | s9 => DD x29 x61 | s10 => DD x29 x62 | s11 => DD x29 x63 | s12 => DD x30 x0 | s13 => DD x30 x1 | s14 => DD x30 x2 | s15 => DD x30 x3 | s16 => DD x30 x4 | s17 => DD x30 x5 | s18 => DD x30 x6 | s19 => DD x30 x7 | s20 => DD x30 x8 | s21 => DD x30 x9 | s22 => DD x30 x10 | s23 => DD x30 x11 | s24 => DD x30 x12 | s25 => DD x30 x13 | s26 => DD x30 x14 | s27 => DD x30 x15 | s28 => DD x30 x16 | s29 => DD x30 x17 | s30 => DD x30 x18 | s31 => DD x30 x19 | s32 => DD x30 x20 | s33 => DD x30 x21 | s34 => DD x30 x22 | s35 => DD x30 x23 | s36 => DD x30 x24 | s37 => DD x30 x25 | s38 => DD x30 x26 | s39 => DD x30 x27 | s40 => DD x30 x28 | s41 => DD x30 x29 | s42 => DD x30 x30 | s43 => DD x30 x31 | s44 => DD x30 x32 | s45 => DD x30 x33 | s46 => DD x30 x34 | s47 => DD x30 x35 | s48 => DD x30 x36 | s49 => DD x30 x37 | s50 => DD x30 x38 | s51 => DD x30 x39 | s52 => DD x30 x40 | s53 => DD x30 x41 | s54 => DD x30 x42 | s55 => DD x30 x43 | s56 => DD x30 x44 | s57 => DD x30 x45 | s58 => DD x30 x46 | s59 => DD x30 x47 | s60 => DD x30 x48 | s61 => DD x30 x49 | s62 => DD x30 x50 | s63 => DD x30 x51 | s64 => DD x30 x52 | s65 => DD x30 x53 | s66 => DD x30 x54 | s67 => DD x30 x55 | s68 => DD x30 x56 | s69 => DD x30 x57 | s70 => DD x30 x58 | s71 => DD x30 x59 | s72 => DD x30 x60 | s73 => DD x30 x61 | s74 => DD x30 x62 | s75 => DD x30 x63 | s76 => DD x31 x0 | s77 => DD x31 x1 | s78 => DD x31 x2 | s79 => DD x31 x3 | s80 => DD x31 x4 | s81 => DD x31 x5 | s82 => DD x31 x6 | s83 => DD x31 x7 | s84 => DD x31 x8 | s85 => DD x31 x9 | s86 => DD x31 x10 | s87 => DD x31 x11 | s88 => DD x31 x12 | s89 => DD x31 x13 | s90 => DD x31 x14 | s91 => DD x31 x15 | s92 => DD x31 x16 | s93 => DD x31 x17 | s94 => DD x31 x18 | s95 => DD x31 x19 | s96 => DD x31 x20 | s97 => DD x31 x21 | s98 => DD x31 x22 | s99 => DD x31 x23 | s100 => DD x31 x24 | s101 => DD x31 x25 | s102 => DD x31 x26 | s103 => DD x31 x27 | s104 => DD x31 x28 | s105 => DD x31 x29 | s106 => DD x31 x30 | s107 => DD x31 x31 | s108 => DD x31 x32 | s109 => DD x31 x33 | s110 => DD x31 x34 | s111 => DD x31 x35 | s112 => DD x31 x36 | s113 => DD x31 x37 | s114 => DD x31 x38 | s115 => DD x31 x39 | s116 => DD x31 x40 | s117 => DD x31 x41 | s118 => DD x31 x42 | s119 => DD x31 x43 | s120 => DD x31 x44 | s121 => DD x31 x45 | s122 => DD x31 x46 | s123 => DD x31 x47 | s124 => DD x31 x48 | s125 => DD x31 x49 | s126 => DD x31 x50 end.
Definition m1911 (c : sum2) : dd := match c with s0 => DD x29 x55 | s1 => DD x29 x56 | s2 => DD x29 x57 | s3 => DD x29 x58 | s4 => DD x29 x59 | s5 => DD x29 x60 | s6 => DD x29 x61 | s7 => DD x29 x62 | s8 => DD x29 x63 | s9 => DD x30 x0 | s10 => DD x30 x1 | s11 => DD x30 x2 | s12 => DD x30 x3 | s13 => DD x30 x4 | s14 => DD x30 x5 | s15 => DD x30 x6 | s16 => DD x30 x7 | s17 => DD x30 x8 | s18 => DD x30 x9 | s19 => DD x30 x10 | s20 => DD x30 x11 | s21 => DD x30 x12 | s22 => DD x30 x13 | s23 => DD x30 x14 | s24 => DD x30 x15 | s25 => DD x30 x16 | s26 => DD x30 x17 | s27 => DD x30 x18 | s28 => DD x30 x19 | s29 => DD x30 x20 | s30 => DD x30 x21 | s31 => DD x30 x22 | s32 => DD x30 x23 | s33 => DD x30 x24 | s34 => DD x30 x25 | s35 => DD x30 x26 | s36 => DD x30 x27 | s37 => DD x30 x28 | s38 => DD x30 x29 | s39 => DD x30 x30 | s40 => DD x30 x31 | s41 => DD x30 x32 | s42 => DD x30 x33 | s43 => DD x30 x34 | s44 => DD x30 x35 | s45 => DD x30 x36 | s46 => DD x30 x37 | s47 => DD x30 x38 | s48 => DD x30 x39 | s49 => DD x30 x40 | s50 => DD x30 x41 | s51 => DD x30 x42 | s52 => DD x30 x43 | s53 => DD x30 x44 | s54 => DD x30 x45 | s55 => DD x30 x46 | s56 => DD x30 x47 | s57 => DD x30 x48 | s58 => DD x30 x49 | s59 => DD x30 x50 | s60 => DD x30 x51 | s61 => DD x30 x52 | s62 => DD x30 x53 | s63 => DD x30 x54 | s64 => DD x30 x55 | s65 => DD x30 x56 | s66 => DD x30 x57 | s67 => DD x30 x58 | s68 => DD x30 x59 | s69 => DD x30 x60 | s70 => DD x30 x61 | s71 => DD x30 x62 | s72 => DD x30 x63 | s73 => DD x31 x0 | s74 => DD x31 x1 | s75 => DD x31 x2 | s76 => DD x31 x3 | s77 => DD x31 x4 | s78 => DD x31 x5 | s79 => DD x31 x6 | s80 => DD x31 x7 | s81 => DD x31 x8 | s82 => DD x31 x9 | s83 => DD x31 x10 | s84 => DD x31 x11 | s85 => DD x31 x12 | s86 => DD x31 x13 | s87 => DD x31 x14 | s88 => DD x31 x15 | s89 => DD x31 x16 | s90 => DD x31 x17 | s91 => DD x31 x18 | s92 => DD x31 x19 | s93 => DD x31 x20 | s94 => DD x31 x21 | s95 => DD x31 x22 | s96 => DD x31 x23 | s97 => DD x31 x24 | s98 => DD x31 x25 | s99 => DD x31 x26 | s100 => DD x31 x27 | s101 => DD x31 x28 | s102 => DD x31 x29 | s103 => DD x31 x30 | s104 => DD x31 x31 | s105 => DD x31 x32 | s106 => DD x31 x33 | s107 => DD x31 x34 | s108 => DD x31 x35 | s109 => DD x31 x36 | s110 => DD x31 x37 | s111 => DD x31 x38 | s112 => DD x31 x39 | s113 => DD x31 x40 | s114 => DD x31 x41 | s115 => DD x31 x42 | s116 => DD x31 x43 | s117 => DD x31 x44 | s118 => DD x31 x45 | s119 => DD x31 x46 | s120 => DD x31 x47 | s121 => DD x31 x48 | s122 => DD x31 x49 | s123 => DD x31 x50 | s124 => DD x31 x51 | s125 => DD x31 x52 | s126 => DD x31 x53 end.
Definition m1914 (c : sum2) : dd := match c with s0 => DD x29 x58 | s1 => DD x29 x59 | s2 => DD x29 x60 | s3 => DD x29 x61 | s4 => DD x29 x62 | s5 => DD x29 x63 | s6 => DD x30 x0 | s7 => DD x30 x1 | s8 => DD x30 x2 | s9 => DD x30 x3 | s10 => DD x30 x4 | s11 => DD x30 x5 | s12 => DD x30 x6 | s13 => DD x30 x7 | s14 => DD x30 x8 | s15 => DD x30 x9 | s16 => DD x30 x10 | s17 => DD x30 x11 | s18 => DD x30 x12 | s19 => DD x30 x13 | s20 => DD x30 x14 | s21 => DD x30 x15 | s22 => DD x30 x16 | s23 => DD x30 x17 | s24 => DD x30 x18 | s25 => DD x30 x19 | s26 => DD x30 x20 | s27 => DD x30 x21 | s28 => DD x30 x22 | s29 => DD x30 x23 | s30 => DD x30 x24 | s31 => DD x30 x25 | s32 => DD x30 x26 | s33 => DD x30 x27 | s34 => DD x30 x28 | s35 => DD x30 x29 | s36 => DD x30 x30 | s37 => DD x30 x31 | s38 => DD x30 x32 | s39 => DD x30 x33 | s40 => DD x30 x34 | s41 => DD x30 x35 | s42 => DD x30 x36 | s43 => DD x30 x37 | s44 => DD x30 x38 | s45 => DD x30 x39 | s46 => DD x30 x40 | s47 => DD x30 x41 | s48 => DD x30 x42 | s49 => DD x30 x43 | s50 => DD x30 x44 | s51 => DD x30 x45 | s52 => DD x30 x46 | s53 => DD x30 x47 | s54 => DD x30 x48 | s55 => DD x30 x49 | s56 => DD x30 x50 | s57 => DD x30 x51 | s58 => DD x30 x52 | s59 => DD x30 x53 | s60 => DD x30 x54 | s61 => DD x30 x55 | s62 => DD x30 x56 | s63 => DD x30 x57 | s64 => DD x30 x58 | s65 => DD x30 x59 | s66 => DD x30 x60 | s67 => DD x30 x61 | s68 => DD x30 x62 | s69 => DD x30 x63 | s70 => DD x31 x0 | s71 => DD x31 x1 | s72 => DD x31 x2 | s73 => DD x31 x3 | s74 => DD x31 x4 | s75 => DD x31 x5 | s76 => DD x31 x6 | s77 => DD x31 x7 | s78 => DD x31 x8 | s79 => DD x31 x9 | s80 => DD x31 x10 | s81 => DD x31 x11 | s82 => DD x31 x12 | s83 => DD x31 x13 | s84 => DD x31 x14 | s85 => DD x31 x15 | s86 => DD x31 x16 | s87 => DD x31 x17 | s88 => DD x31 x18 | s89 => DD x31 x19 | s90 => DD x31 x20 | s91 => DD x31 x21 | s92 => DD x31 x22 | s93 => DD x31 x23 | s94 => DD x31 x24 | s95 => DD x31 x25 | s96 => DD x31 x26 | s97 => DD x31 x27 | s98 => DD x31 x28 | s99 => DD x31 x29 | s100 => DD x31 x30 | s101 => DD x31 x31 | s102 => DD x31 x32 | s103 => DD x31 x33 | s104 => DD x31 x34 | s105 => DD x31 x35 | s106 => DD x31 x36 | s107 => DD x31 x37 | s108 => DD x31 x38 | s109 => DD x31 x39 | s110 => DD x31 x40 | s111 => DD x31 x41 | s112 => DD x31 x42 | s113 => DD x31 x43 | s114 => DD x31 x44 | s115 => DD x31 x45 | s116 => DD x31 x46 | s117 => DD x31 x47 | s118 => DD x31 x48 | s119 => DD x31 x49 | s120 => DD x31 x50 | s121 => DD x31 x51 | s122 => DD x31 x52 | s123 => DD x31 x53 | s124 => DD x31 x54 | s125 => DD x31 x55 | s126 => DD x31 x56 end.
Definition m1920 (c : sum2) : dd := match c with s0 => DD x30 x0 | s1 => DD x30 x1 | s2 => DD x30 x2 | s3 => DD x30 x3 | s4 => DD x30 x4 | s5 => DD x30 x5 | s6 => DD x30 x6 | s7 => DD x30 x7 | s8 => DD x30 x8 | s9 => DD x30 x9 | s10 => DD x30 x10 | s11 => DD x30 x11 | s12 => DD x30 x12 | s13 => DD x30 x13 | s14 => DD x30 x14 | s15 => DD x30 x15 | s16 => DD x30 x16 | s17 => DD x30 x17 | s18 => DD x30 x18 | s19 => DD x30 x19 | s20 => DD x30 x20 | s21 => DD x30 x21 | s22 => DD x30 x22 | s23 => DD x30 x23 | s24 => DD x30 x24 | s25 => DD x30 x25 | s26 => DD x30 x26 | s27 => DD x30 x27 | s28 => DD x30 x28 | s29 => DD x30 x29 | s30 => DD x30 x30 | s31 => DD x30 x31 | s32 => DD x30 x32 | s33 => DD x30 x33 | s34 => DD x30 x34 | s35 => DD x30 x35 | s36 => DD x30 x36 | s37 => DD x30 x37 | s38 => DD x30 x38 | s39 => DD x30 x39 | s40 => DD x30 x40 | s41 => DD x30 x41 | s42 => DD x30 x42 | s43 => DD x30 x43 | s44 => DD x30 x44 | s45 => DD x30 x45 | s46 => DD x30 x46 | s47 => DD x30 x47 | s48 => DD x30 x48 | s49 => DD x30 x49 | s50 => DD x30 x50 | s51 => DD x30 x51 | s52 => DD x30 x52 | s53 => DD x30 x53 | s54 => DD x30 x54 | s55 => DD x30 x55 | s56 => DD x30 x56 | s57 => DD x30 x57 | s58 => DD x30 x58 | s59 => DD x30 x59 | s60 => DD x30 x60 | s61 => DD x30 x61 | s62 => DD x30 x62 | s63 => DD x30 x63 | s64 => DD x31 x0 | s65 => DD x31 x1 | s66 => DD x31 x2 | s67 => DD x31 x3 | s68 => DD x31 x4 | s69 => DD x31 x5 | s70 => DD x31 x6 | s71 => DD x31 x7 | s72 => DD x31 x8 | s73 => DD x31 x9 | s74 => DD x31 x10 | s75 => DD x31 x11 | s76 => DD x31 x12 | s77 => DD x31 x13 | s78 => DD x31 x14 | s79 => DD x31 x15 | s80 => DD x31 x16 | s81 => DD x31 x17 | s82 => DD x31 x18 | s83 => DD x31 x19 | s84 => DD x31 x20 | s85 => DD x31 x21 | s86 => DD x31 x22 | s87 => DD x31 x23 | s88 => DD x31 x24 | s89 => DD x31 x25 | s90 => DD x31 x26 | s91 => DD x31 x27 | s92 => DD x31 x28 | s93 => DD x31 x29 | s94 => DD x31 x30 | s95 => DD x31 x31 | s96 => DD x31 x32 | s97 => DD x31 x33 | s98 => DD x31 x34 | s99 => DD x31 x35 | s100 => DD x31 x36 | s101 => DD x31 x37 | s102 => DD x31 x38 | s103 => DD x31 x39 | s104 => DD x31 x40 | s105 => DD x31 x41 | s106 => DD x31 x42 | s107 => DD x31 x43 | s108 => DD x31 x44 | s109 => DD x31 x45 | s110 => DD x31 x46 | s111 => DD x31 x47 | s112 => DD x31 x48 | s113 => DD x31 x49 | s114 => DD x31 x50 | s115 => DD x31 x51 | s116 => DD x31 x52 | s117 => DD x31 x53 | s118 => DD x31 x54 | s119 => DD x31 x55 | s120 => DD x31 x56 | s121 => DD x31 x57 | s122 => DD x31 x58 | s123 => DD x31 x59 | s124 => DD x31 x60 | s125 => DD x31 x61 | s126 => DD x31 x62 end.
Definition m1922 (c : sum2) : dd := match c with s0 => DD x30 x2 | s1 => DD x30 x3 | s2 => DD x30 x4 | s3 => DD x30 x5 | s4 => DD x30 x6 | s5 => DD x30 x7 | s6 => DD x30 x8 | s7 => DD x30 x9 | s8 => DD x30 x10 | s9 => DD x30 x11 | s10 => DD x30 x12 | s11 => DD x30 x13 | s12 => DD x30 x14 | s13 => DD x30 x15 | s14 => DD x30 x16 | s15 => DD x30 x17 | s16 => DD x30 x18 | s17 => DD x30 x19 | s18 => DD x30 x20 | s19 => DD x30 x21 | s20 => DD x30 x22 | s21 => DD x30 x23 | s22 => DD x30 x24 | s23 => DD x30 x25 | s24 => DD x30 x26 | s25 => DD x30 x27 | s26 => DD x30 x28 | s27 => DD x30 x29 | s28 => DD x30 x30 | s29 => DD x30 x31 | s30 => DD x30 x32 | s31 => DD x30 x33 | s32 => DD x30 x34 | s33 => DD x30 x35 | s34 => DD x30 x36 | s35 => DD x30 x37 | s36 => DD x30 x38 | s37 => DD x30 x39 | s38 => DD x30 x40 | s39 => DD x30 x41 | s40 => DD x30 x42 | s41 => DD x30 x43 | s42 => DD x30 x44 | s43 => DD x30 x45 | s44 => DD x30 x46 | s45 => DD x30 x47 | s46 => DD x30 x48 | s47 => DD x30 x49 | s48 => DD x30 x50 | s49 => DD x30 x51 | s50 => DD x30 x52 | s51 => DD x30 x53 | s52 => DD x30 x54 | s53 => DD x30 x55 | s54 => DD x30 x56 | s55 => DD x30 x57 | s56 => DD x30 x58 | s57 => DD x30 x59 | s58 => DD x30 x60 | s59 => DD x30 x61 | s60 => DD x30 x62 | s61 => DD x30 x63 | s62 => DD x31 x0 | s63 => DD x31 x1 | s64 => DD x31 x2 | s65 => DD x31 x3 | s66 => DD x31 x4 | s67 => DD x31 x5 | s68 => DD x31 x6 | s69 => DD x31 x7 | s70 => DD x31 x8 | s71 => DD x31 x9 | s72 => DD x31 x10 | s73 => DD x31 x11 | s74 => DD x31 x12 | s75 => DD x31 x13 | s76 => DD x31 x14 | s77 => DD x31 x15 | s78 => DD x31 x16 | s79 => DD x31 x17 | s80 => DD x31 x18 | s81 => DD x31 x19 | s82 => DD x31 x20 | s83 => DD x31 x21 | s84 => DD x31 x22 | s85 => DD x31 x23 | s86 => DD x31 x24 | s87 => DD x31 x25 | s88 => DD x31 x26 | s89 => DD x31 x27 | s90 => DD x31 x28 | s91 => DD x31 x29 | s92 => DD x31 x30 | s93 => DD x31 x31 | s94 => DD x31 x32 | s95 => DD x31 x33 | s96 => DD x31 x34 | s97 => DD x31 x35 | s98 => DD x31 x36 | s99 => DD x31 x37 | s100 => DD x31 x38 | s101 => DD x31 x39 | s102 => DD x31 x40 | s103 => DD x31 x41 | s104 => DD x31 x42 | s105 => DD x31 x43 | s106 => DD x31 x44 | s107 => DD x31 x45 | s108 => DD x31 x46 | s109 => DD x31 x47 | s110 => DD x31 x48 | s111 => DD x31 x49 | s112 => DD x31 x50 | s113 => DD x31 x51 | s114 => DD x31 x52 | s115 => DD x31 x53 | s116 => DD x31 x54 | s117 => DD x31 x55 | s118 => DD x31 x56 | s119 => DD x31 x57 | s120 => DD x31 x58 | s121 => DD x31 x59 | s122 => DD x31 x60 | s123 => DD x31 x61 | s124 => DD x31 x62 | s125 => DD x31 x63 | s126 => DD x32 x0 end.
Definition m1924 (c : sum2) : dd := match c with s0 => DD x30 x4 | s1 => DD x30 x5 | s2 => DD x30 x6 | s3 => DD x30 x7 | s4 => DD x30 x8 | s5 => DD x30 x9 | s6 => DD x30 x10 | s7 => DD x30 x11 | s8 => DD x30 x12 | s9 => DD x30 x13 | s10 => DD x30 x14 | s11 => DD x30 x15 | s12 => DD x30 x16 | s13 => DD x30 x17 | s14 => DD x30 x18 | s15 => DD x30 x19 | s16 => DD x30 x20 | s17 => DD x30 x21 | s18 => DD x30 x22 | s19 => DD x30 x23 | s20 => DD x30 x24 | s21 => DD x30 x25 | s22 => DD x30 x26 | s23 => DD x30 x27 | s24 => DD x30 x28 | s25 => DD x30 x29 | s26 => DD x30 x30 | s27 => DD x30 x31 | s28 => DD x30 x32 | s29 => DD x30 x33 | s30 => DD x30 x34 | s31 => DD x30 x35 | s32 => DD x30 x36 | s33 => DD x30 x37 | s34 => DD x30 x38 | s35 => DD x30 x39 | s36 => DD x30 x40 | s37 => DD x30 x41 | s38 => DD x30 x42 | s39 => DD x30 x43 | s40 => DD x30 x44 | s41 => DD x30 x45 | s42 => DD x30 x46 | s43 => DD x30 x47 | s44 => DD x30 x48 | s45 => DD x30 x49 | s46 => DD x30 x50 | s47 => DD x30 x51 | s48 => DD x30 x52 | s49 => DD x30 x53 | s50 => DD x30 x54 | s51 => DD x30 x55 | s52 => DD x30 x56 | s53 => DD x30 x57 | s54 => DD x30 x58 | s55 => DD x30 x59 | s56 => DD x30 x60 | s57 => DD x30 x61 | s58 => DD x30 x62 | s59 => DD x30 x63 | s60 => DD x31 x0 | s61 => DD x31 x1 | s62 => DD x31 x2 | s63 => DD x31 x3 | s64 => DD x31 x4 | s65 => DD x31 x5 | s66 => DD x31 x6 | s67 => DD x31 x7 | s68 => DD x31 x8 | s69 => DD x31 x9 | s70 => DD x31 x10 | s71 => DD x31 x11 | s72 => DD x31 x12 | s73 => DD x31 x13 | s74 => DD x31 x14 | s75 => DD x31 x15 | s76 => DD x31 x16 | s77 => DD x31 x17 | s78 => DD x31 x18 | s79 => DD x31 x19 | s80 => DD x31 x20 | s81 => DD x31 x21 | s82 => DD x31 x22 | s83 => DD x31 x23 | s84 => DD x31 x24 | s85 => DD x31 x25 | s86 => DD x31 x26 | s87 => DD x31 x27 | s88 => DD x31 x28 | s89 => DD x31 x29 | s90 => DD x31 x30 | s91 => DD x31 x31 | s92 => DD x31 x32 | s93 => DD x31 x33 | s94 => DD x31 x34 | s95 => DD x31 x35 | s96 => DD x31 x36 | s97 => DD x31 x37 | s98 => DD x31 x38 | s99 => DD x31 x39 | s100 => DD x31 x40 | s101 => DD x31 x41 | s102 => DD x31 x42 | s103 => DD x31 x43 | s104 => DD x31 x44 | s105 => DD x31 x45 | s106 => DD x31 x46 | s107 => DD x31 x47 | s108 => DD x31 x48 | s109 => DD x31 x49 | s110 => DD x31 x50 | s111 => DD x31 x51 | s112 => DD x31 x52 | s113 => DD x31 x53 | s114 => DD x31 x54 | s115 => DD x31 x55 | s116 => DD x31 x56 | s117 => DD x31 x57 | s118 => DD x31 x58 | s119 => DD x31 x59 | s120 => DD x31 x60 | s121 => DD x31 x61 | s122 => DD x31 x62 | s123 => DD x31 x63 | s124 => DD x32 x0 | s125 => DD x32 x1 | s126 => DD x32 x2 end.
Definition m1925 (c : sum2) : dd := match c with s0 => DD x30 x5 | s1 => DD x30 x6 | s2 => DD x30 x7 | s3 => DD x30 x8 | s4 => DD x30 x9 | s5 => DD x30 x10 | s6 => DD x30 x11 | s7 => DD x30 x12 | s8 => DD x30 x13 | s9 => DD x30 x14 | s10 => DD x30 x15 | s11 => DD x30 x16 | s12 => DD x30 x17 | s13 => DD x30 x18 | s14 => DD x30 x19 | s15 => DD x30 x20 | s16 => DD x30 x21 | s17 => DD x30 x22 | s18 => DD x30 x23 | s19 => DD x30 x24 | s20 => DD x30 x25 | s21 => DD x30 x26 | s22 => DD x30 x27 | s23 => DD x30 x28 | s24 => DD x30 x29 | s25 => DD x30 x30 | s26 => DD x30 x31 | s27 => DD x30 x32 | s28 => DD x30 x33 | s29 => DD x30 x34 | s30 => DD x30 x35 | s31 => DD x30 x36 | s32 => DD x30 x37 | s33 => DD x30 x38 | s34 => DD x30 x39 | s35 => DD x30 x40 | s36 => DD x30 x41 | s37 => DD x30 x42 | s38 => DD x30 x43 | s39 => DD x30 x44 | s40 => DD x30 x45 | s41 => DD x30 x46 | s42 => DD x30 x47 | s43 => DD x30 x48 | s44 => DD x30 x49 | s45 => DD x30 x50 | s46 => DD x30 x51 | s47 => DD x30 x52 | s48 => DD x30 x53 | s49 => DD x30 x54 | s50 => DD x30 x55 | s51 => DD x30 x56 | s52 => DD x30 x57 | s53 => DD x30 x58 | s54 => DD x30 x59 | s55 => DD x30 x60 | s56 => DD x30 x61 | s57 => DD x30 x62 | s58 => DD x30 x63 | s59 => DD x31 x0 | s60 => DD x31 x1 | s61 => DD x31 x2 | s62 => DD x31 x3 | s63 => DD x31 x4 | s64 => DD x31 x5 | s65 => DD x31 x6 | s66 => DD x31 x7 | s67 => DD x31 x8 | s68 => DD x31 x9 | s69 => DD x31 x10 | s70 => DD x31 x11 | s71 => DD x31 x12 | s72 => DD x31 x13 | s73 => DD x31 x14 | s74 => DD x31 x15 | s75 => DD x31 x16 | s76 => DD x31 x17 | s77 => DD x31 x18 | s78 => DD x31 x19 | s79 => DD x31 x20 | s80 => DD x31 x21 | s81 => DD x31 x22 | s82 => DD x31 x23 | s83 => DD x31 x24 | s84 => DD x31 x25 | s85 => DD x31 x26 | s86 => DD x31 x27 | s87 => DD x31 x28 | s88 => DD x31 x29 | s89 => DD x31 x30 | s90 => DD x31 x31 | s91 => DD x31 x32 | s92 => DD x31 x33 | s93 => DD x31 x34 | s94 => DD x31 x35 | s95 => DD x31 x36 | s96 => DD x31 x37 | s97 => DD x31 x38 | s98 => DD x31 x39 | s99 => DD x31 x40 | s100 => DD x31 x41 | s101 => DD x31 x42 | s102 => DD x31 x43 | s103 => DD x31 x44 | s104 => DD x31 x45 | s105 => DD x31 x46 | s106 => DD x31 x47 | s107 => DD x31 x48 | s108 => DD x31 x49 | s109 => DD x31 x50 | s110 => DD x31 x51 | s111 => DD x31 x52 | s112 => DD x31 x53 | s113 => DD x31 x54 | s114 => DD x31 x55 | s115 => DD x31 x56 | s116 => DD x31 x57 | s117 => DD x31 x58 | s118 => DD x31 x59 | s119 => DD x31 x60 | s120 => DD x31 x61 | s121 => DD x31 x62 | s122 => DD x31 x63 | s123 => DD x32 x0 | s124 => DD x32 x1 | s125 => DD x32 x2 | s126 => DD x32 x3 end.
Definition m1927 (c : sum2) : dd := match c with s0 => DD x30 x7 | s1 => DD x30 x8 | s2 => DD x30 x9 | s3 => DD x30 x10 | s4 => DD x30 x11 | s5 => DD x30 x12 | s6 => DD x30 x13 | s7 => DD x30 x14 | s8 => DD x30 x15 | s9 => DD x30 x16 | s10 => DD x30 x17 | s11 => DD x30 x18 | s12 => DD x30 x19 | s13 => DD x30 x20 | s14 => DD x30 x21 | s15 => DD x30 x22 | s16 => DD x30 x23 | s17 => DD x30 x24 | s18 => DD x30 x25 | s19 => DD x30 x26 | s20 => DD x30 x27 | s21 => DD x30 x28 | s22 => DD x30 x29 | s23 => DD x30 x30 | s24 => DD x30 x31 | s25 => DD x30 x32 | s26 => DD x30 x33 | s27 => DD x30 x34 | s28 => DD x30 x35 | s29 => DD x30 x36 | s30 => DD x30 x37 | s31 => DD x30 x38 | s32 => DD x30 x39 | s33 => DD x30 x40 | s34 => DD x30 x41 | s35 => DD x30 x42 | s36 => DD x30 x43 | s37 => DD x30 x44 | s38 => DD x30 x45 | s39 => DD x30 x46 | s40 => DD x30 x47 | s41 => DD x30 x48 | s42 => DD x30 x49 | s43 => DD x30 x50 | s44 => DD x30 x51 | s45 => DD x30 x52 | s46 => DD x30 x53 | s47 => DD x30 x54 | s48 => DD x30 x55 | s49 => DD x30 x56 | s50 => DD x30 x57 | s51 => DD x30 x58 | s52 => DD x30 x59 | s53 => DD x30 x60 | s54 => DD x30 x61 | s55 => DD x30 x62 | s56 => DD x30 x63 | s57 => DD x31 x0 | s58 => DD x31 x1 | s59 => DD x31 x2 | s60 => DD x31 x3 | s61 => DD x31 x4 | s62 => DD x31 x5 | s63 => DD x31 x6 | s64 => DD x31 x7 | s65 => DD x31 x8 | s66 => DD x31 x9 | s67 => DD x31 x10 | s68 => DD x31 x11 | s69 => DD x31 x12 | s70 => DD x31 x13 | s71 => DD x31 x14 | s72 => DD x31 x15 | s73 => DD x31 x16 | s74 => DD x31 x17 | s75 => DD x31 x18 | s76 => DD x31 x19 | s77 => DD x31 x20 | s78 => DD x31 x21 | s79 => DD x31 x22 | s80 => DD x31 x23 | s81 => DD x31 x24 | s82 => DD x31 x25 | s83 => DD x31 x26 | s84 => DD x31 x27 | s85 => DD x31 x28 | s86 => DD x31 x29 | s87 => DD x31 x30 | s88 => DD x31 x31 | s89 => DD x31 x32 | s90 => DD x31 x33 | s91 => DD x31 x34 | s92 => DD x31 x35 | s93 => DD x31 x36 | s94 => DD x31 x37 | s95 => DD x31 x38 | s96 => DD x31 x39 | s97 => DD x31 x40 | s98 => DD x31 x41 | s99 => DD x31 x42 | s100 => DD x31 x43 | s101 => DD x31 x44 | s102 => DD x31 x45 | s103 => DD x31 x46 | s104 => DD x31 x47 | s105 => DD x31 x48 | s106 => DD x31 x49 | s107 => DD x31 x50 | s108 => DD x31 x51 | s109 => DD x31 x52 | s110 => DD x31 x53 | s111 => DD x31 x54 | s112 => DD x31 x55 | s113 => DD x31 x56 | s114 => DD x31 x57 | s115 => DD x31 x58 | s116 => DD x31 x59 | s117 => DD x31 x60 | s118 => DD x31 x61 | s119 => DD x31 x62 | s120 => DD x31 x63 | s121 => DD x32 x0 | s122 => DD x32 x1 | s123 => DD x32 x2 | s124 => DD x32 x3 | s125 => DD x32 x4 | s126 => DD x32 x5 end.
Definition m1932 (c : sum2) : dd := match c with s0 => DD x30 x12 | s1 => DD x30 x13 | s2 => DD x30 x14 | s3 => DD x30 x15 | s4 => DD x30 x16 | s5 => DD x30 x17 | s6 => DD x30 x18 | s7 => DD x30 x19 | s8 => DD x30 x20 | s9 => DD x30 x21 | s10 => DD x30 x22 | s11 => DD x30 x23 | s12 => DD x30 x24 | s13 => DD x30 x25 | s14 => DD x30 x26 | s15 => DD x30 x27 | s16 => DD x30 x28 | s17 => DD x30 x29 | s18 => DD x30 x30 | s19 => DD x30 x31 | s20 => DD x30 x32 | s21 => DD x30 x33 | s22 => DD x30 x34 | s23 => DD x30 x35 | s24 => DD x30 x36 | s25 => DD x30 x37 | s26 => DD x30 x38 | s27 => DD x30 x39 | s28 => DD x30 x40 | s29 => DD x30 x41 | s30 => DD x30 x42 | s31 => DD x30 x43 | s32 => DD x30 x44 | s33 => DD x30 x45 | s34 => DD x30 x46 | s35 => DD x30 x47 | s36 => DD x30 x48 | s37 => DD x30 x49 | s38 => DD x30 x50 | s39 => DD x30 x51 | s40 => DD x30 x52 | s41 => DD x30 x53 | s42 => DD x30 x54 | s43 => DD x30 x55 | s44 => DD x30 x56 | s45 => DD x30 x57 | s46 => DD x30 x58 | s47 => DD x30 x59 | s48 => DD x30 x60 | s49 => DD x30 x61 | s50 => DD x30 x62 | s51 => DD x30 x63 | s52 => DD x31 x0 | s53 => DD x31 x1 | s54 => DD x31 x2 | s55 => DD x31 x3 | s56 => DD x31 x4 | s57 => DD x31 x5 | s58 => DD x31 x6 | s59 => DD x31 x7 | s60 => DD x31 x8 | s61 => DD x31 x9 | s62 => DD x31 x10 | s63 => DD x31 x11 | s64 => DD x31 x12 | s65 => DD x31 x13 | s66 => DD x31 x14 | s67 => DD x31 x15 | s68 => DD x31 x16 | s69 => DD x31 x17 | s70 => DD x31 x18 | s71 => DD x31 x19 | s72 => DD x31 x20 | s73 => DD x31 x21 | s74 => DD x31 x22 | s75 => DD x31 x23 | s76 => DD x31 x24 | s77 => DD x31 x25 | s78 => DD x31 x26 | s79 => DD x31 x27 | s80 => DD x31 x28 | s81 => DD x31 x29 | s82 => DD x31 x30 | s83 => DD x31 x31 | s84 => DD x31 x32 | s85 => DD x31 x33 | s86 => DD x31 x34 | s87 => DD x31 x35 | s88 => DD x31 x36 | s89 => DD x31 x37 | s90 => DD x31 x38 | s91 => DD x31 x39 | s92 => DD x31 x40 | s93 => DD x31 x41 | s94 => DD x31 x42 | s95 => DD x31 x43 | s96 => DD x31 x44 | s97 => DD x31 x45 | s98 => DD x31 x46 | s99 => DD x31 x47 | s100 => DD x31 x48 | s101 => DD x31 x49 | s102 => DD x31 x50 | s103 => DD x31 x51 | s104 => DD x31 x52 | s105 => DD x31 x53 | s106 => DD x31 x54 | s107 => DD x31 x55 | s108 => DD x31 x56 | s109 => DD x31 x57 | s110 => DD x31 x58 | s111 => DD x31 x59 | s112 => DD x31 x60 | s113 => DD x31 x61 | s114 => DD x31 x62 | s115 => DD x31 x63 | s116 => DD x32 x0 | s117 => DD x32 x1 | s118 => DD x32 x2 | s119 => DD x32 x3 | s120 => DD x32 x4 | s121 => DD x32 x5 | s122 => DD x32 x6 | s123 => DD x32 x7 | s124 => DD x32 x8 | s125 => DD x32 x9 | s126 => DD x32 x10 end.
Definition m1935 (c : sum2) : dd := match c with s0 => DD x30 x15 | s1 => DD x30 x16 | s2 => DD x30 x17 | s3 => DD x30 x18 | s4 => DD x30 x19 | s5 => DD x30 x20 | s6 => DD x30 x21 | s7 => DD x30 x22 | s8 => DD x30 x23 | s9 => DD x30 x24 | s10 => DD x30 x25 | s11 => DD x30 x26 | s12 => DD x30 x27 | s13 => DD x30 x28 | s14 => DD x30 x29 | s15 => DD x30 x30 | s16 => DD x30 x31 | s17 => DD x30 x32 | s18 => DD x30 x33 | s19 => DD x30 x34 | s20 => DD x30 x35 | s21 => DD x30 x36 | s22 => DD x30 x37 | s23 => DD x30 x38 | s24 => DD x30 x39 | s25 => DD x30 x40 | s26 => DD x30 x41 | s27 => DD x30 x42 | s28 => DD x30 x43 | s29 => DD x30 x44 | s30 => DD x30 x45 | s31 => DD x30 x46 | s32 => DD x30 x47 | s33 => DD x30 x48 | s34 => DD x30 x49 | s35 => DD x30 x50 | s36 => DD x30 x51 | s37 => DD x30 x52 | s38 => DD x30 x53 | s39 => DD x30 x54 | s40 => DD x30 x55 | s41 => DD x30 x56 | s42 => DD x30 x57 | s43 => DD x30 x58 | s44 => DD x30 x59 | s45 => DD x30 x60 | s46 => DD x30 x61 | s47 => DD x30 x62 | s48 => DD x30 x63 | s49 => DD x31 x0 | s50 => DD x31 x1 | s51 => DD x31 x2 | s52 => DD x31 x3 | s53 => DD x31 x4 | s54 => DD x31 x5 | s55 => DD x31 x6 | s56 => DD x31 x7 | s57 => DD x31 x8 | s58 => DD x31 x9 | s59 => DD x31 x10 | s60 => DD x31 x11 | s61 => DD x31 x12 | s62 => DD x31 x13 | s63 => DD x31 x14 | s64 => DD x31 x15 | s65 => DD x31 x16 | s66 => DD x31 x17 | s67 => DD x31 x18 | s68 => DD x31 x19 | s69 => DD x31 x20 | s70 => DD x31 x21 | s71 => DD x31 x22 | s72 => DD x31 x23 | s73 => DD x31 x24 | s74 => DD x31 x25 | s75 => DD x31 x26 | s76 => DD x31 x27 | s77 => DD x31 x28 | s78 => DD x31 x29 | s79 => DD x31 x30 | s80 => DD x31 x31 | s81 => DD x31 x32 | s82 => DD x31 x33 | s83 => DD x31 x34 | s84 => DD x31 x35 | s85 => DD x31 x36 | s86 => DD x31 x37 | s87 => DD x31 x38 | s88 => DD x31 x39 | s89 => DD x31 x40 | s90 => DD x31 x41 | s91 => DD x31 x42 | s92 => DD x31 x43 | s93 => DD x31 x44 | s94 => DD x31 x45 | s95 => DD x31 x46 | s96 => DD x31 x47 | s97 => DD x31 x48 | s98 => DD x31 x49 | s99 => DD x31 x50 | s100 => DD x31 x51 | s101 => DD x31 x52 | s102 => DD x31 x53 | s103 => DD x31 x54 | s104 => DD x31 x55 | s105 => DD x31 x56 | s106 => DD x31 x57 | s107 => DD x31 x58 | s108 => DD x31 x59 | s109 => DD x31 x60 | s110 => DD x31 x61 | s111 => DD x31 x62 | s112 => DD x31 x63 | s113 => DD x32 x0 | s114 => DD x32 x1 | s115 => DD x32 x2 | s116 => DD x32 x3 | s117 => DD x32 x4 | s118 => DD x32 x5 | s119 => DD x32 x6 | s120 => DD x32 x7 | s121 => DD x32 x8 | s122 => DD x32 x9 | s123 => DD x32 x10 | s124 => DD x32 x11 | s125 => DD x32 x12 | s126 => DD x32 x13 end.
Definition m1936 (c : sum2) : dd := match c with s0 => DD x30 x16 | s1 => DD x30 x17 | s2 => DD x30 x18 | s3 => DD x30 x19 | s4 => DD x30 x20 | s5 => DD x30 x21 | s6 => DD x30 x22 | s7 => DD x30 x23 | s8 => DD x30 x24 | s9 => DD x30 x25 | s10 => DD x30 x26 | s11 => DD x30 x27 | s12 => DD x30 x28 | s13 => DD x30 x29 | s14 => DD x30 x30 | s15 => DD x30 x31 | s16 => DD x30 x32 | s17 => DD x30 x33 | s18 => DD x30 x34 | s19 => DD x30 x35 | s20 => DD x30 x36 | s21 => DD x30 x37 | s22 => DD x30 x38 | s23 => DD x30 x39 | s24 => DD x30 x40 | s25 => DD x30 x41 | s26 => DD x30 x42 | s27 => DD x30 x43 | s28 => DD x30 x44 | s29 => DD x30 x45 | s30 => DD x30 x46 | s31 => DD x30 x47 | s32 => DD x30 x48 | s33 => DD x30 x49 | s34 => DD x30 x50 | s35 => DD x30 x51 | s36 => DD x30 x52 | s37 => DD x30 x53 | s38 => DD x30 x54 | s39 => DD x30 x55 | s40 => DD x30 x56 | s41 => DD x30 x57 | s42 => DD x30 x58 | s43 => DD x30 x59 | s44 => DD x30 x60 | s45 => DD x30 x61 | s46 => DD x30 x62 | s47 => DD x30 x63 | s48 => DD x31 x0 | s49 => DD x31 x1 | s50 => DD x31 x2 | s51 => DD x31 x3 | s52 => DD x31 x4 | s53 => DD x31 x5 | s54 => DD x31 x6 | s55 => DD x31 x7 | s56 => DD x31 x8 | s57 => DD x31 x9 | s58 => DD x31 x10 | s59 => DD x31 x11 | s60 => DD x31 x12 | s61 => DD x31 x13 | s62 => DD x31 x14 | s63 => DD x31 x15 | s64 => DD x31 x16 | s65 => DD x31 x17 | s66 => DD x31 x18 | s67 => DD x31 x19 | s68 => DD x31 x20 | s69 => DD x31 x21 | s70 => DD x31 x22 | s71 => DD x31 x23 | s72 => DD x31 x24 | s73 => DD x31 x25 | s74 => DD x31 x26 | s75 => DD x31 x27 | s76 => DD x31 x28 | s77 => DD x31 x29 | s78 => DD x31 x30 | s79 => DD x31 x31 | s80 => DD x31 x32 | s81 => DD x31 x33 | s82 => DD x31 x34 | s83 => DD x31 x35 | s84 => DD x31 x36 | s85 => DD x31 x37 | s86 => DD x31 x38 | s87 => DD x31 x39 | s88 => DD x31 x40 | s89 => DD x31 x41 | s90 => DD x31 x42 | s91 => DD x31 x43 | s92 => DD x31 x44 | s93 => DD x31 x45 | s94 => DD x31 x46 | s95 => DD x31 x47 | s96 => DD x31 x48 | s97 => DD x31 x49 | s98 => DD x31 x50 | s99 => DD x31 x51 | s100 => DD x31 x52 | s101 => DD x31 x53 | s102 => DD x31 x54 | s103 => DD x31 x55 | s104 => DD x31 x56 | s105 => DD x31 x57 | s106 => DD x31 x58 | s107 => DD x31 x59 | s108 => DD x31 x60 | s109 => DD x31 x61 | s110 => DD x31 x62 | s111 => DD x31 x63 | s112 => DD x32 x0 | s113 => DD x32 x1 | s114 => DD x32 x2 | s115 => DD x32 x3 | s116 => DD x32 x4 | s117 => DD x32 x5 | s118 => DD x32 x6 | s119 => DD x32 x7 | s120 => DD x32 x8 | s121 => DD x32 x9 | s122 => DD x32 x10 | s123 => DD x32 x11 | s124 => DD x32 x12 | s125 => DD x32 x13 | s126 => DD x32 x14 end.
Definition m1938 (c : sum2) : dd := match c with s0 => DD x30 x18 | s1 => DD x30 x19 | s2 => DD x30 x20 | s3 => DD x30 x21 | s4 => DD x30 x22 | s5 => DD x30 x23 | s6 => DD x30 x24 | s7 => DD x30 x25 | s8 => DD x30 x26 | s9 => DD x30 x27 | s10 => DD x30 x28 | s11 => DD x30 x29 | s12 => DD x30 x30 | s13 => DD x30 x31 | s14 => DD x30 x32 | s15 => DD x30 x33 | s16 => DD x30 x34 | s17 => DD x30 x35 | s18 => DD x30 x36 | s19 => DD x30 x37 | s20 => DD x30 x38 | s21 => DD x30 x39 | s22 => DD x30 x40 | s23 => DD x30 x41 | s24 => DD x30 x42 | s25 => DD x30 x43 | s26 => DD x30 x44 | s27 => DD x30 x45 | s28 => DD x30 x46 | s29 => DD x30 x47 | s30 => DD x30 x48 | s31 => DD x30 x49 | s32 => DD x30 x50 | s33 => DD x30 x51 | s34 => DD x30 x52 | s35 => DD x30 x53 | s36 => DD x30 x54 | s37 => DD x30 x55 | s38 => DD x30 x56 | s39 => DD x30 x57 | s40 => DD x30 x58 | s41 => DD x30 x59 | s42 => DD x30 x60 | s43 => DD x30 x61 | s44 => DD x30 x62 | s45 => DD x30 x63 | s46 => DD x31 x0 | s47 => DD x31 x1 | s48 => DD x31 x2 | s49 => DD x31 x3 | s50 => DD x31 x4 | s51 => DD x31 x5 | s52 => DD x31 x6 | s53 => DD x31 x7 | s54 => DD x31 x8 | s55 => DD x31 x9 | s56 => DD x31 x10 | s57 => DD x31 x11 | s58 => DD x31 x12 | s59 => DD x31 x13 | s60 => DD x31 x14 | s61 => DD x31 x15 | s62 => DD x31 x16 | s63 => DD x31 x17 | s64 => DD x31 x18 | s65 => DD x31 x19 | s66 => DD x31 x20 | s67 => DD x31 x21 | s68 => DD x31 x22 | s69 => DD x31 x23 | s70 => DD x31 x24 | s71 => DD x31 x25 | s72 => DD x31 x26 | s73 => DD x31 x27 | s74 => DD x31 x28 | s75 => DD x31 x29 | s76 => DD x31 x30 | s77 => DD x31 x31 | s78 => DD x31 x32 | s79 => DD x31 x33 | s80 => DD x31 x34 | s81 => DD x31 x35 | s82 => DD x31 x36 | s83 => DD x31 x37 | s84 => DD x31 x38 | s85 => DD x31 x39 | s86 => DD x31 x40 | s87 => DD x31 x41 | s88 => DD x31 x42 | s89 => DD x31 x43 | s90 => DD x31 x44 | s91 => DD x31 x45 | s92 => DD x31 x46 | s93 => DD x31 x47 | s94 => DD x31 x48 | s95 => DD x31 x49 | s96 => DD x31 x50 | s97 => DD x31 x51 | s98 => DD x31 x52 | s99 => DD x31 x53 | s100 => DD x31 x54 | s101 => DD x31 x55 | s102 => DD x31 x56 | s103 => DD x31 x57 | s104 => DD x31 x58 | s105 => DD x31 x59 | s106 => DD x31 x60 | s107 => DD x31 x61 | s108 => DD x31 x62 | s109 => DD x31 x63 | s110 => DD x32 x0 | s111 => DD x32 x1 | s112 => DD x32 x2 | s113 => DD x32 x3 | s114 => DD x32 x4 | s115 => DD x32 x5 | s116 => DD x32 x6 | s117 => DD x32 x7 | s118 => DD x32 x8 | s119 => DD x32 x9 | s120 => DD x32 x10 | s121 => DD x32 x11 | s122 => DD x32 x12 | s123 => DD x32 x13 | s124 => DD x32 x14 | s125 => DD x32 x15 | s126 => DD x32 x16 end.
Definition m1944 (c : sum2) : dd := match c with s0 => DD x30 x24 | s1 => DD x30 x25 | s2 => DD x30 x26 | s3 => DD x30 x27 | s4 => DD x30 x28 | s5 => DD x30 x29 | s6 => DD x30 x30 | s7 => DD x30 x31 | s8 => DD x30 x32 | s9 => DD x30 x33 | s10 => DD x30 x34 | s11 => DD x30 x35 | s12 => DD x30 x36 | s13 => DD x30 x37 | s14 => DD x30 x38 | s15 => DD x30 x39 | s16 => DD x30 x40 | s17 => DD x30 x41 | s18 => DD x30 x42 | s19 => DD x30 x43 | s20 => DD x30 x44 | s21 => DD x30 x45 | s22 => DD x30 x46 | s23 => DD x30 x47 | s24 => DD x30 x48 | s25 => DD x30 x49 | s26 => DD x30 x50 | s27 => DD x30 x51 | s28 => DD x30 x52 | s29 => DD x30 x53 | s30 => DD x30 x54 | s31 => DD x30 x55 | s32 => DD x30 x56 | s33 => DD x30 x57 | s34 => DD x30 x58 | s35 => DD x30 x59 | s36 => DD x30 x60 | s37 => DD x30 x61 | s38 => DD x30 x62 | s39 => DD x30 x63 | s40 => DD x31 x0 | s41 => DD x31 x1 | s42 => DD x31 x2 | s43 => DD x31 x3 | s44 => DD x31 x4 | s45 => DD x31 x5 | s46 => DD x31 x6 | s47 => DD x31 x7 | s48 => DD x31 x8 | s49 => DD x31 x9 | s50 => DD x31 x10 | s51 => DD x31 x11 | s52 => DD x31 x12 | s53 => DD x31 x13 | s54 => DD x31 x14 | s55 => DD x31 x15 | s56 => DD x31 x16 | s57 => DD x31 x17 | s58 => DD x31 x18 | s59 => DD x31 x19 | s60 => DD x31 x20 | s61 => DD x31 x21 | s62 => DD x31 x22 | s63 => DD x31 x23 | s64 => DD x31 x24 | s65 => DD x31 x25 | s66 => DD x31 x26 | s67 => DD x31 x27 | s68 => DD x31 x28 | s69 => DD x31 x29 | s70 => DD x31 x30 | s71 => DD x31 x31 | s72 => DD x31 x32 | s73 => DD x31 x33 | s74 => DD x31 x34 | s75 => DD x31 x35 | s76 => DD x31 x36 | s77 => DD x31 x37 | s78 => DD x31 x38 | s79 => DD x31 x39 | s80 => DD x31 x40 | s81 => DD x31 x41 | s82 => DD x31 x42 | s83 => DD x31 x43 | s84 => DD x31 x44 | s85 => DD x31 x45 | s86 => DD x31 x46 | s87 => DD x31 x47 | s88 => DD x31 x48 | s89 => DD x31 x49 | s90 => DD x31 x50 | s91 => DD x31 x51 | s92 => DD x31 x52 | s93 => DD x31 x53 | s94 => DD x31 x54 | s95 => DD x31 x55 | s96 => DD x31 x56 | s97 => DD x31 x57 | s98 => DD x31 x58 | s99 => DD x31 x59 | s100 => DD x31 x60 | s101 => DD x31 x61 | s102 => DD x31 x62 | s103 => DD x31 x63 | s104 => DD x32 x0 | s105 => DD x32 x1 | s106 => DD x32 x2 | s107 => DD x32 x3 | s108 => DD x32 x4 | s109 => DD x32 x5 | s110 => DD x32 x6 | s111 => DD x32 x7 | s112 => DD x32 x8 | s113 => DD x32 x9 | s114 => DD x32 x10 | s115 => DD x32 x11 | s116 => DD x32 x12 | s117 => DD x32 x13 | s118 => DD x32 x14 | s119 => DD x32 x15 | s120 => DD x32 x16 | s121 => DD x32 x17 | s122 => DD x32 x18 | s123 => DD x32 x19 | s124 => DD x32 x20 | s125 => DD x32 x21 | s126 => DD x32 x22 end.
Definition m1947 (c : sum2) : dd := match c with s0 => DD x30 x27 | s1 => DD x30 x28 | s2 => DD x30 x29 | s3 => DD x30 x30 | s4 => DD x30 x31 | s5 => DD x30 x32 | s6 => DD x30 x33 | s7 => DD x30 x34 | s8 => DD x30 x35 | s9 => DD x30 x36 | s10 => DD x30 x37 | s11 => DD x30 x38 | s12 => DD x30 x39 | s13 => DD x30 x40 | s14 => DD x30 x41 | s15 => DD x30 x42 | s16 => DD x30 x43 | s17 => DD x30 x44 | s18 => DD x30 x45 | s19 => DD x30 x46 | s20 => DD x30 x47 | s21 => DD x30 x48 | s22 => DD x30 x49 | s23 => DD x30 x50 | s24 => DD x30 x51 | s25 => DD x30 x52 | s26 => DD x30 x53 | s27 => DD x30 x54 | s28 => DD x30 x55 | s29 => DD x30 x56 | s30 => DD x30 x57 | s31 => DD x30 x58 | s32 => DD x30 x59 | s33 => DD x30 x60 | s34 => DD x30 x61 | s35 => DD x30 x62 | s36 => DD x30 x63 | s37 => DD x31 x0 | s38 => DD x31 x1 | s39 => DD x31 x2 | s40 => DD x31 x3 | s41 => DD x31 x4 | s42 => DD x31 x5 | s43 => DD x31 x6 | s44 => DD x31 x7 | s45 => DD x31 x8 | s46 => DD x31 x9 | s47 => DD x31 x10 | s48 => DD x31 x11 | s49 => DD x31 x12 | s50 => DD x31 x13 | s51 => DD x31 x14 | s52 => DD x31 x15 | s53 => DD x31 x16 | s54 => DD x31 x17 | s55 => DD x31 x18 | s56 => DD x31 x19 | s57 => DD x31 x20 | s58 => DD x31 x21 | s59 => DD x31 x22 | s60 => DD x31 x23 | s61 => DD x31 x24 | s62 => DD x31 x25 | s63 => DD x31 x26 | s64 => DD x31 x27 | s65 => DD x31 x28 | s66 => DD x31 x29 | s67 => DD x31 x30 | s68 => DD x31 x31 | s69 => DD x31 x32 | s70 => DD x31 x33 | s71 => DD x31 x34 | s72 => DD x31 x35 | s73 => DD x31 x36 | s74 => DD x31 x37 | s75 => DD x31 x38 | s76 => DD x31 x39 | s77 => DD x31 x40 | s78 => DD x31 x41 | s79 => DD x31 x42 | s80 => DD x31 x43 | s81 => DD x31 x44 | s82 => DD x31 x45 | s83 => DD x31 x46 | s84 => DD x31 x47 | s85 => DD x31 x48 | s86 => DD x31 x49 | s87 => DD x31 x50 | s88 => DD x31 x51 | s89 => DD x31 x52 | s90 => DD x31 x53 | s91 => DD x31 x54 | s92 => DD x31 x55 | s93 => DD x31 x56 | s94 => DD x31 x57 | s95 => DD x31 x58 | s96 => DD x31 x59 | s97 => DD x31 x60 | s98 => DD x31 x61 | s99 => DD x31 x62 | s100 => DD x31 x63 | s101 => DD x32 x0 | s102 => DD x32 x1 | s103 => DD x32 x2 | s104 => DD x32 x3 | s105 => DD x32 x4 | s106 => DD x32 x5 | s107 => DD x32 x6 | s108 => DD x32 x7 | s109 => DD x32 x8 | s110 => DD x32 x9 | s111 => DD x32 x10 | s112 => DD x32 x11 | s113 => DD x32 x12 | s114 => DD x32 x13 | s115 => DD x32 x14 | s116 => DD x32 x15 | s117 => DD x32 x16 | s118 => DD x32 x17 | s119 => DD x32 x18 | s120 => DD x32 x19 | s121 => DD x32 x20 | s122 => DD x32 x21 | s123 => DD x32 x22 | s124 => DD x32 x23 | s125 => DD x32 x24 | s126 => DD x32 x25 end.
Definition m1950 (c : sum2) : dd := match c with s0 => DD x30 x30 | s1 => DD x30 x31 | s2 => DD x30 x32 | s3 => DD x30 x33 | s4 => DD x30 x34 | s5 => DD x30 x35 | s6 => DD x30 x36 | s7 => DD x30 x37 | s8 => DD x30 x38 | s9 => DD x30 x39 | s10 => DD x30 x40 | s11 => DD x30 x41 | s12 => DD x30 x42 | s13 => DD x30 x43 | s14 => DD x30 x44 | s15 => DD x30 x45 | s16 => DD x30 x46 | s17 => DD x30 x47 | s18 => DD x30 x48 | s19 => DD x30 x49 | s20 => DD x30 x50 | s21 => DD x30 x51 | s22 => DD x30 x52 | s23 => DD x30 x53 | s24 => DD x30 x54 | s25 => DD x30 x55 | s26 => DD x30 x56 | s27 => DD x30 x57 | s28 => DD x30 x58 | s29 => DD x30 x59 | s30 => DD x30 x60 | s31 => DD x30 x61 | s32 => DD x30 x62 | s33 => DD x30 x63 | s34 => DD x31 x0 | s35 => DD x31 x1 | s36 => DD x31 x2 | s37 => DD x31 x3 | s38 => DD x31 x4 | s39 => DD x31 x5 | s40 => DD x31 x6 | s41 => DD x31 x7 | s42 => DD x31 x8 | s43 => DD x31 x9 | s44 => DD x31 x10 | s45 => DD x31 x11 | s46 => DD x31 x12 | s47 => DD x31 x13 | s48 => DD x31 x14 | s49 => DD x31 x15 | s50 => DD x31 x16 | s51 => DD x31 x17 | s52 => DD x31 x18 | s53 => DD x31 x19 | s54 => DD x31 x20 | s55 => DD x31 x21 | s56 => DD x31 x22 | s57 => DD x31 x23 | s58 => DD x31 x24 | s59 => DD x31 x25 | s60 => DD x31 x26 | s61 => DD x31 x27 | s62 => DD x31 x28 | s63 => DD x31 x29 | s64 => DD x31 x30 | s65 => DD x31 x31 | s66 => DD x31 x32 | s67 => DD x31 x33 | s68 => DD x31 x34 | s69 => DD x31 x35 | s70 => DD x31 x36 | s71 => DD x31 x37 | s72 => DD x31 x38 | s73 => DD x31 x39 | s74 => DD x31 x40 | s75 => DD x31 x41 | s76 => DD x31 x42 | s77 => DD x31 x43 | s78 => DD x31 x44 | s79 => DD x31 x45 | s80 => DD x31 x46 | s81 => DD x31 x47 | s82 => DD x31 x48 | s83 => DD x31 x49 | s84 => DD x31 x50 | s85 => DD x31 x51 | s86 => DD x31 x52 | s87 => DD x31 x53 | s88 => DD x31 x54 | s89 => DD x31 x55 | s90 => DD x31 x56 | s91 => DD x31 x57 | s92 => DD x31 x58 | s93 => DD x31 x59 | s94 => DD x31 x60 | s95 => DD x31 x61 | s96 => DD x31 x62 | s97 => DD x31 x63 | s98 => DD x32 x0 | s99 => DD x32 x1 | s100 => DD x32 x2 | s101 => DD x32 x3 | s102 => DD x32 x4 | s103 => DD x32 x5 | s104 => DD x32 x6 | s105 => DD x32 x7 | s106 => DD x32 x8 | s107 => DD x32 x9 | s108 => DD x32 x10 | s109 => DD x32 x11 | s110 => DD x32 x12 | s111 => DD x32 x13 | s112 => DD x32 x14 | s113 => DD x32 x15 | s114 => DD x32 x16 | s115 => DD x32 x17 | s116 => DD x32 x18 | s117 => DD x32 x19 | s118 => DD x32 x20 | s119 => DD x32 x21 | s120 => DD x32 x22 | s121 => DD x32 x23 | s122 => DD x32 x24 | s123 => DD x32 x25 | s124 => DD x32 x26 | s125 => DD x32 x27 | s126 => DD x32 x28 end.
Definition m1952 (c : sum2) : dd := match c with s0 => DD x30 x32 | s1 => DD x30 x33 | s2 => DD x30 x34 | s3 => DD x30 x35 | s4 => DD x30 x36 | s5 => DD x30 x37 | s6 => DD x30 x38 | s7 => DD x30 x39 | s8 => DD x30 x40 | s9 => DD x30 x41 | s10 => DD x30 x42 | s11 => DD x30 x43 | s12 => DD x30 x44 | s13 => DD x30 x45 | s14 => DD x30 x46 | s15 => DD x30 x47 | s16 => DD x30 x48 | s17 => DD x30 x49 | s18 => DD x30 x50 | s19 => DD x30 x51 | s20 => DD x30 x52 | s21 => DD x30 x53 | s22 => DD x30 x54 | s23 => DD x30 x55 | s24 => DD x30 x56 | s25 => DD x30 x57 | s26 => DD x30 x58 | s27 => DD x30 x59 | s28 => DD x30 x60 | s29 => DD x30 x61 | s30 => DD x30 x62 | s31 => DD x30 x63 | s32 => DD x31 x0 | s33 => DD x31 x1 | s34 => DD x31 x2 | s35 => DD x31 x3 | s36 => DD x31 x4 | s37 => DD x31 x5 | s38 => DD x31 x6 | s39 => DD x31 x7 | s40 => DD x31 x8 | s41 => DD x31 x9 | s42 => DD x31 x10 | s43 => DD x31 x11 | s44 => DD x31 x12 | s45 => DD x31 x13 | s46 => DD x31 x14 | s47 => DD x31 x15 | s48 => DD x31 x16 | s49 => DD x31 x17 | s50 => DD x31 x18 | s51 => DD x31 x19 | s52 => DD x31 x20 | s53 => DD x31 x21 | s54 => DD x31 x22 | s55 => DD x31 x23 | s56 => DD x31 x24 | s57 => DD x31 x25 | s58 => DD x31 x26 | s59 => DD x31 x27 | s60 => DD x31 x28 | s61 => DD x31 x29 | s62 => DD x31 x30 | s63 => DD x31 x31 | s64 => DD x31 x32 | s65 => DD x31 x33 | s66 => DD x31 x34 | s67 => DD x31 x35 | s68 => DD x31 x36 | s69 => DD x31 x37 | s70 => DD x31 x38 | s71 => DD x31 x39 | s72 => DD x31 x40 | s73 => DD x31 x41 | s74 => DD x31 x42 | s75 => DD x31 x43 | s76 => DD x31 x44 | s77 => DD x31 x45 | s78 => DD x31 x46 | s79 => DD x31 x47 | s80 => DD x31 x48 | s81 => DD x31 x49 | s82 => DD x31 x50 | s83 => DD x31 x51 | s84 => DD x31 x52 | s85 => DD x31 x53 | s86 => DD x31 x54 | s87 => DD x31 x55 | s88 => DD x31 x56 | s89 => DD x31 x57 | s90 => DD x31 x58 | s91 => DD x31 x59 | s92 => DD x31 x60 | s93 => DD x31 x61 | s94 => DD x31 x62 | s95 => DD x31 x63 | s96 => DD x32 x0 | s97 => DD x32 x1 | s98 => DD x32 x2 | s99 => DD x32 x3 | s100 => DD x32 x4 | s101 => DD x32 x5 | s102 => DD x32 x6 | s103 => DD x32 x7 | s104 => DD x32 x8 | s105 => DD x32 x9 | s106 => DD x32 x10 | s107 => DD x32 x11 | s108 => DD x32 x12 | s109 => DD x32 x13 | s110 => DD x32 x14 | s111 => DD x32 x15 | s112 => DD x32 x16 | s113 => DD x32 x17 | s114 => DD x32 x18 | s115 => DD x32 x19 | s116 => DD x32 x20 | s117 => DD x32 x21 | s118 => DD x32 x22 | s119 => DD x32 x23 | s120 => DD x32 x24 | s121 => DD x32 x25 | s122 => DD x32 x26 | s123 => DD x32 x27 | s124 => DD x32 x28 | s125 => DD x32 x29 | s126 => DD x32 x30 end.
Definition m1953 (c : sum2) : dd := match c with s0 => DD x30 x33 | s1 => DD x30 x34 | s2 => DD x30 x35 | s3 => DD x30 x36 | s4 => DD x30 x37 | s5 => DD x30 x38 | s6 => DD x30 x39 | s7 => DD x30 x40 | s8 => DD x30 x41 | s9 => DD x30 x42 | s10 => DD x30 x43 | s11 => DD x30 x44 | s12 => DD x30 x45 | s13 => DD x30 x46 | s14 => DD x30 x47 | s15 => DD x30 x48 | s16 => DD x30 x49 | s17 => DD x30 x50 | s18 => DD x30 x51 | s19 => DD x30 x52 | s20 => DD x30 x53 | s21 => DD x30 x54 | s22 => DD x30 x55 | s23 => DD x30 x56 | s24 => DD x30 x57 | s25 => DD x30 x58 | s26 => DD x30 x59 | s27 => DD x30 x60 | s28 => DD x30 x61 | s29 => DD x30 x62 | s30 => DD x30 x63 | s31 => DD x31 x0 | s32 => DD x31 x1 | s33 => DD x31 x2 | s34 => DD x31 x3 | s35 => DD x31 x4 | s36 => DD x31 x5 | s37 => DD x31 x6 | s38 => DD x31 x7 | s39 => DD x31 x8 | s40 => DD x31 x9 | s41 => DD x31 x10 | s42 => DD x31 x11 | s43 => DD x31 x12 | s44 => DD x31 x13 | s45 => DD x31 x14 | s46 => DD x31 x15 | s47 => DD x31 x16 | s48 => DD x31 x17 | s49 => DD x31 x18 | s50 => DD x31 x19 | s51 => DD x31 x20 | s52 => DD x31 x21 | s53 => DD x31 x22 | s54 => DD x31 x23 | s55 => DD x31 x24 | s56 => DD x31 x25 | s57 => DD x31 x26 | s58 => DD x31 x27 | s59 => DD x31 x28 | s60 => DD x31 x29 | s61 => DD x31 x30 | s62 => DD x31 x31 | s63 => DD x31 x32 | s64 => DD x31 x33 | s65 => DD x31 x34 | s66 => DD x31 x35 | s67 => DD x31 x36 | s68 => DD x31 x37 | s69 => DD x31 x38 | s70 => DD x31 x39 | s71 => DD x31 x40 | s72 => DD x31 x41 | s73 => DD x31 x42 | s74 => DD x31 x43 | s75 => DD x31 x44 | s76 => DD x31 x45 | s77 => DD x31 x46 | s78 => DD x31 x47 | s79 => DD x31 x48 | s80 => DD x31 x49 | s81 => DD x31 x50 | s82 => DD x31 x51 | s83 => DD x31 x52 | s84 => DD x31 x53 | s85 => DD x31 x54 | s86 => DD x31 x55 | s87 => DD x31 x56 | s88 => DD x31 x57 | s89 => DD x31 x58 | s90 => DD x31 x59 | s91 => DD x31 x60 | s92 => DD x31 x61 | s93 => DD x31 x62 | s94 => DD x31 x63 | s95 => DD x32 x0 | s96 => DD x32 x1 | s97 => DD x32 x2 | s98 => DD x32 x3 | s99 => DD x32 x4 | s100 => DD x32 x5 | s101 => DD x32 x6 | s102 => DD x32 x7 | s103 => DD x32 x8 | s104 => DD x32 x9 | s105 => DD x32 x10 | s106 => DD x32 x11 | s107 => DD x32 x12 | s108 => DD x32 x13 | s109 => DD x32 x14 | s110 => DD x32 x15 | s111 => DD x32 x16 | s112 => DD x32 x17 | s113 => DD x32 x18 | s114 => DD x32 x19 | s115 => DD x32 x20 | s116 => DD x32 x21 | s117 => DD x32 x22 | s118 => DD x32 x23 | s119 => DD x32 x24 | s120 => DD x32 x25 | s121 => DD x32 x26 | s122 => DD x32 x27 | s123 => DD x32 x28 | s124 => DD x32 x29 | s125 => DD x32 x30 | s126 => DD x32 x31 end.
Definition m1960 (c : sum2) : dd := match c with s0 => DD x30 x40 | s1 => DD x30 x41 | s2 => DD x30 x42 | s3 => DD x30 x43 | s4 => DD x30 x44 | s5 => DD x30 x45 | s6 => DD x30 x46 | s7 => DD x30 x47 | s8 => DD x30 x48 | s9 => DD x30 x49 | s10 => DD x30 x50 | s11 => DD x30 x51 | s12 => DD x30 x52 | s13 => DD x30 x53 | s14 => DD x30 x54 | s15 => DD x30 x55 | s16 => DD x30 x56 | s17 => DD x30 x57 | s18 => DD x30 x58 | s19 => DD x30 x59 | s20 => DD x30 x60 | s21 => DD x30 x61 | s22 => DD x30 x62 | s23 => DD x30 x63 | s24 => DD x31 x0 | s25 => DD x31 x1 | s26 => DD x31 x2 | s27 => DD x31 x3 | s28 => DD x31 x4 | s29 => DD x31 x5 | s30 => DD x31 x6 | s31 => DD x31 x7 | s32 => DD x31 x8 | s33 => DD x31 x9 | s34 => DD x31 x10 | s35 => DD x31 x11 | s36 => DD x31 x12 | s37 => DD x31 x13 | s38 => DD x31 x14 | s39 => DD x31 x15 | s40 => DD x31 x16 | s41 => DD x31 x17 | s42 => DD x31 x18 | s43 => DD x31 x19 | s44 => DD x31 x20 | s45 => DD x31 x21 | s46 => DD x31 x22 | s47 => DD x31 x23 | s48 => DD x31 x24 | s49 => DD x31 x25 | s50 => DD x31 x26 | s51 => DD x31 x27 | s52 => DD x31 x28 | s53 => DD x31 x29 | s54 => DD x31 x30 | s55 => DD x31 x31 | s56 => DD x31 x32 | s57 => DD x31 x33 | s58 => DD x31 x34 | s59 => DD x31 x35 | s60 => DD x31 x36 | s61 => DD x31 x37 | s62 => DD x31 x38 | s63 => DD x31 x39 | s64 => DD x31 x40 | s65 => DD x31 x41 | s66 => DD x31 x42 | s67 => DD x31 x43 | s68 => DD x31 x44 | s69 => DD x31 x45 | s70 => DD x31 x46 | s71 => DD x31 x47 | s72 => DD x31 x48 | s73 => DD x31 x49 | s74 => DD x31 x50 | s75 => DD x31 x51 | s76 => DD x31 x52 | s77 => DD x31 x53 | s78 => DD x31 x54 | s79 => DD x31 x55 | s80 => DD x31 x56 | s81 => DD x31 x57 | s82 => DD x31 x58 | s83 => DD x31 x59 | s84 => DD x31 x60 | s85 => DD x31 x61 | s86 => DD x31 x62 | s87 => DD x31 x63 | s88 => DD x32 x0 | s89 => DD x32 x1 | s90 => DD x32 x2 | s91 => DD x32 x3 | s92 => DD x32 x4 | s93 => DD x32 x5 | s94 => DD x32 x6 | s95 => DD x32 x7 | s96 => DD x32 x8 | s97 => DD x32 x9 | s98 => DD x32 x10 | s99 => DD x32 x11 | s100 => DD x32 x12 | s101 => DD x32 x13 | s102 => DD x32 x14 | s103 => DD x32 x15 | s104 => DD x32 x16 | s105 => DD x32 x17 | s106 => DD x32 x18 | s107 => DD x32 x19 | s108 => DD x32 x20 | s109 => DD x32 x21 | s110 => DD x32 x22 | s111 => DD x32 x23 | s112 => DD x32 x24 | s113 => DD x32 x25 | s114 => DD x32 x26 | s115 => DD x32 x27 | s116 => DD x32 x28 | s117 => DD x32 x29 | s118 => DD x32 x30 | s119 => DD x32 x31 | s120 => DD x32 x32 | s121 => DD x32 x33 | s122 => DD x32 x34 | s123 => DD x32 x35 | s124 => DD x32 x36 | s125 => DD x32 x37 | s126 => DD x32 x38 end.
Definition m1961 (c : sum2) : dd := match c with s0 => DD x30 x41 | s1 => DD x30 x42 | s2 => DD x30 x43 | s3 => DD x30 x44 | s4 => DD x30 x45 | s5 => DD x30 x46 | s6 => DD x30 x47 | s7 => DD x30 x48 | s8 => DD x30 x49 | s9 => DD x30 x50 | s10 => DD x30 x51 | s11 => DD x30 x52 | s12 => DD x30 x53 | s13 => DD x30 x54 | s14 => DD x30 x55 | s15 => DD x30 x56 | s16 => DD x30 x57 | s17 => DD x30 x58 | s18 => DD x30 x59 | s19 => DD x30 x60 | s20 => DD x30 x61 | s21 => DD x30 x62 | s22 => DD x30 x63 | s23 => DD x31 x0 | s24 => DD x31 x1 | s25 => DD x31 x2 | s26 => DD x31 x3 | s27 => DD x31 x4 | s28 => DD x31 x5 | s29 => DD x31 x6 | s30 => DD x31 x7 | s31 => DD x31 x8 | s32 => DD x31 x9 | s33 => DD x31 x10 | s34 => DD x31 x11 | s35 => DD x31 x12 | s36 => DD x31 x13 | s37 => DD x31 x14 | s38 => DD x31 x15 | s39 => DD x31 x16 | s40 => DD x31 x17 | s41 => DD x31 x18 | s42 => DD x31 x19 | s43 => DD x31 x20 | s44 => DD x31 x21 | s45 => DD x31 x22 | s46 => DD x31 x23 | s47 => DD x31 x24 | s48 => DD x31 x25 | s49 => DD x31 x26 | s50 => DD x31 x27 | s51 => DD x31 x28 | s52 => DD x31 x29 | s53 => DD x31 x30 | s54 => DD x31 x31 | s55 => DD x31 x32 | s56 => DD x31 x33 | s57 => DD x31 x34 | s58 => DD x31 x35 | s59 => DD x31 x36 | s60 => DD x31 x37 | s61 => DD x31 x38 | s62 => DD x31 x39 | s63 => DD x31 x40 | s64 => DD x31 x41 | s65 => DD x31 x42 | s66 => DD x31 x43 | s67 => DD x31 x44 | s68 => DD x31 x45 | s69 => DD x31 x46 | s70 => DD x31 x47 | s71 => DD x31 x48 | s72 => DD x31 x49 | s73 => DD x31 x50 | s74 => DD x31 x51 | s75 => DD x31 x52 | s76 => DD x31 x53 | s77 => DD x31 x54 | s78 => DD x31 x55 | s79 => DD x31 x56 | s80 => DD x31 x57 | s81 => DD x31 x58 | s82 => DD x31 x59 | s83 => DD x31 x60 | s84 => DD x31 x61 | s85 => DD x31 x62 | s86 => DD x31 x63 | s87 => DD x32 x0 | s88 => DD x32 x1 | s89 => DD x32 x2 | s90 => DD x32 x3 | s91 => DD x32 x4 | s92 => DD x32 x5 | s93 => DD x32 x6 | s94 => DD x32 x7 | s95 => DD x32 x8 | s96 => DD x32 x9 | s97 => DD x32 x10 | s98 => DD x32 x11 | s99 => DD x32 x12 | s100 => DD x32 x13 | s101 => DD x32 x14 | s102 => DD x32 x15 | s103 => DD x32 x16 | s104 => DD x32 x17 | s105 => DD x32 x18 | s106 => DD x32 x19 | s107 => DD x32 x20 | s108 => DD x32 x21 | s109 => DD x32 x22 | s110 => DD x32 x23 | s111 => DD x32 x24 | s112 => DD x32 x25 | s113 => DD x32 x26 | s114 => DD x32 x27 | s115 => DD x32 x28 | s116 => DD x32 x29 | s117 => DD x32 x30 | s118 => DD x32 x31 | s119 => DD x32 x32 | s120 => DD x32 x33 | s121 => DD x32 x34 | s122 => DD x32 x35 | s123 => DD x32 x36 | s124 => DD x32 x37 | s125 => DD x32 x38 | s126 => DD x32 x39 end.
Definition m1968 (c : sum2) : dd := match c with s0 => DD x30 x48 | s1 => DD x30 x49 | s2 => DD x30 x50 | s3 => DD x30 x51 | s4 => DD x30 x52 | s5 => DD x30 x53 | s6 => DD x30 x54 | s7 => DD x30 x55 | s8 => DD x30 x56 | s9 => DD x30 x57 | s10 => DD x30 x58 | s11 => DD x30 x59 | s12 => DD x30 x60 | s13 => DD x30 x61 | s14 => DD x30 x62 | s15 => DD x30 x63 | s16 => DD x31 x0 | s17 => DD x31 x1 | s18 => DD x31 x2 | s19 => DD x31 x3 | s20 => DD x31 x4 | s21 => DD x31 x5 | s22 => DD x31 x6 | s23 => DD x31 x7 | s24 => DD x31 x8 | s25 => DD x31 x9 | s26 => DD x31 x10 | s27 => DD x31 x11 | s28 => DD x31 x12 | s29 => DD x31 x13 | s30 => DD x31 x14 | s31 => DD x31 x15 | s32 => DD x31 x16 | s33 => DD x31 x17 | s34 => DD x31 x18 | s35 => DD x31 x19 | s36 => DD x31 x20 | s37 => DD x31 x21 | s38 => DD x31 x22 | s39 => DD x31 x23 | s40 => DD x31 x24 | s41 => DD x31 x25 | s42 => DD x31 x26 | s43 => DD x31 x27 | s44 => DD x31 x28 | s45 => DD x31 x29 | s46 => DD x31 x30 | s47 => DD x31 x31 | s48 => DD x31 x32 | s49 => DD x31 x33 | s50 => DD x31 x34 | s51 => DD x31 x35 | s52 => DD x31 x36 | s53 => DD x31 x37 | s54 => DD x31 x38 | s55 => DD x31 x39 | s56 => DD x31 x40 | s57 => DD x31 x41 | s58 => DD x31 x42 | s59 => DD x31 x43 | s60 => DD x31 x44 | s61 => DD x31 x45 | s62 => DD x31 x46 | s63 => DD x31 x47 | s64 => DD x31 x48 | s65 => DD x31 x49 | s66 => DD x31 x50 | s67 => DD x31 x51 | s68 => DD x31 x52 | s69 => DD x31 x53 | s70 => DD x31 x54 | s71 => DD x31 x55 | s72 => DD x31 x56 | s73 => DD x31 x57 | s74 => DD x31 x58 | s75 => DD x31 x59 | s76 => DD x31 x60 | s77 => DD x31 x61 | s78 => DD x31 x62 | s79 => DD x31 x63 | s80 => DD x32 x0 | s81 => DD x32 x1 | s82 => DD x32 x2 | s83 => DD x32 x3 | s84 => DD x32 x4 | s85 => DD x32 x5 | s86 => DD x32 x6 | s87 => DD x32 x7 | s88 => DD x32 x8 | s89 => DD x32 x9 | s90 => DD x32 x10 | s91 => DD x32 x11 | s92 => DD x32 x12 | s93 => DD x32 x13 | s94 => DD x32 x14 | s95 => DD x32 x15 | s96 => DD x32 x16 | s97 => DD x32 x17 | s98 => DD x32 x18 | s99 => DD x32 x19 | s100 => DD x32 x20 | s101 => DD x32 x21 | s102 => DD x32 x22 | s103 => DD x32 x23 | s104 => DD x32 x24 | s105 => DD x32 x25 | s106 => DD x32 x26 | s107 => DD x32 x27 | s108 => DD x32 x28 | s109 => DD x32 x29 | s110 => DD x32 x30 | s111 => DD x32 x31 | s112 => DD x32 x32 | s113 => DD x32 x33 | s114 => DD x32 x34 | s115 => DD x32 x35 | s116 => DD x32 x36 | s117 => DD x32 x37 | s118 => DD x32 x38 | s119 => DD x32 x39 | s120 => DD x32 x40 | s121 => DD x32 x41 | s122 => DD x32 x42 | s123 => DD x32 x43 | s124 => DD x32 x44 | s125 => DD x32 x45 | s126 => DD x32 x46 end.
Definition m1972 (c : sum2) : dd := match c with s0 => DD x30 x52 | s1 => DD x30 x53 | s2 => DD x30 x54 | s3 => DD x30 x55 | s4 => DD x30 x56 | s5 => DD x30 x57 | s6 => DD x30 x58 | s7 => DD x30 x59 | s8 => DD x30 x60 | s9 => DD x30 x61 | s10 => DD x30 x62 | s11 => DD x30 x63 | s12 => DD x31 x0 | s13 => DD x31 x1 | s14 => DD x31 x2 | s15 => DD x31 x3 | s16 => DD x31 x4 | s17 => DD x31 x5 | s18 => DD x31 x6 | s19 => DD x31 x7 | s20 => DD x31 x8 | s21 => DD x31 x9 | s22 => DD x31 x10 | s23 => DD x31 x11 | s24 => DD x31 x12 | s25 => DD x31 x13 | s26 => DD x31 x14 | s27 => DD x31 x15 | s28 => DD x31 x16 | s29 => DD x31 x17 | s30 => DD x31 x18 | s31 => DD x31 x19 | s32 => DD x31 x20 | s33 => DD x31 x21 | s34 => DD x31 x22 | s35 => DD x31 x23 | s36 => DD x31 x24 | s37 => DD x31 x25 | s38 => DD x31 x26 | s39 => DD x31 x27 | s40 => DD x31 x28 | s41 => DD x31 x29 | s42 => DD x31 x30 | s43 => DD x31 x31 | s44 => DD x31 x32 | s45 => DD x31 x33 | s46 => DD x31 x34 | s47 => DD x31 x35 | s48 => DD x31 x36 | s49 => DD x31 x37 | s50 => DD x31 x38 | s51 => DD x31 x39 | s52 => DD x31 x40 | s53 => DD x31 x41 | s54 => DD x31 x42 | s55 => DD x31 x43 | s56 => DD x31 x44 | s57 => DD x31 x45 | s58 => DD x31 x46 | s59 => DD x31 x47 | s60 => DD x31 x48 | s61 => DD x31 x49 | s62 => DD x31 x50 | s63 => DD x31 x51 | s64 => DD x31 x52 | s65 => DD x31 x53 | s66 => DD x31 x54 | s67 => DD x31 x55 | s68 => DD x31 x56 | s69 => DD x31 x57 | s70 => DD x31 x58 | s71 => DD x31 x59 | s72 => DD x31 x60 | s73 => DD x31 x61 | s74 => DD x31 x62 | s75 => DD x31 x63 | s76 => DD x32 x0 | s77 => DD x32 x1 | s78 => DD x32 x2 | s79 => DD x32 x3 | s80 => DD x32 x4 | s81 => DD x32 x5 | s82 => DD x32 x6 | s83 => DD x32 x7 | s84 => DD x32 x8 | s85 => DD x32 x9 | s86 => DD x32 x10 | s87 => DD x32 x11 | s88 => DD x32 x12 | s89 => DD x32 x13 | s90 => DD x32 x14 | s91 => DD x32 x15 | s92 => DD x32 x16 | s93 => DD x32 x17 | s94 => DD x32 x18 | s95 => DD x32 x19 | s96 => DD x32 x20 | s97 => DD x32 x21 | s98 => DD x32 x22 | s99 => DD x32 x23 | s100 => DD x32 x24 | s101 => DD x32 x25 | s102 => DD x32 x26 | s103 => DD x32 x27 | s104 => DD x32 x28 | s105 => DD x32 x29 | s106 => DD x32 x30 | s107 => DD x32 x31 | s108 => DD x32 x32 | s109 => DD x32 x33 | s110 => DD x32 x34 | s111 => DD x32 x35 | s112 => DD x32 x36 | s113 => DD x32 x37 | s114 => DD x32 x38 | s115 => DD x32 x39 | s116 => DD x32 x40 | s117 => DD x32 x41 | s118 => DD x32 x42 | s119 => DD x32 x43 | s120 => DD x32 x44 | s121 => DD x32 x45 | s122 => DD x32 x46 | s123 => DD x32 x47 | s124 => DD x32 x48 | s125 => DD x32 x49 | s126 => DD x32 x50 end.
Definition m1974 (c : sum2) : dd := match c with s0 => DD x30 x54 | s1 => DD x30 x55 | s2 => DD x30 x56 | s3 => DD x30 x57 | s4 => DD x30 x58 | s5 => DD x30 x59 | s6 => DD x30 x60 | s7 => DD x30 x61 | s8 => DD x30 x62 | s9 => DD x30 x63 | s10 => DD x31 x0 | s11 => DD x31 x1 | s12 => DD x31 x2 | s13 => DD x31 x3 | s14 => DD x31 x4 | s15 => DD x31 x5 | s16 => DD x31 x6 | s17 => DD x31 x7 | s18 => DD x31 x8 | s19 => DD x31 x9 | s20 => DD x31 x10 | s21 => DD x31 x11 | s22 => DD x31 x12 | s23 => DD x31 x13 | s24 => DD x31 x14 | s25 => DD x31 x15 | s26 => DD x31 x16 | s27 => DD x31 x17 | s28 => DD x31 x18 | s29 => DD x31 x19 | s30 => DD x31 x20 | s31 => DD x31 x21 | s32 => DD x31 x22 | s33 => DD x31 x23 | s34 => DD x31 x24 | s35 => DD x31 x25 | s36 => DD x31 x26 | s37 => DD x31 x27 | s38 => DD x31 x28 | s39 => DD x31 x29 | s40 => DD x31 x30 | s41 => DD x31 x31 | s42 => DD x31 x32 | s43 => DD x31 x33 | s44 => DD x31 x34 | s45 => DD x31 x35 | s46 => DD x31 x36 | s47 => DD x31 x37 | s48 => DD x31 x38 | s49 => DD x31 x39 | s50 => DD x31 x40 | s51 => DD x31 x41 | s52 => DD x31 x42 | s53 => DD x31 x43 | s54 => DD x31 x44 | s55 => DD x31 x45 | s56 => DD x31 x46 | s57 => DD x31 x47 | s58 => DD x31 x48 | s59 => DD x31 x49 | s60 => DD x31 x50 | s61 => DD x31 x51 | s62 => DD x31 x52 | s63 => DD x31 x53 | s64 => DD x31 x54 | s65 => DD x31 x55 | s66 => DD x31 x56 | s67 => DD x31 x57 | s68 => DD x31 x58 | s69 => DD x31 x59 | s70 => DD x31 x60 | s71 => DD x31 x61 | s72 => DD x31 x62 | s73 => DD x31 x63 | s74 => DD x32 x0 | s75 => DD x32 x1 | s76 => DD x32 x2 | s77 => DD x32 x3 | s78 => DD x32 x4 | s79 => DD x32 x5 | s80 => DD x32 x6 | s81 => DD x32 x7 | s82 => DD x32 x8 | s83 => DD x32 x9 | s84 => DD x32 x10 | s85 => DD x32 x11 | s86 => DD x32 x12 | s87 => DD x32 x13 | s88 => DD x32 x14 | s89 => DD x32 x15 | s90 => DD x32 x16 | s91 => DD x32 x17 | s92 => DD x32 x18 | s93 => DD x32 x19 | s94 => DD x32 x20 | s95 => DD x32 x21 | s96 => DD x32 x22 | s97 => DD x32 x23 | s98 => DD x32 x24 | s99 => DD x32 x25 | s100 => DD x32 x26 | s101 => DD x32 x27 | s102 => DD x32 x28 | s103 => DD x32 x29 | s104 => DD x32 x30 | s105 => DD x32 x31 | s106 => DD x32 x32 | s107 => DD x32 x33 | s108 => DD x32 x34 | s109 => DD x32 x35 | s110 => DD x32 x36 | s111 => DD x32 x37 | s112 => DD x32 x38 | s113 => DD x32 x39 | s114 => DD x32 x40 | s115 => DD x32 x41 | s116 => DD x32 x42 | s117 => DD x32 x43 | s118 => DD x32 x44 | s119 => DD x32 x45 | s120 => DD x32 x46 | s121 => DD x32 x47 | s122 => DD x32 x48 | s123 => DD x32 x49 | s124 => DD x32 x50 | s125 => DD x32 x51 | s126 => DD x32 x52 end.
Definition m1976 (c : sum2) : dd := match c with s0 => DD x30 x56 | s1 => DD x30 x57 | s2 => DD x30 x58 | s3 => DD x30 x59 | s4 => DD x30 x60 | s5 => DD x30 x61 | s6 => DD x30 x62 | s7 => DD x30 x63 | s8 => DD x31 x0 | s9 => DD x31 x1 | s10 => DD x31 x2 | s11 => DD x31 x3 | s12 => DD x31 x4 | s13 => DD x31 x5 | s14 => DD x31 x6 | s15 => DD x31 x7 | s16 => DD x31 x8 | s17 => DD x31 x9 | s18 => DD x31 x10 | s19 => DD x31 x11 | s20 => DD x31 x12 | s21 => DD x31 x13 | s22 => DD x31 x14 | s23 => DD x31 x15 | s24 => DD x31 x16 | s25 => DD x31 x17 | s26 => DD x31 x18 | s27 => DD x31 x19 | s28 => DD x31 x20 | s29 => DD x31 x21 | s30 => DD x31 x22 | s31 => DD x31 x23 | s32 => DD x31 x24 | s33 => DD x31 x25 | s34 => DD x31 x26 | s35 => DD x31 x27 | s36 => DD x31 x28 | s37 => DD x31 x29 | s38 => DD x31 x30 | s39 => DD x31 x31 | s40 => DD x31 x32 | s41 => DD x31 x33 | s42 => DD x31 x34 | s43 => DD x31 x35 | s44 => DD x31 x36 | s45 => DD x31 x37 | s46 => DD x31 x38 | s47 => DD x31 x39 | s48 => DD x31 x40 | s49 => DD x31 x41 | s50 => DD x31 x42 | s51 => DD x31 x43 | s52 => DD x31 x44 | s53 => DD x31 x45 | s54 => DD x31 x46 | s55 => DD x31 x47 | s56 => DD x31 x48 | s57 => DD x31 x49 | s58 => DD x31 x50 | s59 => DD x31 x51 | s60 => DD x31 x52 | s61 => DD x31 x53 | s62 => DD x31 x54 | s63 => DD x31 x55 | s64 => DD x31 x56 | s65 => DD x31 x57 | s66 => DD x31 x58 | s67 => DD x31 x59 | s68 => DD x31 x60 | s69 => DD x31 x61 | s70 => DD x31 x62 | s71 => DD x31 x63 | s72 => DD x32 x0 | s73 => DD x32 x1 | s74 => DD x32 x2 | s75 => DD x32 x3 | s76 => DD x32 x4 | s77 => DD x32 x5 | s78 => DD x32 x6 | s79 => DD x32 x7 | s80 => DD x32 x8 | s81 => DD x32 x9 | s82 => DD x32 x10 | s83 => DD x32 x11 | s84 => DD x32 x12 | s85 => DD x32 x13 | s86 => DD x32 x14 | s87 => DD x32 x15 | s88 => DD x32 x16 | s89 => DD x32 x17 | s90 => DD x32 x18 | s91 => DD x32 x19 | s92 => DD x32 x20 | s93 => DD x32 x21 | s94 => DD x32 x22 | s95 => DD x32 x23 | s96 => DD x32 x24 | s97 => DD x32 x25 | s98 => DD x32 x26 | s99 => DD x32 x27 | s100 => DD x32 x28 | s101 => DD x32 x29 | s102 => DD x32 x30 | s103 => DD x32 x31 | s104 => DD x32 x32 | s105 => DD x32 x33 | s106 => DD x32 x34 | s107 => DD x32 x35 | s108 => DD x32 x36 | s109 => DD x32 x37 | s110 => DD x32 x38 | s111 => DD x32 x39 | s112 => DD x32 x40 | s113 => DD x32 x41 | s114 => DD x32 x42 | s115 => DD x32 x43 | s116 => DD x32 x44 | s117 => DD x32 x45 | s118 => DD x32 x46 | s119 => DD x32 x47 | s120 => DD x32 x48 | s121 => DD x32 x49 | s122 => DD x32 x50 | s123 => DD x32 x51 | s124 => DD x32 x52 | s125 => DD x32 x53 | s126 => DD x32 x54 end.
Definition m1978 (c : sum2) : dd := match c with s0 => DD x30 x58 | s1 => DD x30 x59 | s2 => DD x30 x60 | s3 => DD x30 x61 | s4 => DD x30 x62 | s5 => DD x30 x63 | s6 => DD x31 x0 | s7 => DD x31 x1 | s8 => DD x31 x2 | s9 => DD x31 x3 | s10 => DD x31 x4 | s11 => DD x31 x5 | s12 => DD x31 x6 | s13 => DD x31 x7 | s14 => DD x31 x8 | s15 => DD x31 x9 | s16 => DD x31 x10 | s17 => DD x31 x11 | s18 => DD x31 x12 | s19 => DD x31 x13 | s20 => DD x31 x14 | s21 => DD x31 x15 | s22 => DD x31 x16 | s23 => DD x31 x17 | s24 => DD x31 x18 | s25 => DD x31 x19 | s26 => DD x31 x20 | s27 => DD x31 x21 | s28 => DD x31 x22 | s29 => DD x31 x23 | s30 => DD x31 x24 | s31 => DD x31 x25 | s32 => DD x31 x26 | s33 => DD x31 x27 | s34 => DD x31 x28 | s35 => DD x31 x29 | s36 => DD x31 x30 | s37 => DD x31 x31 | s38 => DD x31 x32 | s39 => DD x31 x33 | s40 => DD x31 x34 | s41 => DD x31 x35 | s42 => DD x31 x36 | s43 => DD x31 x37 | s44 => DD x31 x38 | s45 => DD x31 x39 | s46 => DD x31 x40 | s47 => DD x31 x41 | s48 => DD x31 x42 | s49 => DD x31 x43 | s50 => DD x31 x44 | s51 => DD x31 x45 | s52 => DD x31 x46 | s53 => DD x31 x47 | s54 => DD x31 x48 | s55 => DD x31 x49 | s56 => DD x31 x50 | s57 => DD x31 x51 | s58 => DD x31 x52 | s59 => DD x31 x53 | s60 => DD x31 x54 | s61 => DD x31 x55 | s62 => DD x31 x56 | s63 => DD x31 x57 | s64 => DD x31 x58 | s65 => DD x31 x59 | s66 => DD x31 x60 | s67 => DD x31 x61 | s68 => DD x31 x62 | s69 => DD x31 x63 | s70 => DD x32 x0 | s71 => DD x32 x1 | s72 => DD x32 x2 | s73 => DD x32 x3 | s74 => DD x32 x4 | s75 => DD x32 x5 | s76 => DD x32 x6 | s77 => DD x32 x7 | s78 => DD x32 x8 | s79 => DD x32 x9 | s80 => DD x32 x10 | s81 => DD x32 x11 | s82 => DD x32 x12 | s83 => DD x32 x13 | s84 => DD x32 x14 | s85 => DD x32 x15 | s86 => DD x32 x16 | s87 => DD x32 x17 | s88 => DD x32 x18 | s89 => DD x32 x19 | s90 => DD x32 x20 | s91 => DD x32 x21 | s92 => DD x32 x22 | s93 => DD x32 x23 | s94 => DD x32 x24 | s95 => DD x32 x25 | s96 => DD x32 x26 | s97 => DD x32 x27 | s98 => DD x32 x28 | s99 => DD x32 x29 | s100 => DD x32 x30 | s101 => DD x32 x31 | s102 => DD x32 x32 | s103 => DD x32 x33 | s104 => DD x32 x34 | s105 => DD x32 x35 | s106 => DD x32 x36 | s107 => DD x32 x37 | s108 => DD x32 x38 | s109 => DD x32 x39 | s110 => DD x32 x40 | s111 => DD x32 x41 | s112 => DD x32 x42 | s113 => DD x32 x43 | s114 => DD x32 x44 | s115 => DD x32 x45 | s116 => DD x32 x46 | s117 => DD x32 x47 | s118 => DD x32 x48 | s119 => DD x32 x49 | s120 => DD x32 x50 | s121 => DD x32 x51 | s122 => DD x32 x52 | s123 => DD x32 x53 | s124 => DD x32 x54 | s125 => DD x32 x55 | s126 => DD x32 x56 end.
Definition m1980 (c : sum2) : dd := match c with s0 => DD x30 x60 | s1 => DD x30 x61 | s2 => DD x30 x62 | s3 => DD x30 x63 | s4 => DD x31 x0 | s5 => DD x31 x1 | s6 => DD x31 x2 | s7 => DD x31 x3 | s8 => DD x31 x4 | s9 => DD x31 x5 | s10 => DD x31 x6 | s11 => DD x31 x7 | s12 => DD x31 x8 | s13 => DD x31 x9 | s14 => DD x31 x10 | s15 => DD x31 x11 | s16 => DD x31 x12 | s17 => DD x31 x13 | s18 => DD x31 x14 | s19 => DD x31 x15 | s20 => DD x31 x16 | s21 => DD x31 x17 | s22 => DD x31 x18 | s23 => DD x31 x19 | s24 => DD x31 x20 | s25 => DD x31 x21 | s26 => DD x31 x22 | s27 => DD x31 x23 | s28 => DD x31 x24 | s29 => DD x31 x25 | s30 => DD x31 x26 | s31 => DD x31 x27 | s32 => DD x31 x28 | s33 => DD x31 x29 | s34 => DD x31 x30 | s35 => DD x31 x31 | s36 => DD x31 x32 | s37 => DD x31 x33 | s38 => DD x31 x34 | s39 => DD x31 x35 | s40 => DD x31 x36 | s41 => DD x31 x37 | s42 => DD x31 x38 | s43 => DD x31 x39 | s44 => DD x31 x40 | s45 => DD x31 x41 | s46 => DD x31 x42 | s47 => DD x31 x43 | s48 => DD x31 x44 | s49 => DD x31 x45 | s50 => DD x31 x46 | s51 => DD x31 x47 | s52 => DD x31 x48 | s53 => DD x31 x49 | s54 => DD x31 x50 | s55 => DD x31 x51 | s56 => DD x31 x52 | s57 => DD x31 x53 | s58 => DD x31 x54 | s59 => DD x31 x55 | s60 => DD x31 x56 | s61 => DD x31 x57 | s62 => DD x31 x58 | s63 => DD x31 x59 | s64 => DD x31 x60 | s65 => DD x31 x61 | s66 => DD x31 x62 | s67 => DD x31 x63 | s68 => DD x32 x0 | s69 => DD x32 x1 | s70 => DD x32 x2 | s71 => DD x32 x3 | s72 => DD x32 x4 | s73 => DD x32 x5 | s74 => DD x32 x6 | s75 => DD x32 x7 | s76 => DD x32 x8 | s77 => DD x32 x9 | s78 => DD x32 x10 | s79 => DD x32 x11 | s80 => DD x32 x12 | s81 => DD x32 x13 | s82 => DD x32 x14 | s83 => DD x32 x15 | s84 => DD x32 x16 | s85 => DD x32 x17 | s86 => DD x32 x18 | s87 => DD x32 x19 | s88 => DD x32 x20 | s89 => DD x32 x21 | s90 => DD x32 x22 | s91 => DD x32 x23 | s92 => DD x32 x24 | s93 => DD x32 x25 | s94 => DD x32 x26 | s95 => DD x32 x27 | s96 => DD x32 x28 | s97 => DD x32 x29 | s98 => DD x32 x30 | s99 => DD x32 x31 | s100 => DD x32 x32 | s101 => DD x32 x33 | s102 => DD x32 x34 | s103 => DD x32 x35 | s104 => DD x32 x36 | s105 => DD x32 x37 | s106 => DD x32 x38 | s107 => DD x32 x39 | s108 => DD x32 x40 | s109 => DD x32 x41 | s110 => DD x32 x42 | s111 => DD x32 x43 | s112 => DD x32 x44 | s113 => DD x32 x45 | s114 => DD x32 x46 | s115 => DD x32 x47 | s116 => DD x32 x48 | s117 => DD x32 x49 | s118 => DD x32 x50 | s119 => DD x32 x51 | s120 => DD x32 x52 | s121 => DD x32 x53 | s122 => DD x32 x54 | s123 => DD x32 x55 | s124 => DD x32 x56 | s125 => DD x32 x57 | s126 => DD x32 x58 end.
Definition m1984 (c : sum2) : dd := match c with s0 => DD x31 x0 | s1 => DD x31 x1 | s2 => DD x31 x2 | s3 => DD x31 x3 | s4 => DD x31 x4 | s5 => DD x31 x5 | s6 => DD x31 x6 | s7 => DD x31 x7 | s8 => DD x31 x8 | s9 => DD x31 x9 | s10 => DD x31 x10 | s11 => DD x31 x11 | s12 => DD x31 x12 | s13 => DD x31 x13 | s14 => DD x31 x14 | s15 => DD x31 x15 | s16 => DD x31 x16 | s17 => DD x31 x17 | s18 => DD x31 x18 | s19 => DD x31 x19 | s20 => DD x31 x20 | s21 => DD x31 x21 | s22 => DD x31 x22 | s23 => DD x31 x23 | s24 => DD x31 x24 | s25 => DD x31 x25 | s26 => DD x31 x26 | s27 => DD x31 x27 | s28 => DD x31 x28 | s29 => DD x31 x29 | s30 => DD x31 x30 | s31 => DD x31 x31 | s32 => DD x31 x32 | s33 => DD x31 x33 | s34 => DD x31 x34 | s35 => DD x31 x35 | s36 => DD x31 x36 | s37 => DD x31 x37 | s38 => DD x31 x38 | s39 => DD x31 x39 | s40 => DD x31 x40 | s41 => DD x31 x41 | s42 => DD x31 x42 | s43 => DD x31 x43 | s44 => DD x31 x44 | s45 => DD x31 x45 | s46 => DD x31 x46 | s47 => DD x31 x47 | s48 => DD x31 x48 | s49 => DD x31 x49 | s50 => DD x31 x50 | s51 => DD x31 x51 | s52 => DD x31 x52 | s53 => DD x31 x53 | s54 => DD x31 x54 | s55 => DD x31 x55 | s56 => DD x31 x56 | s57 => DD x31 x57 | s58 => DD x31 x58 | s59 => DD x31 x59 | s60 => DD x31 x60 | s61 => DD x31 x61 | s62 => DD x31 x62 | s63 => DD x31 x63 | s64 => DD x32 x0 | s65 => DD x32 x1 | s66 => DD x32 x2 | s67 => DD x32 x3 | s68 => DD x32 x4 | s69 => DD x32 x5 | s70 => DD x32 x6 | s71 => DD x32 x7 | s72 => DD x32 x8 | s73 => DD x32 x9 | s74 => DD x32 x10 | s75 => DD x32 x11 | s76 => DD x32 x12 | s77 => DD x32 x13 | s78 => DD x32 x14 | s79 => DD x32 x15 | s80 => DD x32 x16 | s81 => DD x32 x17 | s82 => DD x32 x18 | s83 => DD x32 x19 | s84 => DD x32 x20 | s85 => DD x32 x21 | s86 => DD x32 x22 | s87 => DD x32 x23 | s88 => DD x32 x24 | s89 => DD x32 x25 | s90 => DD x32 x26 | s91 => DD x32 x27 | s92 => DD x32 x28 | s93 => DD x32 x29 | s94 => DD x32 x30 | s95 => DD x32 x31 | s96 => DD x32 x32 | s97 => DD x32 x33 | s98 => DD x32 x34 | s99 => DD x32 x35 | s100 => DD x32 x36 | s101 => DD x32 x37 | s102 => DD x32 x38 | s103 => DD x32 x39 | s104 => DD x32 x40 | s105 => DD x32 x41 | s106 => DD x32 x42 | s107 => DD x32 x43 | s108 => DD x32 x44 | s109 => DD x32 x45 | s110 => DD x32 x46 | s111 => DD x32 x47 | s112 => DD x32 x48 | s113 => DD x32 x49 | s114 => DD x32 x50 | s115 => DD x32 x51 | s116 => DD x32 x52 | s117 => DD x32 x53 | s118 => DD x32 x54 | s119 => DD x32 x55 | s120 => DD x32 x56 | s121 => DD x32 x57 | s122 => DD x32 x58 | s123 => DD x32 x59 | s124 => DD x32 x60 | s125 => DD x32 x61 | s126 => DD x32 x62 end.
Definition m1989 (c : sum2) : dd := match c with s0 => DD x31 x5 | s1 => DD x31 x6 | s2 => DD x31 x7 | s3 => DD x31 x8 | s4 => DD x31 x9 | s5 => DD x31 x10 | s6 => DD x31 x11 | s7 => DD x31 x12 | s8 => DD x31 x13 | s9 => DD x31 x14 | s10 => DD x31 x15 | s11 => DD x31 x16 | s12 => DD x31 x17 | s13 => DD x31 x18 | s14 => DD x31 x19 | s15 => DD x31 x20 | s16 => DD x31 x21 | s17 => DD x31 x22 | s18 => DD x31 x23 | s19 => DD x31 x24 | s20 => DD x31 x25 | s21 => DD x31 x26 | s22 => DD x31 x27 | s23 => DD x31 x28 | s24 => DD x31 x29 | s25 => DD x31 x30 | s26 => DD x31 x31 | s27 => DD x31 x32 | s28 => DD x31 x33 | s29 => DD x31 x34 | s30 => DD x31 x35 | s31 => DD x31 x36 | s32 => DD x31 x37 | s33 => DD x31 x38 | s34 => DD x31 x39 | s35 => DD x31 x40 | s36 => DD x31 x41 | s37 => DD x31 x42 | s38 => DD x31 x43 | s39 => DD x31 x44 | s40 => DD x31 x45 | s41 => DD x31 x46 | s42 => DD x31 x47 | s43 => DD x31 x48 | s44 => DD x31 x49 | s45 => DD x31 x50 | s46 => DD x31 x51 | s47 => DD x31 x52 | s48 => DD x31 x53 | s49 => DD x31 x54 | s50 => DD x31 x55 | s51 => DD x31 x56 | s52 => DD x31 x57 | s53 => DD x31 x58 | s54 => DD x31 x59 | s55 => DD x31 x60 | s56 => DD x31 x61 | s57 => DD x31 x62 | s58 => DD x31 x63 | s59 => DD x32 x0 | s60 => DD x32 x1 | s61 => DD x32 x2 | s62 => DD x32 x3 | s63 => DD x32 x4 | s64 => DD x32 x5 | s65 => DD x32 x6 | s66 => DD x32 x7 | s67 => DD x32 x8 | s68 => DD x32 x9 | s69 => DD x32 x10 | s70 => DD x32 x11 | s71 => DD x32 x12 | s72 => DD x32 x13 | s73 => DD x32 x14 | s74 => DD x32 x15 | s75 => DD x32 x16 | s76 => DD x32 x17 | s77 => DD x32 x18 | s78 => DD x32 x19 | s79 => DD x32 x20 | s80 => DD x32 x21 | s81 => DD x32 x22 | s82 => DD x32 x23 | s83 => DD x32 x24 | s84 => DD x32 x25 | s85 => DD x32 x26 | s86 => DD x32 x27 | s87 => DD x32 x28 | s88 => DD x32 x29 | s89 => DD x32 x30 | s90 => DD x32 x31 | s91 => DD x32 x32 | s92 => DD x32 x33 | s93 => DD x32 x34 | s94 => DD x32 x35 | s95 => DD x32 x36 | s96 => DD x32 x37 | s97 => DD x32 x38 | s98 => DD x32 x39 | s99 => DD x32 x40 | s100 => DD x32 x41 | s101 => DD x32 x42 | s102 => DD x32 x43 | s103 => DD x32 x44 | s104 => DD x32 x45 | s105 => DD x32 x46 | s106 => DD x32 x47 | s107 => DD x32 x48 | s108 => DD x32 x49 | s109 => DD x32 x50 | s110 => DD x32 x51 | s111 => DD x32 x52 | s112 => DD x32 x53 | s113 => DD x32 x54 | s114 => DD x32 x55 | s115 => DD x32 x56 | s116 => DD x32 x57 | s117 => DD x32 x58 | s118 => DD x32 x59 | s119 => DD x32 x60 | s120 => DD x32 x61 | s121 => DD x32 x62 | s122 => DD x32 x63 | s123 => DD x33 x0 | s124 => DD x33 x1 | s125 => DD x33 x2 | s126 => DD x33 x3 end.
Definition m1995 (c : sum2) : dd := match c with s0 => DD x31 x11 | s1 => DD x31 x12 | s2 => DD x31 x13 | s3 => DD x31 x14 | s4 => DD x31 x15 | s5 => DD x31 x16 | s6 => DD x31 x17 | s7 => DD x31 x18 | s8 => DD x31 x19 | s9 => DD x31 x20 | s10 => DD x31 x21 | s11 => DD x31 x22 | s12 => DD x31 x23 | s13 => DD x31 x24 | s14 => DD x31 x25 | s15 => DD x31 x26 | s16 => DD x31 x27 | s17 => DD x31 x28 | s18 => DD x31 x29 | s19 => DD x31 x30 | s20 => DD x31 x31 | s21 => DD x31 x32 | s22 => DD x31 x33 | s23 => DD x31 x34 | s24 => DD x31 x35 | s25 => DD x31 x36 | s26 => DD x31 x37 | s27 => DD x31 x38 | s28 => DD x31 x39 | s29 => DD x31 x40 | s30 => DD x31 x41 | s31 => DD x31 x42 | s32 => DD x31 x43 | s33 => DD x31 x44 | s34 => DD x31 x45 | s35 => DD x31 x46 | s36 => DD x31 x47 | s37 => DD x31 x48 | s38 => DD x31 x49 | s39 => DD x31 x50 | s40 => DD x31 x51 | s41 => DD x31 x52 | s42 => DD x31 x53 | s43 => DD x31 x54 | s44 => DD x31 x55 | s45 => DD x31 x56 | s46 => DD x31 x57 | s47 => DD x31 x58 | s48 => DD x31 x59 | s49 => DD x31 x60 | s50 => DD x31 x61 | s51 => DD x31 x62 | s52 => DD x31 x63 | s53 => DD x32 x0 | s54 => DD x32 x1 | s55 => DD x32 x2 | s56 => DD x32 x3 | s57 => DD x32 x4 | s58 => DD x32 x5 | s59 => DD x32 x6 | s60 => DD x32 x7 | s61 => DD x32 x8 | s62 => DD x32 x9 | s63 => DD x32 x10 | s64 => DD x32 x11 | s65 => DD x32 x12 | s66 => DD x32 x13 | s67 => DD x32 x14 | s68 => DD x32 x15 | s69 => DD x32 x16 | s70 => DD x32 x17 | s71 => DD x32 x18 | s72 => DD x32 x19 | s73 => DD x32 x20 | s74 => DD x32 x21 | s75 => DD x32 x22 | s76 => DD x32 x23 | s77 => DD x32 x24 | s78 => DD x32 x25 | s79 => DD x32 x26 | s80 => DD x32 x27 | s81 => DD x32 x28 | s82 => DD x32 x29 | s83 => DD x32 x30 | s84 => DD x32 x31 | s85 => DD x32 x32 | s86 => DD x32 x33 | s87 => DD x32 x34 | s88 => DD x32 x35 | s89 => DD x32 x36 | s90 => DD x32 x37 | s91 => DD x32 x38 | s92 => DD x32 x39 | s93 => DD x32 x40 | s94 => DD x32 x41 | s95 => DD x32 x42 | s96 => DD x32 x43 | s97 => DD x32 x44 | s98 => DD x32 x45 | s99 => DD x32 x46 | s100 => DD x32 x47 | s101 => DD x32 x48 | s102 => DD x32 x49 | s103 => DD x32 x50 | s104 => DD x32 x51 | s105 => DD x32 x52 | s106 => DD x32 x53 | s107 => DD x32 x54 | s108 => DD x32 x55 | s109 => DD x32 x56 | s110 => DD x32 x57 | s111 => DD x32 x58 | s112 => DD x32 x59 | s113 => DD x32 x60 | s114 => DD x32 x61 | s115 => DD x32 x62 | s116 => DD x32 x63 | s117 => DD x33 x0 | s118 => DD x33 x1 | s119 => DD x33 x2 | s120 => DD x33 x3 | s121 => DD x33 x4 | s122 => DD x33 x5 | s123 => DD x33 x6 | s124 => DD x33 x7 | s125 => DD x33 x8 | s126 => DD x33 x9 end.
Definition m1998 (c : sum2) : dd := match c with s0 => DD x31 x14 | s1 => DD x31 x15 | s2 => DD x31 x16 | s3 => DD x31 x17 | s4 => DD x31 x18 | s5 => DD x31 x19 | s6 => DD x31 x20 | s7 => DD x31 x21 | s8 => DD x31 x22 | s9 => DD x31 x23 | s10 => DD x31 x24 | s11 => DD x31 x25 | s12 => DD x31 x26 | s13 => DD x31 x27 | s14 => DD x31 x28 | s15 => DD x31 x29 | s16 => DD x31 x30 | s17 => DD x31 x31 | s18 => DD x31 x32 | s19 => DD x31 x33 | s20 => DD x31 x34 | s21 => DD x31 x35 | s22 => DD x31 x36 | s23 => DD x31 x37 | s24 => DD x31 x38 | s25 => DD x31 x39 | s26 => DD x31 x40 | s27 => DD x31 x41 | s28 => DD x31 x42 | s29 => DD x31 x43 | s30 => DD x31 x44 | s31 => DD x31 x45 | s32 => DD x31 x46 | s33 => DD x31 x47 | s34 => DD x31 x48 | s35 => DD x31 x49 | s36 => DD x31 x50 | s37 => DD x31 x51 | s38 => DD x31 x52 | s39 => DD x31 x53 | s40 => DD x31 x54 | s41 => DD x31 x55 | s42 => DD x31 x56 | s43 => DD x31 x57 | s44 => DD x31 x58 | s45 => DD x31 x59 | s46 => DD x31 x60 | s47 => DD x31 x61 | s48 => DD x31 x62 | s49 => DD x31 x63 | s50 => DD x32 x0 | s51 => DD x32 x1 | s52 => DD x32 x2 | s53 => DD x32 x3 | s54 => DD x32 x4 | s55 => DD x32 x5 | s56 => DD x32 x6 | s57 => DD x32 x7 | s58 => DD x32 x8 | s59 => DD x32 x9 | s60 => DD x32 x10 | s61 => DD x32 x11 | s62 => DD x32 x12 | s63 => DD x32 x13 | s64 => DD x32 x14 | s65 => DD x32 x15 | s66 => DD x32 x16 | s67 => DD x32 x17 | s68 => DD x32 x18 | s69 => DD x32 x19 | s70 => DD x32 x20 | s71 => DD x32 x21 | s72 => DD x32 x22 | s73 => DD x32 x23 | s74 => DD x32 x24 | s75 => DD x32 x25 | s76 => DD x32 x26 | s77 => DD x32 x27 | s78 => DD x32 x28 | s79 => DD x32 x29 | s80 => DD x32 x30 | s81 => DD x32 x31 | s82 => DD x32 x32 | s83 => DD x32 x33 | s84 => DD x32 x34 | s85 => DD x32 x35 | s86 => DD x32 x36 | s87 => DD x32 x37 | s88 => DD x32 x38 | s89 => DD x32 x39 | s90 => DD x32 x40 | s91 => DD x32 x41 | s92 => DD x32 x42 | s93 => DD x32 x43 | s94 => DD x32 x44 | s95 => DD x32 x45 | s96 => DD x32 x46 | s97 => DD x32 x47 | s98 => DD x32 x48 | s99 => DD x32 x49 | s100 => DD x32 x50 | s101 => DD x32 x51 | s102 => DD x32 x52 | s103 => DD x32 x53 | s104 => DD x32 x54 | s105 => DD x32 x55 | s106 => DD x32 x56 | s107 => DD x32 x57 | s108 => DD x32 x58 | s109 => DD x32 x59 | s110 => DD x32 x60 | s111 => DD x32 x61 | s112 => DD x32 x62 | s113 => DD x32 x63 | s114 => DD x33 x0 | s115 => DD x33 x1 | s116 => DD x33 x2 | s117 => DD x33 x3 | s118 => DD x33 x4 | s119 => DD x33 x5 | s120 => DD x33 x6 | s121 => DD x33 x7 | s122 => DD x33 x8 | s123 => DD x33 x9 | s124 => DD x33 x10 | s125 => DD x33 x11 | s126 => DD x33 x12 end.
Definition m2000 (c : sum2) : dd := match c with s0 => DD x31 x16 | s1 => DD x31 x17 | s2 => DD x31 x18 | s3 => DD x31 x19 | s4 => DD x31 x20 | s5 => DD x31 x21 | s6 => DD x31 x22 | s7 => DD x31 x23 | s8 => DD x31 x24 | s9 => DD x31 x25 | s10 => DD x31 x26 | s11 => DD x31 x27 | s12 => DD x31 x28 | s13 => DD x31 x29 | s14 => DD x31 x30 | s15 => DD x31 x31 | s16 => DD x31 x32 | s17 => DD x31 x33 | s18 => DD x31 x34 | s19 => DD x31 x35 | s20 => DD x31 x36 | s21 => DD x31 x37 | s22 => DD x31 x38 | s23 => DD x31 x39 | s24 => DD x31 x40 | s25 => DD x31 x41 | s26 => DD x31 x42 | s27 => DD x31 x43 | s28 => DD x31 x44 | s29 => DD x31 x45 | s30 => DD x31 x46 | s31 => DD x31 x47 | s32 => DD x31 x48 | s33 => DD x31 x49 | s34 => DD x31 x50 | s35 => DD x31 x51 | s36 => DD x31 x52 | s37 => DD x31 x53 | s38 => DD x31 x54 | s39 => DD x31 x55 | s40 => DD x31 x56 | s41 => DD x31 x57 | s42 => DD x31 x58 | s43 => DD x31 x59 | s44 => DD x31 x60 | s45 => DD x31 x61 | s46 => DD x31 x62 | s47 => DD x31 x63 | s48 => DD x32 x0 | s49 => DD x32 x1 | s50 => DD x32 x2 | s51 => DD x32 x3 | s52 => DD x32 x4 | s53 => DD x32 x5 | s54 => DD x32 x6 | s55 => DD x32 x7 | s56 => DD x32 x8 | s57 => DD x32 x9 | s58 => DD x32 x10 | s59 => DD x32 x11 | s60 => DD x32 x12 | s61 => DD x32 x13 | s62 => DD x32 x14 | s63 => DD x32 x15 | s64 => DD x32 x16 | s65 => DD x32 x17 | s66 => DD x32 x18 | s67 => DD x32 x19 | s68 => DD x32 x20 | s69 => DD x32 x21 | s70 => DD x32 x22 | s71 => DD x32 x23 | s72 => DD x32 x24 | s73 => DD x32 x25 | s74 => DD x32 x26 | s75 => DD x32 x27 | s76 => DD x32 x28 | s77 => DD x32 x29 | s78 => DD x32 x30 | s79 => DD x32 x31 | s80 => DD x32 x32 | s81 => DD x32 x33 | s82 => DD x32 x34 | s83 => DD x32 x35 | s84 => DD x32 x36 | s85 => DD x32 x37 | s86 => DD x32 x38 | s87 => DD x32 x39 | s88 => DD x32 x40 | s89 => DD x32 x41 | s90 => DD x32 x42 | s91 => DD x32 x43 | s92 => DD x32 x44 | s93 => DD x32 x45 | s94 => DD x32 x46 | s95 => DD x32 x47 | s96 => DD x32 x48 | s97 => DD x32 x49 | s98 => DD x32 x50 | s99 => DD x32 x51 | s100 => DD x32 x52 | s101 => DD x32 x53 | s102 => DD x32 x54 | s103 => DD x32 x55 | s104 => DD x32 x56 | s105 => DD x32 x57 | s106 => DD x32 x58 | s107 => DD x32 x59 | s108 => DD x32 x60 | s109 => DD x32 x61 | s110 => DD x32 x62 | s111 => DD x32 x63 | s112 => DD x33 x0 | s113 => DD x33 x1 | s114 => DD x33 x2 | s115 => DD x33 x3 | s116 => DD x33 x4 | s117 => DD x33 x5 | s118 => DD x33 x6 | s119 => DD x33 x7 | s120 => DD x33 x8 | s121 => DD x33 x9 | s122 => DD x33 x10 | s123 => DD x33 x11 | s124 => DD x33 x12 | s125 => DD x33 x13 | s126 => DD x33 x14 end.
Definition m2006 (c : sum2) : dd := match c with s0 => DD x31 x22 | s1 => DD x31 x23 | s2 => DD x31 x24 | s3 => DD x31 x25 | s4 => DD x31 x26 | s5 => DD x31 x27 | s6 => DD x31 x28 | s7 => DD x31 x29 | s8 => DD x31 x30 | s9 => DD x31 x31 | s10 => DD x31 x32 | s11 => DD x31 x33 | s12 => DD x31 x34 | s13 => DD x31 x35 | s14 => DD x31 x36 | s15 => DD x31 x37 | s16 => DD x31 x38 | s17 => DD x31 x39 | s18 => DD x31 x40 | s19 => DD x31 x41 | s20 => DD x31 x42 | s21 => DD x31 x43 | s22 => DD x31 x44 | s23 => DD x31 x45 | s24 => DD x31 x46 | s25 => DD x31 x47 | s26 => DD x31 x48 | s27 => DD x31 x49 | s28 => DD x31 x50 | s29 => DD x31 x51 | s30 => DD x31 x52 | s31 => DD x31 x53 | s32 => DD x31 x54 | s33 => DD x31 x55 | s34 => DD x31 x56 | s35 => DD x31 x57 | s36 => DD x31 x58 | s37 => DD x31 x59 | s38 => DD x31 x60 | s39 => DD x31 x61 | s40 => DD x31 x62 | s41 => DD x31 x63 | s42 => DD x32 x0 | s43 => DD x32 x1 | s44 => DD x32 x2 | s45 => DD x32 x3 | s46 => DD x32 x4 | s47 => DD x32 x5 | s48 => DD x32 x6 | s49 => DD x32 x7 | s50 => DD x32 x8 | s51 => DD x32 x9 | s52 => DD x32 x10 | s53 => DD x32 x11 | s54 => DD x32 x12 | s55 => DD x32 x13 | s56 => DD x32 x14 | s57 => DD x32 x15 | s58 => DD x32 x16 | s59 => DD x32 x17 | s60 => DD x32 x18 | s61 => DD x32 x19 | s62 => DD x32 x20 | s63 => DD x32 x21 | s64 => DD x32 x22 | s65 => DD x32 x23 | s66 => DD x32 x24 | s67 => DD x32 x25 | s68 => DD x32 x26 | s69 => DD x32 x27 | s70 => DD x32 x28 | s71 => DD x32 x29 | s72 => DD x32 x30 | s73 => DD x32 x31 | s74 => DD x32 x32 | s75 => DD x32 x33 | s76 => DD x32 x34 | s77 => DD x32 x35 | s78 => DD x32 x36 | s79 => DD x32 x37 | s80 => DD x32 x38 | s81 => DD x32 x39 | s82 => DD x32 x40 | s83 => DD x32 x41 | s84 => DD x32 x42 | s85 => DD x32 x43 | s86 => DD x32 x44 | s87 => DD x32 x45 | s88 => DD x32 x46 | s89 => DD x32 x47 | s90 => DD x32 x48 | s91 => DD x32 x49 | s92 => DD x32 x50 | s93 => DD x32 x51 | s94 => DD x32 x52 | s95 => DD x32 x53 | s96 => DD x32 x54 | s97 => DD x32 x55 | s98 => DD x32 x56 | s99 => DD x32 x57 | s100 => DD x32 x58 | s101 => DD x32 x59 | s102 => DD x32 x60 | s103 => DD x32 x61 | s104 => DD x32 x62 | s105 => DD x32 x63 | s106 => DD x33 x0 | s107 => DD x33 x1 | s108 => DD x33 x2 | s109 => DD x33 x3 | s110 => DD x33 x4 | s111 => DD x33 x5 | s112 => DD x33 x6 | s113 => DD x33 x7 | s114 => DD x33 x8 | s115 => DD x33 x9 | s116 => DD x33 x10 | s117 => DD x33 x11 | s118 => DD x33 x12 | s119 => DD x33 x13 | s120 => DD x33 x14 | s121 => DD x33 x15 | s122 => DD x33 x16 | s123 => DD x33 x17 | s124 => DD x33 x18 | s125 => DD x33 x19 | s126 => DD x33 x20 end.
Definition m2009 (c : sum2) : dd := match c with s0 => DD x31 x25 | s1 => DD x31 x26 | s2 => DD x31 x27 | s3 => DD x31 x28 | s4 => DD x31 x29 | s5 => DD x31 x30 | s6 => DD x31 x31 | s7 => DD x31 x32 | s8 => DD x31 x33 | s9 => DD x31 x34 | s10 => DD x31 x35 | s11 => DD x31 x36 | s12 => DD x31 x37 | s13 => DD x31 x38 | s14 => DD x31 x39 | s15 => DD x31 x40 | s16 => DD x31 x41 | s17 => DD x31 x42 | s18 => DD x31 x43 | s19 => DD x31 x44 | s20 => DD x31 x45 | s21 => DD x31 x46 | s22 => DD x31 x47 | s23 => DD x31 x48 | s24 => DD x31 x49 | s25 => DD x31 x50 | s26 => DD x31 x51 | s27 => DD x31 x52 | s28 => DD x31 x53 | s29 => DD x31 x54 | s30 => DD x31 x55 | s31 => DD x31 x56 | s32 => DD x31 x57 | s33 => DD x31 x58 | s34 => DD x31 x59 | s35 => DD x31 x60 | s36 => DD x31 x61 | s37 => DD x31 x62 | s38 => DD x31 x63 | s39 => DD x32 x0 | s40 => DD x32 x1 | s41 => DD x32 x2 | s42 => DD x32 x3 | s43 => DD x32 x4 | s44 => DD x32 x5 | s45 => DD x32 x6 | s46 => DD x32 x7 | s47 => DD x32 x8 | s48 => DD x32 x9 | s49 => DD x32 x10 | s50 => DD x32 x11 | s51 => DD x32 x12 | s52 => DD x32 x13 | s53 => DD x32 x14 | s54 => DD x32 x15 | s55 => DD x32 x16 | s56 => DD x32 x17 | s57 => DD x32 x18 | s58 => DD x32 x19 | s59 => DD x32 x20 | s60 => DD x32 x21 | s61 => DD x32 x22 | s62 => DD x32 x23 | s63 => DD x32 x24 | s64 => DD x32 x25 | s65 => DD x32 x26 | s66 => DD x32 x27 | s67 => DD x32 x28 | s68 => DD x32 x29 | s69 => DD x32 x30 | s70 => DD x32 x31 | s71 => DD x32 x32 | s72 => DD x32 x33 | s73 => DD x32 x34 | s74 => DD x32 x35 | s75 => DD x32 x36 | s76 => DD x32 x37 | s77 => DD x32 x38 | s78 => DD x32 x39 | s79 => DD x32 x40 | s80 => DD x32 x41 | s81 => DD x32 x42 | s82 => DD x32 x43 | s83 => DD x32 x44 | s84 => DD x32 x45 | s85 => DD x32 x46 | s86 => DD x32 x47 | s87 => DD x32 x48 | s88 => DD x32 x49 | s89 => DD x32 x50 | s90 => DD x32 x51 | s91 => DD x32 x52 | s92 => DD x32 x53 | s93 => DD x32 x54 | s94 => DD x32 x55 | s95 => DD x32 x56 | s96 => DD x32 x57 | s97 => DD x32 x58 | s98 => DD x32 x59 | s99 => DD x32 x60 | s100 => DD x32 x61 | s101 => DD x32 x62 | s102 => DD x32 x63 | s103 => DD x33 x0 | s104 => DD x33 x1 | s105 => DD x33 x2 | s106 => DD x33 x3 | s107 => DD x33 x4 | s108 => DD x33 x5 | s109 => DD x33 x6 | s110 => DD x33 x7 | s111 => DD x33 x8 | s112 => DD x33 x9 | s113 => DD x33 x10 | s114 => DD x33 x11 | s115 => DD x33 x12 | s116 => DD x33 x13 | s117 => DD x33 x14 | s118 => DD x33 x15 | s119 => DD x33 x16 | s120 => DD x33 x17 | s121 => DD x33 x18 | s122 => DD x33 x19 | s123 => DD x33 x20 | s124 => DD x33 x21 | s125 => DD x33 x22 | s126 => DD x33 x23 end.
Definition m2013 (c : sum2) : dd := match c with s0 => DD x31 x29 | s1 => DD x31 x30 | s2 => DD x31 x31 | s3 => DD x31 x32 | s4 => DD x31 x33 | s5 => DD x31 x34 | s6 => DD x31 x35 | s7 => DD x31 x36 | s8 => DD x31 x37 | s9 => DD x31 x38 | s10 => DD x31 x39 | s11 => DD x31 x40 | s12 => DD x31 x41 | s13 => DD x31 x42 | s14 => DD x31 x43 | s15 => DD x31 x44 | s16 => DD x31 x45 | s17 => DD x31 x46 | s18 => DD x31 x47 | s19 => DD x31 x48 | s20 => DD x31 x49 | s21 => DD x31 x50 | s22 => DD x31 x51 | s23 => DD x31 x52 | s24 => DD x31 x53 | s25 => DD x31 x54 | s26 => DD x31 x55 | s27 => DD x31 x56 | s28 => DD x31 x57 | s29 => DD x31 x58 | s30 => DD x31 x59 | s31 => DD x31 x60 | s32 => DD x31 x61 | s33 => DD x31 x62 | s34 => DD x31 x63 | s35 => DD x32 x0 | s36 => DD x32 x1 | s37 => DD x32 x2 | s38 => DD x32 x3 | s39 => DD x32 x4 | s40 => DD x32 x5 | s41 => DD x32 x6 | s42 => DD x32 x7 | s43 => DD x32 x8 | s44 => DD x32 x9 | s45 => DD x32 x10 | s46 => DD x32 x11 | s47 => DD x32 x12 | s48 => DD x32 x13 | s49 => DD x32 x14 | s50 => DD x32 x15 | s51 => DD x32 x16 | s52 => DD x32 x17 | s53 => DD x32 x18 | s54 => DD x32 x19 | s55 => DD x32 x20 | s56 => DD x32 x21 | s57 => DD x32 x22 | s58 => DD x32 x23 | s59 => DD x32 x24 | s60 => DD x32 x25 | s61 => DD x32 x26 | s62 => DD x32 x27 | s63 => DD x32 x28 | s64 => DD x32 x29 | s65 => DD x32 x30 | s66 => DD x32 x31 | s67 => DD x32 x32 | s68 => DD x32 x33 | s69 => DD x32 x34 | s70 => DD x32 x35 | s71 => DD x32 x36 | s72 => DD x32 x37 | s73 => DD x32 x38 | s74 => DD x32 x39 | s75 => DD x32 x40 | s76 => DD x32 x41 | s77 => DD x32 x42 | s78 => DD x32 x43 | s79 => DD x32 x44 | s80 => DD x32 x45 | s81 => DD x32 x46 | s82 => DD x32 x47 | s83 => DD x32 x48 | s84 => DD x32 x49 | s85 => DD x32 x50 | s86 => DD x32 x51 | s87 => DD x32 x52 | s88 => DD x32 x53 | s89 => DD x32 x54 | s90 => DD x32 x55 | s91 => DD x32 x56 | s92 => DD x32 x57 | s93 => DD x32 x58 | s94 => DD x32 x59 | s95 => DD x32 x60 | s96 => DD x32 x61 | s97 => DD x32 x62 | s98 => DD x32 x63 | s99 => DD x33 x0 | s100 => DD x33 x1 | s101 => DD x33 x2 | s102 => DD x33 x3 | s103 => DD x33 x4 | s104 => DD x33 x5 | s105 => DD x33 x6 | s106 => DD x33 x7 | s107 => DD x33 x8 | s108 => DD x33 x9 | s109 => DD x33 x10 | s110 => DD x33 x11 | s111 => DD x33 x12 | s112 => DD x33 x13 | s113 => DD x33 x14 | s114 => DD x33 x15 | s115 => DD x33 x16 | s116 => DD x33 x17 | s117 => DD x33 x18 | s118 => DD x33 x19 | s119 => DD x33 x20 | s120 => DD x33 x21 | s121 => DD x33 x22 | s122 => DD x33 x23 | s123 => DD x33 x24 | s124 => DD x33 x25 | s125 => DD x33 x26 | s126 => DD x33 x27 end.
Definition m2014 (c : sum2) : dd := match c with s0 => DD x31 x30 | s1 => DD x31 x31 | s2 => DD x31 x32 | s3 => DD x31 x33 | s4 => DD x31 x34 | s5 => DD x31 x35 | s6 => DD x31 x36 | s7 => DD x31 x37 | s8 => DD x31 x38 | s9 => DD x31 x39 | s10 => DD x31 x40 | s11 => DD x31 x41 | s12 => DD x31 x42 | s13 => DD x31 x43 | s14 => DD x31 x44 | s15 => DD x31 x45 | s16 => DD x31 x46 | s17 => DD x31 x47 | s18 => DD x31 x48 | s19 => DD x31 x49 | s20 => DD x31 x50 | s21 => DD x31 x51 | s22 => DD x31 x52 | s23 => DD x31 x53 | s24 => DD x31 x54 | s25 => DD x31 x55 | s26 => DD x31 x56 | s27 => DD x31 x57 | s28 => DD x31 x58 | s29 => DD x31 x59 | s30 => DD x31 x60 | s31 => DD x31 x61 | s32 => DD x31 x62 | s33 => DD x31 x63 | s34 => DD x32 x0 | s35 => DD x32 x1 | s36 => DD x32 x2 | s37 => DD x32 x3 | s38 => DD x32 x4 | s39 => DD x32 x5 | s40 => DD x32 x6 | s41 => DD x32 x7 | s42 => DD x32 x8 | s43 => DD x32 x9 | s44 => DD x32 x10 | s45 => DD x32 x11 | s46 => DD x32 x12 | s47 => DD x32 x13 | s48 => DD x32 x14 | s49 => DD x32 x15 | s50 => DD x32 x16 | s51 => DD x32 x17 | s52 => DD x32 x18 | s53 => DD x32 x19 | s54 => DD x32 x20 | s55 => DD x32 x21 | s56 => DD x32 x22 | s57 => DD x32 x23 | s58 => DD x32 x24 | s59 => DD x32 x25 | s60 => DD x32 x26 | s61 => DD x32 x27 | s62 => DD x32 x28 | s63 => DD x32 x29 | s64 => DD x32 x30 | s65 => DD x32 x31 | s66 => DD x32 x32 | s67 => DD x32 x33 | s68 => DD x32 x34 | s69 => DD x32 x35 | s70 => DD x32 x36 | s71 => DD x32 x37 | s72 => DD x32 x38 | s73 => DD x32 x39 | s74 => DD x32 x40 | s75 => DD x32 x41 | s76 => DD x32 x42 | s77 => DD x32 x43 | s78 => DD x32 x44 | s79 => DD x32 x45 | s80 => DD x32 x46 | s81 => DD x32 x47 | s82 => DD x32 x48 | s83 => DD x32 x49 | s84 => DD x32 x50 | s85 => DD x32 x51 | s86 => DD x32 x52 | s87 => DD x32 x53 | s88 => DD x32 x54 | s89 => DD x32 x55 | s90 => DD x32 x56 | s91 => DD x32 x57 | s92 => DD x32 x58 | s93 => DD x32 x59 | s94 => DD x32 x60 | s95 => DD x32 x61 | s96 => DD x32 x62 | s97 => DD x32 x63 | s98 => DD x33 x0 | s99 => DD x33 x1 | s100 => DD x33 x2 | s101 => DD x33 x3 | s102 => DD x33 x4 | s103 => DD x33 x5 | s104 => DD x33 x6 | s105 => DD x33 x7 | s106 => DD x33 x8 | s107 => DD x33 x9 | s108 => DD x33 x10 | s109 => DD x33 x11 | s110 => DD x33 x12 | s111 => DD x33 x13 | s112 => DD x33 x14 | s113 => DD x33 x15 | s114 => DD x33 x16 | s115 => DD x33 x17 | s116 => DD x33 x18 | s117 => DD x33 x19 | s118 => DD x33 x20 | s119 => DD x33 x21 | s120 => DD x33 x22 | s121 => DD x33 x23 | s122 => DD x33 x24 | s123 => DD x33 x25 | s124 => DD x33 x26 | s125 => DD x33 x27 | s126 => DD x33 x28 end.
Definition m2016 (c : sum2) : dd := match c with s0 => DD x31 x32 | s1 => DD x31 x33 | s2 => DD x31 x34 | s3 => DD x31 x35 | s4 => DD x31 x36 | s5 => DD x31 x37 | s6 => DD x31 x38 | s7 => DD x31 x39 | s8 => DD x31 x40 | s9 => DD x31 x41 | s10 => DD x31 x42 | s11 => DD x31 x43 | s12 => DD x31 x44 | s13 => DD x31 x45 | s14 => DD x31 x46 | s15 => DD x31 x47 | s16 => DD x31 x48 | s17 => DD x31 x49 | s18 => DD x31 x50 | s19 => DD x31 x51 | s20 => DD x31 x52 | s21 => DD x31 x53 | s22 => DD x31 x54 | s23 => DD x31 x55 | s24 => DD x31 x56 | s25 => DD x31 x57 | s26 => DD x31 x58 | s27 => DD x31 x59 | s28 => DD x31 x60 | s29 => DD x31 x61 | s30 => DD x31 x62 | s31 => DD x31 x63 | s32 => DD x32 x0 | s33 => DD x32 x1 | s34 => DD x32 x2 | s35 => DD x32 x3 | s36 => DD x32 x4 | s37 => DD x32 x5 | s38 => DD x32 x6 | s39 => DD x32 x7 | s40 => DD x32 x8 | s41 => DD x32 x9 | s42 => DD x32 x10 | s43 => DD x32 x11 | s44 => DD x32 x12 | s45 => DD x32 x13 | s46 => DD x32 x14 | s47 => DD x32 x15 | s48 => DD x32 x16 | s49 => DD x32 x17 | s50 => DD x32 x18 | s51 => DD x32 x19 | s52 => DD x32 x20 | s53 => DD x32 x21 | s54 => DD x32 x22 | s55 => DD x32 x23 | s56 => DD x32 x24 | s57 => DD x32 x25 | s58 => DD x32 x26 | s59 => DD x32 x27 | s60 => DD x32 x28 | s61 => DD x32 x29 | s62 => DD x32 x30 | s63 => DD x32 x31 | s64 => DD x32 x32 | s65 => DD x32 x33 | s66 => DD x32 x34 | s67 => DD x32 x35 | s68 => DD x32 x36 | s69 => DD x32 x37 | s70 => DD x32 x38 | s71 => DD x32 x39 | s72 => DD x32 x40 | s73 => DD x32 x41 | s74 => DD x32 x42 | s75 => DD x32 x43 | s76 => DD x32 x44 | s77 => DD x32 x45 | s78 => DD x32 x46 | s79 => DD x32 x47 | s80 => DD x32 x48 | s81 => DD x32 x49 | s82 => DD x32 x50 | s83 => DD x32 x51 | s84 => DD x32 x52 | s85 => DD x32 x53 | s86 => DD x32 x54 | s87 => DD x32 x55 | s88 => DD x32 x56 | s89 => DD x32 x57 | s90 => DD x32 x58 | s91 => DD x32 x59 | s92 => DD x32 x60 | s93 => DD x32 x61 | s94 => DD x32 x62 | s95 => DD x32 x63 | s96 => DD x33 x0 | s97 => DD x33 x1 | s98 => DD x33 x2 | s99 => DD x33 x3 | s100 => DD x33 x4 | s101 => DD x33 x5 | s102 => DD x33 x6 | s103 => DD x33 x7 | s104 => DD x33 x8 | s105 => DD x33 x9 | s106 => DD x33 x10 | s107 => DD x33 x11 | s108 => DD x33 x12 | s109 => DD x33 x13 | s110 => DD x33 x14 | s111 => DD x33 x15 | s112 => DD x33 x16 | s113 => DD x33 x17 | s114 => DD x33 x18 | s115 => DD x33 x19 | s116 => DD x33 x20 | s117 => DD x33 x21 | s118 => DD x33 x22 | s119 => DD x33 x23 | s120 => DD x33 x24 | s121 => DD x33 x25 | s122 => DD x33 x26 | s123 => DD x33 x27 | s124 => DD x33 x28 | s125 => DD x33 x29 | s126 => DD x33 x30 end.
Definition m2021 (c : sum2) : dd := match c with s0 => DD x31 x37 | s1 => DD x31 x38 | s2 => DD x31 x39 | s3 => DD x31 x40 | s4 => DD x31 x41 | s5 => DD x31 x42 | s6 => DD x31 x43 | s7 => DD x31 x44 | s8 => DD x31 x45 | s9 => DD x31 x46 | s10 => DD x31 x47 | s11 => DD x31 x48 | s12 => DD x31 x49 | s13 => DD x31 x50 | s14 => DD x31 x51 | s15 => DD x31 x52 | s16 => DD x31 x53 | s17 => DD x31 x54 | s18 => DD x31 x55 | s19 => DD x31 x56 | s20 => DD x31 x57 | s21 => DD x31 x58 | s22 => DD x31 x59 | s23 => DD x31 x60 | s24 => DD x31 x61 | s25 => DD x31 x62 | s26 => DD x31 x63 | s27 => DD x32 x0 | s28 => DD x32 x1 | s29 => DD x32 x2 | s30 => DD x32 x3 | s31 => DD x32 x4 | s32 => DD x32 x5 | s33 => DD x32 x6 | s34 => DD x32 x7 | s35 => DD x32 x8 | s36 => DD x32 x9 | s37 => DD x32 x10 | s38 => DD x32 x11 | s39 => DD x32 x12 | s40 => DD x32 x13 | s41 => DD x32 x14 | s42 => DD x32 x15 | s43 => DD x32 x16 | s44 => DD x32 x17 | s45 => DD x32 x18 | s46 => DD x32 x19 | s47 => DD x32 x20 | s48 => DD x32 x21 | s49 => DD x32 x22 | s50 => DD x32 x23 | s51 => DD x32 x24 | s52 => DD x32 x25 | s53 => DD x32 x26 | s54 => DD x32 x27 | s55 => DD x32 x28 | s56 => DD x32 x29 | s57 => DD x32 x30 | s58 => DD x32 x31 | s59 => DD x32 x32 | s60 => DD x32 x33 | s61 => DD x32 x34 | s62 => DD x32 x35 | s63 => DD x32 x36 | s64 => DD x32 x37 | s65 => DD x32 x38 | s66 => DD x32 x39 | s67 => DD x32 x40 | s68 => DD x32 x41 | s69 => DD x32 x42 | s70 => DD x32 x43 | s71 => DD x32 x44 | s72 => DD x32 x45 | s73 => DD x32 x46 | s74 => DD x32 x47 | s75 => DD x32 x48 | s76 => DD x32 x49 | s77 => DD x32 x50 | s78 => DD x32 x51 | s79 => DD x32 x52 | s80 => DD x32 x53 | s81 => DD x32 x54 | s82 => DD x32 x55 | s83 => DD x32 x56 | s84 => DD x32 x57 | s85 => DD x32 x58 | s86 => DD x32 x59 | s87 => DD x32 x60 | s88 => DD x32 x61 | s89 => DD x32 x62 | s90 => DD x32 x63 | s91 => DD x33 x0 | s92 => DD x33 x1 | s93 => DD x33 x2 | s94 => DD x33 x3 | s95 => DD x33 x4 | s96 => DD x33 x5 | s97 => DD x33 x6 | s98 => DD x33 x7 | s99 => DD x33 x8 | s100 => DD x33 x9 | s101 => DD x33 x10 | s102 => DD x33 x11 | s103 => DD x33 x12 | s104 => DD x33 x13 | s105 => DD x33 x14 | s106 => DD x33 x15 | s107 => DD x33 x16 | s108 => DD x33 x17 | s109 => DD x33 x18 | s110 => DD x33 x19 | s111 => DD x33 x20 | s112 => DD x33 x21 | s113 => DD x33 x22 | s114 => DD x33 x23 | s115 => DD x33 x24 | s116 => DD x33 x25 | s117 => DD x33 x26 | s118 => DD x33 x27 | s119 => DD x33 x28 | s120 => DD x33 x29 | s121 => DD x33 x30 | s122 => DD x33 x31 | s123 => DD x33 x32 | s124 => DD x33 x33 | s125 => DD x33 x34 | s126 => DD x33 x35 end.
Definition m2024 (c : sum2) : dd := match c with s0 => DD x31 x40 | s1 => DD x31 x41 | s2 => DD x31 x42 | s3 => DD x31 x43 | s4 => DD x31 x44 | s5 => DD x31 x45 | s6 => DD x31 x46 | s7 => DD x31 x47 | s8 => DD x31 x48 | s9 => DD x31 x49 | s10 => DD x31 x50 | s11 => DD x31 x51 | s12 => DD x31 x52 | s13 => DD x31 x53 | s14 => DD x31 x54 | s15 => DD x31 x55 | s16 => DD x31 x56 | s17 => DD x31 x57 | s18 => DD x31 x58 | s19 => DD x31 x59 | s20 => DD x31 x60 | s21 => DD x31 x61 | s22 => DD x31 x62 | s23 => DD x31 x63 | s24 => DD x32 x0 | s25 => DD x32 x1 | s26 => DD x32 x2 | s27 => DD x32 x3 | s28 => DD x32 x4 | s29 => DD x32 x5 | s30 => DD x32 x6 | s31 => DD x32 x7 | s32 => DD x32 x8 | s33 => DD x32 x9 | s34 => DD x32 x10 | s35 => DD x32 x11 | s36 => DD x32 x12 | s37 => DD x32 x13 | s38 => DD x32 x14 | s39 => DD x32 x15 | s40 => DD x32 x16 | s41 => DD x32 x17 | s42 => DD x32 x18 | s43 => DD x32 x19 | s44 => DD x32 x20 | s45 => DD x32 x21 | s46 => DD x32 x22 | s47 => DD x32 x23 | s48 => DD x32 x24 | s49 => DD x32 x25 | s50 => DD x32 x26 | s51 => DD x32 x27 | s52 => DD x32 x28 | s53 => DD x32 x29 | s54 => DD x32 x30 | s55 => DD x32 x31 | s56 => DD x32 x32 | s57 => DD x32 x33 | s58 => DD x32 x34 | s59 => DD x32 x35 | s60 => DD x32 x36 | s61 => DD x32 x37 | s62 => DD x32 x38 | s63 => DD x32 x39 | s64 => DD x32 x40 | s65 => DD x32 x41 | s66 => DD x32 x42 | s67 => DD x32 x43 | s68 => DD x32 x44 | s69 => DD x32 x45 | s70 => DD x32 x46 | s71 => DD x32 x47 | s72 => DD x32 x48 | s73 => DD x32 x49 | s74 => DD x32 x50 | s75 => DD x32 x51 | s76 => DD x32 x52 | s77 => DD x32 x53 | s78 => DD x32 x54 | s79 => DD x32 x55 | s80 => DD x32 x56 | s81 => DD x32 x57 | s82 => DD x32 x58 | s83 => DD x32 x59 | s84 => DD x32 x60 | s85 => DD x32 x61 | s86 => DD x32 x62 | s87 => DD x32 x63 | s88 => DD x33 x0 | s89 => DD x33 x1 | s90 => DD x33 x2 | s91 => DD x33 x3 | s92 => DD x33 x4 | s93 => DD x33 x5 | s94 => DD x33 x6 | s95 => DD x33 x7 | s96 => DD x33 x8 | s97 => DD x33 x9 | s98 => DD x33 x10 | s99 => DD x33 x11 | s100 => DD x33 x12 | s101 => DD x33 x13 | s102 => DD x33 x14 | s103 => DD x33 x15 | s104 => DD x33 x16 | s105 => DD x33 x17 | s106 => DD x33 x18 | s107 => DD x33 x19 | s108 => DD x33 x20 | s109 => DD x33 x21 | s110 => DD x33 x22 | s111 => DD x33 x23 | s112 => DD x33 x24 | s113 => DD x33 x25 | s114 => DD x33 x26 | s115 => DD x33 x27 | s116 => DD x33 x28 | s117 => DD x33 x29 | s118 => DD x33 x30 | s119 => DD x33 x31 | s120 => DD x33 x32 | s121 => DD x33 x33 | s122 => DD x33 x34 | s123 => DD x33 x35 | s124 => DD x33 x36 | s125 => DD x33 x37 | s126 => DD x33 x38 end.
Definition m2025 (c : sum2) : dd := match c with s0 => DD x31 x41 | s1 => DD x31 x42 | s2 => DD x31 x43 | s3 => DD x31 x44 | s4 => DD x31 x45 | s5 => DD x31 x46 | s6 => DD x31 x47 | s7 => DD x31 x48 | s8 => DD x31 x49 | s9 => DD x31 x50 | s10 => DD x31 x51 | s11 => DD x31 x52 | s12 => DD x31 x53 | s13 => DD x31 x54 | s14 => DD x31 x55 | s15 => DD x31 x56 | s16 => DD x31 x57 | s17 => DD x31 x58 | s18 => DD x31 x59 | s19 => DD x31 x60 | s20 => DD x31 x61 | s21 => DD x31 x62 | s22 => DD x31 x63 | s23 => DD x32 x0 | s24 => DD x32 x1 | s25 => DD x32 x2 | s26 => DD x32 x3 | s27 => DD x32 x4 | s28 => DD x32 x5 | s29 => DD x32 x6 | s30 => DD x32 x7 | s31 => DD x32 x8 | s32 => DD x32 x9 | s33 => DD x32 x10 | s34 => DD x32 x11 | s35 => DD x32 x12 | s36 => DD x32 x13 | s37 => DD x32 x14 | s38 => DD x32 x15 | s39 => DD x32 x16 | s40 => DD x32 x17 | s41 => DD x32 x18 | s42 => DD x32 x19 | s43 => DD x32 x20 | s44 => DD x32 x21 | s45 => DD x32 x22 | s46 => DD x32 x23 | s47 => DD x32 x24 | s48 => DD x32 x25 | s49 => DD x32 x26 | s50 => DD x32 x27 | s51 => DD x32 x28 | s52 => DD x32 x29 | s53 => DD x32 x30 | s54 => DD x32 x31 | s55 => DD x32 x32 | s56 => DD x32 x33 | s57 => DD x32 x34 | s58 => DD x32 x35 | s59 => DD x32 x36 | s60 => DD x32 x37 | s61 => DD x32 x38 | s62 => DD x32 x39 | s63 => DD x32 x40 | s64 => DD x32 x41 | s65 => DD x32 x42 | s66 => DD x32 x43 | s67 => DD x32 x44 | s68 => DD x32 x45 | s69 => DD x32 x46 | s70 => DD x32 x47 | s71 => DD x32 x48 | s72 => DD x32 x49 | s73 => DD x32 x50 | s74 => DD x32 x51 | s75 => DD x32 x52 | s76 => DD x32 x53 | s77 => DD x32 x54 | s78 => DD x32 x55 | s79 => DD x32 x56 | s80 => DD x32 x57 | s81 => DD x32 x58 | s82 => DD x32 x59 | s83 => DD x32 x60 | s84 => DD x32 x61 | s85 => DD x32 x62 | s86 => DD x32 x63 | s87 => DD x33 x0 | s88 => DD x33 x1 | s89 => DD x33 x2 | s90 => DD x33 x3 | s91 => DD x33 x4 | s92 => DD x33 x5 | s93 => DD x33 x6 | s94 => DD x33 x7 | s95 => DD x33 x8 | s96 => DD x33 x9 | s97 => DD x33 x10 | s98 => DD x33 x11 | s99 => DD x33 x12 | s100 => DD x33 x13 | s101 => DD x33 x14 | s102 => DD x33 x15 | s103 => DD x33 x16 | s104 => DD x33 x17 | s105 => DD x33 x18 | s106 => DD x33 x19 | s107 => DD x33 x20 | s108 => DD x33 x21 | s109 => DD x33 x22 | s110 => DD x33 x23 | s111 => DD x33 x24 | s112 => DD x33 x25 | s113 => DD x33 x26 | s114 => DD x33 x27 | s115 => DD x33 x28 | s116 => DD x33 x29 | s117 => DD x33 x30 | s118 => DD x33 x31 | s119 => DD x33 x32 | s120 => DD x33 x33 | s121 => DD x33 x34 | s122 => DD x33 x35 | s123 => DD x33 x36 | s124 => DD x33 x37 | s125 => DD x33 x38 | s126 => DD x33 x39 end.
Definition m2028 (c : sum2) : dd := match c with s0 => DD x31 x44 | s1 => DD x31 x45 | s2 => DD x31 x46 | s3 => DD x31 x47 | s4 => DD x31 x48 | s5 => DD x31 x49 | s6 => DD x31 x50 | s7 => DD x31 x51 | s8 => DD x31 x52 | s9 => DD x31 x53 | s10 => DD x31 x54 | s11 => DD x31 x55 | s12 => DD x31 x56 | s13 => DD x31 x57 | s14 => DD x31 x58 | s15 => DD x31 x59 | s16 => DD x31 x60 | s17 => DD x31 x61 | s18 => DD x31 x62 | s19 => DD x31 x63 | s20 => DD x32 x0 | s21 => DD x32 x1 | s22 => DD x32 x2 | s23 => DD x32 x3 | s24 => DD x32 x4 | s25 => DD x32 x5 | s26 => DD x32 x6 | s27 => DD x32 x7 | s28 => DD x32 x8 | s29 => DD x32 x9 | s30 => DD x32 x10 | s31 => DD x32 x11 | s32 => DD x32 x12 | s33 => DD x32 x13 | s34 => DD x32 x14 | s35 => DD x32 x15 | s36 => DD x32 x16 | s37 => DD x32 x17 | s38 => DD x32 x18 | s39 => DD x32 x19 | s40 => DD x32 x20 | s41 => DD x32 x21 | s42 => DD x32 x22 | s43 => DD x32 x23 | s44 => DD x32 x24 | s45 => DD x32 x25 | s46 => DD x32 x26 | s47 => DD x32 x27 | s48 => DD x32 x28 | s49 => DD x32 x29 | s50 => DD x32 x30 | s51 => DD x32 x31 | s52 => DD x32 x32 | s53 => DD x32 x33 | s54 => DD x32 x34 | s55 => DD x32 x35 | s56 => DD x32 x36 | s57 => DD x32 x37 | s58 => DD x32 x38 | s59 => DD x32 x39 | s60 => DD x32 x40 | s61 => DD x32 x41 | s62 => DD x32 x42 | s63 => DD x32 x43 | s64 => DD x32 x44 | s65 => DD x32 x45 | s66 => DD x32 x46 | s67 => DD x32 x47 | s68 => DD x32 x48 | s69 => DD x32 x49 | s70 => DD x32 x50 | s71 => DD x32 x51 | s72 => DD x32 x52 | s73 => DD x32 x53 | s74 => DD x32 x54 | s75 => DD x32 x55 | s76 => DD x32 x56 | s77 => DD x32 x57 | s78 => DD x32 x58 | s79 => DD x32 x59 | s80 => DD x32 x60 | s81 => DD x32 x61 | s82 => DD x32 x62 | s83 => DD x32 x63 | s84 => DD x33 x0 | s85 => DD x33 x1 | s86 => DD x33 x2 | s87 => DD x33 x3 | s88 => DD x33 x4 | s89 => DD x33 x5 | s90 => DD x33 x6 | s91 => DD x33 x7 | s92 => DD x33 x8 | s93 => DD x33 x9 | s94 => DD x33 x10 | s95 => DD x33 x11 | s96 => DD x33 x12 | s97 => DD x33 x13 | s98 => DD x33 x14 | s99 => DD x33 x15 | s100 => DD x33 x16 | s101 => DD x33 x17 | s102 => DD x33 x18 | s103 => DD x33 x19 | s104 => DD x33 x20 | s105 => DD x33 x21 | s106 => DD x33 x22 | s107 => DD x33 x23 | s108 => DD x33 x24 | s109 => DD x33 x25 | s110 => DD x33 x26 | s111 => DD x33 x27 | s112 => DD x33 x28 | s113 => DD x33 x29 | s114 => DD x33 x30 | s115 => DD x33 x31 | s116 => DD x33 x32 | s117 => DD x33 x33 | s118 => DD x33 x34 | s119 => DD x33 x35 | s120 => DD x33 x36 | s121 => DD x33 x37 | s122 => DD x33 x38 | s123 => DD x33 x39 | s124 => DD x33 x40 | s125 => DD x33 x41 | s126 => DD x33 x42 end.
Definition m2030 (c : sum2) : dd := match c with s0 => DD x31 x46 | s1 => DD x31 x47 | s2 => DD x31 x48 | s3 => DD x31 x49 | s4 => DD x31 x50 | s5 => DD x31 x51 | s6 => DD x31 x52 | s7 => DD x31 x53 | s8 => DD x31 x54 | s9 => DD x31 x55 | s10 => DD x31 x56 | s11 => DD x31 x57 | s12 => DD x31 x58 | s13 => DD x31 x59 | s14 => DD x31 x60 | s15 => DD x31 x61 | s16 => DD x31 x62 | s17 => DD x31 x63 | s18 => DD x32 x0 | s19 => DD x32 x1 | s20 => DD x32 x2 | s21 => DD x32 x3 | s22 => DD x32 x4 | s23 => DD x32 x5 | s24 => DD x32 x6 | s25 => DD x32 x7 | s26 => DD x32 x8 | s27 => DD x32 x9 | s28 => DD x32 x10 | s29 => DD x32 x11 | s30 => DD x32 x12 | s31 => DD x32 x13 | s32 => DD x32 x14 | s33 => DD x32 x15 | s34 => DD x32 x16 | s35 => DD x32 x17 | s36 => DD x32 x18 | s37 => DD x32 x19 | s38 => DD x32 x20 | s39 => DD x32 x21 | s40 => DD x32 x22 | s41 => DD x32 x23 | s42 => DD x32 x24 | s43 => DD x32 x25 | s44 => DD x32 x26 | s45 => DD x32 x27 | s46 => DD x32 x28 | s47 => DD x32 x29 | s48 => DD x32 x30 | s49 => DD x32 x31 | s50 => DD x32 x32 | s51 => DD x32 x33 | s52 => DD x32 x34 | s53 => DD x32 x35 | s54 => DD x32 x36 | s55 => DD x32 x37 | s56 => DD x32 x38 | s57 => DD x32 x39 | s58 => DD x32 x40 | s59 => DD x32 x41 | s60 => DD x32 x42 | s61 => DD x32 x43 | s62 => DD x32 x44 | s63 => DD x32 x45 | s64 => DD x32 x46 | s65 => DD x32 x47 | s66 => DD x32 x48 | s67 => DD x32 x49 | s68 => DD x32 x50 | s69 => DD x32 x51 | s70 => DD x32 x52 | s71 => DD x32 x53 | s72 => DD x32 x54 | s73 => DD x32 x55 | s74 => DD x32 x56 | s75 => DD x32 x57 | s76 => DD x32 x58 | s77 => DD x32 x59 | s78 => DD x32 x60 | s79 => DD x32 x61 | s80 => DD x32 x62 | s81 => DD x32 x63 | s82 => DD x33 x0 | s83 => DD x33 x1 | s84 => DD x33 x2 | s85 => DD x33 x3 | s86 => DD x33 x4 | s87 => DD x33 x5 | s88 => DD x33 x6 | s89 => DD x33 x7 | s90 => DD x33 x8 | s91 => DD x33 x9 | s92 => DD x33 x10 | s93 => DD x33 x11 | s94 => DD x33 x12 | s95 => DD x33 x13 | s96 => DD x33 x14 | s97 => DD x33 x15 | s98 => DD x33 x16 | s99 => DD x33 x17 | s100 => DD x33 x18 | s101 => DD x33 x19 | s102 => DD x33 x20 | s103 => DD x33 x21 | s104 => DD x33 x22 | s105 => DD x33 x23 | s106 => DD x33 x24 | s107 => DD x33 x25 | s108 => DD x33 x26 | s109 => DD x33 x27 | s110 => DD x33 x28 | s111 => DD x33 x29 | s112 => DD x33 x30 | s113 => DD x33 x31 | s114 => DD x33 x32 | s115 => DD x33 x33 | s116 => DD x33 x34 | s117 => DD x33 x35 | s118 => DD x33 x36 | s119 => DD x33 x37 | s120 => DD x33 x38 | s121 => DD x33 x39 | s122 => DD x33 x40 | s123 => DD x33 x41 | s124 => DD x33 x42 | s125 => DD x33 x43 | s126 => DD x33 x44 end.
Definition m2035 (c : sum2) : dd := match c with s0 => DD x31 x51 | s1 => DD x31 x52 | s2 => DD x31 x53 | s3 => DD x31 x54 | s4 => DD x31 x55 | s5 => DD x31 x56 | s6 => DD x31 x57 | s7 => DD x31 x58 | s8 => DD x31 x59 | s9 => DD x31 x60 | s10 => DD x31 x61 | s11 => DD x31 x62 | s12 => DD x31 x63 | s13 => DD x32 x0 | s14 => DD x32 x1 | s15 => DD x32 x2 | s16 => DD x32 x3 | s17 => DD x32 x4 | s18 => DD x32 x5 | s19 => DD x32 x6 | s20 => DD x32 x7 | s21 => DD x32 x8 | s22 => DD x32 x9 | s23 => DD x32 x10 | s24 => DD x32 x11 | s25 => DD x32 x12 | s26 => DD x32 x13 | s27 => DD x32 x14 | s28 => DD x32 x15 | s29 => DD x32 x16 | s30 => DD x32 x17 | s31 => DD x32 x18 | s32 => DD x32 x19 | s33 => DD x32 x20 | s34 => DD x32 x21 | s35 => DD x32 x22 | s36 => DD x32 x23 | s37 => DD x32 x24 | s38 => DD x32 x25 | s39 => DD x32 x26 | s40 => DD x32 x27 | s41 => DD x32 x28 | s42 => DD x32 x29 | s43 => DD x32 x30 | s44 => DD x32 x31 | s45 => DD x32 x32 | s46 => DD x32 x33 | s47 => DD x32 x34 | s48 => DD x32 x35 | s49 => DD x32 x36 | s50 => DD x32 x37 | s51 => DD x32 x38 | s52 => DD x32 x39 | s53 => DD x32 x40 | s54 => DD x32 x41 | s55 => DD x32 x42 | s56 => DD x32 x43 | s57 => DD x32 x44 | s58 => DD x32 x45 | s59 => DD x32 x46 | s60 => DD x32 x47 | s61 => DD x32 x48 | s62 => DD x32 x49 | s63 => DD x32 x50 | s64 => DD x32 x51 | s65 => DD x32 x52 | s66 => DD x32 x53 | s67 => DD x32 x54 | s68 => DD x32 x55 | s69 => DD x32 x56 | s70 => DD x32 x57 | s71 => DD x32 x58 | s72 => DD x32 x59 | s73 => DD x32 x60 | s74 => DD x32 x61 | s75 => DD x32 x62 | s76 => DD x32 x63 | s77 => DD x33 x0 | s78 => DD x33 x1 | s79 => DD x33 x2 | s80 => DD x33 x3 | s81 => DD x33 x4 | s82 => DD x33 x5 | s83 => DD x33 x6 | s84 => DD x33 x7 | s85 => DD x33 x8 | s86 => DD x33 x9 | s87 => DD x33 x10 | s88 => DD x33 x11 | s89 => DD x33 x12 | s90 => DD x33 x13 | s91 => DD x33 x14 | s92 => DD x33 x15 | s93 => DD x33 x16 | s94 => DD x33 x17 | s95 => DD x33 x18 | s96 => DD x33 x19 | s97 => DD x33 x20 | s98 => DD x33 x21 | s99 => DD x33 x22 | s100 => DD x33 x23 | s101 => DD x33 x24 | s102 => DD x33 x25 | s103 => DD x33 x26 | s104 => DD x33 x27 | s105 => DD x33 x28 | s106 => DD x33 x29 | s107 => DD x33 x30 | s108 => DD x33 x31 | s109 => DD x33 x32 | s110 => DD x33 x33 | s111 => DD x33 x34 | s112 => DD x33 x35 | s113 => DD x33 x36 | s114 => DD x33 x37 | s115 => DD x33 x38 | s116 => DD x33 x39 | s117 => DD x33 x40 | s118 => DD x33 x41 | s119 => DD x33 x42 | s120 => DD x33 x43 | s121 => DD x33 x44 | s122 => DD x33 x45 | s123 => DD x33 x46 | s124 => DD x33 x47 | s125 => DD x33 x48 | s126 => DD x33 x49 end.
Definition m2040 (c : sum2) : dd := match c with s0 => DD x31 x56 | s1 => DD x31 x57 | s2 => DD x31 x58 | s3 => DD x31 x59 | s4 => DD x31 x60 | s5 => DD x31 x61 | s6 => DD x31 x62 | s7 => DD x31 x63 | s8 => DD x32 x0 | s9 => DD x32 x1 | s10 => DD x32 x2 | s11 => DD x32 x3 | s12 => DD x32 x4 | s13 => DD x32 x5 | s14 => DD x32 x6 | s15 => DD x32 x7 | s16 => DD x32 x8 | s17 => DD x32 x9 | s18 => DD x32 x10 | s19 => DD x32 x11 | s20 => DD x32 x12 | s21 => DD x32 x13 | s22 => DD x32 x14 | s23 => DD x32 x15 | s24 => DD x32 x16 | s25 => DD x32 x17 | s26 => DD x32 x18 | s27 => DD x32 x19 | s28 => DD x32 x20 | s29 => DD x32 x21 | s30 => DD x32 x22 | s31 => DD x32 x23 | s32 => DD x32 x24 | s33 => DD x32 x25 | s34 => DD x32 x26 | s35 => DD x32 x27 | s36 => DD x32 x28 | s37 => DD x32 x29 | s38 => DD x32 x30 | s39 => DD x32 x31 | s40 => DD x32 x32 | s41 => DD x32 x33 | s42 => DD x32 x34 | s43 => DD x32 x35 | s44 => DD x32 x36 | s45 => DD x32 x37 | s46 => DD x32 x38 | s47 => DD x32 x39 | s48 => DD x32 x40 | s49 => DD x32 x41 | s50 => DD x32 x42 | s51 => DD x32 x43 | s52 => DD x32 x44 | s53 => DD x32 x45 | s54 => DD x32 x46 | s55 => DD x32 x47 | s56 => DD x32 x48 | s57 => DD x32 x49 | s58 => DD x32 x50 | s59 => DD x32 x51 | s60 => DD x32 x52 | s61 => DD x32 x53 | s62 => DD x32 x54 | s63 => DD x32 x55 | s64 => DD x32 x56 | s65 => DD x32 x57 | s66 => DD x32 x58 | s67 => DD x32 x59 | s68 => DD x32 x60 | s69 => DD x32 x61 | s70 => DD x32 x62 | s71 => DD x32 x63 | s72 => DD x33 x0 | s73 => DD x33 x1 | s74 => DD x33 x2 | s75 => DD x33 x3 | s76 => DD x33 x4 | s77 => DD x33 x5 | s78 => DD x33 x6 | s79 => DD x33 x7 | s80 => DD x33 x8 | s81 => DD x33 x9 | s82 => DD x33 x10 | s83 => DD x33 x11 | s84 => DD x33 x12 | s85 => DD x33 x13 | s86 => DD x33 x14 | s87 => DD x33 x15 | s88 => DD x33 x16 | s89 => DD x33 x17 | s90 => DD x33 x18 | s91 => DD x33 x19 | s92 => DD x33 x20 | s93 => DD x33 x21 | s94 => DD x33 x22 | s95 => DD x33 x23 | s96 => DD x33 x24 | s97 => DD x33 x25 | s98 => DD x33 x26 | s99 => DD x33 x27 | s100 => DD x33 x28 | s101 => DD x33 x29 | s102 => DD x33 x30 | s103 => DD x33 x31 | s104 => DD x33 x32 | s105 => DD x33 x33 | s106 => DD x33 x34 | s107 => DD x33 x35 | s108 => DD x33 x36 | s109 => DD x33 x37 | s110 => DD x33 x38 | s111 => DD x33 x39 | s112 => DD x33 x40 | s113 => DD x33 x41 | s114 => DD x33 x42 | s115 => DD x33 x43 | s116 => DD x33 x44 | s117 => DD x33 x45 | s118 => DD x33 x46 | s119 => DD x33 x47 | s120 => DD x33 x48 | s121 => DD x33 x49 | s122 => DD x33 x50 | s123 => DD x33 x51 | s124 => DD x33 x52 | s125 => DD x33 x53 | s126 => DD x33 x54 end.
Definition m2046 (c : sum2) : dd := match c with s0 => DD x31 x62 | s1 => DD x31 x63 | s2 => DD x32 x0 | s3 => DD x32 x1 | s4 => DD x32 x2 | s5 => DD x32 x3 | s6 => DD x32 x4 | s7 => DD x32 x5 | s8 => DD x32 x6 | s9 => DD x32 x7 | s10 => DD x32 x8 | s11 => DD x32 x9 | s12 => DD x32 x10 | s13 => DD x32 x11 | s14 => DD x32 x12 | s15 => DD x32 x13 | s16 => DD x32 x14 | s17 => DD x32 x15 | s18 => DD x32 x16 | s19 => DD x32 x17 | s20 => DD x32 x18 | s21 => DD x32 x19 | s22 => DD x32 x20 | s23 => DD x32 x21 | s24 => DD x32 x22 | s25 => DD x32 x23 | s26 => DD x32 x24 | s27 => DD x32 x25 | s28 => DD x32 x26 | s29 => DD x32 x27 | s30 => DD x32 x28 | s31 => DD x32 x29 | s32 => DD x32 x30 | s33 => DD x32 x31 | s34 => DD x32 x32 | s35 => DD x32 x33 | s36 => DD x32 x34 | s37 => DD x32 x35 | s38 => DD x32 x36 | s39 => DD x32 x37 | s40 => DD x32 x38 | s41 => DD x32 x39 | s42 => DD x32 x40 | s43 => DD x32 x41 | s44 => DD x32 x42 | s45 => DD x32 x43 | s46 => DD x32 x44 | s47 => DD x32 x45 | s48 => DD x32 x46 | s49 => DD x32 x47 | s50 => DD x32 x48 | s51 => DD x32 x49 | s52 => DD x32 x50 | s53 => DD x32 x51 | s54 => DD x32 x52 | s55 => DD x32 x53 | s56 => DD x32 x54 | s57 => DD x32 x55 | s58 => DD x32 x56 | s59 => DD x32 x57 | s60 => DD x32 x58 | s61 => DD x32 x59 | s62 => DD x32 x60 | s63 => DD x32 x61 | s64 => DD x32 x62 | s65 => DD x32 x63 | s66 => DD x33 x0 | s67 => DD x33 x1 | s68 => DD x33 x2 | s69 => DD x33 x3 | s70 => DD x33 x4 | s71 => DD x33 x5 | s72 => DD x33 x6 | s73 => DD x33 x7 | s74 => DD x33 x8 | s75 => DD x33 x9 | s76 => DD x33 x10 | s77 => DD x33 x11 | s78 => DD x33 x12 | s79 => DD x33 x13 | s80 => DD x33 x14 | s81 => DD x33 x15 | s82 => DD x33 x16 | s83 => DD x33 x17 | s84 => DD x33 x18 | s85 => DD x33 x19 | s86 => DD x33 x20 | s87 => DD x33 x21 | s88 => DD x33 x22 | s89 => DD x33 x23 | s90 => DD x33 x24 | s91 => DD x33 x25 | s92 => DD x33 x26 | s93 => DD x33 x27 | s94 => DD x33 x28 | s95 => DD x33 x29 | s96 => DD x33 x30 | s97 => DD x33 x31 | s98 => DD x33 x32 | s99 => DD x33 x33 | s100 => DD x33 x34 | s101 => DD x33 x35 | s102 => DD x33 x36 | s103 => DD x33 x37 | s104 => DD x33 x38 | s105 => DD x33 x39 | s106 => DD x33 x40 | s107 => DD x33 x41 | s108 => DD x33 x42 | s109 => DD x33 x43 | s110 => DD x33 x44 | s111 => DD x33 x45 | s112 => DD x33 x46 | s113 => DD x33 x47 | s114 => DD x33 x48 | s115 => DD x33 x49 | s116 => DD x33 x50 | s117 => DD x33 x51 | s118 => DD x33 x52 | s119 => DD x33 x53 | s120 => DD x33 x54 | s121 => DD x33 x55 | s122 => DD x33 x56 | s123 => DD x33 x57 | s124 => DD x33 x58 | s125 => DD x33 x59 | s126 => DD x33 x60 end.
Definition m2050 (c : sum2) : dd := match c with s0 => DD x32 x2 | s1 => DD x32 x3 | s2 => DD x32 x4 | s3 => DD x32 x5 | s4 => DD x32 x6 | s5 => DD x32 x7 | s6 => DD x32 x8 | s7 => DD x32 x9 | s8 => DD x32 x10 | s9 => DD x32 x11 | s10 => DD x32 x12 | s11 => DD x32 x13 | s12 => DD x32 x14 | s13 => DD x32 x15 | s14 => DD x32 x16 | s15 => DD x32 x17 | s16 => DD x32 x18 | s17 => DD x32 x19 | s18 => DD x32 x20 | s19 => DD x32 x21 | s20 => DD x32 x22 | s21 => DD x32 x23 | s22 => DD x32 x24 | s23 => DD x32 x25 | s24 => DD x32 x26 | s25 => DD x32 x27 | s26 => DD x32 x28 | s27 => DD x32 x29 | s28 => DD x32 x30 | s29 => DD x32 x31 | s30 => DD x32 x32 | s31 => DD x32 x33 | s32 => DD x32 x34 | s33 => DD x32 x35 | s34 => DD x32 x36 | s35 => DD x32 x37 | s36 => DD x32 x38 | s37 => DD x32 x39 | s38 => DD x32 x40 | s39 => DD x32 x41 | s40 => DD x32 x42 | s41 => DD x32 x43 | s42 => DD x32 x44 | s43 => DD x32 x45 | s44 => DD x32 x46 | s45 => DD x32 x47 | s46 => DD x32 x48 | s47 => DD x32 x49 | s48 => DD x32 x50 | s49 => DD x32 x51 | s50 => DD x32 x52 | s51 => DD x32 x53 | s52 => DD x32 x54 | s53 => DD x32 x55 | s54 => DD x32 x56 | s55 => DD x32 x57 | s56 => DD x32 x58 | s57 => DD x32 x59 | s58 => DD x32 x60 | s59 => DD x32 x61 | s60 => DD x32 x62 | s61 => DD x32 x63 | s62 => DD x33 x0 | s63 => DD x33 x1 | s64 => DD x33 x2 | s65 => DD x33 x3 | s66 => DD x33 x4 | s67 => DD x33 x5 | s68 => DD x33 x6 | s69 => DD x33 x7 | s70 => DD x33 x8 | s71 => DD x33 x9 | s72 => DD x33 x10 | s73 => DD x33 x11 | s74 => DD x33 x12 | s75 => DD x33 x13 | s76 => DD x33 x14 | s77 => DD x33 x15 | s78 => DD x33 x16 | s79 => DD x33 x17 | s80 => DD x33 x18 | s81 => DD x33 x19 | s82 => DD x33 x20 | s83 => DD x33 x21 | s84 => DD x33 x22 | s85 => DD x33 x23 | s86 => DD x33 x24 | s87 => DD x33 x25 | s88 => DD x33 x26 | s89 => DD x33 x27 | s90 => DD x33 x28 | s91 => DD x33 x29 | s92 => DD x33 x30 | s93 => DD x33 x31 | s94 => DD x33 x32 | s95 => DD x33 x33 | s96 => DD x33 x34 | s97 => DD x33 x35 | s98 => DD x33 x36 | s99 => DD x33 x37 | s100 => DD x33 x38 | s101 => DD x33 x39 | s102 => DD x33 x40 | s103 => DD x33 x41 | s104 => DD x33 x42 | s105 => DD x33 x43 | s106 => DD x33 x44 | s107 => DD x33 x45 | s108 => DD x33 x46 | s109 => DD x33 x47 | s110 => DD x33 x48 | s111 => DD x33 x49 | s112 => DD x33 x50 | s113 => DD x33 x51 | s114 => DD x33 x52 | s115 => DD x33 x53 | s116 => DD x33 x54 | s117 => DD x33 x55 | s118 => DD x33 x56 | s119 => DD x33 x57 | s120 => DD x33 x58 | s121 => DD x33 x59 | s122 => DD x33 x60 | s123 => DD x33 x61 | s124 => DD x33 x62 | s125 => DD x33 x63 | s126 => DD x34 x0 end.
Definition m2052 (c : sum2) : dd := match c with s0 => DD x32 x4 | s1 => DD x32 x5 | s2 => DD x32 x6 | s3 => DD x32 x7 | s4 => DD x32 x8 | s5 => DD x32 x9 | s6 => DD x32 x10 | s7 => DD x32 x11 | s8 => DD x32 x12 | s9 => DD x32 x13 | s10 => DD x32 x14 | s11 => DD x32 x15 | s12 => DD x32 x16 | s13 => DD x32 x17 | s14 => DD x32 x18 | s15 => DD x32 x19 | s16 => DD x32 x20 | s17 => DD x32 x21 | s18 => DD x32 x22 | s19 => DD x32 x23 | s20 => DD x32 x24 | s21 => DD x32 x25 | s22 => DD x32 x26 | s23 => DD x32 x27 | s24 => DD x32 x28 | s25 => DD x32 x29 | s26 => DD x32 x30 | s27 => DD x32 x31 | s28 => DD x32 x32 | s29 => DD x32 x33 | s30 => DD x32 x34 | s31 => DD x32 x35 | s32 => DD x32 x36 | s33 => DD x32 x37 | s34 => DD x32 x38 | s35 => DD x32 x39 | s36 => DD x32 x40 | s37 => DD x32 x41 | s38 => DD x32 x42 | s39 => DD x32 x43 | s40 => DD x32 x44 | s41 => DD x32 x45 | s42 => DD x32 x46 | s43 => DD x32 x47 | s44 => DD x32 x48 | s45 => DD x32 x49 | s46 => DD x32 x50 | s47 => DD x32 x51 | s48 => DD x32 x52 | s49 => DD x32 x53 | s50 => DD x32 x54 | s51 => DD x32 x55 | s52 => DD x32 x56 | s53 => DD x32 x57 | s54 => DD x32 x58 | s55 => DD x32 x59 | s56 => DD x32 x60 | s57 => DD x32 x61 | s58 => DD x32 x62 | s59 => DD x32 x63 | s60 => DD x33 x0 | s61 => DD x33 x1 | s62 => DD x33 x2 | s63 => DD x33 x3 | s64 => DD x33 x4 | s65 => DD x33 x5 | s66 => DD x33 x6 | s67 => DD x33 x7 | s68 => DD x33 x8 | s69 => DD x33 x9 | s70 => DD x33 x10 | s71 => DD x33 x11 | s72 => DD x33 x12 | s73 => DD x33 x13 | s74 => DD x33 x14 | s75 => DD x33 x15 | s76 => DD x33 x16 | s77 => DD x33 x17 | s78 => DD x33 x18 | s79 => DD x33 x19 | s80 => DD x33 x20 | s81 => DD x33 x21 | s82 => DD x33 x22 | s83 => DD x33 x23 | s84 => DD x33 x24 | s85 => DD x33 x25 | s86 => DD x33 x26 | s87 => DD x33 x27 | s88 => DD x33 x28 | s89 => DD x33 x29 | s90 => DD x33 x30 | s91 => DD x33 x31 | s92 => DD x33 x32 | s93 => DD x33 x33 | s94 => DD x33 x34 | s95 => DD x33 x35 | s96 => DD x33 x36 | s97 => DD x33 x37 | s98 => DD x33 x38 | s99 => DD x33 x39 | s100 => DD x33 x40 | s101 => DD x33 x41 | s102 => DD x33 x42 | s103 => DD x33 x43 | s104 => DD x33 x44 | s105 => DD x33 x45 | s106 => DD x33 x46 | s107 => DD x33 x47 | s108 => DD x33 x48 | s109 => DD x33 x49 | s110 => DD x33 x50 | s111 => DD x33 x51 | s112 => DD x33 x52 | s113 => DD x33 x53 | s114 => DD x33 x54 | s115 => DD x33 x55 | s116 => DD x33 x56 | s117 => DD x33 x57 | s118 => DD x33 x58 | s119 => DD x33 x59 | s120 => DD x33 x60 | s121 => DD x33 x61 | s122 => DD x33 x62 | s123 => DD x33 x63 | s124 => DD x34 x0 | s125 => DD x34 x1 | s126 => DD x34 x2 end.
Definition m2058 (c : sum2) : dd := match c with s0 => DD x32 x10 | s1 => DD x32 x11 | s2 => DD x32 x12 | s3 => DD x32 x13 | s4 => DD x32 x14 | s5 => DD x32 x15 | s6 => DD x32 x16 | s7 => DD x32 x17 | s8 => DD x32 x18 | s9 => DD x32 x19 | s10 => DD x32 x20 | s11 => DD x32 x21 | s12 => DD x32 x22 | s13 => DD x32 x23 | s14 => DD x32 x24 | s15 => DD x32 x25 | s16 => DD x32 x26 | s17 => DD x32 x27 | s18 => DD x32 x28 | s19 => DD x32 x29 | s20 => DD x32 x30 | s21 => DD x32 x31 | s22 => DD x32 x32 | s23 => DD x32 x33 | s24 => DD x32 x34 | s25 => DD x32 x35 | s26 => DD x32 x36 | s27 => DD x32 x37 | s28 => DD x32 x38 | s29 => DD x32 x39 | s30 => DD x32 x40 | s31 => DD x32 x41 | s32 => DD x32 x42 | s33 => DD x32 x43 | s34 => DD x32 x44 | s35 => DD x32 x45 | s36 => DD x32 x46 | s37 => DD x32 x47 | s38 => DD x32 x48 | s39 => DD x32 x49 | s40 => DD x32 x50 | s41 => DD x32 x51 | s42 => DD x32 x52 | s43 => DD x32 x53 | s44 => DD x32 x54 | s45 => DD x32 x55 | s46 => DD x32 x56 | s47 => DD x32 x57 | s48 => DD x32 x58 | s49 => DD x32 x59 | s50 => DD x32 x60 | s51 => DD x32 x61 | s52 => DD x32 x62 | s53 => DD x32 x63 | s54 => DD x33 x0 | s55 => DD x33 x1 | s56 => DD x33 x2 | s57 => DD x33 x3 | s58 => DD x33 x4 | s59 => DD x33 x5 | s60 => DD x33 x6 | s61 => DD x33 x7 | s62 => DD x33 x8 | s63 => DD x33 x9 | s64 => DD x33 x10 | s65 => DD x33 x11 | s66 => DD x33 x12 | s67 => DD x33 x13 | s68 => DD x33 x14 | s69 => DD x33 x15 | s70 => DD x33 x16 | s71 => DD x33 x17 | s72 => DD x33 x18 | s73 => DD x33 x19 | s74 => DD x33 x20 | s75 => DD x33 x21 | s76 => DD x33 x22 | s77 => DD x33 x23 | s78 => DD x33 x24 | s79 => DD x33 x25 | s80 => DD x33 x26 | s81 => DD x33 x27 | s82 => DD x33 x28 | s83 => DD x33 x29 | s84 => DD x33 x30 | s85 => DD x33 x31 | s86 => DD x33 x32 | s87 => DD x33 x33 | s88 => DD x33 x34 | s89 => DD x33 x35 | s90 => DD x33 x36 | s91 => DD x33 x37 | s92 => DD x33 x38 | s93 => DD x33 x39 | s94 => DD x33 x40 | s95 => DD x33 x41 | s96 => DD x33 x42 | s97 => DD x33 x43 | s98 => DD x33 x44 | s99 => DD x33 x45 | s100 => DD x33 x46 | s101 => DD x33 x47 | s102 => DD x33 x48 | s103 => DD x33 x49 | s104 => DD x33 x50 | s105 => DD x33 x51 | s106 => DD x33 x52 | s107 => DD x33 x53 | s108 => DD x33 x54 | s109 => DD x33 x55 | s110 => DD x33 x56 | s111 => DD x33 x57 | s112 => DD x33 x58 | s113 => DD x33 x59 | s114 => DD x33 x60 | s115 => DD x33 x61 | s116 => DD x33 x62 | s117 => DD x33 x63 | s118 => DD x34 x0 | s119 => DD x34 x1 | s120 => DD x34 x2 | s121 => DD x34 x3 | s122 => DD x34 x4 | s123 => DD x34 x5 | s124 => DD x34 x6 | s125 => DD x34 x7 | s126 => DD x34 x8 end.
Definition m2064 (c : sum2) : dd := match c with s0 => DD x32 x16 | s1 => DD x32 x17 | s2 => DD x32 x18 | s3 => DD x32 x19 | s4 => DD x32 x20 | s5 => DD x32 x21 | s6 => DD x32 x22 | s7 => DD x32 x23 | s8 => DD x32 x24 | s9 => DD x32 x25 | s10 => DD x32 x26 | s11 => DD x32 x27 | s12 => DD x32 x28 | s13 => DD x32 x29 | s14 => DD x32 x30 | s15 => DD x32 x31 | s16 => DD x32 x32 | s17 => DD x32 x33 | s18 => DD x32 x34 | s19 => DD x32 x35 | s20 => DD x32 x36 | s21 => DD x32 x37 | s22 => DD x32 x38 | s23 => DD x32 x39 | s24 => DD x32 x40 | s25 => DD x32 x41 | s26 => DD x32 x42 | s27 => DD x32 x43 | s28 => DD x32 x44 | s29 => DD x32 x45 | s30 => DD x32 x46 | s31 => DD x32 x47 | s32 => DD x32 x48 | s33 => DD x32 x49 | s34 => DD x32 x50 | s35 => DD x32 x51 | s36 => DD x32 x52 | s37 => DD x32 x53 | s38 => DD x32 x54 | s39 => DD x32 x55 | s40 => DD x32 x56 | s41 => DD x32 x57 | s42 => DD x32 x58 | s43 => DD x32 x59 | s44 => DD x32 x60 | s45 => DD x32 x61 | s46 => DD x32 x62 | s47 => DD x32 x63 | s48 => DD x33 x0 | s49 => DD x33 x1 | s50 => DD x33 x2 | s51 => DD x33 x3 | s52 => DD x33 x4 | s53 => DD x33 x5 | s54 => DD x33 x6 | s55 => DD x33 x7 | s56 => DD x33 x8 | s57 => DD x33 x9 | s58 => DD x33 x10 | s59 => DD x33 x11 | s60 => DD x33 x12 | s61 => DD x33 x13 | s62 => DD x33 x14 | s63 => DD x33 x15 | s64 => DD x33 x16 | s65 => DD x33 x17 | s66 => DD x33 x18 | s67 => DD x33 x19 | s68 => DD x33 x20 | s69 => DD x33 x21 | s70 => DD x33 x22 | s71 => DD x33 x23 | s72 => DD x33 x24 | s73 => DD x33 x25 | s74 => DD x33 x26 | s75 => DD x33 x27 | s76 => DD x33 x28 | s77 => DD x33 x29 | s78 => DD x33 x30 | s79 => DD x33 x31 | s80 => DD x33 x32 | s81 => DD x33 x33 | s82 => DD x33 x34 | s83 => DD x33 x35 | s84 => DD x33 x36 | s85 => DD x33 x37 | s86 => DD x33 x38 | s87 => DD x33 x39 | s88 => DD x33 x40 | s89 => DD x33 x41 | s90 => DD x33 x42 | s91 => DD x33 x43 | s92 => DD x33 x44 | s93 => DD x33 x45 | s94 => DD x33 x46 | s95 => DD x33 x47 | s96 => DD x33 x48 | s97 => DD x33 x49 | s98 => DD x33 x50 | s99 => DD x33 x51 | s100 => DD x33 x52 | s101 => DD x33 x53 | s102 => DD x33 x54 | s103 => DD x33 x55 | s104 => DD x33 x56 | s105 => DD x33 x57 | s106 => DD x33 x58 | s107 => DD x33 x59 | s108 => DD x33 x60 | s109 => DD x33 x61 | s110 => DD x33 x62 | s111 => DD x33 x63 | s112 => DD x34 x0 | s113 => DD x34 x1 | s114 => DD x34 x2 | s115 => DD x34 x3 | s116 => DD x34 x4 | s117 => DD x34 x5 | s118 => DD x34 x6 | s119 => DD x34 x7 | s120 => DD x34 x8 | s121 => DD x34 x9 | s122 => DD x34 x10 | s123 => DD x34 x11 | s124 => DD x34 x12 | s125 => DD x34 x13 | s126 => DD x34 x14 end.
Definition m2065 (c : sum2) : dd := match c with s0 => DD x32 x17 | s1 => DD x32 x18 | s2 => DD x32 x19 | s3 => DD x32 x20 | s4 => DD x32 x21 | s5 => DD x32 x22 | s6 => DD x32 x23 | s7 => DD x32 x24 | s8 => DD x32 x25 | s9 => DD x32 x26 | s10 => DD x32 x27 | s11 => DD x32 x28 | s12 => DD x32 x29 | s13 => DD x32 x30 | s14 => DD x32 x31 | s15 => DD x32 x32 | s16 => DD x32 x33 | s17 => DD x32 x34 | s18 => DD x32 x35 | s19 => DD x32 x36 | s20 => DD x32 x37 | s21 => DD x32 x38 | s22 => DD x32 x39 | s23 => DD x32 x40 | s24 => DD x32 x41 | s25 => DD x32 x42 | s26 => DD x32 x43 | s27 => DD x32 x44 | s28 => DD x32 x45 | s29 => DD x32 x46 | s30 => DD x32 x47 | s31 => DD x32 x48 | s32 => DD x32 x49 | s33 => DD x32 x50 | s34 => DD x32 x51 | s35 => DD x32 x52 | s36 => DD x32 x53 | s37 => DD x32 x54 | s38 => DD x32 x55 | s39 => DD x32 x56 | s40 => DD x32 x57 | s41 => DD x32 x58 | s42 => DD x32 x59 | s43 => DD x32 x60 | s44 => DD x32 x61 | s45 => DD x32 x62 | s46 => DD x32 x63 | s47 => DD x33 x0 | s48 => DD x33 x1 | s49 => DD x33 x2 | s50 => DD x33 x3 | s51 => DD x33 x4 | s52 => DD x33 x5 | s53 => DD x33 x6 | s54 => DD x33 x7 | s55 => DD x33 x8 | s56 => DD x33 x9 | s57 => DD x33 x10 | s58 => DD x33 x11 | s59 => DD x33 x12 | s60 => DD x33 x13 | s61 => DD x33 x14 | s62 => DD x33 x15 | s63 => DD x33 x16 | s64 => DD x33 x17 | s65 => DD x33 x18 | s66 => DD x33 x19 | s67 => DD x33 x20 | s68 => DD x33 x21 | s69 => DD x33 x22 | s70 => DD x33 x23 | s71 => DD x33 x24 | s72 => DD x33 x25 | s73 => DD x33 x26 | s74 => DD x33 x27 | s75 => DD x33 x28 | s76 => DD x33 x29 | s77 => DD x33 x30 | s78 => DD x33 x31 | s79 => DD x33 x32 | s80 => DD x33 x33 | s81 => DD x33 x34 | s82 => DD x33 x35 | s83 => DD x33 x36 | s84 => DD x33 x37 | s85 => DD x33 x38 | s86 => DD x33 x39 | s87 => DD x33 x40 | s88 => DD x33 x41 | s89 => DD x33 x42 | s90 => DD x33 x43 | s91 => DD x33 x44 | s92 => DD x33 x45 | s93 => DD x33 x46 | s94 => DD x33 x47 | s95 => DD x33 x48 | s96 => DD x33 x49 | s97 => DD x33 x50 | s98 => DD x33 x51 | s99 => DD x33 x52 | s100 => DD x33 x53 | s101 => DD x33 x54 | s102 => DD x33 x55 | s103 => DD x33 x56 | s104 => DD x33 x57 | s105 => DD x33 x58 | s106 => DD x33 x59 | s107 => DD x33 x60 | s108 => DD x33 x61 | s109 => DD x33 x62 | s110 => DD x33 x63 | s111 => DD x34 x0 | s112 => DD x34 x1 | s113 => DD x34 x2 | s114 => DD x34 x3 | s115 => DD x34 x4 | s116 => DD x34 x5 | s117 => DD x34 x6 | s118 => DD x34 x7 | s119 => DD x34 x8 | s120 => DD x34 x9 | s121 => DD x34 x10 | s122 => DD x34 x11 | s123 => DD x34 x12 | s124 => DD x34 x13 | s125 => DD x34 x14 | s126 => DD x34 x15 end.
Definition m2067 (c : sum2) : dd := match c with s0 => DD x32 x19 | s1 => DD x32 x20 | s2 => DD x32 x21 | s3 => DD x32 x22 | s4 => DD x32 x23 | s5 => DD x32 x24 | s6 => DD x32 x25 | s7 => DD x32 x26 | s8 => DD x32 x27 | s9 => DD x32 x28 | s10 => DD x32 x29 | s11 => DD x32 x30 | s12 => DD x32 x31 | s13 => DD x32 x32 | s14 => DD x32 x33 | s15 => DD x32 x34 | s16 => DD x32 x35 | s17 => DD x32 x36 | s18 => DD x32 x37 | s19 => DD x32 x38 | s20 => DD x32 x39 | s21 => DD x32 x40 | s22 => DD x32 x41 | s23 => DD x32 x42 | s24 => DD x32 x43 | s25 => DD x32 x44 | s26 => DD x32 x45 | s27 => DD x32 x46 | s28 => DD x32 x47 | s29 => DD x32 x48 | s30 => DD x32 x49 | s31 => DD x32 x50 | s32 => DD x32 x51 | s33 => DD x32 x52 | s34 => DD x32 x53 | s35 => DD x32 x54 | s36 => DD x32 x55 | s37 => DD x32 x56 | s38 => DD x32 x57 | s39 => DD x32 x58 | s40 => DD x32 x59 | s41 => DD x32 x60 | s42 => DD x32 x61 | s43 => DD x32 x62 | s44 => DD x32 x63 | s45 => DD x33 x0 | s46 => DD x33 x1 | s47 => DD x33 x2 | s48 => DD x33 x3 | s49 => DD x33 x4 | s50 => DD x33 x5 | s51 => DD x33 x6 | s52 => DD x33 x7 | s53 => DD x33 x8 | s54 => DD x33 x9 | s55 => DD x33 x10 | s56 => DD x33 x11 | s57 => DD x33 x12 | s58 => DD x33 x13 | s59 => DD x33 x14 | s60 => DD x33 x15 | s61 => DD x33 x16 | s62 => DD x33 x17 | s63 => DD x33 x18 | s64 => DD x33 x19 | s65 => DD x33 x20 | s66 => DD x33 x21 | s67 => DD x33 x22 | s68 => DD x33 x23 | s69 => DD x33 x24 | s70 => DD x33 x25 | s71 => DD x33 x26 | s72 => DD x33 x27 | s73 => DD x33 x28 | s74 => DD x33 x29 | s75 => DD x33 x30 | s76 => DD x33 x31 | s77 => DD x33 x32 | s78 => DD x33 x33 | s79 => DD x33 x34 | s80 => DD x33 x35 | s81 => DD x33 x36 | s82 => DD x33 x37 | s83 => DD x33 x38 | s84 => DD x33 x39 | s85 => DD x33 x40 | s86 => DD x33 x41 | s87 => DD x33 x42 | s88 => DD x33 x43 | s89 => DD x33 x44 | s90 => DD x33 x45 | s91 => DD x33 x46 | s92 => DD x33 x47 | s93 => DD x33 x48 | s94 => DD x33 x49 | s95 => DD x33 x50 | s96 => DD x33 x51 | s97 => DD x33 x52 | s98 => DD x33 x53 | s99 => DD x33 x54 | s100 => DD x33 x55 | s101 => DD x33 x56 | s102 => DD x33 x57 | s103 => DD x33 x58 | s104 => DD x33 x59 | s105 => DD x33 x60 | s106 => DD x33 x61 | s107 => DD x33 x62 | s108 => DD x33 x63 | s109 => DD x34 x0 | s110 => DD x34 x1 | s111 => DD x34 x2 | s112 => DD x34 x3 | s113 => DD x34 x4 | s114 => DD x34 x5 | s115 => DD x34 x6 | s116 => DD x34 x7 | s117 => DD x34 x8 | s118 => DD x34 x9 | s119 => DD x34 x10 | s120 => DD x34 x11 | s121 => DD x34 x12 | s122 => DD x34 x13 | s123 => DD x34 x14 | s124 => DD x34 x15 | s125 => DD x34 x16 | s126 => DD x34 x17 end.
Definition m2068 (c : sum2) : dd := match c with s0 => DD x32 x20 | s1 => DD x32 x21 | s2 => DD x32 x22 | s3 => DD x32 x23 | s4 => DD x32 x24 | s5 => DD x32 x25 | s6 => DD x32 x26 | s7 => DD x32 x27 | s8 => DD x32 x28 | s9 => DD x32 x29 | s10 => DD x32 x30 | s11 => DD x32 x31 | s12 => DD x32 x32 | s13 => DD x32 x33 | s14 => DD x32 x34 | s15 => DD x32 x35 | s16 => DD x32 x36 | s17 => DD x32 x37 | s18 => DD x32 x38 | s19 => DD x32 x39 | s20 => DD x32 x40 | s21 => DD x32 x41 | s22 => DD x32 x42 | s23 => DD x32 x43 | s24 => DD x32 x44 | s25 => DD x32 x45 | s26 => DD x32 x46 | s27 => DD x32 x47 | s28 => DD x32 x48 | s29 => DD x32 x49 | s30 => DD x32 x50 | s31 => DD x32 x51 | s32 => DD x32 x52 | s33 => DD x32 x53 | s34 => DD x32 x54 | s35 => DD x32 x55 | s36 => DD x32 x56 | s37 => DD x32 x57 | s38 => DD x32 x58 | s39 => DD x32 x59 | s40 => DD x32 x60 | s41 => DD x32 x61 | s42 => DD x32 x62 | s43 => DD x32 x63 | s44 => DD x33 x0 | s45 => DD x33 x1 | s46 => DD x33 x2 | s47 => DD x33 x3 | s48 => DD x33 x4 | s49 => DD x33 x5 | s50 => DD x33 x6 | s51 => DD x33 x7 | s52 => DD x33 x8 | s53 => DD x33 x9 | s54 => DD x33 x10 | s55 => DD x33 x11 | s56 => DD x33 x12 | s57 => DD x33 x13 | s58 => DD x33 x14 | s59 => DD x33 x15 | s60 => DD x33 x16 | s61 => DD x33 x17 | s62 => DD x33 x18 | s63 => DD x33 x19 | s64 => DD x33 x20 | s65 => DD x33 x21 | s66 => DD x33 x22 | s67 => DD x33 x23 | s68 => DD x33 x24 | s69 => DD x33 x25 | s70 => DD x33 x26 | s71 => DD x33 x27 | s72 => DD x33 x28 | s73 => DD x33 x29 | s74 => DD x33 x30 | s75 => DD x33 x31 | s76 => DD x33 x32 | s77 => DD x33 x33 | s78 => DD x33 x34 | s79 => DD x33 x35 | s80 => DD x33 x36 | s81 => DD x33 x37 | s82 => DD x33 x38 | s83 => DD x33 x39 | s84 => DD x33 x40 | s85 => DD x33 x41 | s86 => DD x33 x42 | s87 => DD x33 x43 | s88 => DD x33 x44 | s89 => DD x33 x45 | s90 => DD x33 x46 | s91 => DD x33 x47 | s92 => DD x33 x48 | s93 => DD x33 x49 | s94 => DD x33 x50 | s95 => DD x33 x51 | s96 => DD x33 x52 | s97 => DD x33 x53 | s98 => DD x33 x54 | s99 => DD x33 x55 | s100 => DD x33 x56 | s101 => DD x33 x57 | s102 => DD x33 x58 | s103 => DD x33 x59 | s104 => DD x33 x60 | s105 => DD x33 x61 | s106 => DD x33 x62 | s107 => DD x33 x63 | s108 => DD x34 x0 | s109 => DD x34 x1 | s110 => DD x34 x2 | s111 => DD x34 x3 | s112 => DD x34 x4 | s113 => DD x34 x5 | s114 => DD x34 x6 | s115 => DD x34 x7 | s116 => DD x34 x8 | s117 => DD x34 x9 | s118 => DD x34 x10 | s119 => DD x34 x11 | s120 => DD x34 x12 | s121 => DD x34 x13 | s122 => DD x34 x14 | s123 => DD x34 x15 | s124 => DD x34 x16 | s125 => DD x34 x17 | s126 => DD x34 x18 end.
Definition m2070 (c : sum2) : dd := match c with s0 => DD x32 x22 | s1 => DD x32 x23 | s2 => DD x32 x24 | s3 => DD x32 x25 | s4 => DD x32 x26 | s5 => DD x32 x27 | s6 => DD x32 x28 | s7 => DD x32 x29 | s8 => DD x32 x30 | s9 => DD x32 x31 | s10 => DD x32 x32 | s11 => DD x32 x33 | s12 => DD x32 x34 | s13 => DD x32 x35 | s14 => DD x32 x36 | s15 => DD x32 x37 | s16 => DD x32 x38 | s17 => DD x32 x39 | s18 => DD x32 x40 | s19 => DD x32 x41 | s20 => DD x32 x42 | s21 => DD x32 x43 | s22 => DD x32 x44 | s23 => DD x32 x45 | s24 => DD x32 x46 | s25 => DD x32 x47 | s26 => DD x32 x48 | s27 => DD x32 x49 | s28 => DD x32 x50 | s29 => DD x32 x51 | s30 => DD x32 x52 | s31 => DD x32 x53 | s32 => DD x32 x54 | s33 => DD x32 x55 | s34 => DD x32 x56 | s35 => DD x32 x57 | s36 => DD x32 x58 | s37 => DD x32 x59 | s38 => DD x32 x60 | s39 => DD x32 x61 | s40 => DD x32 x62 | s41 => DD x32 x63 | s42 => DD x33 x0 | s43 => DD x33 x1 | s44 => DD x33 x2 | s45 => DD x33 x3 | s46 => DD x33 x4 | s47 => DD x33 x5 | s48 => DD x33 x6 | s49 => DD x33 x7 | s50 => DD x33 x8 | s51 => DD x33 x9 | s52 => DD x33 x10 | s53 => DD x33 x11 | s54 => DD x33 x12 | s55 => DD x33 x13 | s56 => DD x33 x14 | s57 => DD x33 x15 | s58 => DD x33 x16 | s59 => DD x33 x17 | s60 => DD x33 x18 | s61 => DD x33 x19 | s62 => DD x33 x20 | s63 => DD x33 x21 | s64 => DD x33 x22 | s65 => DD x33 x23 | s66 => DD x33 x24 | s67 => DD x33 x25 | s68 => DD x33 x26 | s69 => DD x33 x27 | s70 => DD x33 x28 | s71 => DD x33 x29 | s72 => DD x33 x30 | s73 => DD x33 x31 | s74 => DD x33 x32 | s75 => DD x33 x33 | s76 => DD x33 x34 | s77 => DD x33 x35 | s78 => DD x33 x36 | s79 => DD x33 x37 | s80 => DD x33 x38 | s81 => DD x33 x39 | s82 => DD x33 x40 | s83 => DD x33 x41 | s84 => DD x33 x42 | s85 => DD x33 x43 | s86 => DD x33 x44 | s87 => DD x33 x45 | s88 => DD x33 x46 | s89 => DD x33 x47 | s90 => DD x33 x48 | s91 => DD x33 x49 | s92 => DD x33 x50 | s93 => DD x33 x51 | s94 => DD x33 x52 | s95 => DD x33 x53 | s96 => DD x33 x54 | s97 => DD x33 x55 | s98 => DD x33 x56 | s99 => DD x33 x57 | s100 => DD x33 x58 | s101 => DD x33 x59 | s102 => DD x33 x60 | s103 => DD x33 x61 | s104 => DD x33 x62 | s105 => DD x33 x63 | s106 => DD x34 x0 | s107 => DD x34 x1 | s108 => DD x34 x2 | s109 => DD x34 x3 | s110 => DD x34 x4 | s111 => DD x34 x5 | s112 => DD x34 x6 | s113 => DD x34 x7 | s114 => DD x34 x8 | s115 => DD x34 x9 | s116 => DD x34 x10 | s117 => DD x34 x11 | s118 => DD x34 x12 | s119 => DD x34 x13 | s120 => DD x34 x14 | s121 => DD x34 x15 | s122 => DD x34 x16 | s123 => DD x34 x17 | s124 => DD x34 x18 | s125 => DD x34 x19 | s126 => DD x34 x20 end.
Definition m2072 (c : sum2) : dd := match c with s0 => DD x32 x24 | s1 => DD x32 x25 | s2 => DD x32 x26 | s3 => DD x32 x27 | s4 => DD x32 x28 | s5 => DD x32 x29 | s6 => DD x32 x30 | s7 => DD x32 x31 | s8 => DD x32 x32 | s9 => DD x32 x33 | s10 => DD x32 x34 | s11 => DD x32 x35 | s12 => DD x32 x36 | s13 => DD x32 x37 | s14 => DD x32 x38 | s15 => DD x32 x39 | s16 => DD x32 x40 | s17 => DD x32 x41 | s18 => DD x32 x42 | s19 => DD x32 x43 | s20 => DD x32 x44 | s21 => DD x32 x45 | s22 => DD x32 x46 | s23 => DD x32 x47 | s24 => DD x32 x48 | s25 => DD x32 x49 | s26 => DD x32 x50 | s27 => DD x32 x51 | s28 => DD x32 x52 | s29 => DD x32 x53 | s30 => DD x32 x54 | s31 => DD x32 x55 | s32 => DD x32 x56 | s33 => DD x32 x57 | s34 => DD x32 x58 | s35 => DD x32 x59 | s36 => DD x32 x60 | s37 => DD x32 x61 | s38 => DD x32 x62 | s39 => DD x32 x63 | s40 => DD x33 x0 | s41 => DD x33 x1 | s42 => DD x33 x2 | s43 => DD x33 x3 | s44 => DD x33 x4 | s45 => DD x33 x5 | s46 => DD x33 x6 | s47 => DD x33 x7 | s48 => DD x33 x8 | s49 => DD x33 x9 | s50 => DD x33 x10 | s51 => DD x33 x11 | s52 => DD x33 x12 | s53 => DD x33 x13 | s54 => DD x33 x14 | s55 => DD x33 x15 | s56 => DD x33 x16 | s57 => DD x33 x17 | s58 => DD x33 x18 | s59 => DD x33 x19 | s60 => DD x33 x20 | s61 => DD x33 x21 | s62 => DD x33 x22 | s63 => DD x33 x23 | s64 => DD x33 x24 | s65 => DD x33 x25 | s66 => DD x33 x26 | s67 => DD x33 x27 | s68 => DD x33 x28 | s69 => DD x33 x29 | s70 => DD x33 x30 | s71 => DD x33 x31 | s72 => DD x33 x32 | s73 => DD x33 x33 | s74 => DD x33 x34 | s75 => DD x33 x35 | s76 => DD x33 x36 | s77 => DD x33 x37 | s78 => DD x33 x38 | s79 => DD x33 x39 | s80 => DD x33 x40 | s81 => DD x33 x41 | s82 => DD x33 x42 | s83 => DD x33 x43 | s84 => DD x33 x44 | s85 => DD x33 x45 | s86 => DD x33 x46 | s87 => DD x33 x47 | s88 => DD x33 x48 | s89 => DD x33 x49 | s90 => DD x33 x50 | s91 => DD x33 x51 | s92 => DD x33 x52 | s93 => DD x33 x53 | s94 => DD x33 x54 | s95 => DD x33 x55 | s96 => DD x33 x56 | s97 => DD x33 x57 | s98 => DD x33 x58 | s99 => DD x33 x59 | s100 => DD x33 x60 | s101 => DD x33 x61 | s102 => DD x33 x62 | s103 => DD x33 x63 | s104 => DD x34 x0 | s105 => DD x34 x1 | s106 => DD x34 x2 | s107 => DD x34 x3 | s108 => DD x34 x4 | s109 => DD x34 x5 | s110 => DD x34 x6 | s111 => DD x34 x7 | s112 => DD x34 x8 | s113 => DD x34 x9 | s114 => DD x34 x10 | s115 => DD x34 x11 | s116 => DD x34 x12 | s117 => DD x34 x13 | s118 => DD x34 x14 | s119 => DD x34 x15 | s120 => DD x34 x16 | s121 => DD x34 x17 | s122 => DD x34 x18 | s123 => DD x34 x19 | s124 => DD x34 x20 | s125 => DD x34 x21 | s126 => DD x34 x22 end.
Definition m2074 (c : sum2) : dd := match c with s0 => DD x32 x26 | s1 => DD x32 x27 | s2 => DD x32 x28 | s3 => DD x32 x29 | s4 => DD x32 x30 | s5 => DD x32 x31 | s6 => DD x32 x32 | s7 => DD x32 x33 | s8 => DD x32 x34 | s9 => DD x32 x35 | s10 => DD x32 x36 | s11 => DD x32 x37 | s12 => DD x32 x38 | s13 => DD x32 x39 | s14 => DD x32 x40 | s15 => DD x32 x41 | s16 => DD x32 x42 | s17 => DD x32 x43 | s18 => DD x32 x44 | s19 => DD x32 x45 | s20 => DD x32 x46 | s21 => DD x32 x47 | s22 => DD x32 x48 | s23 => DD x32 x49 | s24 => DD x32 x50 | s25 => DD x32 x51 | s26 => DD x32 x52 | s27 => DD x32 x53 | s28 => DD x32 x54 | s29 => DD x32 x55 | s30 => DD x32 x56 | s31 => DD x32 x57 | s32 => DD x32 x58 | s33 => DD x32 x59 | s34 => DD x32 x60 | s35 => DD x32 x61 | s36 => DD x32 x62 | s37 => DD x32 x63 | s38 => DD x33 x0 | s39 => DD x33 x1 | s40 => DD x33 x2 | s41 => DD x33 x3 | s42 => DD x33 x4 | s43 => DD x33 x5 | s44 => DD x33 x6 | s45 => DD x33 x7 | s46 => DD x33 x8 | s47 => DD x33 x9 | s48 => DD x33 x10 | s49 => DD x33 x11 | s50 => DD x33 x12 | s51 => DD x33 x13 | s52 => DD x33 x14 | s53 => DD x33 x15 | s54 => DD x33 x16 | s55 => DD x33 x17 | s56 => DD x33 x18 | s57 => DD x33 x19 | s58 => DD x33 x20 | s59 => DD x33 x21 | s60 => DD x33 x22 | s61 => DD x33 x23 | s62 => DD x33 x24 | s63 => DD x33 x25 | s64 => DD x33 x26 | s65 => DD x33 x27 | s66 => DD x33 x28 | s67 => DD x33 x29 | s68 => DD x33 x30 | s69 => DD x33 x31 | s70 => DD x33 x32 | s71 => DD x33 x33 | s72 => DD x33 x34 | s73 => DD x33 x35 | s74 => DD x33 x36 | s75 => DD x33 x37 | s76 => DD x33 x38 | s77 => DD x33 x39 | s78 => DD x33 x40 | s79 => DD x33 x41 | s80 => DD x33 x42 | s81 => DD x33 x43 | s82 => DD x33 x44 | s83 => DD x33 x45 | s84 => DD x33 x46 | s85 => DD x33 x47 | s86 => DD x33 x48 | s87 => DD x33 x49 | s88 => DD x33 x50 | s89 => DD x33 x51 | s90 => DD x33 x52 | s91 => DD x33 x53 | s92 => DD x33 x54 | s93 => DD x33 x55 | s94 => DD x33 x56 | s95 => DD x33 x57 | s96 => DD x33 x58 | s97 => DD x33 x59 | s98 => DD x33 x60 | s99 => DD x33 x61 | s100 => DD x33 x62 | s101 => DD x33 x63 | s102 => DD x34 x0 | s103 => DD x34 x1 | s104 => DD x34 x2 | s105 => DD x34 x3 | s106 => DD x34 x4 | s107 => DD x34 x5 | s108 => DD x34 x6 | s109 => DD x34 x7 | s110 => DD x34 x8 | s111 => DD x34 x9 | s112 => DD x34 x10 | s113 => DD x34 x11 | s114 => DD x34 x12 | s115 => DD x34 x13 | s116 => DD x34 x14 | s117 => DD x34 x15 | s118 => DD x34 x16 | s119 => DD x34 x17 | s120 => DD x34 x18 | s121 => DD x34 x19 | s122 => DD x34 x20 | s123 => DD x34 x21 | s124 => DD x34 x22 | s125 => DD x34 x23 | s126 => DD x34 x24 end.
Definition m2079 (c : sum2) : dd := match c with s0 => DD x32 x31 | s1 => DD x32 x32 | s2 => DD x32 x33 | s3 => DD x32 x34 | s4 => DD x32 x35 | s5 => DD x32 x36 | s6 => DD x32 x37 | s7 => DD x32 x38 | s8 => DD x32 x39 | s9 => DD x32 x40 | s10 => DD x32 x41 | s11 => DD x32 x42 | s12 => DD x32 x43 | s13 => DD x32 x44 | s14 => DD x32 x45 | s15 => DD x32 x46 | s16 => DD x32 x47 | s17 => DD x32 x48 | s18 => DD x32 x49 | s19 => DD x32 x50 | s20 => DD x32 x51 | s21 => DD x32 x52 | s22 => DD x32 x53 | s23 => DD x32 x54 | s24 => DD x32 x55 | s25 => DD x32 x56 | s26 => DD x32 x57 | s27 => DD x32 x58 | s28 => DD x32 x59 | s29 => DD x32 x60 | s30 => DD x32 x61 | s31 => DD x32 x62 | s32 => DD x32 x63 | s33 => DD x33 x0 | s34 => DD x33 x1 | s35 => DD x33 x2 | s36 => DD x33 x3 | s37 => DD x33 x4 | s38 => DD x33 x5 | s39 => DD x33 x6 | s40 => DD x33 x7 | s41 => DD x33 x8 | s42 => DD x33 x9 | s43 => DD x33 x10 | s44 => DD x33 x11 | s45 => DD x33 x12 | s46 => DD x33 x13 | s47 => DD x33 x14 | s48 => DD x33 x15 | s49 => DD x33 x16 | s50 => DD x33 x17 | s51 => DD x33 x18 | s52 => DD x33 x19 | s53 => DD x33 x20 | s54 => DD x33 x21 | s55 => DD x33 x22 | s56 => DD x33 x23 | s57 => DD x33 x24 | s58 => DD x33 x25 | s59 => DD x33 x26 | s60 => DD x33 x27 | s61 => DD x33 x28 | s62 => DD x33 x29 | s63 => DD x33 x30 | s64 => DD x33 x31 | s65 => DD x33 x32 | s66 => DD x33 x33 | s67 => DD x33 x34 | s68 => DD x33 x35 | s69 => DD x33 x36 | s70 => DD x33 x37 | s71 => DD x33 x38 | s72 => DD x33 x39 | s73 => DD x33 x40 | s74 => DD x33 x41 | s75 => DD x33 x42 | s76 => DD x33 x43 | s77 => DD x33 x44 | s78 => DD x33 x45 | s79 => DD x33 x46 | s80 => DD x33 x47 | s81 => DD x33 x48 | s82 => DD x33 x49 | s83 => DD x33 x50 | s84 => DD x33 x51 | s85 => DD x33 x52 | s86 => DD x33 x53 | s87 => DD x33 x54 | s88 => DD x33 x55 | s89 => DD x33 x56 | s90 => DD x33 x57 | s91 => DD x33 x58 | s92 => DD x33 x59 | s93 => DD x33 x60 | s94 => DD x33 x61 | s95 => DD x33 x62 | s96 => DD x33 x63 | s97 => DD x34 x0 | s98 => DD x34 x1 | s99 => DD x34 x2 | s100 => DD x34 x3 | s101 => DD x34 x4 | s102 => DD x34 x5 | s103 => DD x34 x6 | s104 => DD x34 x7 | s105 => DD x34 x8 | s106 => DD x34 x9 | s107 => DD x34 x10 | s108 => DD x34 x11 | s109 => DD x34 x12 | s110 => DD x34 x13 | s111 => DD x34 x14 | s112 => DD x34 x15 | s113 => DD x34 x16 | s114 => DD x34 x17 | s115 => DD x34 x18 | s116 => DD x34 x19 | s117 => DD x34 x20 | s118 => DD x34 x21 | s119 => DD x34 x22 | s120 => DD x34 x23 | s121 => DD x34 x24 | s122 => DD x34 x25 | s123 => DD x34 x26 | s124 => DD x34 x27 | s125 => DD x34 x28 | s126 => DD x34 x29 end.
Definition m2080 (c : sum2) : dd := match c with s0 => DD x32 x32 | s1 => DD x32 x33 | s2 => DD x32 x34 | s3 => DD x32 x35 | s4 => DD x32 x36 | s5 => DD x32 x37 | s6 => DD x32 x38 | s7 => DD x32 x39 | s8 => DD x32 x40 | s9 => DD x32 x41 | s10 => DD x32 x42 | s11 => DD x32 x43 | s12 => DD x32 x44 | s13 => DD x32 x45 | s14 => DD x32 x46 | s15 => DD x32 x47 | s16 => DD x32 x48 | s17 => DD x32 x49 | s18 => DD x32 x50 | s19 => DD x32 x51 | s20 => DD x32 x52 | s21 => DD x32 x53 | s22 => DD x32 x54 | s23 => DD x32 x55 | s24 => DD x32 x56 | s25 => DD x32 x57 | s26 => DD x32 x58 | s27 => DD x32 x59 | s28 => DD x32 x60 | s29 => DD x32 x61 | s30 => DD x32 x62 | s31 => DD x32 x63 | s32 => DD x33 x0 | s33 => DD x33 x1 | s34 => DD x33 x2 | s35 => DD x33 x3 | s36 => DD x33 x4 | s37 => DD x33 x5 | s38 => DD x33 x6 | s39 => DD x33 x7 | s40 => DD x33 x8 | s41 => DD x33 x9 | s42 => DD x33 x10 | s43 => DD x33 x11 | s44 => DD x33 x12 | s45 => DD x33 x13 | s46 => DD x33 x14 | s47 => DD x33 x15 | s48 => DD x33 x16 | s49 => DD x33 x17 | s50 => DD x33 x18 | s51 => DD x33 x19 | s52 => DD x33 x20 | s53 => DD x33 x21 | s54 => DD x33 x22 | s55 => DD x33 x23 | s56 => DD x33 x24 | s57 => DD x33 x25 | s58 => DD x33 x26 | s59 => DD x33 x27 | s60 => DD x33 x28 | s61 => DD x33 x29 | s62 => DD x33 x30 | s63 => DD x33 x31 | s64 => DD x33 x32 | s65 => DD x33 x33 | s66 => DD x33 x34 | s67 => DD x33 x35 | s68 => DD x33 x36 | s69 => DD x33 x37 | s70 => DD x33 x38 | s71 => DD x33 x39 | s72 => DD x33 x40 | s73 => DD x33 x41 | s74 => DD x33 x42 | s75 => DD x33 x43 | s76 => DD x33 x44 | s77 => DD x33 x45 | s78 => DD x33 x46 | s79 => DD x33 x47 | s80 => DD x33 x48 | s81 => DD x33 x49 | s82 => DD x33 x50 | s83 => DD x33 x51 | s84 => DD x33 x52 | s85 => DD x33 x53 | s86 => DD x33 x54 | s87 => DD x33 x55 | s88 => DD x33 x56 | s89 => DD x33 x57 | s90 => DD x33 x58 | s91 => DD x33 x59 | s92 => DD x33 x60 | s93 => DD x33 x61 | s94 => DD x33 x62 | s95 => DD x33 x63 | s96 => DD x34 x0 | s97 => DD x34 x1 | s98 => DD x34 x2 | s99 => DD x34 x3 | s100 => DD x34 x4 | s101 => DD x34 x5 | s102 => DD x34 x6 | s103 => DD x34 x7 | s104 => DD x34 x8 | s105 => DD x34 x9 | s106 => DD x34 x10 | s107 => DD x34 x11 | s108 => DD x34 x12 | s109 => DD x34 x13 | s110 => DD x34 x14 | s111 => DD x34 x15 | s112 => DD x34 x16 | s113 => DD x34 x17 | s114 => DD x34 x18 | s115 => DD x34 x19 | s116 => DD x34 x20 | s117 => DD x34 x21 | s118 => DD x34 x22 | s119 => DD x34 x23 | s120 => DD x34 x24 | s121 => DD x34 x25 | s122 => DD x34 x26 | s123 => DD x34 x27 | s124 => DD x34 x28 | s125 => DD x34 x29 | s126 => DD x34 x30 end.
Definition m2088 (c : sum2) : dd := match c with s0 => DD x32 x40 | s1 => DD x32 x41 | s2 => DD x32 x42 | s3 => DD x32 x43 | s4 => DD x32 x44 | s5 => DD x32 x45 | s6 => DD x32 x46 | s7 => DD x32 x47 | s8 => DD x32 x48 | s9 => DD x32 x49 | s10 => DD x32 x50 | s11 => DD x32 x51 | s12 => DD x32 x52 | s13 => DD x32 x53 | s14 => DD x32 x54 | s15 => DD x32 x55 | s16 => DD x32 x56 | s17 => DD x32 x57 | s18 => DD x32 x58 | s19 => DD x32 x59 | s20 => DD x32 x60 | s21 => DD x32 x61 | s22 => DD x32 x62 | s23 => DD x32 x63 | s24 => DD x33 x0 | s25 => DD x33 x1 | s26 => DD x33 x2 | s27 => DD x33 x3 | s28 => DD x33 x4 | s29 => DD x33 x5 | s30 => DD x33 x6 | s31 => DD x33 x7 | s32 => DD x33 x8 | s33 => DD x33 x9 | s34 => DD x33 x10 | s35 => DD x33 x11 | s36 => DD x33 x12 | s37 => DD x33 x13 | s38 => DD x33 x14 | s39 => DD x33 x15 | s40 => DD x33 x16 | s41 => DD x33 x17 | s42 => DD x33 x18 | s43 => DD x33 x19 | s44 => DD x33 x20 | s45 => DD x33 x21 | s46 => DD x33 x22 | s47 => DD x33 x23 | s48 => DD x33 x24 | s49 => DD x33 x25 | s50 => DD x33 x26 | s51 => DD x33 x27 | s52 => DD x33 x28 | s53 => DD x33 x29 | s54 => DD x33 x30 | s55 => DD x33 x31 | s56 => DD x33 x32 | s57 => DD x33 x33 | s58 => DD x33 x34 | s59 => DD x33 x35 | s60 => DD x33 x36 | s61 => DD x33 x37 | s62 => DD x33 x38 | s63 => DD x33 x39 | s64 => DD x33 x40 | s65 => DD x33 x41 | s66 => DD x33 x42 | s67 => DD x33 x43 | s68 => DD x33 x44 | s69 => DD x33 x45 | s70 => DD x33 x46 | s71 => DD x33 x47 | s72 => DD x33 x48 | s73 => DD x33 x49 | s74 => DD x33 x50 | s75 => DD x33 x51 | s76 => DD x33 x52 | s77 => DD x33 x53 | s78 => DD x33 x54 | s79 => DD x33 x55 | s80 => DD x33 x56 | s81 => DD x33 x57 | s82 => DD x33 x58 | s83 => DD x33 x59 | s84 => DD x33 x60 | s85 => DD x33 x61 | s86 => DD x33 x62 | s87 => DD x33 x63 | s88 => DD x34 x0 | s89 => DD x34 x1 | s90 => DD x34 x2 | s91 => DD x34 x3 | s92 => DD x34 x4 | s93 => DD x34 x5 | s94 => DD x34 x6 | s95 => DD x34 x7 | s96 => DD x34 x8 | s97 => DD x34 x9 | s98 => DD x34 x10 | s99 => DD x34 x11 | s100 => DD x34 x12 | s101 => DD x34 x13 | s102 => DD x34 x14 | s103 => DD x34 x15 | s104 => DD x34 x16 | s105 => DD x34 x17 | s106 => DD x34 x18 | s107 => DD x34 x19 | s108 => DD x34 x20 | s109 => DD x34 x21 | s110 => DD x34 x22 | s111 => DD x34 x23 | s112 => DD x34 x24 | s113 => DD x34 x25 | s114 => DD x34 x26 | s115 => DD x34 x27 | s116 => DD x34 x28 | s117 => DD x34 x29 | s118 => DD x34 x30 | s119 => DD x34 x31 | s120 => DD x34 x32 | s121 => DD x34 x33 | s122 => DD x34 x34 | s123 => DD x34 x35 | s124 => DD x34 x36 | s125 => DD x34 x37 | s126 => DD x34 x38 end.
Definition m2090 (c : sum2) : dd := match c with s0 => DD x32 x42 | s1 => DD x32 x43 | s2 => DD x32 x44 | s3 => DD x32 x45 | s4 => DD x32 x46 | s5 => DD x32 x47 | s6 => DD x32 x48 | s7 => DD x32 x49 | s8 => DD x32 x50 | s9 => DD x32 x51 | s10 => DD x32 x52 | s11 => DD x32 x53 | s12 => DD x32 x54 | s13 => DD x32 x55 | s14 => DD x32 x56 | s15 => DD x32 x57 | s16 => DD x32 x58 | s17 => DD x32 x59 | s18 => DD x32 x60 | s19 => DD x32 x61 | s20 => DD x32 x62 | s21 => DD x32 x63 | s22 => DD x33 x0 | s23 => DD x33 x1 | s24 => DD x33 x2 | s25 => DD x33 x3 | s26 => DD x33 x4 | s27 => DD x33 x5 | s28 => DD x33 x6 | s29 => DD x33 x7 | s30 => DD x33 x8 | s31 => DD x33 x9 | s32 => DD x33 x10 | s33 => DD x33 x11 | s34 => DD x33 x12 | s35 => DD x33 x13 | s36 => DD x33 x14 | s37 => DD x33 x15 | s38 => DD x33 x16 | s39 => DD x33 x17 | s40 => DD x33 x18 | s41 => DD x33 x19 | s42 => DD x33 x20 | s43 => DD x33 x21 | s44 => DD x33 x22 | s45 => DD x33 x23 | s46 => DD x33 x24 | s47 => DD x33 x25 | s48 => DD x33 x26 | s49 => DD x33 x27 | s50 => DD x33 x28 | s51 => DD x33 x29 | s52 => DD x33 x30 | s53 => DD x33 x31 | s54 => DD x33 x32 | s55 => DD x33 x33 | s56 => DD x33 x34 | s57 => DD x33 x35 | s58 => DD x33 x36 | s59 => DD x33 x37 | s60 => DD x33 x38 | s61 => DD x33 x39 | s62 => DD x33 x40 | s63 => DD x33 x41 | s64 => DD x33 x42 | s65 => DD x33 x43 | s66 => DD x33 x44 | s67 => DD x33 x45 | s68 => DD x33 x46 | s69 => DD x33 x47 | s70 => DD x33 x48 | s71 => DD x33 x49 | s72 => DD x33 x50 | s73 => DD x33 x51 | s74 => DD x33 x52 | s75 => DD x33 x53 | s76 => DD x33 x54 | s77 => DD x33 x55 | s78 => DD x33 x56 | s79 => DD x33 x57 | s80 => DD x33 x58 | s81 => DD x33 x59 | s82 => DD x33 x60 | s83 => DD x33 x61 | s84 => DD x33 x62 | s85 => DD x33 x63 | s86 => DD x34 x0 | s87 => DD x34 x1 | s88 => DD x34 x2 | s89 => DD x34 x3 | s90 => DD x34 x4 | s91 => DD x34 x5 | s92 => DD x34 x6 | s93 => DD x34 x7 | s94 => DD x34 x8 | s95 => DD x34 x9 | s96 => DD x34 x10 | s97 => DD x34 x11 | s98 => DD x34 x12 | s99 => DD x34 x13 | s100 => DD x34 x14 | s101 => DD x34 x15 | s102 => DD x34 x16 | s103 => DD x34 x17 | s104 => DD x34 x18 | s105 => DD x34 x19 | s106 => DD x34 x20 | s107 => DD x34 x21 | s108 => DD x34 x22 | s109 => DD x34 x23 | s110 => DD x34 x24 | s111 => DD x34 x25 | s112 => DD x34 x26 | s113 => DD x34 x27 | s114 => DD x34 x28 | s115 => DD x34 x29 | s116 => DD x34 x30 | s117 => DD x34 x31 | s118 => DD x34 x32 | s119 => DD x34 x33 | s120 => DD x34 x34 | s121 => DD x34 x35 | s122 => DD x34 x36 | s123 => DD x34 x37 | s124 => DD x34 x38 | s125 => DD x34 x39 | s126 => DD x34 x40 end.
Definition m2091 (c : sum2) : dd := match c with s0 => DD x32 x43 | s1 => DD x32 x44 | s2 => DD x32 x45 | s3 => DD x32 x46 | s4 => DD x32 x47 | s5 => DD x32 x48 | s6 => DD x32 x49 | s7 => DD x32 x50 | s8 => DD x32 x51 | s9 => DD x32 x52 | s10 => DD x32 x53 | s11 => DD x32 x54 | s12 => DD x32 x55 | s13 => DD x32 x56 | s14 => DD x32 x57 | s15 => DD x32 x58 | s16 => DD x32 x59 | s17 => DD x32 x60 | s18 => DD x32 x61 | s19 => DD x32 x62 | s20 => DD x32 x63 | s21 => DD x33 x0 | s22 => DD x33 x1 | s23 => DD x33 x2 | s24 => DD x33 x3 | s25 => DD x33 x4 | s26 => DD x33 x5 | s27 => DD x33 x6 | s28 => DD x33 x7 | s29 => DD x33 x8 | s30 => DD x33 x9 | s31 => DD x33 x10 | s32 => DD x33 x11 | s33 => DD x33 x12 | s34 => DD x33 x13 | s35 => DD x33 x14 | s36 => DD x33 x15 | s37 => DD x33 x16 | s38 => DD x33 x17 | s39 => DD x33 x18 | s40 => DD x33 x19 | s41 => DD x33 x20 | s42 => DD x33 x21 | s43 => DD x33 x22 | s44 => DD x33 x23 | s45 => DD x33 x24 | s46 => DD x33 x25 | s47 => DD x33 x26 | s48 => DD x33 x27 | s49 => DD x33 x28 | s50 => DD x33 x29 | s51 => DD x33 x30 | s52 => DD x33 x31 | s53 => DD x33 x32 | s54 => DD x33 x33 | s55 => DD x33 x34 | s56 => DD x33 x35 | s57 => DD x33 x36 | s58 => DD x33 x37 | s59 => DD x33 x38 | s60 => DD x33 x39 | s61 => DD x33 x40 | s62 => DD x33 x41 | s63 => DD x33 x42 | s64 => DD x33 x43 | s65 => DD x33 x44 | s66 => DD x33 x45 | s67 => DD x33 x46 | s68 => DD x33 x47 | s69 => DD x33 x48 | s70 => DD x33 x49 | s71 => DD x33 x50 | s72 => DD x33 x51 | s73 => DD x33 x52 | s74 => DD x33 x53 | s75 => DD x33 x54 | s76 => DD x33 x55 | s77 => DD x33 x56 | s78 => DD x33 x57 | s79 => DD x33 x58 | s80 => DD x33 x59 | s81 => DD x33 x60 | s82 => DD x33 x61 | s83 => DD x33 x62 | s84 => DD x33 x63 | s85 => DD x34 x0 | s86 => DD x34 x1 | s87 => DD x34 x2 | s88 => DD x34 x3 | s89 => DD x34 x4 | s90 => DD x34 x5 | s91 => DD x34 x6 | s92 => DD x34 x7 | s93 => DD x34 x8 | s94 => DD x34 x9 | s95 => DD x34 x10 | s96 => DD x34 x11 | s97 => DD x34 x12 | s98 => DD x34 x13 | s99 => DD x34 x14 | s100 => DD x34 x15 | s101 => DD x34 x16 | s102 => DD x34 x17 | s103 => DD x34 x18 | s104 => DD x34 x19 | s105 => DD x34 x20 | s106 => DD x34 x21 | s107 => DD x34 x22 | s108 => DD x34 x23 | s109 => DD x34 x24 | s110 => DD x34 x25 | s111 => DD x34 x26 | s112 => DD x34 x27 | s113 => DD x34 x28 | s114 => DD x34 x29 | s115 => DD x34 x30 | s116 => DD x34 x31 | s117 => DD x34 x32 | s118 => DD x34 x33 | s119 => DD x34 x34 | s120 => DD x34 x35 | s121 => DD x34 x36 | s122 => DD x34 x37 | s123 => DD x34 x38 | s124 => DD x34 x39 | s125 => DD x34 x40 | s126 => DD x34 x41 end.
Definition m2100 (c : sum2) : dd := match c with s0 => DD x32 x52 | s1 => DD x32 x53 | s2 => DD x32 x54 | s3 => DD x32 x55 | s4 => DD x32 x56 | s5 => DD x32 x57 | s6 => DD x32 x58 | s7 => DD x32 x59 | s8 => DD x32 x60 | s9 => DD x32 x61 | s10 => DD x32 x62 | s11 => DD x32 x63 | s12 => DD x33 x0 | s13 => DD x33 x1 | s14 => DD x33 x2 | s15 => DD x33 x3 | s16 => DD x33 x4 | s17 => DD x33 x5 | s18 => DD x33 x6 | s19 => DD x33 x7 | s20 => DD x33 x8 | s21 => DD x33 x9 | s22 => DD x33 x10 | s23 => DD x33 x11 | s24 => DD x33 x12 | s25 => DD x33 x13 | s26 => DD x33 x14 | s27 => DD x33 x15 | s28 => DD x33 x16 | s29 => DD x33 x17 | s30 => DD x33 x18 | s31 => DD x33 x19 | s32 => DD x33 x20 | s33 => DD x33 x21 | s34 => DD x33 x22 | s35 => DD x33 x23 | s36 => DD x33 x24 | s37 => DD x33 x25 | s38 => DD x33 x26 | s39 => DD x33 x27 | s40 => DD x33 x28 | s41 => DD x33 x29 | s42 => DD x33 x30 | s43 => DD x33 x31 | s44 => DD x33 x32 | s45 => DD x33 x33 | s46 => DD x33 x34 | s47 => DD x33 x35 | s48 => DD x33 x36 | s49 => DD x33 x37 | s50 => DD x33 x38 | s51 => DD x33 x39 | s52 => DD x33 x40 | s53 => DD x33 x41 | s54 => DD x33 x42 | s55 => DD x33 x43 | s56 => DD x33 x44 | s57 => DD x33 x45 | s58 => DD x33 x46 | s59 => DD x33 x47 | s60 => DD x33 x48 | s61 => DD x33 x49 | s62 => DD x33 x50 | s63 => DD x33 x51 | s64 => DD x33 x52 | s65 => DD x33 x53 | s66 => DD x33 x54 | s67 => DD x33 x55 | s68 => DD x33 x56 | s69 => DD x33 x57 | s70 => DD x33 x58 | s71 => DD x33 x59 | s72 => DD x33 x60 | s73 => DD x33 x61 | s74 => DD x33 x62 | s75 => DD x33 x63 | s76 => DD x34 x0 | s77 => DD x34 x1 | s78 => DD x34 x2 | s79 => DD x34 x3 | s80 => DD x34 x4 | s81 => DD x34 x5 | s82 => DD x34 x6 | s83 => DD x34 x7 | s84 => DD x34 x8 | s85 => DD x34 x9 | s86 => DD x34 x10 | s87 => DD x34 x11 | s88 => DD x34 x12 | s89 => DD x34 x13 | s90 => DD x34 x14 | s91 => DD x34 x15 | s92 => DD x34 x16 | s93 => DD x34 x17 | s94 => DD x34 x18 | s95 => DD x34 x19 | s96 => DD x34 x20 | s97 => DD x34 x21 | s98 => DD x34 x22 | s99 => DD x34 x23 | s100 => DD x34 x24 | s101 => DD x34 x25 | s102 => DD x34 x26 | s103 => DD x34 x27 | s104 => DD x34 x28 | s105 => DD x34 x29 | s106 => DD x34 x30 | s107 => DD x34 x31 | s108 => DD x34 x32 | s109 => DD x34 x33 | s110 => DD x34 x34 | s111 => DD x34 x35 | s112 => DD x34 x36 | s113 => DD x34 x37 | s114 => DD x34 x38 | s115 => DD x34 x39 | s116 => DD x34 x40 | s117 => DD x34 x41 | s118 => DD x34 x42 | s119 => DD x34 x43 | s120 => DD x34 x44 | s121 => DD x34 x45 | s122 => DD x34 x46 | s123 => DD x34 x47 | s124 => DD x34 x48 | s125 => DD x34 x49 | s126 => DD x34 x50 end.
Definition m2106 (c : sum2) : dd := match c with s0 => DD x32 x58 | s1 => DD x32 x59 | s2 => DD x32 x60 | s3 => DD x32 x61 | s4 => DD x32 x62 | s5 => DD x32 x63 | s6 => DD x33 x0 | s7 => DD x33 x1 | s8 => DD x33 x2 | s9 => DD x33 x3 | s10 => DD x33 x4 | s11 => DD x33 x5 | s12 => DD x33 x6 | s13 => DD x33 x7 | s14 => DD x33 x8 | s15 => DD x33 x9 | s16 => DD x33 x10 | s17 => DD x33 x11 | s18 => DD x33 x12 | s19 => DD x33 x13 | s20 => DD x33 x14 | s21 => DD x33 x15 | s22 => DD x33 x16 | s23 => DD x33 x17 | s24 => DD x33 x18 | s25 => DD x33 x19 | s26 => DD x33 x20 | s27 => DD x33 x21 | s28 => DD x33 x22 | s29 => DD x33 x23 | s30 => DD x33 x24 | s31 => DD x33 x25 | s32 => DD x33 x26 | s33 => DD x33 x27 | s34 => DD x33 x28 | s35 => DD x33 x29 | s36 => DD x33 x30 | s37 => DD x33 x31 | s38 => DD x33 x32 | s39 => DD x33 x33 | s40 => DD x33 x34 | s41 => DD x33 x35 | s42 => DD x33 x36 | s43 => DD x33 x37 | s44 => DD x33 x38 | s45 => DD x33 x39 | s46 => DD x33 x40 | s47 => DD x33 x41 | s48 => DD x33 x42 | s49 => DD x33 x43 | s50 => DD x33 x44 | s51 => DD x33 x45 | s52 => DD x33 x46 | s53 => DD x33 x47 | s54 => DD x33 x48 | s55 => DD x33 x49 | s56 => DD x33 x50 | s57 => DD x33 x51 | s58 => DD x33 x52 | s59 => DD x33 x53 | s60 => DD x33 x54 | s61 => DD x33 x55 | s62 => DD x33 x56 | s63 => DD x33 x57 | s64 => DD x33 x58 | s65 => DD x33 x59 | s66 => DD x33 x60 | s67 => DD x33 x61 | s68 => DD x33 x62 | s69 => DD x33 x63 | s70 => DD x34 x0 | s71 => DD x34 x1 | s72 => DD x34 x2 | s73 => DD x34 x3 | s74 => DD x34 x4 | s75 => DD x34 x5 | s76 => DD x34 x6 | s77 => DD x34 x7 | s78 => DD x34 x8 | s79 => DD x34 x9 | s80 => DD x34 x10 | s81 => DD x34 x11 | s82 => DD x34 x12 | s83 => DD x34 x13 | s84 => DD x34 x14 | s85 => DD x34 x15 | s86 => DD x34 x16 | s87 => DD x34 x17 | s88 => DD x34 x18 | s89 => DD x34 x19 | s90 => DD x34 x20 | s91 => DD x34 x21 | s92 => DD x34 x22 | s93 => DD x34 x23 | s94 => DD x34 x24 | s95 => DD x34 x25 | s96 => DD x34 x26 | s97 => DD x34 x27 | s98 => DD x34 x28 | s99 => DD x34 x29 | s100 => DD x34 x30 | s101 => DD x34 x31 | s102 => DD x34 x32 | s103 => DD x34 x33 | s104 => DD x34 x34 | s105 => DD x34 x35 | s106 => DD x34 x36 | s107 => DD x34 x37 | s108 => DD x34 x38 | s109 => DD x34 x39 | s110 => DD x34 x40 | s111 => DD x34 x41 | s112 => DD x34 x42 | s113 => DD x34 x43 | s114 => DD x34 x44 | s115 => DD x34 x45 | s116 => DD x34 x46 | s117 => DD x34 x47 | s118 => DD x34 x48 | s119 => DD x34 x49 | s120 => DD x34 x50 | s121 => DD x34 x51 | s122 => DD x34 x52 | s123 => DD x34 x53 | s124 => DD x34 x54 | s125 => DD x34 x55 | s126 => DD x34 x56 end.
Definition m2107 (c : sum2) : dd := match c with s0 => DD x32 x59 | s1 => DD x32 x60 | s2 => DD x32 x61 | s3 => DD x32 x62 | s4 => DD x32 x63 | s5 => DD x33 x0 | s6 => DD x33 x1 | s7 => DD x33 x2 | s8 => DD x33 x3 | s9 => DD x33 x4 | s10 => DD x33 x5 | s11 => DD x33 x6 | s12 => DD x33 x7 | s13 => DD x33 x8 | s14 => DD x33 x9 | s15 => DD x33 x10 | s16 => DD x33 x11 | s17 => DD x33 x12 | s18 => DD x33 x13 | s19 => DD x33 x14 | s20 => DD x33 x15 | s21 => DD x33 x16 | s22 => DD x33 x17 | s23 => DD x33 x18 | s24 => DD x33 x19 | s25 => DD x33 x20 | s26 => DD x33 x21 | s27 => DD x33 x22 | s28 => DD x33 x23 | s29 => DD x33 x24 | s30 => DD x33 x25 | s31 => DD x33 x26 | s32 => DD x33 x27 | s33 => DD x33 x28 | s34 => DD x33 x29 | s35 => DD x33 x30 | s36 => DD x33 x31 | s37 => DD x33 x32 | s38 => DD x33 x33 | s39 => DD x33 x34 | s40 => DD x33 x35 | s41 => DD x33 x36 | s42 => DD x33 x37 | s43 => DD x33 x38 | s44 => DD x33 x39 | s45 => DD x33 x40 | s46 => DD x33 x41 | s47 => DD x33 x42 | s48 => DD x33 x43 | s49 => DD x33 x44 | s50 => DD x33 x45 | s51 => DD x33 x46 | s52 => DD x33 x47 | s53 => DD x33 x48 | s54 => DD x33 x49 | s55 => DD x33 x50 | s56 => DD x33 x51 | s57 => DD x33 x52 | s58 => DD x33 x53 | s59 => DD x33 x54 | s60 => DD x33 x55 | s61 => DD x33 x56 | s62 => DD x33 x57 | s63 => DD x33 x58 | s64 => DD x33 x59 | s65 => DD x33 x60 | s66 => DD x33 x61 | s67 => DD x33 x62 | s68 => DD x33 x63 | s69 => DD x34 x0 | s70 => DD x34 x1 | s71 => DD x34 x2 | s72 => DD x34 x3 | s73 => DD x34 x4 | s74 => DD x34 x5 | s75 => DD x34 x6 | s76 => DD x34 x7 | s77 => DD x34 x8 | s78 => DD x34 x9 | s79 => DD x34 x10 | s80 => DD x34 x11 | s81 => DD x34 x12 | s82 => DD x34 x13 | s83 => DD x34 x14 | s84 => DD x34 x15 | s85 => DD x34 x16 | s86 => DD x34 x17 | s87 => DD x34 x18 | s88 => DD x34 x19 | s89 => DD x34 x20 | s90 => DD x34 x21 | s91 => DD x34 x22 | s92 => DD x34 x23 | s93 => DD x34 x24 | s94 => DD x34 x25 | s95 => DD x34 x26 | s96 => DD x34 x27 | s97 => DD x34 x28 | s98 => DD x34 x29 | s99 => DD x34 x30 | s100 => DD x34 x31 | s101 => DD x34 x32 | s102 => DD x34 x33 | s103 => DD x34 x34 | s104 => DD x34 x35 | s105 => DD x34 x36 | s106 => DD x34 x37 | s107 => DD x34 x38 | s108 => DD x34 x39 | s109 => DD x34 x40 | s110 => DD x34 x41 | s111 => DD x34 x42 | s112 => DD x34 x43 | s113 => DD x34 x44 | s114 => DD x34 x45 | s115 => DD x34 x46 | s116 => DD x34 x47 | s117 => DD x34 x48 | s118 => DD x34 x49 | s119 => DD x34 x50 | s120 => DD x34 x51 | s121 => DD x34 x52 | s122 => DD x34 x53 | s123 => DD x34 x54 | s124 => DD x34 x55 | s125 => DD x34 x56 | s126 => DD x34 x57 end.
Definition m2108 (c : sum2) : dd := match c with s0 => DD x32 x60 | s1 => DD x32 x61 | s2 => DD x32 x62 | s3 => DD x32 x63 | s4 => DD x33 x0 | s5 => DD x33 x1 | s6 => DD x33 x2 | s7 => DD x33 x3 | s8 => DD x33 x4 | s9 => DD x33 x5 | s10 => DD x33 x6 | s11 => DD x33 x7 | s12 => DD x33 x8 | s13 => DD x33 x9 | s14 => DD x33 x10 | s15 => DD x33 x11 | s16 => DD x33 x12 | s17 => DD x33 x13 | s18 => DD x33 x14 | s19 => DD x33 x15 | s20 => DD x33 x16 | s21 => DD x33 x17 | s22 => DD x33 x18 | s23 => DD x33 x19 | s24 => DD x33 x20 | s25 => DD x33 x21 | s26 => DD x33 x22 | s27 => DD x33 x23 | s28 => DD x33 x24 | s29 => DD x33 x25 | s30 => DD x33 x26 | s31 => DD x33 x27 | s32 => DD x33 x28 | s33 => DD x33 x29 | s34 => DD x33 x30 | s35 => DD x33 x31 | s36 => DD x33 x32 | s37 => DD x33 x33 | s38 => DD x33 x34 | s39 => DD x33 x35 | s40 => DD x33 x36 | s41 => DD x33 x37 | s42 => DD x33 x38 | s43 => DD x33 x39 | s44 => DD x33 x40 | s45 => DD x33 x41 | s46 => DD x33 x42 | s47 => DD x33 x43 | s48 => DD x33 x44 | s49 => DD x33 x45 | s50 => DD x33 x46 | s51 => DD x33 x47 | s52 => DD x33 x48 | s53 => DD x33 x49 | s54 => DD x33 x50 | s55 => DD x33 x51 | s56 => DD x33 x52 | s57 => DD x33 x53 | s58 => DD x33 x54 | s59 => DD x33 x55 | s60 => DD x33 x56 | s61 => DD x33 x57 | s62 => DD x33 x58 | s63 => DD x33 x59 | s64 => DD x33 x60 | s65 => DD x33 x61 | s66 => DD x33 x62 | s67 => DD x33 x63 | s68 => DD x34 x0 | s69 => DD x34 x1 | s70 => DD x34 x2 | s71 => DD x34 x3 | s72 => DD x34 x4 | s73 => DD x34 x5 | s74 => DD x34 x6 | s75 => DD x34 x7 | s76 => DD x34 x8 | s77 => DD x34 x9 | s78 => DD x34 x10 | s79 => DD x34 x11 | s80 => DD x34 x12 | s81 => DD x34 x13 | s82 => DD x34 x14 | s83 => DD x34 x15 | s84 => DD x34 x16 | s85 => DD x34 x17 | s86 => DD x34 x18 | s87 => DD x34 x19 | s88 => DD x34 x20 | s89 => DD x34 x21 | s90 => DD x34 x22 | s91 => DD x34 x23 | s92 => DD x34 x24 | s93 => DD x34 x25 | s94 => DD x34 x26 | s95 => DD x34 x27 | s96 => DD x34 x28 | s97 => DD x34 x29 | s98 => DD x34 x30 | s99 => DD x34 x31 | s100 => DD x34 x32 | s101 => DD x34 x33 | s102 => DD x34 x34 | s103 => DD x34 x35 | s104 => DD x34 x36 | s105 => DD x34 x37 | s106 => DD x34 x38 | s107 => DD x34 x39 | s108 => DD x34 x40 | s109 => DD x34 x41 | s110 => DD x34 x42 | s111 => DD x34 x43 | s112 => DD x34 x44 | s113 => DD x34 x45 | s114 => DD x34 x46 | s115 => DD x34 x47 | s116 => DD x34 x48 | s117 => DD x34 x49 | s118 => DD x34 x50 | s119 => DD x34 x51 | s120 => DD x34 x52 | s121 => DD x34 x53 | s122 => DD x34 x54 | s123 => DD x34 x55 | s124 => DD x34 x56 | s125 => DD x34 x57 | s126 => DD x34 x58 end.
Definition m2109 (c : sum2) : dd := match c with s0 => DD x32 x61 | s1 => DD x32 x62 | s2 => DD x32 x63 | s3 => DD x33 x0 | s4 => DD x33 x1 | s5 => DD x33 x2 | s6 => DD x33 x3 | s7 => DD x33 x4 | s8 => DD x33 x5 | s9 => DD x33 x6 | s10 => DD x33 x7 | s11 => DD x33 x8 | s12 => DD x33 x9 | s13 => DD x33 x10 | s14 => DD x33 x11 | s15 => DD x33 x12 | s16 => DD x33 x13 | s17 => DD x33 x14 | s18 => DD x33 x15 | s19 => DD x33 x16 | s20 => DD x33 x17 | s21 => DD x33 x18 | s22 => DD x33 x19 | s23 => DD x33 x20 | s24 => DD x33 x21 | s25 => DD x33 x22 | s26 => DD x33 x23 | s27 => DD x33 x24 | s28 => DD x33 x25 | s29 => DD x33 x26 | s30 => DD x33 x27 | s31 => DD x33 x28 | s32 => DD x33 x29 | s33 => DD x33 x30 | s34 => DD x33 x31 | s35 => DD x33 x32 | s36 => DD x33 x33 | s37 => DD x33 x34 | s38 => DD x33 x35 | s39 => DD x33 x36 | s40 => DD x33 x37 | s41 => DD x33 x38 | s42 => DD x33 x39 | s43 => DD x33 x40 | s44 => DD x33 x41 | s45 => DD x33 x42 | s46 => DD x33 x43 | s47 => DD x33 x44 | s48 => DD x33 x45 | s49 => DD x33 x46 | s50 => DD x33 x47 | s51 => DD x33 x48 | s52 => DD x33 x49 | s53 => DD x33 x50 | s54 => DD x33 x51 | s55 => DD x33 x52 | s56 => DD x33 x53 | s57 => DD x33 x54 | s58 => DD x33 x55 | s59 => DD x33 x56 | s60 => DD x33 x57 | s61 => DD x33 x58 | s62 => DD x33 x59 | s63 => DD x33 x60 | s64 => DD x33 x61 | s65 => DD x33 x62 | s66 => DD x33 x63 | s67 => DD x34 x0 | s68 => DD x34 x1 | s69 => DD x34 x2 | s70 => DD x34 x3 | s71 => DD x34 x4 | s72 => DD x34 x5 | s73 => DD x34 x6 | s74 => DD x34 x7 | s75 => DD x34 x8 | s76 => DD x34 x9 | s77 => DD x34 x10 | s78 => DD x34 x11 | s79 => DD x34 x12 | s80 => DD x34 x13 | s81 => DD x34 x14 | s82 => DD x34 x15 | s83 => DD x34 x16 | s84 => DD x34 x17 | s85 => DD x34 x18 | s86 => DD x34 x19 | s87 => DD x34 x20 | s88 => DD x34 x21 | s89 => DD x34 x22 | s90 => DD x34 x23 | s91 => DD x34 x24 | s92 => DD x34 x25 | s93 => DD x34 x26 | s94 => DD x34 x27 | s95 => DD x34 x28 | s96 => DD x34 x29 | s97 => DD x34 x30 | s98 => DD x34 x31 | s99 => DD x34 x32 | s100 => DD x34 x33 | s101 => DD x34 x34 | s102 => DD x34 x35 | s103 => DD x34 x36 | s104 => DD x34 x37 | s105 => DD x34 x38 | s106 => DD x34 x39 | s107 => DD x34 x40 | s108 => DD x34 x41 | s109 => DD x34 x42 | s110 => DD x34 x43 | s111 => DD x34 x44 | s112 => DD x34 x45 | s113 => DD x34 x46 | s114 => DD x34 x47 | s115 => DD x34 x48 | s116 => DD x34 x49 | s117 => DD x34 x50 | s118 => DD x34 x51 | s119 => DD x34 x52 | s120 => DD x34 x53 | s121 => DD x34 x54 | s122 => DD x34 x55 | s123 => DD x34 x56 | s124 => DD x34 x57 | s125 => DD x34 x58 | s126 => DD x34 x59 end.
Definition m2112 (c : sum2) : dd := match c with s0 => DD x33 x0 | s1 => DD x33 x1 | s2 => DD x33 x2 | s3 => DD x33 x3 | s4 => DD x33 x4 | s5 => DD x33 x5 | s6 => DD x33 x6 | s7 => DD x33 x7 | s8 => DD x33 x8 | s9 => DD x33 x9 | s10 => DD x33 x10 | s11 => DD x33 x11 | s12 => DD x33 x12 | s13 => DD x33 x13 | s14 => DD x33 x14 | s15 => DD x33 x15 | s16 => DD x33 x16 | s17 => DD x33 x17 | s18 => DD x33 x18 | s19 => DD x33 x19 | s20 => DD x33 x20 | s21 => DD x33 x21 | s22 => DD x33 x22 | s23 => DD x33 x23 | s24 => DD x33 x24 | s25 => DD x33 x25 | s26 => DD x33 x26 | s27 => DD x33 x27 | s28 => DD x33 x28 | s29 => DD x33 x29 | s30 => DD x33 x30 | s31 => DD x33 x31 | s32 => DD x33 x32 | s33 => DD x33 x33 | s34 => DD x33 x34 | s35 => DD x33 x35 | s36 => DD x33 x36 | s37 => DD x33 x37 | s38 => DD x33 x38 | s39 => DD x33 x39 | s40 => DD x33 x40 | s41 => DD x33 x41 | s42 => DD x33 x42 | s43 => DD x33 x43 | s44 => DD x33 x44 | s45 => DD x33 x45 | s46 => DD x33 x46 | s47 => DD x33 x47 | s48 => DD x33 x48 | s49 => DD x33 x49 | s50 => DD x33 x50 | s51 => DD x33 x51 | s52 => DD x33 x52 | s53 => DD x33 x53 | s54 => DD x33 x54 | s55 => DD x33 x55 | s56 => DD x33 x56 | s57 => DD x33 x57 | s58 => DD x33 x58 | s59 => DD x33 x59 | s60 => DD x33 x60 | s61 => DD x33 x61 | s62 => DD x33 x62 | s63 => DD x33 x63 | s64 => DD x34 x0 | s65 => DD x34 x1 | s66 => DD x34 x2 | s67 => DD x34 x3 | s68 => DD x34 x4 | s69 => DD x34 x5 | s70 => DD x34 x6 | s71 => DD x34 x7 | s72 => DD x34 x8 | s73 => DD x34 x9 | s74 => DD x34 x10 | s75 => DD x34 x11 | s76 => DD x34 x12 | s77 => DD x34 x13 | s78 => DD x34 x14 | s79 => DD x34 x15 | s80 => DD x34 x16 | s81 => DD x34 x17 | s82 => DD x34 x18 | s83 => DD x34 x19 | s84 => DD x34 x20 | s85 => DD x34 x21 | s86 => DD x34 x22 | s87 => DD x34 x23 | s88 => DD x34 x24 | s89 => DD x34 x25 | s90 => DD x34 x26 | s91 => DD x34 x27 | s92 => DD x34 x28 | s93 => DD x34 x29 | s94 => DD x34 x30 | s95 => DD x34 x31 | s96 => DD x34 x32 | s97 => DD x34 x33 | s98 => DD x34 x34 | s99 => DD x34 x35 | s100 => DD x34 x36 | s101 => DD x34 x37 | s102 => DD x34 x38 | s103 => DD x34 x39 | s104 => DD x34 x40 | s105 => DD x34 x41 | s106 => DD x34 x42 | s107 => DD x34 x43 | s108 => DD x34 x44 | s109 => DD x34 x45 | s110 => DD x34 x46 | s111 => DD x34 x47 | s112 => DD x34 x48 | s113 => DD x34 x49 | s114 => DD x34 x50 | s115 => DD x34 x51 | s116 => DD x34 x52 | s117 => DD x34 x53 | s118 => DD x34 x54 | s119 => DD x34 x55 | s120 => DD x34 x56 | s121 => DD x34 x57 | s122 => DD x34 x58 | s123 => DD x34 x59 | s124 => DD x34 x60 | s125 => DD x34 x61 | s126 => DD x34 x62 end.
Definition m2115 (c : sum2) : dd := match c with s0 => DD x33 x3 | s1 => DD x33 x4 | s2 => DD x33 x5 | s3 => DD x33 x6 | s4 => DD x33 x7 | s5 => DD x33 x8 | s6 => DD x33 x9 | s7 => DD x33 x10 | s8 => DD x33 x11 | s9 => DD x33 x12 | s10 => DD x33 x13 | s11 => DD x33 x14 | s12 => DD x33 x15 | s13 => DD x33 x16 | s14 => DD x33 x17 | s15 => DD x33 x18 | s16 => DD x33 x19 | s17 => DD x33 x20 | s18 => DD x33 x21 | s19 => DD x33 x22 | s20 => DD x33 x23 | s21 => DD x33 x24 | s22 => DD x33 x25 | s23 => DD x33 x26 | s24 => DD x33 x27 | s25 => DD x33 x28 | s26 => DD x33 x29 | s27 => DD x33 x30 | s28 => DD x33 x31 | s29 => DD x33 x32 | s30 => DD x33 x33 | s31 => DD x33 x34 | s32 => DD x33 x35 | s33 => DD x33 x36 | s34 => DD x33 x37 | s35 => DD x33 x38 | s36 => DD x33 x39 | s37 => DD x33 x40 | s38 => DD x33 x41 | s39 => DD x33 x42 | s40 => DD x33 x43 | s41 => DD x33 x44 | s42 => DD x33 x45 | s43 => DD x33 x46 | s44 => DD x33 x47 | s45 => DD x33 x48 | s46 => DD x33 x49 | s47 => DD x33 x50 | s48 => DD x33 x51 | s49 => DD x33 x52 | s50 => DD x33 x53 | s51 => DD x33 x54 | s52 => DD x33 x55 | s53 => DD x33 x56 | s54 => DD x33 x57 | s55 => DD x33 x58 | s56 => DD x33 x59 | s57 => DD x33 x60 | s58 => DD x33 x61 | s59 => DD x33 x62 | s60 => DD x33 x63 | s61 => DD x34 x0 | s62 => DD x34 x1 | s63 => DD x34 x2 | s64 => DD x34 x3 | s65 => DD x34 x4 | s66 => DD x34 x5 | s67 => DD x34 x6 | s68 => DD x34 x7 | s69 => DD x34 x8 | s70 => DD x34 x9 | s71 => DD x34 x10 | s72 => DD x34 x11 | s73 => DD x34 x12 | s74 => DD x34 x13 | s75 => DD x34 x14 | s76 => DD x34 x15 | s77 => DD x34 x16 | s78 => DD x34 x17 | s79 => DD x34 x18 | s80 => DD x34 x19 | s81 => DD x34 x20 | s82 => DD x34 x21 | s83 => DD x34 x22 | s84 => DD x34 x23 | s85 => DD x34 x24 | s86 => DD x34 x25 | s87 => DD x34 x26 | s88 => DD x34 x27 | s89 => DD x34 x28 | s90 => DD x34 x29 | s91 => DD x34 x30 | s92 => DD x34 x31 | s93 => DD x34 x32 | s94 => DD x34 x33 | s95 => DD x34 x34 | s96 => DD x34 x35 | s97 => DD x34 x36 | s98 => DD x34 x37 | s99 => DD x34 x38 | s100 => DD x34 x39 | s101 => DD x34 x40 | s102 => DD x34 x41 | s103 => DD x34 x42 | s104 => DD x34 x43 | s105 => DD x34 x44 | s106 => DD x34 x45 | s107 => DD x34 x46 | s108 => DD x34 x47 | s109 => DD x34 x48 | s110 => DD x34 x49 | s111 => DD x34 x50 | s112 => DD x34 x51 | s113 => DD x34 x52 | s114 => DD x34 x53 | s115 => DD x34 x54 | s116 => DD x34 x55 | s117 => DD x34 x56 | s118 => DD x34 x57 | s119 => DD x34 x58 | s120 => DD x34 x59 | s121 => DD x34 x60 | s122 => DD x34 x61 | s123 => DD x34 x62 | s124 => DD x34 x63 | s125 => DD x35 x0 | s126 => DD x35 x1 end.
Definition m2116 (c : sum2) : dd := match c with s0 => DD x33 x4 | s1 => DD x33 x5 | s2 => DD x33 x6 | s3 => DD x33 x7 | s4 => DD x33 x8 | s5 => DD x33 x9 | s6 => DD x33 x10 | s7 => DD x33 x11 | s8 => DD x33 x12 | s9 => DD x33 x13 | s10 => DD x33 x14 | s11 => DD x33 x15 | s12 => DD x33 x16 | s13 => DD x33 x17 | s14 => DD x33 x18 | s15 => DD x33 x19 | s16 => DD x33 x20 | s17 => DD x33 x21 | s18 => DD x33 x22 | s19 => DD x33 x23 | s20 => DD x33 x24 | s21 => DD x33 x25 | s22 => DD x33 x26 | s23 => DD x33 x27 | s24 => DD x33 x28 | s25 => DD x33 x29 | s26 => DD x33 x30 | s27 => DD x33 x31 | s28 => DD x33 x32 | s29 => DD x33 x33 | s30 => DD x33 x34 | s31 => DD x33 x35 | s32 => DD x33 x36 | s33 => DD x33 x37 | s34 => DD x33 x38 | s35 => DD x33 x39 | s36 => DD x33 x40 | s37 => DD x33 x41 | s38 => DD x33 x42 | s39 => DD x33 x43 | s40 => DD x33 x44 | s41 => DD x33 x45 | s42 => DD x33 x46 | s43 => DD x33 x47 | s44 => DD x33 x48 | s45 => DD x33 x49 | s46 => DD x33 x50 | s47 => DD x33 x51 | s48 => DD x33 x52 | s49 => DD x33 x53 | s50 => DD x33 x54 | s51 => DD x33 x55 | s52 => DD x33 x56 | s53 => DD x33 x57 | s54 => DD x33 x58 | s55 => DD x33 x59 | s56 => DD x33 x60 | s57 => DD x33 x61 | s58 => DD x33 x62 | s59 => DD x33 x63 | s60 => DD x34 x0 | s61 => DD x34 x1 | s62 => DD x34 x2 | s63 => DD x34 x3 | s64 => DD x34 x4 | s65 => DD x34 x5 | s66 => DD x34 x6 | s67 => DD x34 x7 | s68 => DD x34 x8 | s69 => DD x34 x9 | s70 => DD x34 x10 | s71 => DD x34 x11 | s72 => DD x34 x12 | s73 => DD x34 x13 | s74 => DD x34 x14 | s75 => DD x34 x15 | s76 => DD x34 x16 | s77 => DD x34 x17 | s78 => DD x34 x18 | s79 => DD x34 x19 | s80 => DD x34 x20 | s81 => DD x34 x21 | s82 => DD x34 x22 | s83 => DD x34 x23 | s84 => DD x34 x24 | s85 => DD x34 x25 | s86 => DD x34 x26 | s87 => DD x34 x27 | s88 => DD x34 x28 | s89 => DD x34 x29 | s90 => DD x34 x30 | s91 => DD x34 x31 | s92 => DD x34 x32 | s93 => DD x34 x33 | s94 => DD x34 x34 | s95 => DD x34 x35 | s96 => DD x34 x36 | s97 => DD x34 x37 | s98 => DD x34 x38 | s99 => DD x34 x39 | s100 => DD x34 x40 | s101 => DD x34 x41 | s102 => DD x34 x42 | s103 => DD x34 x43 | s104 => DD x34 x44 | s105 => DD x34 x45 | s106 => DD x34 x46 | s107 => DD x34 x47 | s108 => DD x34 x48 | s109 => DD x34 x49 | s110 => DD x34 x50 | s111 => DD x34 x51 | s112 => DD x34 x52 | s113 => DD x34 x53 | s114 => DD x34 x54 | s115 => DD x34 x55 | s116 => DD x34 x56 | s117 => DD x34 x57 | s118 => DD x34 x58 | s119 => DD x34 x59 | s120 => DD x34 x60 | s121 => DD x34 x61 | s122 => DD x34 x62 | s123 => DD x34 x63 | s124 => DD x35 x0 | s125 => DD x35 x1 | s126 => DD x35 x2 end.
Definition m2120 (c : sum2) : dd := match c with s0 => DD x33 x8 | s1 => DD x33 x9 | s2 => DD x33 x10 | s3 => DD x33 x11 | s4 => DD x33 x12 | s5 => DD x33 x13 | s6 => DD x33 x14 | s7 => DD x33 x15 | s8 => DD x33 x16 | s9 => DD x33 x17 | s10 => DD x33 x18 | s11 => DD x33 x19 | s12 => DD x33 x20 | s13 => DD x33 x21 | s14 => DD x33 x22 | s15 => DD x33 x23 | s16 => DD x33 x24 | s17 => DD x33 x25 | s18 => DD x33 x26 | s19 => DD x33 x27 | s20 => DD x33 x28 | s21 => DD x33 x29 | s22 => DD x33 x30 | s23 => DD x33 x31 | s24 => DD x33 x32 | s25 => DD x33 x33 | s26 => DD x33 x34 | s27 => DD x33 x35 | s28 => DD x33 x36 | s29 => DD x33 x37 | s30 => DD x33 x38 | s31 => DD x33 x39 | s32 => DD x33 x40 | s33 => DD x33 x41 | s34 => DD x33 x42 | s35 => DD x33 x43 | s36 => DD x33 x44 | s37 => DD x33 x45 | s38 => DD x33 x46 | s39 => DD x33 x47 | s40 => DD x33 x48 | s41 => DD x33 x49 | s42 => DD x33 x50 | s43 => DD x33 x51 | s44 => DD x33 x52 | s45 => DD x33 x53 | s46 => DD x33 x54 | s47 => DD x33 x55 | s48 => DD x33 x56 | s49 => DD x33 x57 | s50 => DD x33 x58 | s51 => DD x33 x59 | s52 => DD x33 x60 | s53 => DD x33 x61 | s54 => DD x33 x62 | s55 => DD x33 x63 | s56 => DD x34 x0 | s57 => DD x34 x1 | s58 => DD x34 x2 | s59 => DD x34 x3 | s60 => DD x34 x4 | s61 => DD x34 x5 | s62 => DD x34 x6 | s63 => DD x34 x7 | s64 => DD x34 x8 | s65 => DD x34 x9 | s66 => DD x34 x10 | s67 => DD x34 x11 | s68 => DD x34 x12 | s69 => DD x34 x13 | s70 => DD x34 x14 | s71 => DD x34 x15 | s72 => DD x34 x16 | s73 => DD x34 x17 | s74 => DD x34 x18 | s75 => DD x34 x19 | s76 => DD x34 x20 | s77 => DD x34 x21 | s78 => DD x34 x22 | s79 => DD x34 x23 | s80 => DD x34 x24 | s81 => DD x34 x25 | s82 => DD x34 x26 | s83 => DD x34 x27 | s84 => DD x34 x28 | s85 => DD x34 x29 | s86 => DD x34 x30 | s87 => DD x34 x31 | s88 => DD x34 x32 | s89 => DD x34 x33 | s90 => DD x34 x34 | s91 => DD x34 x35 | s92 => DD x34 x36 | s93 => DD x34 x37 | s94 => DD x34 x38 | s95 => DD x34 x39 | s96 => DD x34 x40 | s97 => DD x34 x41 | s98 => DD x34 x42 | s99 => DD x34 x43 | s100 => DD x34 x44 | s101 => DD x34 x45 | s102 => DD x34 x46 | s103 => DD x34 x47 | s104 => DD x34 x48 | s105 => DD x34 x49 | s106 => DD x34 x50 | s107 => DD x34 x51 | s108 => DD x34 x52 | s109 => DD x34 x53 | s110 => DD x34 x54 | s111 => DD x34 x55 | s112 => DD x34 x56 | s113 => DD x34 x57 | s114 => DD x34 x58 | s115 => DD x34 x59 | s116 => DD x34 x60 | s117 => DD x34 x61 | s118 => DD x34 x62 | s119 => DD x34 x63 | s120 => DD x35 x0 | s121 => DD x35 x1 | s122 => DD x35 x2 | s123 => DD x35 x3 | s124 => DD x35 x4 | s125 => DD x35 x5 | s126 => DD x35 x6 end.
Definition m2124 (c : sum2) : dd := match c with s0 => DD x33 x12 | s1 => DD x33 x13 | s2 => DD x33 x14 | s3 => DD x33 x15 | s4 => DD x33 x16 | s5 => DD x33 x17 | s6 => DD x33 x18 | s7 => DD x33 x19 | s8 => DD x33 x20 | s9 => DD x33 x21 | s10 => DD x33 x22 | s11 => DD x33 x23 | s12 => DD x33 x24 | s13 => DD x33 x25 | s14 => DD x33 x26 | s15 => DD x33 x27 | s16 => DD x33 x28 | s17 => DD x33 x29 | s18 => DD x33 x30 | s19 => DD x33 x31 | s20 => DD x33 x32 | s21 => DD x33 x33 | s22 => DD x33 x34 | s23 => DD x33 x35 | s24 => DD x33 x36 | s25 => DD x33 x37 | s26 => DD x33 x38 | s27 => DD x33 x39 | s28 => DD x33 x40 | s29 => DD x33 x41 | s30 => DD x33 x42 | s31 => DD x33 x43 | s32 => DD x33 x44 | s33 => DD x33 x45 | s34 => DD x33 x46 | s35 => DD x33 x47 | s36 => DD x33 x48 | s37 => DD x33 x49 | s38 => DD x33 x50 | s39 => DD x33 x51 | s40 => DD x33 x52 | s41 => DD x33 x53 | s42 => DD x33 x54 | s43 => DD x33 x55 | s44 => DD x33 x56 | s45 => DD x33 x57 | s46 => DD x33 x58 | s47 => DD x33 x59 | s48 => DD x33 x60 | s49 => DD x33 x61 | s50 => DD x33 x62 | s51 => DD x33 x63 | s52 => DD x34 x0 | s53 => DD x34 x1 | s54 => DD x34 x2 | s55 => DD x34 x3 | s56 => DD x34 x4 | s57 => DD x34 x5 | s58 => DD x34 x6 | s59 => DD x34 x7 | s60 => DD x34 x8 | s61 => DD x34 x9 | s62 => DD x34 x10 | s63 => DD x34 x11 | s64 => DD x34 x12 | s65 => DD x34 x13 | s66 => DD x34 x14 | s67 => DD x34 x15 | s68 => DD x34 x16 | s69 => DD x34 x17 | s70 => DD x34 x18 | s71 => DD x34 x19 | s72 => DD x34 x20 | s73 => DD x34 x21 | s74 => DD x34 x22 | s75 => DD x34 x23 | s76 => DD x34 x24 | s77 => DD x34 x25 | s78 => DD x34 x26 | s79 => DD x34 x27 | s80 => DD x34 x28 | s81 => DD x34 x29 | s82 => DD x34 x30 | s83 => DD x34 x31 | s84 => DD x34 x32 | s85 => DD x34 x33 | s86 => DD x34 x34 | s87 => DD x34 x35 | s88 => DD x34 x36 | s89 => DD x34 x37 | s90 => DD x34 x38 | s91 => DD x34 x39 | s92 => DD x34 x40 | s93 => DD x34 x41 | s94 => DD x34 x42 | s95 => DD x34 x43 | s96 => DD x34 x44 | s97 => DD x34 x45 | s98 => DD x34 x46 | s99 => DD x34 x47 | s100 => DD x34 x48 | s101 => DD x34 x49 | s102 => DD x34 x50 | s103 => DD x34 x51 | s104 => DD x34 x52 | s105 => DD x34 x53 | s106 => DD x34 x54 | s107 => DD x34 x55 | s108 => DD x34 x56 | s109 => DD x34 x57 | s110 => DD x34 x58 | s111 => DD x34 x59 | s112 => DD x34 x60 | s113 => DD x34 x61 | s114 => DD x34 x62 | s115 => DD x34 x63 | s116 => DD x35 x0 | s117 => DD x35 x1 | s118 => DD x35 x2 | s119 => DD x35 x3 | s120 => DD x35 x4 | s121 => DD x35 x5 | s122 => DD x35 x6 | s123 => DD x35 x7 | s124 => DD x35 x8 | s125 => DD x35 x9 | s126 => DD x35 x10 end.
Definition m2128 (c : sum2) : dd := match c with s0 => DD x33 x16 | s1 => DD x33 x17 | s2 => DD x33 x18 | s3 => DD x33 x19 | s4 => DD x33 x20 | s5 => DD x33 x21 | s6 => DD x33 x22 | s7 => DD x33 x23 | s8 => DD x33 x24 | s9 => DD x33 x25 | s10 => DD x33 x26 | s11 => DD x33 x27 | s12 => DD x33 x28 | s13 => DD x33 x29 | s14 => DD x33 x30 | s15 => DD x33 x31 | s16 => DD x33 x32 | s17 => DD x33 x33 | s18 => DD x33 x34 | s19 => DD x33 x35 | s20 => DD x33 x36 | s21 => DD x33 x37 | s22 => DD x33 x38 | s23 => DD x33 x39 | s24 => DD x33 x40 | s25 => DD x33 x41 | s26 => DD x33 x42 | s27 => DD x33 x43 | s28 => DD x33 x44 | s29 => DD x33 x45 | s30 => DD x33 x46 | s31 => DD x33 x47 | s32 => DD x33 x48 | s33 => DD x33 x49 | s34 => DD x33 x50 | s35 => DD x33 x51 | s36 => DD x33 x52 | s37 => DD x33 x53 | s38 => DD x33 x54 | s39 => DD x33 x55 | s40 => DD x33 x56 | s41 => DD x33 x57 | s42 => DD x33 x58 | s43 => DD x33 x59 | s44 => DD x33 x60 | s45 => DD x33 x61 | s46 => DD x33 x62 | s47 => DD x33 x63 | s48 => DD x34 x0 | s49 => DD x34 x1 | s50 => DD x34 x2 | s51 => DD x34 x3 | s52 => DD x34 x4 | s53 => DD x34 x5 | s54 => DD x34 x6 | s55 => DD x34 x7 | s56 => DD x34 x8 | s57 => DD x34 x9 | s58 => DD x34 x10 | s59 => DD x34 x11 | s60 => DD x34 x12 | s61 => DD x34 x13 | s62 => DD x34 x14 | s63 => DD x34 x15 | s64 => DD x34 x16 | s65 => DD x34 x17 | s66 => DD x34 x18 | s67 => DD x34 x19 | s68 => DD x34 x20 | s69 => DD x34 x21 | s70 => DD x34 x22 | s71 => DD x34 x23 | s72 => DD x34 x24 | s73 => DD x34 x25 | s74 => DD x34 x26 | s75 => DD x34 x27 | s76 => DD x34 x28 | s77 => DD x34 x29 | s78 => DD x34 x30 | s79 => DD x34 x31 | s80 => DD x34 x32 | s81 => DD x34 x33 | s82 => DD x34 x34 | s83 => DD x34 x35 | s84 => DD x34 x36 | s85 => DD x34 x37 | s86 => DD x34 x38 | s87 => DD x34 x39 | s88 => DD x34 x40 | s89 => DD x34 x41 | s90 => DD x34 x42 | s91 => DD x34 x43 | s92 => DD x34 x44 | s93 => DD x34 x45 | s94 => DD x34 x46 | s95 => DD x34 x47 | s96 => DD x34 x48 | s97 => DD x34 x49 | s98 => DD x34 x50 | s99 => DD x34 x51 | s100 => DD x34 x52 | s101 => DD x34 x53 | s102 => DD x34 x54 | s103 => DD x34 x55 | s104 => DD x34 x56 | s105 => DD x34 x57 | s106 => DD x34 x58 | s107 => DD x34 x59 | s108 => DD x34 x60 | s109 => DD x34 x61 | s110 => DD x34 x62 | s111 => DD x34 x63 | s112 => DD x35 x0 | s113 => DD x35 x1 | s114 => DD x35 x2 | s115 => DD x35 x3 | s116 => DD x35 x4 | s117 => DD x35 x5 | s118 => DD x35 x6 | s119 => DD x35 x7 | s120 => DD x35 x8 | s121 => DD x35 x9 | s122 => DD x35 x10 | s123 => DD x35 x11 | s124 => DD x35 x12 | s125 => DD x35 x13 | s126 => DD x35 x14 end.
Definition m2132 (c : sum2) : dd := match c with s0 => DD x33 x20 | s1 => DD x33 x21 | s2 => DD x33 x22 | s3 => DD x33 x23 | s4 => DD x33 x24 | s5 => DD x33 x25 | s6 => DD x33 x26 | s7 => DD x33 x27 | s8 => DD x33 x28 | s9 => DD x33 x29 | s10 => DD x33 x30 | s11 => DD x33 x31 | s12 => DD x33 x32 | s13 => DD x33 x33 | s14 => DD x33 x34 | s15 => DD x33 x35 | s16 => DD x33 x36 | s17 => DD x33 x37 | s18 => DD x33 x38 | s19 => DD x33 x39 | s20 => DD x33 x40 | s21 => DD x33 x41 | s22 => DD x33 x42 | s23 => DD x33 x43 | s24 => DD x33 x44 | s25 => DD x33 x45 | s26 => DD x33 x46 | s27 => DD x33 x47 | s28 => DD x33 x48 | s29 => DD x33 x49 | s30 => DD x33 x50 | s31 => DD x33 x51 | s32 => DD x33 x52 | s33 => DD x33 x53 | s34 => DD x33 x54 | s35 => DD x33 x55 | s36 => DD x33 x56 | s37 => DD x33 x57 | s38 => DD x33 x58 | s39 => DD x33 x59 | s40 => DD x33 x60 | s41 => DD x33 x61 | s42 => DD x33 x62 | s43 => DD x33 x63 | s44 => DD x34 x0 | s45 => DD x34 x1 | s46 => DD x34 x2 | s47 => DD x34 x3 | s48 => DD x34 x4 | s49 => DD x34 x5 | s50 => DD x34 x6 | s51 => DD x34 x7 | s52 => DD x34 x8 | s53 => DD x34 x9 | s54 => DD x34 x10 | s55 => DD x34 x11 | s56 => DD x34 x12 | s57 => DD x34 x13 | s58 => DD x34 x14 | s59 => DD x34 x15 | s60 => DD x34 x16 | s61 => DD x34 x17 | s62 => DD x34 x18 | s63 => DD x34 x19 | s64 => DD x34 x20 | s65 => DD x34 x21 | s66 => DD x34 x22 | s67 => DD x34 x23 | s68 => DD x34 x24 | s69 => DD x34 x25 | s70 => DD x34 x26 | s71 => DD x34 x27 | s72 => DD x34 x28 | s73 => DD x34 x29 | s74 => DD x34 x30 | s75 => DD x34 x31 | s76 => DD x34 x32 | s77 => DD x34 x33 | s78 => DD x34 x34 | s79 => DD x34 x35 | s80 => DD x34 x36 | s81 => DD x34 x37 | s82 => DD x34 x38 | s83 => DD x34 x39 | s84 => DD x34 x40 | s85 => DD x34 x41 | s86 => DD x34 x42 | s87 => DD x34 x43 | s88 => DD x34 x44 | s89 => DD x34 x45 | s90 => DD x34 x46 | s91 => DD x34 x47 | s92 => DD x34 x48 | s93 => DD x34 x49 | s94 => DD x34 x50 | s95 => DD x34 x51 | s96 => DD x34 x52 | s97 => DD x34 x53 | s98 => DD x34 x54 | s99 => DD x34 x55 | s100 => DD x34 x56 | s101 => DD x34 x57 | s102 => DD x34 x58 | s103 => DD x34 x59 | s104 => DD x34 x60 | s105 => DD x34 x61 | s106 => DD x34 x62 | s107 => DD x34 x63 | s108 => DD x35 x0 | s109 => DD x35 x1 | s110 => DD x35 x2 | s111 => DD x35 x3 | s112 => DD x35 x4 | s113 => DD x35 x5 | s114 => DD x35 x6 | s115 => DD x35 x7 | s116 => DD x35 x8 | s117 => DD x35 x9 | s118 => DD x35 x10 | s119 => DD x35 x11 | s120 => DD x35 x12 | s121 => DD x35 x13 | s122 => DD x35 x14 | s123 => DD x35 x15 | s124 => DD x35 x16 | s125 => DD x35 x17 | s126 => DD x35 x18 end.
Definition m2135 (c : sum2) : dd := match c with s0 => DD x33 x23 | s1 => DD x33 x24 | s2 => DD x33 x25 | s3 => DD x33 x26 | s4 => DD x33 x27 | s5 => DD x33 x28 | s6 => DD x33 x29 | s7 => DD x33 x30 | s8 => DD x33 x31 | s9 => DD x33 x32 | s10 => DD x33 x33 | s11 => DD x33 x34 | s12 => DD x33 x35 | s13 => DD x33 x36 | s14 => DD x33 x37 | s15 => DD x33 x38 | s16 => DD x33 x39 | s17 => DD x33 x40 | s18 => DD x33 x41 | s19 => DD x33 x42 | s20 => DD x33 x43 | s21 => DD x33 x44 | s22 => DD x33 x45 | s23 => DD x33 x46 | s24 => DD x33 x47 | s25 => DD x33 x48 | s26 => DD x33 x49 | s27 => DD x33 x50 | s28 => DD x33 x51 | s29 => DD x33 x52 | s30 => DD x33 x53 | s31 => DD x33 x54 | s32 => DD x33 x55 | s33 => DD x33 x56 | s34 => DD x33 x57 | s35 => DD x33 x58 | s36 => DD x33 x59 | s37 => DD x33 x60 | s38 => DD x33 x61 | s39 => DD x33 x62 | s40 => DD x33 x63 | s41 => DD x34 x0 | s42 => DD x34 x1 | s43 => DD x34 x2 | s44 => DD x34 x3 | s45 => DD x34 x4 | s46 => DD x34 x5 | s47 => DD x34 x6 | s48 => DD x34 x7 | s49 => DD x34 x8 | s50 => DD x34 x9 | s51 => DD x34 x10 | s52 => DD x34 x11 | s53 => DD x34 x12 | s54 => DD x34 x13 | s55 => DD x34 x14 | s56 => DD x34 x15 | s57 => DD x34 x16 | s58 => DD x34 x17 | s59 => DD x34 x18 | s60 => DD x34 x19 | s61 => DD x34 x20 | s62 => DD x34 x21 | s63 => DD x34 x22 | s64 => DD x34 x23 | s65 => DD x34 x24 | s66 => DD x34 x25 | s67 => DD x34 x26 | s68 => DD x34 x27 | s69 => DD x34 x28 | s70 => DD x34 x29 | s71 => DD x34 x30 | s72 => DD x34 x31 | s73 => DD x34 x32 | s74 => DD x34 x33 | s75 => DD x34 x34 | s76 => DD x34 x35 | s77 => DD x34 x36 | s78 => DD x34 x37 | s79 => DD x34 x38 | s80 => DD x34 x39 | s81 => DD x34 x40 | s82 => DD x34 x41 | s83 => DD x34 x42 | s84 => DD x34 x43 | s85 => DD x34 x44 | s86 => DD x34 x45 | s87 => DD x34 x46 | s88 => DD x34 x47 | s89 => DD x34 x48 | s90 => DD x34 x49 | s91 => DD x34 x50 | s92 => DD x34 x51 | s93 => DD x34 x52 | s94 => DD x34 x53 | s95 => DD x34 x54 | s96 => DD x34 x55 | s97 => DD x34 x56 | s98 => DD x34 x57 | s99 => DD x34 x58 | s100 => DD x34 x59 | s101 => DD x34 x60 | s102 => DD x34 x61 | s103 => DD x34 x62 | s104 => DD x34 x63 | s105 => DD x35 x0 | s106 => DD x35 x1 | s107 => DD x35 x2 | s108 => DD x35 x3 | s109 => DD x35 x4 | s110 => DD x35 x5 | s111 => DD x35 x6 | s112 => DD x35 x7 | s113 => DD x35 x8 | s114 => DD x35 x9 | s115 => DD x35 x10 | s116 => DD x35 x11 | s117 => DD x35 x12 | s118 => DD x35 x13 | s119 => DD x35 x14 | s120 => DD x35 x15 | s121 => DD x35 x16 | s122 => DD x35 x17 | s123 => DD x35 x18 | s124 => DD x35 x19 | s125 => DD x35 x20 | s126 => DD x35 x21 end.
Definition m2142 (c : sum2) : dd := match c with s0 => DD x33 x30 | s1 => DD x33 x31 | s2 => DD x33 x32 | s3 => DD x33 x33 | s4 => DD x33 x34 | s5 => DD x33 x35 | s6 => DD x33 x36 | s7 => DD x33 x37 | s8 => DD x33 x38 | s9 => DD x33 x39 | s10 => DD x33 x40 | s11 => DD x33 x41 | s12 => DD x33 x42 | s13 => DD x33 x43 | s14 => DD x33 x44 | s15 => DD x33 x45 | s16 => DD x33 x46 | s17 => DD x33 x47 | s18 => DD x33 x48 | s19 => DD x33 x49 | s20 => DD x33 x50 | s21 => DD x33 x51 | s22 => DD x33 x52 | s23 => DD x33 x53 | s24 => DD x33 x54 | s25 => DD x33 x55 | s26 => DD x33 x56 | s27 => DD x33 x57 | s28 => DD x33 x58 | s29 => DD x33 x59 | s30 => DD x33 x60 | s31 => DD x33 x61 | s32 => DD x33 x62 | s33 => DD x33 x63 | s34 => DD x34 x0 | s35 => DD x34 x1 | s36 => DD x34 x2 | s37 => DD x34 x3 | s38 => DD x34 x4 | s39 => DD x34 x5 | s40 => DD x34 x6 | s41 => DD x34 x7 | s42 => DD x34 x8 | s43 => DD x34 x9 | s44 => DD x34 x10 | s45 => DD x34 x11 | s46 => DD x34 x12 | s47 => DD x34 x13 | s48 => DD x34 x14 | s49 => DD x34 x15 | s50 => DD x34 x16 | s51 => DD x34 x17 | s52 => DD x34 x18 | s53 => DD x34 x19 | s54 => DD x34 x20 | s55 => DD x34 x21 | s56 => DD x34 x22 | s57 => DD x34 x23 | s58 => DD x34 x24 | s59 => DD x34 x25 | s60 => DD x34 x26 | s61 => DD x34 x27 | s62 => DD x34 x28 | s63 => DD x34 x29 | s64 => DD x34 x30 | s65 => DD x34 x31 | s66 => DD x34 x32 | s67 => DD x34 x33 | s68 => DD x34 x34 | s69 => DD x34 x35 | s70 => DD x34 x36 | s71 => DD x34 x37 | s72 => DD x34 x38 | s73 => DD x34 x39 | s74 => DD x34 x40 | s75 => DD x34 x41 | s76 => DD x34 x42 | s77 => DD x34 x43 | s78 => DD x34 x44 | s79 => DD x34 x45 | s80 => DD x34 x46 | s81 => DD x34 x47 | s82 => DD x34 x48 | s83 => DD x34 x49 | s84 => DD x34 x50 | s85 => DD x34 x51 | s86 => DD x34 x52 | s87 => DD x34 x53 | s88 => DD x34 x54 | s89 => DD x34 x55 | s90 => DD x34 x56 | s91 => DD x34 x57 | s92 => DD x34 x58 | s93 => DD x34 x59 | s94 => DD x34 x60 | s95 => DD x34 x61 | s96 => DD x34 x62 | s97 => DD x34 x63 | s98 => DD x35 x0 | s99 => DD x35 x1 | s100 => DD x35 x2 | s101 => DD x35 x3 | s102 => DD x35 x4 | s103 => DD x35 x5 | s104 => DD x35 x6 | s105 => DD x35 x7 | s106 => DD x35 x8 | s107 => DD x35 x9 | s108 => DD x35 x10 | s109 => DD x35 x11 | s110 => DD x35 x12 | s111 => DD x35 x13 | s112 => DD x35 x14 | s113 => DD x35 x15 | s114 => DD x35 x16 | s115 => DD x35 x17 | s116 => DD x35 x18 | s117 => DD x35 x19 | s118 => DD x35 x20 | s119 => DD x35 x21 | s120 => DD x35 x22 | s121 => DD x35 x23 | s122 => DD x35 x24 | s123 => DD x35 x25 | s124 => DD x35 x26 | s125 => DD x35 x27 | s126 => DD x35 x28 end.
Definition m2145 (c : sum2) : dd := match c with s0 => DD x33 x33 | s1 => DD x33 x34 | s2 => DD x33 x35 | s3 => DD x33 x36 | s4 => DD x33 x37 | s5 => DD x33 x38 | s6 => DD x33 x39 | s7 => DD x33 x40 | s8 => DD x33 x41 | s9 => DD x33 x42 | s10 => DD x33 x43 | s11 => DD x33 x44 | s12 => DD x33 x45 | s13 => DD x33 x46 | s14 => DD x33 x47 | s15 => DD x33 x48 | s16 => DD x33 x49 | s17 => DD x33 x50 | s18 => DD x33 x51 | s19 => DD x33 x52 | s20 => DD x33 x53 | s21 => DD x33 x54 | s22 => DD x33 x55 | s23 => DD x33 x56 | s24 => DD x33 x57 | s25 => DD x33 x58 | s26 => DD x33 x59 | s27 => DD x33 x60 | s28 => DD x33 x61 | s29 => DD x33 x62 | s30 => DD x33 x63 | s31 => DD x34 x0 | s32 => DD x34 x1 | s33 => DD x34 x2 | s34 => DD x34 x3 | s35 => DD x34 x4 | s36 => DD x34 x5 | s37 => DD x34 x6 | s38 => DD x34 x7 | s39 => DD x34 x8 | s40 => DD x34 x9 | s41 => DD x34 x10 | s42 => DD x34 x11 | s43 => DD x34 x12 | s44 => DD x34 x13 | s45 => DD x34 x14 | s46 => DD x34 x15 | s47 => DD x34 x16 | s48 => DD x34 x17 | s49 => DD x34 x18 | s50 => DD x34 x19 | s51 => DD x34 x20 | s52 => DD x34 x21 | s53 => DD x34 x22 | s54 => DD x34 x23 | s55 => DD x34 x24 | s56 => DD x34 x25 | s57 => DD x34 x26 | s58 => DD x34 x27 | s59 => DD x34 x28 | s60 => DD x34 x29 | s61 => DD x34 x30 | s62 => DD x34 x31 | s63 => DD x34 x32 | s64 => DD x34 x33 | s65 => DD x34 x34 | s66 => DD x34 x35 | s67 => DD x34 x36 | s68 => DD x34 x37 | s69 => DD x34 x38 | s70 => DD x34 x39 | s71 => DD x34 x40 | s72 => DD x34 x41 | s73 => DD x34 x42 | s74 => DD x34 x43 | s75 => DD x34 x44 | s76 => DD x34 x45 | s77 => DD x34 x46 | s78 => DD x34 x47 | s79 => DD x34 x48 | s80 => DD x34 x49 | s81 => DD x34 x50 | s82 => DD x34 x51 | s83 => DD x34 x52 | s84 => DD x34 x53 | s85 => DD x34 x54 | s86 => DD x34 x55 | s87 => DD x34 x56 | s88 => DD x34 x57 | s89 => DD x34 x58 | s90 => DD x34 x59 | s91 => DD x34 x60 | s92 => DD x34 x61 | s93 => DD x34 x62 | s94 => DD x34 x63 | s95 => DD x35 x0 | s96 => DD x35 x1 | s97 => DD x35 x2 | s98 => DD x35 x3 | s99 => DD x35 x4 | s100 => DD x35 x5 | s101 => DD x35 x6 | s102 => DD x35 x7 | s103 => DD x35 x8 | s104 => DD x35 x9 | s105 => DD x35 x10 | s106 => DD x35 x11 | s107 => DD x35 x12 | s108 => DD x35 x13 | s109 => DD x35 x14 | s110 => DD x35 x15 | s111 => DD x35 x16 | s112 => DD x35 x17 | s113 => DD x35 x18 | s114 => DD x35 x19 | s115 => DD x35 x20 | s116 => DD x35 x21 | s117 => DD x35 x22 | s118 => DD x35 x23 | s119 => DD x35 x24 | s120 => DD x35 x25 | s121 => DD x35 x26 | s122 => DD x35 x27 | s123 => DD x35 x28 | s124 => DD x35 x29 | s125 => DD x35 x30 | s126 => DD x35 x31 end.
Definition m2146 (c : sum2) : dd := match c with s0 => DD x33 x34 | s1 => DD x33 x35 | s2 => DD x33 x36 | s3 => DD x33 x37 | s4 => DD x33 x38 | s5 => DD x33 x39 | s6 => DD x33 x40 | s7 => DD x33 x41 | s8 => DD x33 x42 | s9 => DD x33 x43 | s10 => DD x33 x44 | s11 => DD x33 x45 | s12 => DD x33 x46 | s13 => DD x33 x47 | s14 => DD x33 x48 | s15 => DD x33 x49 | s16 => DD x33 x50 | s17 => DD x33 x51 | s18 => DD x33 x52 | s19 => DD x33 x53 | s20 => DD x33 x54 | s21 => DD x33 x55 | s22 => DD x33 x56 | s23 => DD x33 x57 | s24 => DD x33 x58 | s25 => DD x33 x59 | s26 => DD x33 x60 | s27 => DD x33 x61 | s28 => DD x33 x62 | s29 => DD x33 x63 | s30 => DD x34 x0 | s31 => DD x34 x1 | s32 => DD x34 x2 | s33 => DD x34 x3 | s34 => DD x34 x4 | s35 => DD x34 x5 | s36 => DD x34 x6 | s37 => DD x34 x7 | s38 => DD x34 x8 | s39 => DD x34 x9 | s40 => DD x34 x10 | s41 => DD x34 x11 | s42 => DD x34 x12 | s43 => DD x34 x13 | s44 => DD x34 x14 | s45 => DD x34 x15 | s46 => DD x34 x16 | s47 => DD x34 x17 | s48 => DD x34 x18 | s49 => DD x34 x19 | s50 => DD x34 x20 | s51 => DD x34 x21 | s52 => DD x34 x22 | s53 => DD x34 x23 | s54 => DD x34 x24 | s55 => DD x34 x25 | s56 => DD x34 x26 | s57 => DD x34 x27 | s58 => DD x34 x28 | s59 => DD x34 x29 | s60 => DD x34 x30 | s61 => DD x34 x31 | s62 => DD x34 x32 | s63 => DD x34 x33 | s64 => DD x34 x34 | s65 => DD x34 x35 | s66 => DD x34 x36 | s67 => DD x34 x37 | s68 => DD x34 x38 | s69 => DD x34 x39 | s70 => DD x34 x40 | s71 => DD x34 x41 | s72 => DD x34 x42 | s73 => DD x34 x43 | s74 => DD x34 x44 | s75 => DD x34 x45 | s76 => DD x34 x46 | s77 => DD x34 x47 | s78 => DD x34 x48 | s79 => DD x34 x49 | s80 => DD x34 x50 | s81 => DD x34 x51 | s82 => DD x34 x52 | s83 => DD x34 x53 | s84 => DD x34 x54 | s85 => DD x34 x55 | s86 => DD x34 x56 | s87 => DD x34 x57 | s88 => DD x34 x58 | s89 => DD x34 x59 | s90 => DD x34 x60 | s91 => DD x34 x61 | s92 => DD x34 x62 | s93 => DD x34 x63 | s94 => DD x35 x0 | s95 => DD x35 x1 | s96 => DD x35 x2 | s97 => DD x35 x3 | s98 => DD x35 x4 | s99 => DD x35 x5 | s100 => DD x35 x6 | s101 => DD x35 x7 | s102 => DD x35 x8 | s103 => DD x35 x9 | s104 => DD x35 x10 | s105 => DD x35 x11 | s106 => DD x35 x12 | s107 => DD x35 x13 | s108 => DD x35 x14 | s109 => DD x35 x15 | s110 => DD x35 x16 | s111 => DD x35 x17 | s112 => DD x35 x18 | s113 => DD x35 x19 | s114 => DD x35 x20 | s115 => DD x35 x21 | s116 => DD x35 x22 | s117 => DD x35 x23 | s118 => DD x35 x24 | s119 => DD x35 x25 | s120 => DD x35 x26 | s121 => DD x35 x27 | s122 => DD x35 x28 | s123 => DD x35 x29 | s124 => DD x35 x30 | s125 => DD x35 x31 | s126 => DD x35 x32 end.
Definition m2150 (c : sum2) : dd := match c with s0 => DD x33 x38 | s1 => DD x33 x39 | s2 => DD x33 x40 | s3 => DD x33 x41 | s4 => DD x33 x42 | s5 => DD x33 x43 | s6 => DD x33 x44 | s7 => DD x33 x45 | s8 => DD x33 x46 | s9 => DD x33 x47 | s10 => DD x33 x48 | s11 => DD x33 x49 | s12 => DD x33 x50 | s13 => DD x33 x51 | s14 => DD x33 x52 | s15 => DD x33 x53 | s16 => DD x33 x54 | s17 => DD x33 x55 | s18 => DD x33 x56 | s19 => DD x33 x57 | s20 => DD x33 x58 | s21 => DD x33 x59 | s22 => DD x33 x60 | s23 => DD x33 x61 | s24 => DD x33 x62 | s25 => DD x33 x63 | s26 => DD x34 x0 | s27 => DD x34 x1 | s28 => DD x34 x2 | s29 => DD x34 x3 | s30 => DD x34 x4 | s31 => DD x34 x5 | s32 => DD x34 x6 | s33 => DD x34 x7 | s34 => DD x34 x8 | s35 => DD x34 x9 | s36 => DD x34 x10 | s37 => DD x34 x11 | s38 => DD x34 x12 | s39 => DD x34 x13 | s40 => DD x34 x14 | s41 => DD x34 x15 | s42 => DD x34 x16 | s43 => DD x34 x17 | s44 => DD x34 x18 | s45 => DD x34 x19 | s46 => DD x34 x20 | s47 => DD x34 x21 | s48 => DD x34 x22 | s49 => DD x34 x23 | s50 => DD x34 x24 | s51 => DD x34 x25 | s52 => DD x34 x26 | s53 => DD x34 x27 | s54 => DD x34 x28 | s55 => DD x34 x29 | s56 => DD x34 x30 | s57 => DD x34 x31 | s58 => DD x34 x32 | s59 => DD x34 x33 | s60 => DD x34 x34 | s61 => DD x34 x35 | s62 => DD x34 x36 | s63 => DD x34 x37 | s64 => DD x34 x38 | s65 => DD x34 x39 | s66 => DD x34 x40 | s67 => DD x34 x41 | s68 => DD x34 x42 | s69 => DD x34 x43 | s70 => DD x34 x44 | s71 => DD x34 x45 | s72 => DD x34 x46 | s73 => DD x34 x47 | s74 => DD x34 x48 | s75 => DD x34 x49 | s76 => DD x34 x50 | s77 => DD x34 x51 | s78 => DD x34 x52 | s79 => DD x34 x53 | s80 => DD x34 x54 | s81 => DD x34 x55 | s82 => DD x34 x56 | s83 => DD x34 x57 | s84 => DD x34 x58 | s85 => DD x34 x59 | s86 => DD x34 x60 | s87 => DD x34 x61 | s88 => DD x34 x62 | s89 => DD x34 x63 | s90 => DD x35 x0 | s91 => DD x35 x1 | s92 => DD x35 x2 | s93 => DD x35 x3 | s94 => DD x35 x4 | s95 => DD x35 x5 | s96 => DD x35 x6 | s97 => DD x35 x7 | s98 => DD x35 x8 | s99 => DD x35 x9 | s100 => DD x35 x10 | s101 => DD x35 x11 | s102 => DD x35 x12 | s103 => DD x35 x13 | s104 => DD x35 x14 | s105 => DD x35 x15 | s106 => DD x35 x16 | s107 => DD x35 x17 | s108 => DD x35 x18 | s109 => DD x35 x19 | s110 => DD x35 x20 | s111 => DD x35 x21 | s112 => DD x35 x22 | s113 => DD x35 x23 | s114 => DD x35 x24 | s115 => DD x35 x25 | s116 => DD x35 x26 | s117 => DD x35 x27 | s118 => DD x35 x28 | s119 => DD x35 x29 | s120 => DD x35 x30 | s121 => DD x35 x31 | s122 => DD x35 x32 | s123 => DD x35 x33 | s124 => DD x35 x34 | s125 => DD x35 x35 | s126 => DD x35 x36 end.
Definition m2156 (c : sum2) : dd := match c with s0 => DD x33 x44 | s1 => DD x33 x45 | s2 => DD x33 x46 | s3 => DD x33 x47 | s4 => DD x33 x48 | s5 => DD x33 x49 | s6 => DD x33 x50 | s7 => DD x33 x51 | s8 => DD x33 x52 | s9 => DD x33 x53 | s10 => DD x33 x54 | s11 => DD x33 x55 | s12 => DD x33 x56 | s13 => DD x33 x57 | s14 => DD x33 x58 | s15 => DD x33 x59 | s16 => DD x33 x60 | s17 => DD x33 x61 | s18 => DD x33 x62 | s19 => DD x33 x63 | s20 => DD x34 x0 | s21 => DD x34 x1 | s22 => DD x34 x2 | s23 => DD x34 x3 | s24 => DD x34 x4 | s25 => DD x34 x5 | s26 => DD x34 x6 | s27 => DD x34 x7 | s28 => DD x34 x8 | s29 => DD x34 x9 | s30 => DD x34 x10 | s31 => DD x34 x11 | s32 => DD x34 x12 | s33 => DD x34 x13 | s34 => DD x34 x14 | s35 => DD x34 x15 | s36 => DD x34 x16 | s37 => DD x34 x17 | s38 => DD x34 x18 | s39 => DD x34 x19 | s40 => DD x34 x20 | s41 => DD x34 x21 | s42 => DD x34 x22 | s43 => DD x34 x23 | s44 => DD x34 x24 | s45 => DD x34 x25 | s46 => DD x34 x26 | s47 => DD x34 x27 | s48 => DD x34 x28 | s49 => DD x34 x29 | s50 => DD x34 x30 | s51 => DD x34 x31 | s52 => DD x34 x32 | s53 => DD x34 x33 | s54 => DD x34 x34 | s55 => DD x34 x35 | s56 => DD x34 x36 | s57 => DD x34 x37 | s58 => DD x34 x38 | s59 => DD x34 x39 | s60 => DD x34 x40 | s61 => DD x34 x41 | s62 => DD x34 x42 | s63 => DD x34 x43 | s64 => DD x34 x44 | s65 => DD x34 x45 | s66 => DD x34 x46 | s67 => DD x34 x47 | s68 => DD x34 x48 | s69 => DD x34 x49 | s70 => DD x34 x50 | s71 => DD x34 x51 | s72 => DD x34 x52 | s73 => DD x34 x53 | s74 => DD x34 x54 | s75 => DD x34 x55 | s76 => DD x34 x56 | s77 => DD x34 x57 | s78 => DD x34 x58 | s79 => DD x34 x59 | s80 => DD x34 x60 | s81 => DD x34 x61 | s82 => DD x34 x62 | s83 => DD x34 x63 | s84 => DD x35 x0 | s85 => DD x35 x1 | s86 => DD x35 x2 | s87 => DD x35 x3 | s88 => DD x35 x4 | s89 => DD x35 x5 | s90 => DD x35 x6 | s91 => DD x35 x7 | s92 => DD x35 x8 | s93 => DD x35 x9 | s94 => DD x35 x10 | s95 => DD x35 x11 | s96 => DD x35 x12 | s97 => DD x35 x13 | s98 => DD x35 x14 | s99 => DD x35 x15 | s100 => DD x35 x16 | s101 => DD x35 x17 | s102 => DD x35 x18 | s103 => DD x35 x19 | s104 => DD x35 x20 | s105 => DD x35 x21 | s106 => DD x35 x22 | s107 => DD x35 x23 | s108 => DD x35 x24 | s109 => DD x35 x25 | s110 => DD x35 x26 | s111 => DD x35 x27 | s112 => DD x35 x28 | s113 => DD x35 x29 | s114 => DD x35 x30 | s115 => DD x35 x31 | s116 => DD x35 x32 | s117 => DD x35 x33 | s118 => DD x35 x34 | s119 => DD x35 x35 | s120 => DD x35 x36 | s121 => DD x35 x37 | s122 => DD x35 x38 | s123 => DD x35 x39 | s124 => DD x35 x40 | s125 => DD x35 x41 | s126 => DD x35 x42 end.
Definition m2160 (c : sum2) : dd := match c with s0 => DD x33 x48 | s1 => DD x33 x49 | s2 => DD x33 x50 | s3 => DD x33 x51 | s4 => DD x33 x52 | s5 => DD x33 x53 | s6 => DD x33 x54 | s7 => DD x33 x55 | s8 => DD x33 x56 | s9 => DD x33 x57 | s10 => DD x33 x58 | s11 => DD x33 x59 | s12 => DD x33 x60 | s13 => DD x33 x61 | s14 => DD x33 x62 | s15 => DD x33 x63 | s16 => DD x34 x0 | s17 => DD x34 x1 | s18 => DD x34 x2 | s19 => DD x34 x3 | s20 => DD x34 x4 | s21 => DD x34 x5 | s22 => DD x34 x6 | s23 => DD x34 x7 | s24 => DD x34 x8 | s25 => DD x34 x9 | s26 => DD x34 x10 | s27 => DD x34 x11 | s28 => DD x34 x12 | s29 => DD x34 x13 | s30 => DD x34 x14 | s31 => DD x34 x15 | s32 => DD x34 x16 | s33 => DD x34 x17 | s34 => DD x34 x18 | s35 => DD x34 x19 | s36 => DD x34 x20 | s37 => DD x34 x21 | s38 => DD x34 x22 | s39 => DD x34 x23 | s40 => DD x34 x24 | s41 => DD x34 x25 | s42 => DD x34 x26 | s43 => DD x34 x27 | s44 => DD x34 x28 | s45 => DD x34 x29 | s46 => DD x34 x30 | s47 => DD x34 x31 | s48 => DD x34 x32 | s49 => DD x34 x33 | s50 => DD x34 x34 | s51 => DD x34 x35 | s52 => DD x34 x36 | s53 => DD x34 x37 | s54 => DD x34 x38 | s55 => DD x34 x39 | s56 => DD x34 x40 | s57 => DD x34 x41 | s58 => DD x34 x42 | s59 => DD x34 x43 | s60 => DD x34 x44 | s61 => DD x34 x45 | s62 => DD x34 x46 | s63 => DD x34 x47 | s64 => DD x34 x48 | s65 => DD x34 x49 | s66 => DD x34 x50 | s67 => DD x34 x51 | s68 => DD x34 x52 | s69 => DD x34 x53 | s70 => DD x34 x54 | s71 => DD x34 x55 | s72 => DD x34 x56 | s73 => DD x34 x57 | s74 => DD x34 x58 | s75 => DD x34 x59 | s76 => DD x34 x60 | s77 => DD x34 x61 | s78 => DD x34 x62 | s79 => DD x34 x63 | s80 => DD x35 x0 | s81 => DD x35 x1 | s82 => DD x35 x2 | s83 => DD x35 x3 | s84 => DD x35 x4 | s85 => DD x35 x5 | s86 => DD x35 x6 | s87 => DD x35 x7 | s88 => DD x35 x8 | s89 => DD x35 x9 | s90 => DD x35 x10 | s91 => DD x35 x11 | s92 => DD x35 x12 | s93 => DD x35 x13 | s94 => DD x35 x14 | s95 => DD x35 x15 | s96 => DD x35 x16 | s97 => DD x35 x17 | s98 => DD x35 x18 | s99 => DD x35 x19 | s100 => DD x35 x20 | s101 => DD x35 x21 | s102 => DD x35 x22 | s103 => DD x35 x23 | s104 => DD x35 x24 | s105 => DD x35 x25 | s106 => DD x35 x26 | s107 => DD x35 x27 | s108 => DD x35 x28 | s109 => DD x35 x29 | s110 => DD x35 x30 | s111 => DD x35 x31 | s112 => DD x35 x32 | s113 => DD x35 x33 | s114 => DD x35 x34 | s115 => DD x35 x35 | s116 => DD x35 x36 | s117 => DD x35 x37 | s118 => DD x35 x38 | s119 => DD x35 x39 | s120 => DD x35 x40 | s121 => DD x35 x41 | s122 => DD x35 x42 | s123 => DD x35 x43 | s124 => DD x35 x44 | s125 => DD x35 x45 | s126 => DD x35 x46 end.
Definition m2162 (c : sum2) : dd := match c with s0 => DD x33 x50 | s1 => DD x33 x51 | s2 => DD x33 x52 | s3 => DD x33 x53 | s4 => DD x33 x54 | s5 => DD x33 x55 | s6 => DD x33 x56 | s7 => DD x33 x57 | s8 => DD x33 x58 | s9 => DD x33 x59 | s10 => DD x33 x60 | s11 => DD x33 x61 | s12 => DD x33 x62 | s13 => DD x33 x63 | s14 => DD x34 x0 | s15 => DD x34 x1 | s16 => DD x34 x2 | s17 => DD x34 x3 | s18 => DD x34 x4 | s19 => DD x34 x5 | s20 => DD x34 x6 | s21 => DD x34 x7 | s22 => DD x34 x8 | s23 => DD x34 x9 | s24 => DD x34 x10 | s25 => DD x34 x11 | s26 => DD x34 x12 | s27 => DD x34 x13 | s28 => DD x34 x14 | s29 => DD x34 x15 | s30 => DD x34 x16 | s31 => DD x34 x17 | s32 => DD x34 x18 | s33 => DD x34 x19 | s34 => DD x34 x20 | s35 => DD x34 x21 | s36 => DD x34 x22 | s37 => DD x34 x23 | s38 => DD x34 x24 | s39 => DD x34 x25 | s40 => DD x34 x26 | s41 => DD x34 x27 | s42 => DD x34 x28 | s43 => DD x34 x29 | s44 => DD x34 x30 | s45 => DD x34 x31 | s46 => DD x34 x32 | s47 => DD x34 x33 | s48 => DD x34 x34 | s49 => DD x34 x35 | s50 => DD x34 x36 | s51 => DD x34 x37 | s52 => DD x34 x38 | s53 => DD x34 x39 | s54 => DD x34 x40 | s55 => DD x34 x41 | s56 => DD x34 x42 | s57 => DD x34 x43 | s58 => DD x34 x44 | s59 => DD x34 x45 | s60 => DD x34 x46 | s61 => DD x34 x47 | s62 => DD x34 x48 | s63 => DD x34 x49 | s64 => DD x34 x50 | s65 => DD x34 x51 | s66 => DD x34 x52 | s67 => DD x34 x53 | s68 => DD x34 x54 | s69 => DD x34 x55 | s70 => DD x34 x56 | s71 => DD x34 x57 | s72 => DD x34 x58 | s73 => DD x34 x59 | s74 => DD x34 x60 | s75 => DD x34 x61 | s76 => DD x34 x62 | s77 => DD x34 x63 | s78 => DD x35 x0 | s79 => DD x35 x1 | s80 => DD x35 x2 | s81 => DD x35 x3 | s82 => DD x35 x4 | s83 => DD x35 x5 | s84 => DD x35 x6 | s85 => DD x35 x7 | s86 => DD x35 x8 | s87 => DD x35 x9 | s88 => DD x35 x10 | s89 => DD x35 x11 | s90 => DD x35 x12 | s91 => DD x35 x13 | s92 => DD x35 x14 | s93 => DD x35 x15 | s94 => DD x35 x16 | s95 => DD x35 x17 | s96 => DD x35 x18 | s97 => DD x35 x19 | s98 => DD x35 x20 | s99 => DD x35 x21 | s100 => DD x35 x22 | s101 => DD x35 x23 | s102 => DD x35 x24 | s103 => DD x35 x25 | s104 => DD x35 x26 | s105 => DD x35 x27 | s106 => DD x35 x28 | s107 => DD x35 x29 | s108 => DD x35 x30 | s109 => DD x35 x31 | s110 => DD x35 x32 | s111 => DD x35 x33 | s112 => DD x35 x34 | s113 => DD x35 x35 | s114 => DD x35 x36 | s115 => DD x35 x37 | s116 => DD x35 x38 | s117 => DD x35 x39 | s118 => DD x35 x40 | s119 => DD x35 x41 | s120 => DD x35 x42 | s121 => DD x35 x43 | s122 => DD x35 x44 | s123 => DD x35 x45 | s124 => DD x35 x46 | s125 => DD x35 x47 | s126 => DD x35 x48 end.
Definition m2166 (c : sum2) : dd := match c with s0 => DD x33 x54 | s1 => DD x33 x55 | s2 => DD x33 x56 | s3 => DD x33 x57 | s4 => DD x33 x58 | s5 => DD x33 x59 | s6 => DD x33 x60 | s7 => DD x33 x61 | s8 => DD x33 x62 | s9 => DD x33 x63 | s10 => DD x34 x0 | s11 => DD x34 x1 | s12 => DD x34 x2 | s13 => DD x34 x3 | s14 => DD x34 x4 | s15 => DD x34 x5 | s16 => DD x34 x6 | s17 => DD x34 x7 | s18 => DD x34 x8 | s19 => DD x34 x9 | s20 => DD x34 x10 | s21 => DD x34 x11 | s22 => DD x34 x12 | s23 => DD x34 x13 | s24 => DD x34 x14 | s25 => DD x34 x15 | s26 => DD x34 x16 | s27 => DD x34 x17 | s28 => DD x34 x18 | s29 => DD x34 x19 | s30 => DD x34 x20 | s31 => DD x34 x21 | s32 => DD x34 x22 | s33 => DD x34 x23 | s34 => DD x34 x24 | s35 => DD x34 x25 | s36 => DD x34 x26 | s37 => DD x34 x27 | s38 => DD x34 x28 | s39 => DD x34 x29 | s40 => DD x34 x30 | s41 => DD x34 x31 | s42 => DD x34 x32 | s43 => DD x34 x33 | s44 => DD x34 x34 | s45 => DD x34 x35 | s46 => DD x34 x36 | s47 => DD x34 x37 | s48 => DD x34 x38 | s49 => DD x34 x39 | s50 => DD x34 x40 | s51 => DD x34 x41 | s52 => DD x34 x42 | s53 => DD x34 x43 | s54 => DD x34 x44 | s55 => DD x34 x45 | s56 => DD x34 x46 | s57 => DD x34 x47 | s58 => DD x34 x48 | s59 => DD x34 x49 | s60 => DD x34 x50 | s61 => DD x34 x51 | s62 => DD x34 x52 | s63 => DD x34 x53 | s64 => DD x34 x54 | s65 => DD x34 x55 | s66 => DD x34 x56 | s67 => DD x34 x57 | s68 => DD x34 x58 | s69 => DD x34 x59 | s70 => DD x34 x60 | s71 => DD x34 x61 | s72 => DD x34 x62 | s73 => DD x34 x63 | s74 => DD x35 x0 | s75 => DD x35 x1 | s76 => DD x35 x2 | s77 => DD x35 x3 | s78 => DD x35 x4 | s79 => DD x35 x5 | s80 => DD x35 x6 | s81 => DD x35 x7 | s82 => DD x35 x8 | s83 => DD x35 x9 | s84 => DD x35 x10 | s85 => DD x35 x11 | s86 => DD x35 x12 | s87 => DD x35 x13 | s88 => DD x35 x14 | s89 => DD x35 x15 | s90 => DD x35 x16 | s91 => DD x35 x17 | s92 => DD x35 x18 | s93 => DD x35 x19 | s94 => DD x35 x20 | s95 => DD x35 x21 | s96 => DD x35 x22 | s97 => DD x35 x23 | s98 => DD x35 x24 | s99 => DD x35 x25 | s100 => DD x35 x26 | s101 => DD x35 x27 | s102 => DD x35 x28 | s103 => DD x35 x29 | s104 => DD x35 x30 | s105 => DD x35 x31 | s106 => DD x35 x32 | s107 => DD x35 x33 | s108 => DD x35 x34 | s109 => DD x35 x35 | s110 => DD x35 x36 | s111 => DD x35 x37 | s112 => DD x35 x38 | s113 => DD x35 x39 | s114 => DD x35 x40 | s115 => DD x35 x41 | s116 => DD x35 x42 | s117 => DD x35 x43 | s118 => DD x35 x44 | s119 => DD x35 x45 | s120 => DD x35 x46 | s121 => DD x35 x47 | s122 => DD x35 x48 | s123 => DD x35 x49 | s124 => DD x35 x50 | s125 => DD x35 x51 | s126 => DD x35 x52 end.
Definition m2170 (c : sum2) : dd := match c with s0 => DD x33 x58 | s1 => DD x33 x59 | s2 => DD x33 x60 | s3 => DD x33 x61 | s4 => DD x33 x62 | s5 => DD x33 x63 | s6 => DD x34 x0 | s7 => DD x34 x1 | s8 => DD x34 x2 | s9 => DD x34 x3 | s10 => DD x34 x4 | s11 => DD x34 x5 | s12 => DD x34 x6 | s13 => DD x34 x7 | s14 => DD x34 x8 | s15 => DD x34 x9 | s16 => DD x34 x10 | s17 => DD x34 x11 | s18 => DD x34 x12 | s19 => DD x34 x13 | s20 => DD x34 x14 | s21 => DD x34 x15 | s22 => DD x34 x16 | s23 => DD x34 x17 | s24 => DD x34 x18 | s25 => DD x34 x19 | s26 => DD x34 x20 | s27 => DD x34 x21 | s28 => DD x34 x22 | s29 => DD x34 x23 | s30 => DD x34 x24 | s31 => DD x34 x25 | s32 => DD x34 x26 | s33 => DD x34 x27 | s34 => DD x34 x28 | s35 => DD x34 x29 | s36 => DD x34 x30 | s37 => DD x34 x31 | s38 => DD x34 x32 | s39 => DD x34 x33 | s40 => DD x34 x34 | s41 => DD x34 x35 | s42 => DD x34 x36 | s43 => DD x34 x37 | s44 => DD x34 x38 | s45 => DD x34 x39 | s46 => DD x34 x40 | s47 => DD x34 x41 | s48 => DD x34 x42 | s49 => DD x34 x43 | s50 => DD x34 x44 | s51 => DD x34 x45 | s52 => DD x34 x46 | s53 => DD x34 x47 | s54 => DD x34 x48 | s55 => DD x34 x49 | s56 => DD x34 x50 | s57 => DD x34 x51 | s58 => DD x34 x52 | s59 => DD x34 x53 | s60 => DD x34 x54 | s61 => DD x34 x55 | s62 => DD x34 x56 | s63 => DD x34 x57 | s64 => DD x34 x58 | s65 => DD x34 x59 | s66 => DD x34 x60 | s67 => DD x34 x61 | s68 => DD x34 x62 | s69 => DD x34 x63 | s70 => DD x35 x0 | s71 => DD x35 x1 | s72 => DD x35 x2 | s73 => DD x35 x3 | s74 => DD x35 x4 | s75 => DD x35 x5 | s76 => DD x35 x6 | s77 => DD x35 x7 | s78 => DD x35 x8 | s79 => DD x35 x9 | s80 => DD x35 x10 | s81 => DD x35 x11 | s82 => DD x35 x12 | s83 => DD x35 x13 | s84 => DD x35 x14 | s85 => DD x35 x15 | s86 => DD x35 x16 | s87 => DD x35 x17 | s88 => DD x35 x18 | s89 => DD x35 x19 | s90 => DD x35 x20 | s91 => DD x35 x21 | s92 => DD x35 x22 | s93 => DD x35 x23 | s94 => DD x35 x24 | s95 => DD x35 x25 | s96 => DD x35 x26 | s97 => DD x35 x27 | s98 => DD x35 x28 | s99 => DD x35 x29 | s100 => DD x35 x30 | s101 => DD x35 x31 | s102 => DD x35 x32 | s103 => DD x35 x33 | s104 => DD x35 x34 | s105 => DD x35 x35 | s106 => DD x35 x36 | s107 => DD x35 x37 | s108 => DD x35 x38 | s109 => DD x35 x39 | s110 => DD x35 x40 | s111 => DD x35 x41 | s112 => DD x35 x42 | s113 => DD x35 x43 | s114 => DD x35 x44 | s115 => DD x35 x45 | s116 => DD x35 x46 | s117 => DD x35 x47 | s118 => DD x35 x48 | s119 => DD x35 x49 | s120 => DD x35 x50 | s121 => DD x35 x51 | s122 => DD x35 x52 | s123 => DD x35 x53 | s124 => DD x35 x54 | s125 => DD x35 x55 | s126 => DD x35 x56 end.
Definition m2173 (c : sum2) : dd := match c with s0 => DD x33 x61 | s1 => DD x33 x62 | s2 => DD x33 x63 | s3 => DD x34 x0 | s4 => DD x34 x1 | s5 => DD x34 x2 | s6 => DD x34 x3 | s7 => DD x34 x4 | s8 => DD x34 x5 | s9 => DD x34 x6 | s10 => DD x34 x7 | s11 => DD x34 x8 | s12 => DD x34 x9 | s13 => DD x34 x10 | s14 => DD x34 x11 | s15 => DD x34 x12 | s16 => DD x34 x13 | s17 => DD x34 x14 | s18 => DD x34 x15 | s19 => DD x34 x16 | s20 => DD x34 x17 | s21 => DD x34 x18 | s22 => DD x34 x19 | s23 => DD x34 x20 | s24 => DD x34 x21 | s25 => DD x34 x22 | s26 => DD x34 x23 | s27 => DD x34 x24 | s28 => DD x34 x25 | s29 => DD x34 x26 | s30 => DD x34 x27 | s31 => DD x34 x28 | s32 => DD x34 x29 | s33 => DD x34 x30 | s34 => DD x34 x31 | s35 => DD x34 x32 | s36 => DD x34 x33 | s37 => DD x34 x34 | s38 => DD x34 x35 | s39 => DD x34 x36 | s40 => DD x34 x37 | s41 => DD x34 x38 | s42 => DD x34 x39 | s43 => DD x34 x40 | s44 => DD x34 x41 | s45 => DD x34 x42 | s46 => DD x34 x43 | s47 => DD x34 x44 | s48 => DD x34 x45 | s49 => DD x34 x46 | s50 => DD x34 x47 | s51 => DD x34 x48 | s52 => DD x34 x49 | s53 => DD x34 x50 | s54 => DD x34 x51 | s55 => DD x34 x52 | s56 => DD x34 x53 | s57 => DD x34 x54 | s58 => DD x34 x55 | s59 => DD x34 x56 | s60 => DD x34 x57 | s61 => DD x34 x58 | s62 => DD x34 x59 | s63 => DD x34 x60 | s64 => DD x34 x61 | s65 => DD x34 x62 | s66 => DD x34 x63 | s67 => DD x35 x0 | s68 => DD x35 x1 | s69 => DD x35 x2 | s70 => DD x35 x3 | s71 => DD x35 x4 | s72 => DD x35 x5 | s73 => DD x35 x6 | s74 => DD x35 x7 | s75 => DD x35 x8 | s76 => DD x35 x9 | s77 => DD x35 x10 | s78 => DD x35 x11 | s79 => DD x35 x12 | s80 => DD x35 x13 | s81 => DD x35 x14 | s82 => DD x35 x15 | s83 => DD x35 x16 | s84 => DD x35 x17 | s85 => DD x35 x18 | s86 => DD x35 x19 | s87 => DD x35 x20 | s88 => DD x35 x21 | s89 => DD x35 x22 | s90 => DD x35 x23 | s91 => DD x35 x24 | s92 => DD x35 x25 | s93 => DD x35 x26 | s94 => DD x35 x27 | s95 => DD x35 x28 | s96 => DD x35 x29 | s97 => DD x35 x30 | s98 => DD x35 x31 | s99 => DD x35 x32 | s100 => DD x35 x33 | s101 => DD x35 x34 | s102 => DD x35 x35 | s103 => DD x35 x36 | s104 => DD x35 x37 | s105 => DD x35 x38 | s106 => DD x35 x39 | s107 => DD x35 x40 | s108 => DD x35 x41 | s109 => DD x35 x42 | s110 => DD x35 x43 | s111 => DD x35 x44 | s112 => DD x35 x45 | s113 => DD x35 x46 | s114 => DD x35 x47 | s115 => DD x35 x48 | s116 => DD x35 x49 | s117 => DD x35 x50 | s118 => DD x35 x51 | s119 => DD x35 x52 | s120 => DD x35 x53 | s121 => DD x35 x54 | s122 => DD x35 x55 | s123 => DD x35 x56 | s124 => DD x35 x57 | s125 => DD x35 x58 | s126 => DD x35 x59 end.
Definition m2183 (c : sum2) : dd := match c with s0 => DD x34 x7 | s1 => DD x34 x8 | s2 => DD x34 x9 | s3 => DD x34 x10 | s4 => DD x34 x11 | s5 => DD x34 x12 | s6 => DD x34 x13 | s7 => DD x34 x14 | s8 => DD x34 x15 | s9 => DD x34 x16 | s10 => DD x34 x17 | s11 => DD x34 x18 | s12 => DD x34 x19 | s13 => DD x34 x20 | s14 => DD x34 x21 | s15 => DD x34 x22 | s16 => DD x34 x23 | s17 => DD x34 x24 | s18 => DD x34 x25 | s19 => DD x34 x26 | s20 => DD x34 x27 | s21 => DD x34 x28 | s22 => DD x34 x29 | s23 => DD x34 x30 | s24 => DD x34 x31 | s25 => DD x34 x32 | s26 => DD x34 x33 | s27 => DD x34 x34 | s28 => DD x34 x35 | s29 => DD x34 x36 | s30 => DD x34 x37 | s31 => DD x34 x38 | s32 => DD x34 x39 | s33 => DD x34 x40 | s34 => DD x34 x41 | s35 => DD x34 x42 | s36 => DD x34 x43 | s37 => DD x34 x44 | s38 => DD x34 x45 | s39 => DD x34 x46 | s40 => DD x34 x47 | s41 => DD x34 x48 | s42 => DD x34 x49 | s43 => DD x34 x50 | s44 => DD x34 x51 | s45 => DD x34 x52 | s46 => DD x34 x53 | s47 => DD x34 x54 | s48 => DD x34 x55 | s49 => DD x34 x56 | s50 => DD x34 x57 | s51 => DD x34 x58 | s52 => DD x34 x59 | s53 => DD x34 x60 | s54 => DD x34 x61 | s55 => DD x34 x62 | s56 => DD x34 x63 | s57 => DD x35 x0 | s58 => DD x35 x1 | s59 => DD x35 x2 | s60 => DD x35 x3 | s61 => DD x35 x4 | s62 => DD x35 x5 | s63 => DD x35 x6 | s64 => DD x35 x7 | s65 => DD x35 x8 | s66 => DD x35 x9 | s67 => DD x35 x10 | s68 => DD x35 x11 | s69 => DD x35 x12 | s70 => DD x35 x13 | s71 => DD x35 x14 | s72 => DD x35 x15 | s73 => DD x35 x16 | s74 => DD x35 x17 | s75 => DD x35 x18 | s76 => DD x35 x19 | s77 => DD x35 x20 | s78 => DD x35 x21 | s79 => DD x35 x22 | s80 => DD x35 x23 | s81 => DD x35 x24 | s82 => DD x35 x25 | s83 => DD x35 x26 | s84 => DD x35 x27 | s85 => DD x35 x28 | s86 => DD x35 x29 | s87 => DD x35 x30 | s88 => DD x35 x31 | s89 => DD x35 x32 | s90 => DD x35 x33 | s91 => DD x35 x34 | s92 => DD x35 x35 | s93 => DD x35 x36 | s94 => DD x35 x37 | s95 => DD x35 x38 | s96 => DD x35 x39 | s97 => DD x35 x40 | s98 => DD x35 x41 | s99 => DD x35 x42 | s100 => DD x35 x43 | s101 => DD x35 x44 | s102 => DD x35 x45 | s103 => DD x35 x46 | s104 => DD x35 x47 | s105 => DD x35 x48 | s106 => DD x35 x49 | s107 => DD x35 x50 | s108 => DD x35 x51 | s109 => DD x35 x52 | s110 => DD x35 x53 | s111 => DD x35 x54 | s112 => DD x35 x55 | s113 => DD x35 x56 | s114 => DD x35 x57 | s115 => DD x35 x58 | s116 => DD x35 x59 | s117 => DD x35 x60 | s118 => DD x35 x61 | s119 => DD x35 x62 | s120 => DD x35 x63 | s121 => DD x36 x0 | s122 => DD x36 x1 | s123 => DD x36 x2 | s124 => DD x36 x3 | s125 => DD x36 x4 | s126 => DD x36 x5 end.
Definition m2184 (c : sum2) : dd := match c with s0 => DD x34 x8 | s1 => DD x34 x9 | s2 => DD x34 x10 | s3 => DD x34 x11 | s4 => DD x34 x12 | s5 => DD x34 x13 | s6 => DD x34 x14 | s7 => DD x34 x15 | s8 => DD x34 x16 | s9 => DD x34 x17 | s10 => DD x34 x18 | s11 => DD x34 x19 | s12 => DD x34 x20 | s13 => DD x34 x21 | s14 => DD x34 x22 | s15 => DD x34 x23 | s16 => DD x34 x24 | s17 => DD x34 x25 | s18 => DD x34 x26 | s19 => DD x34 x27 | s20 => DD x34 x28 | s21 => DD x34 x29 | s22 => DD x34 x30 | s23 => DD x34 x31 | s24 => DD x34 x32 | s25 => DD x34 x33 | s26 => DD x34 x34 | s27 => DD x34 x35 | s28 => DD x34 x36 | s29 => DD x34 x37 | s30 => DD x34 x38 | s31 => DD x34 x39 | s32 => DD x34 x40 | s33 => DD x34 x41 | s34 => DD x34 x42 | s35 => DD x34 x43 | s36 => DD x34 x44 | s37 => DD x34 x45 | s38 => DD x34 x46 | s39 => DD x34 x47 | s40 => DD x34 x48 | s41 => DD x34 x49 | s42 => DD x34 x50 | s43 => DD x34 x51 | s44 => DD x34 x52 | s45 => DD x34 x53 | s46 => DD x34 x54 | s47 => DD x34 x55 | s48 => DD x34 x56 | s49 => DD x34 x57 | s50 => DD x34 x58 | s51 => DD x34 x59 | s52 => DD x34 x60 | s53 => DD x34 x61 | s54 => DD x34 x62 | s55 => DD x34 x63 | s56 => DD x35 x0 | s57 => DD x35 x1 | s58 => DD x35 x2 | s59 => DD x35 x3 | s60 => DD x35 x4 | s61 => DD x35 x5 | s62 => DD x35 x6 | s63 => DD x35 x7 | s64 => DD x35 x8 | s65 => DD x35 x9 | s66 => DD x35 x10 | s67 => DD x35 x11 | s68 => DD x35 x12 | s69 => DD x35 x13 | s70 => DD x35 x14 | s71 => DD x35 x15 | s72 => DD x35 x16 | s73 => DD x35 x17 | s74 => DD x35 x18 | s75 => DD x35 x19 | s76 => DD x35 x20 | s77 => DD x35 x21 | s78 => DD x35 x22 | s79 => DD x35 x23 | s80 => DD x35 x24 | s81 => DD x35 x25 | s82 => DD x35 x26 | s83 => DD x35 x27 | s84 => DD x35 x28 | s85 => DD x35 x29 | s86 => DD x35 x30 | s87 => DD x35 x31 | s88 => DD x35 x32 | s89 => DD x35 x33 | s90 => DD x35 x34 | s91 => DD x35 x35 | s92 => DD x35 x36 | s93 => DD x35 x37 | s94 => DD x35 x38 | s95 => DD x35 x39 | s96 => DD x35 x40 | s97 => DD x35 x41 | s98 => DD x35 x42 | s99 => DD x35 x43 | s100 => DD x35 x44 | s101 => DD x35 x45 | s102 => DD x35 x46 | s103 => DD x35 x47 | s104 => DD x35 x48 | s105 => DD x35 x49 | s106 => DD x35 x50 | s107 => DD x35 x51 | s108 => DD x35 x52 | s109 => DD x35 x53 | s110 => DD x35 x54 | s111 => DD x35 x55 | s112 => DD x35 x56 | s113 => DD x35 x57 | s114 => DD x35 x58 | s115 => DD x35 x59 | s116 => DD x35 x60 | s117 => DD x35 x61 | s118 => DD x35 x62 | s119 => DD x35 x63 | s120 => DD x36 x0 | s121 => DD x36 x1 | s122 => DD x36 x2 | s123 => DD x36 x3 | s124 => DD x36 x4 | s125 => DD x36 x5 | s126 => DD x36 x6 end.
Definition m2193 (c : sum2) : dd := match c with s0 => DD x34 x17 | s1 => DD x34 x18 | s2 => DD x34 x19 | s3 => DD x34 x20 | s4 => DD x34 x21 | s5 => DD x34 x22 | s6 => DD x34 x23 | s7 => DD x34 x24 | s8 => DD x34 x25 | s9 => DD x34 x26 | s10 => DD x34 x27 | s11 => DD x34 x28 | s12 => DD x34 x29 | s13 => DD x34 x30 | s14 => DD x34 x31 | s15 => DD x34 x32 | s16 => DD x34 x33 | s17 => DD x34 x34 | s18 => DD x34 x35 | s19 => DD x34 x36 | s20 => DD x34 x37 | s21 => DD x34 x38 | s22 => DD x34 x39 | s23 => DD x34 x40 | s24 => DD x34 x41 | s25 => DD x34 x42 | s26 => DD x34 x43 | s27 => DD x34 x44 | s28 => DD x34 x45 | s29 => DD x34 x46 | s30 => DD x34 x47 | s31 => DD x34 x48 | s32 => DD x34 x49 | s33 => DD x34 x50 | s34 => DD x34 x51 | s35 => DD x34 x52 | s36 => DD x34 x53 | s37 => DD x34 x54 | s38 => DD x34 x55 | s39 => DD x34 x56 | s40 => DD x34 x57 | s41 => DD x34 x58 | s42 => DD x34 x59 | s43 => DD x34 x60 | s44 => DD x34 x61 | s45 => DD x34 x62 | s46 => DD x34 x63 | s47 => DD x35 x0 | s48 => DD x35 x1 | s49 => DD x35 x2 | s50 => DD x35 x3 | s51 => DD x35 x4 | s52 => DD x35 x5 | s53 => DD x35 x6 | s54 => DD x35 x7 | s55 => DD x35 x8 | s56 => DD x35 x9 | s57 => DD x35 x10 | s58 => DD x35 x11 | s59 => DD x35 x12 | s60 => DD x35 x13 | s61 => DD x35 x14 | s62 => DD x35 x15 | s63 => DD x35 x16 | s64 => DD x35 x17 | s65 => DD x35 x18 | s66 => DD x35 x19 | s67 => DD x35 x20 | s68 => DD x35 x21 | s69 => DD x35 x22 | s70 => DD x35 x23 | s71 => DD x35 x24 | s72 => DD x35 x25 | s73 => DD x35 x26 | s74 => DD x35 x27 | s75 => DD x35 x28 | s76 => DD x35 x29 | s77 => DD x35 x30 | s78 => DD x35 x31 | s79 => DD x35 x32 | s80 => DD x35 x33 | s81 => DD x35 x34 | s82 => DD x35 x35 | s83 => DD x35 x36 | s84 => DD x35 x37 | s85 => DD x35 x38 | s86 => DD x35 x39 | s87 => DD x35 x40 | s88 => DD x35 x41 | s89 => DD x35 x42 | s90 => DD x35 x43 | s91 => DD x35 x44 | s92 => DD x35 x45 | s93 => DD x35 x46 | s94 => DD x35 x47 | s95 => DD x35 x48 | s96 => DD x35 x49 | s97 => DD x35 x50 | s98 => DD x35 x51 | s99 => DD x35 x52 | s100 => DD x35 x53 | s101 => DD x35 x54 | s102 => DD x35 x55 | s103 => DD x35 x56 | s104 => DD x35 x57 | s105 => DD x35 x58 | s106 => DD x35 x59 | s107 => DD x35 x60 | s108 => DD x35 x61 | s109 => DD x35 x62 | s110 => DD x35 x63 | s111 => DD x36 x0 | s112 => DD x36 x1 | s113 => DD x36 x2 | s114 => DD x36 x3 | s115 => DD x36 x4 | s116 => DD x36 x5 | s117 => DD x36 x6 | s118 => DD x36 x7 | s119 => DD x36 x8 | s120 => DD x36 x9 | s121 => DD x36 x10 | s122 => DD x36 x11 | s123 => DD x36 x12 | s124 => DD x36 x13 | s125 => DD x36 x14 | s126 => DD x36 x15 end.
Definition m2196 (c : sum2) : dd := match c with s0 => DD x34 x20 | s1 => DD x34 x21 | s2 => DD x34 x22 | s3 => DD x34 x23 | s4 => DD x34 x24 | s5 => DD x34 x25 | s6 => DD x34 x26 | s7 => DD x34 x27 | s8 => DD x34 x28 | s9 => DD x34 x29 | s10 => DD x34 x30 | s11 => DD x34 x31 | s12 => DD x34 x32 | s13 => DD x34 x33 | s14 => DD x34 x34 | s15 => DD x34 x35 | s16 => DD x34 x36 | s17 => DD x34 x37 | s18 => DD x34 x38 | s19 => DD x34 x39 | s20 => DD x34 x40 | s21 => DD x34 x41 | s22 => DD x34 x42 | s23 => DD x34 x43 | s24 => DD x34 x44 | s25 => DD x34 x45 | s26 => DD x34 x46 | s27 => DD x34 x47 | s28 => DD x34 x48 | s29 => DD x34 x49 | s30 => DD x34 x50 | s31 => DD x34 x51 | s32 => DD x34 x52 | s33 => DD x34 x53 | s34 => DD x34 x54 | s35 => DD x34 x55 | s36 => DD x34 x56 | s37 => DD x34 x57 | s38 => DD x34 x58 | s39 => DD x34 x59 | s40 => DD x34 x60 | s41 => DD x34 x61 | s42 => DD x34 x62 | s43 => DD x34 x63 | s44 => DD x35 x0 | s45 => DD x35 x1 | s46 => DD x35 x2 | s47 => DD x35 x3 | s48 => DD x35 x4 | s49 => DD x35 x5 | s50 => DD x35 x6 | s51 => DD x35 x7 | s52 => DD x35 x8 | s53 => DD x35 x9 | s54 => DD x35 x10 | s55 => DD x35 x11 | s56 => DD x35 x12 | s57 => DD x35 x13 | s58 => DD x35 x14 | s59 => DD x35 x15 | s60 => DD x35 x16 | s61 => DD x35 x17 | s62 => DD x35 x18 | s63 => DD x35 x19 | s64 => DD x35 x20 | s65 => DD x35 x21 | s66 => DD x35 x22 | s67 => DD x35 x23 | s68 => DD x35 x24 | s69 => DD x35 x25 | s70 => DD x35 x26 | s71 => DD x35 x27 | s72 => DD x35 x28 | s73 => DD x35 x29 | s74 => DD x35 x30 | s75 => DD x35 x31 | s76 => DD x35 x32 | s77 => DD x35 x33 | s78 => DD x35 x34 | s79 => DD x35 x35 | s80 => DD x35 x36 | s81 => DD x35 x37 | s82 => DD x35 x38 | s83 => DD x35 x39 | s84 => DD x35 x40 | s85 => DD x35 x41 | s86 => DD x35 x42 | s87 => DD x35 x43 | s88 => DD x35 x44 | s89 => DD x35 x45 | s90 => DD x35 x46 | s91 => DD x35 x47 | s92 => DD x35 x48 | s93 => DD x35 x49 | s94 => DD x35 x50 | s95 => DD x35 x51 | s96 => DD x35 x52 | s97 => DD x35 x53 | s98 => DD x35 x54 | s99 => DD x35 x55 | s100 => DD x35 x56 | s101 => DD x35 x57 | s102 => DD x35 x58 | s103 => DD x35 x59 | s104 => DD x35 x60 | s105 => DD x35 x61 | s106 => DD x35 x62 | s107 => DD x35 x63 | s108 => DD x36 x0 | s109 => DD x36 x1 | s110 => DD x36 x2 | s111 => DD x36 x3 | s112 => DD x36 x4 | s113 => DD x36 x5 | s114 => DD x36 x6 | s115 => DD x36 x7 | s116 => DD x36 x8 | s117 => DD x36 x9 | s118 => DD x36 x10 | s119 => DD x36 x11 | s120 => DD x36 x12 | s121 => DD x36 x13 | s122 => DD x36 x14 | s123 => DD x36 x15 | s124 => DD x36 x16 | s125 => DD x36 x17 | s126 => DD x36 x18 end.
Definition m2200 (c : sum2) : dd := match c with s0 => DD x34 x24 | s1 => DD x34 x25 | s2 => DD x34 x26 | s3 => DD x34 x27 | s4 => DD x34 x28 | s5 => DD x34 x29 | s6 => DD x34 x30 | s7 => DD x34 x31 | s8 => DD x34 x32 | s9 => DD x34 x33 | s10 => DD x34 x34 | s11 => DD x34 x35 | s12 => DD x34 x36 | s13 => DD x34 x37 | s14 => DD x34 x38 | s15 => DD x34 x39 | s16 => DD x34 x40 | s17 => DD x34 x41 | s18 => DD x34 x42 | s19 => DD x34 x43 | s20 => DD x34 x44 | s21 => DD x34 x45 | s22 => DD x34 x46 | s23 => DD x34 x47 | s24 => DD x34 x48 | s25 => DD x34 x49 | s26 => DD x34 x50 | s27 => DD x34 x51 | s28 => DD x34 x52 | s29 => DD x34 x53 | s30 => DD x34 x54 | s31 => DD x34 x55 | s32 => DD x34 x56 | s33 => DD x34 x57 | s34 => DD x34 x58 | s35 => DD x34 x59 | s36 => DD x34 x60 | s37 => DD x34 x61 | s38 => DD x34 x62 | s39 => DD x34 x63 | s40 => DD x35 x0 | s41 => DD x35 x1 | s42 => DD x35 x2 | s43 => DD x35 x3 | s44 => DD x35 x4 | s45 => DD x35 x5 | s46 => DD x35 x6 | s47 => DD x35 x7 | s48 => DD x35 x8 | s49 => DD x35 x9 | s50 => DD x35 x10 | s51 => DD x35 x11 | s52 => DD x35 x12 | s53 => DD x35 x13 | s54 => DD x35 x14 | s55 => DD x35 x15 | s56 => DD x35 x16 | s57 => DD x35 x17 | s58 => DD x35 x18 | s59 => DD x35 x19 | s60 => DD x35 x20 | s61 => DD x35 x21 | s62 => DD x35 x22 | s63 => DD x35 x23 | s64 => DD x35 x24 | s65 => DD x35 x25 | s66 => DD x35 x26 | s67 => DD x35 x27 | s68 => DD x35 x28 | s69 => DD x35 x29 | s70 => DD x35 x30 | s71 => DD x35 x31 | s72 => DD x35 x32 | s73 => DD x35 x33 | s74 => DD x35 x34 | s75 => DD x35 x35 | s76 => DD x35 x36 | s77 => DD x35 x37 | s78 => DD x35 x38 | s79 => DD x35 x39 | s80 => DD x35 x40 | s81 => DD x35 x41 | s82 => DD x35 x42 | s83 => DD x35 x43 | s84 => DD x35 x44 | s85 => DD x35 x45 | s86 => DD x35 x46 | s87 => DD x35 x47 | s88 => DD x35 x48 | s89 => DD x35 x49 | s90 => DD x35 x50 | s91 => DD x35 x51 | s92 => DD x35 x52 | s93 => DD x35 x53 | s94 => DD x35 x54 | s95 => DD x35 x55 | s96 => DD x35 x56 | s97 => DD x35 x57 | s98 => DD x35 x58 | s99 => DD x35 x59 | s100 => DD x35 x60 | s101 => DD x35 x61 | s102 => DD x35 x62 | s103 => DD x35 x63 | s104 => DD x36 x0 | s105 => DD x36 x1 | s106 => DD x36 x2 | s107 => DD x36 x3 | s108 => DD x36 x4 | s109 => DD x36 x5 | s110 => DD x36 x6 | s111 => DD x36 x7 | s112 => DD x36 x8 | s113 => DD x36 x9 | s114 => DD x36 x10 | s115 => DD x36 x11 | s116 => DD x36 x12 | s117 => DD x36 x13 | s118 => DD x36 x14 | s119 => DD x36 x15 | s120 => DD x36 x16 | s121 => DD x36 x17 | s122 => DD x36 x18 | s123 => DD x36 x19 | s124 => DD x36 x20 | s125 => DD x36 x21 | s126 => DD x36 x22 end.
Definition m2204 (c : sum2) : dd := match c with s0 => DD x34 x28 | s1 => DD x34 x29 | s2 => DD x34 x30 | s3 => DD x34 x31 | s4 => DD x34 x32 | s5 => DD x34 x33 | s6 => DD x34 x34 | s7 => DD x34 x35 | s8 => DD x34 x36 | s9 => DD x34 x37 | s10 => DD x34 x38 | s11 => DD x34 x39 | s12 => DD x34 x40 | s13 => DD x34 x41 | s14 => DD x34 x42 | s15 => DD x34 x43 | s16 => DD x34 x44 | s17 => DD x34 x45 | s18 => DD x34 x46 | s19 => DD x34 x47 | s20 => DD x34 x48 | s21 => DD x34 x49 | s22 => DD x34 x50 | s23 => DD x34 x51 | s24 => DD x34 x52 | s25 => DD x34 x53 | s26 => DD x34 x54 | s27 => DD x34 x55 | s28 => DD x34 x56 | s29 => DD x34 x57 | s30 => DD x34 x58 | s31 => DD x34 x59 | s32 => DD x34 x60 | s33 => DD x34 x61 | s34 => DD x34 x62 | s35 => DD x34 x63 | s36 => DD x35 x0 | s37 => DD x35 x1 | s38 => DD x35 x2 | s39 => DD x35 x3 | s40 => DD x35 x4 | s41 => DD x35 x5 | s42 => DD x35 x6 | s43 => DD x35 x7 | s44 => DD x35 x8 | s45 => DD x35 x9 | s46 => DD x35 x10 | s47 => DD x35 x11 | s48 => DD x35 x12 | s49 => DD x35 x13 | s50 => DD x35 x14 | s51 => DD x35 x15 | s52 => DD x35 x16 | s53 => DD x35 x17 | s54 => DD x35 x18 | s55 => DD x35 x19 | s56 => DD x35 x20 | s57 => DD x35 x21 | s58 => DD x35 x22 | s59 => DD x35 x23 | s60 => DD x35 x24 | s61 => DD x35 x25 | s62 => DD x35 x26 | s63 => DD x35 x27 | s64 => DD x35 x28 | s65 => DD x35 x29 | s66 => DD x35 x30 | s67 => DD x35 x31 | s68 => DD x35 x32 | s69 => DD x35 x33 | s70 => DD x35 x34 | s71 => DD x35 x35 | s72 => DD x35 x36 | s73 => DD x35 x37 | s74 => DD x35 x38 | s75 => DD x35 x39 | s76 => DD x35 x40 | s77 => DD x35 x41 | s78 => DD x35 x42 | s79 => DD x35 x43 | s80 => DD x35 x44 | s81 => DD x35 x45 | s82 => DD x35 x46 | s83 => DD x35 x47 | s84 => DD x35 x48 | s85 => DD x35 x49 | s86 => DD x35 x50 | s87 => DD x35 x51 | s88 => DD x35 x52 | s89 => DD x35 x53 | s90 => DD x35 x54 | s91 => DD x35 x55 | s92 => DD x35 x56 | s93 => DD x35 x57 | s94 => DD x35 x58 | s95 => DD x35 x59 | s96 => DD x35 x60 | s97 => DD x35 x61 | s98 => DD x35 x62 | s99 => DD x35 x63 | s100 => DD x36 x0 | s101 => DD x36 x1 | s102 => DD x36 x2 | s103 => DD x36 x3 | s104 => DD x36 x4 | s105 => DD x36 x5 | s106 => DD x36 x6 | s107 => DD x36 x7 | s108 => DD x36 x8 | s109 => DD x36 x9 | s110 => DD x36 x10 | s111 => DD x36 x11 | s112 => DD x36 x12 | s113 => DD x36 x13 | s114 => DD x36 x14 | s115 => DD x36 x15 | s116 => DD x36 x16 | s117 => DD x36 x17 | s118 => DD x36 x18 | s119 => DD x36 x19 | s120 => DD x36 x20 | s121 => DD x36 x21 | s122 => DD x36 x22 | s123 => DD x36 x23 | s124 => DD x36 x24 | s125 => DD x36 x25 | s126 => DD x36 x26 end.
Definition m2205 (c : sum2) : dd := match c with s0 => DD x34 x29 | s1 => DD x34 x30 | s2 => DD x34 x31 | s3 => DD x34 x32 | s4 => DD x34 x33 | s5 => DD x34 x34 | s6 => DD x34 x35 | s7 => DD x34 x36 | s8 => DD x34 x37 | s9 => DD x34 x38 | s10 => DD x34 x39 | s11 => DD x34 x40 | s12 => DD x34 x41 | s13 => DD x34 x42 | s14 => DD x34 x43 | s15 => DD x34 x44 | s16 => DD x34 x45 | s17 => DD x34 x46 | s18 => DD x34 x47 | s19 => DD x34 x48 | s20 => DD x34 x49 | s21 => DD x34 x50 | s22 => DD x34 x51 | s23 => DD x34 x52 | s24 => DD x34 x53 | s25 => DD x34 x54 | s26 => DD x34 x55 | s27 => DD x34 x56 | s28 => DD x34 x57 | s29 => DD x34 x58 | s30 => DD x34 x59 | s31 => DD x34 x60 | s32 => DD x34 x61 | s33 => DD x34 x62 | s34 => DD x34 x63 | s35 => DD x35 x0 | s36 => DD x35 x1 | s37 => DD x35 x2 | s38 => DD x35 x3 | s39 => DD x35 x4 | s40 => DD x35 x5 | s41 => DD x35 x6 | s42 => DD x35 x7 | s43 => DD x35 x8 | s44 => DD x35 x9 | s45 => DD x35 x10 | s46 => DD x35 x11 | s47 => DD x35 x12 | s48 => DD x35 x13 | s49 => DD x35 x14 | s50 => DD x35 x15 | s51 => DD x35 x16 | s52 => DD x35 x17 | s53 => DD x35 x18 | s54 => DD x35 x19 | s55 => DD x35 x20 | s56 => DD x35 x21 | s57 => DD x35 x22 | s58 => DD x35 x23 | s59 => DD x35 x24 | s60 => DD x35 x25 | s61 => DD x35 x26 | s62 => DD x35 x27 | s63 => DD x35 x28 | s64 => DD x35 x29 | s65 => DD x35 x30 | s66 => DD x35 x31 | s67 => DD x35 x32 | s68 => DD x35 x33 | s69 => DD x35 x34 | s70 => DD x35 x35 | s71 => DD x35 x36 | s72 => DD x35 x37 | s73 => DD x35 x38 | s74 => DD x35 x39 | s75 => DD x35 x40 | s76 => DD x35 x41 | s77 => DD x35 x42 | s78 => DD x35 x43 | s79 => DD x35 x44 | s80 => DD x35 x45 | s81 => DD x35 x46 | s82 => DD x35 x47 | s83 => DD x35 x48 | s84 => DD x35 x49 | s85 => DD x35 x50 | s86 => DD x35 x51 | s87 => DD x35 x52 | s88 => DD x35 x53 | s89 => DD x35 x54 | s90 => DD x35 x55 | s91 => DD x35 x56 | s92 => DD x35 x57 | s93 => DD x35 x58 | s94 => DD x35 x59 | s95 => DD x35 x60 | s96 => DD x35 x61 | s97 => DD x35 x62 | s98 => DD x35 x63 | s99 => DD x36 x0 | s100 => DD x36 x1 | s101 => DD x36 x2 | s102 => DD x36 x3 | s103 => DD x36 x4 | s104 => DD x36 x5 | s105 => DD x36 x6 | s106 => DD x36 x7 | s107 => DD x36 x8 | s108 => DD x36 x9 | s109 => DD x36 x10 | s110 => DD x36 x11 | s111 => DD x36 x12 | s112 => DD x36 x13 | s113 => DD x36 x14 | s114 => DD x36 x15 | s115 => DD x36 x16 | s116 => DD x36 x17 | s117 => DD x36 x18 | s118 => DD x36 x19 | s119 => DD x36 x20 | s120 => DD x36 x21 | s121 => DD x36 x22 | s122 => DD x36 x23 | s123 => DD x36 x24 | s124 => DD x36 x25 | s125 => DD x36 x26 | s126 => DD x36 x27 end.
Definition m2208 (c : sum2) : dd := match c with s0 => DD x34 x32 | s1 => DD x34 x33 | s2 => DD x34 x34 | s3 => DD x34 x35 | s4 => DD x34 x36 | s5 => DD x34 x37 | s6 => DD x34 x38 | s7 => DD x34 x39 | s8 => DD x34 x40 | s9 => DD x34 x41 | s10 => DD x34 x42 | s11 => DD x34 x43 | s12 => DD x34 x44 | s13 => DD x34 x45 | s14 => DD x34 x46 | s15 => DD x34 x47 | s16 => DD x34 x48 | s17 => DD x34 x49 | s18 => DD x34 x50 | s19 => DD x34 x51 | s20 => DD x34 x52 | s21 => DD x34 x53 | s22 => DD x34 x54 | s23 => DD x34 x55 | s24 => DD x34 x56 | s25 => DD x34 x57 | s26 => DD x34 x58 | s27 => DD x34 x59 | s28 => DD x34 x60 | s29 => DD x34 x61 | s30 => DD x34 x62 | s31 => DD x34 x63 | s32 => DD x35 x0 | s33 => DD x35 x1 | s34 => DD x35 x2 | s35 => DD x35 x3 | s36 => DD x35 x4 | s37 => DD x35 x5 | s38 => DD x35 x6 | s39 => DD x35 x7 | s40 => DD x35 x8 | s41 => DD x35 x9 | s42 => DD x35 x10 | s43 => DD x35 x11 | s44 => DD x35 x12 | s45 => DD x35 x13 | s46 => DD x35 x14 | s47 => DD x35 x15 | s48 => DD x35 x16 | s49 => DD x35 x17 | s50 => DD x35 x18 | s51 => DD x35 x19 | s52 => DD x35 x20 | s53 => DD x35 x21 | s54 => DD x35 x22 | s55 => DD x35 x23 | s56 => DD x35 x24 | s57 => DD x35 x25 | s58 => DD x35 x26 | s59 => DD x35 x27 | s60 => DD x35 x28 | s61 => DD x35 x29 | s62 => DD x35 x30 | s63 => DD x35 x31 | s64 => DD x35 x32 | s65 => DD x35 x33 | s66 => DD x35 x34 | s67 => DD x35 x35 | s68 => DD x35 x36 | s69 => DD x35 x37 | s70 => DD x35 x38 | s71 => DD x35 x39 | s72 => DD x35 x40 | s73 => DD x35 x41 | s74 => DD x35 x42 | s75 => DD x35 x43 | s76 => DD x35 x44 | s77 => DD x35 x45 | s78 => DD x35 x46 | s79 => DD x35 x47 | s80 => DD x35 x48 | s81 => DD x35 x49 | s82 => DD x35 x50 | s83 => DD x35 x51 | s84 => DD x35 x52 | s85 => DD x35 x53 | s86 => DD x35 x54 | s87 => DD x35 x55 | s88 => DD x35 x56 | s89 => DD x35 x57 | s90 => DD x35 x58 | s91 => DD x35 x59 | s92 => DD x35 x60 | s93 => DD x35 x61 | s94 => DD x35 x62 | s95 => DD x35 x63 | s96 => DD x36 x0 | s97 => DD x36 x1 | s98 => DD x36 x2 | s99 => DD x36 x3 | s100 => DD x36 x4 | s101 => DD x36 x5 | s102 => DD x36 x6 | s103 => DD x36 x7 | s104 => DD x36 x8 | s105 => DD x36 x9 | s106 => DD x36 x10 | s107 => DD x36 x11 | s108 => DD x36 x12 | s109 => DD x36 x13 | s110 => DD x36 x14 | s111 => DD x36 x15 | s112 => DD x36 x16 | s113 => DD x36 x17 | s114 => DD x36 x18 | s115 => DD x36 x19 | s116 => DD x36 x20 | s117 => DD x36 x21 | s118 => DD x36 x22 | s119 => DD x36 x23 | s120 => DD x36 x24 | s121 => DD x36 x25 | s122 => DD x36 x26 | s123 => DD x36 x27 | s124 => DD x36 x28 | s125 => DD x36 x29 | s126 => DD x36 x30 end.
Definition m2209 (c : sum2) : dd := match c with s0 => DD x34 x33 | s1 => DD x34 x34 | s2 => DD x34 x35 | s3 => DD x34 x36 | s4 => DD x34 x37 | s5 => DD x34 x38 | s6 => DD x34 x39 | s7 => DD x34 x40 | s8 => DD x34 x41 | s9 => DD x34 x42 | s10 => DD x34 x43 | s11 => DD x34 x44 | s12 => DD x34 x45 | s13 => DD x34 x46 | s14 => DD x34 x47 | s15 => DD x34 x48 | s16 => DD x34 x49 | s17 => DD x34 x50 | s18 => DD x34 x51 | s19 => DD x34 x52 | s20 => DD x34 x53 | s21 => DD x34 x54 | s22 => DD x34 x55 | s23 => DD x34 x56 | s24 => DD x34 x57 | s25 => DD x34 x58 | s26 => DD x34 x59 | s27 => DD x34 x60 | s28 => DD x34 x61 | s29 => DD x34 x62 | s30 => DD x34 x63 | s31 => DD x35 x0 | s32 => DD x35 x1 | s33 => DD x35 x2 | s34 => DD x35 x3 | s35 => DD x35 x4 | s36 => DD x35 x5 | s37 => DD x35 x6 | s38 => DD x35 x7 | s39 => DD x35 x8 | s40 => DD x35 x9 | s41 => DD x35 x10 | s42 => DD x35 x11 | s43 => DD x35 x12 | s44 => DD x35 x13 | s45 => DD x35 x14 | s46 => DD x35 x15 | s47 => DD x35 x16 | s48 => DD x35 x17 | s49 => DD x35 x18 | s50 => DD x35 x19 | s51 => DD x35 x20 | s52 => DD x35 x21 | s53 => DD x35 x22 | s54 => DD x35 x23 | s55 => DD x35 x24 | s56 => DD x35 x25 | s57 => DD x35 x26 | s58 => DD x35 x27 | s59 => DD x35 x28 | s60 => DD x35 x29 | s61 => DD x35 x30 | s62 => DD x35 x31 | s63 => DD x35 x32 | s64 => DD x35 x33 | s65 => DD x35 x34 | s66 => DD x35 x35 | s67 => DD x35 x36 | s68 => DD x35 x37 | s69 => DD x35 x38 | s70 => DD x35 x39 | s71 => DD x35 x40 | s72 => DD x35 x41 | s73 => DD x35 x42 | s74 => DD x35 x43 | s75 => DD x35 x44 | s76 => DD x35 x45 | s77 => DD x35 x46 | s78 => DD x35 x47 | s79 => DD x35 x48 | s80 => DD x35 x49 | s81 => DD x35 x50 | s82 => DD x35 x51 | s83 => DD x35 x52 | s84 => DD x35 x53 | s85 => DD x35 x54 | s86 => DD x35 x55 | s87 => DD x35 x56 | s88 => DD x35 x57 | s89 => DD x35 x58 | s90 => DD x35 x59 | s91 => DD x35 x60 | s92 => DD x35 x61 | s93 => DD x35 x62 | s94 => DD x35 x63 | s95 => DD x36 x0 | s96 => DD x36 x1 | s97 => DD x36 x2 | s98 => DD x36 x3 | s99 => DD x36 x4 | s100 => DD x36 x5 | s101 => DD x36 x6 | s102 => DD x36 x7 | s103 => DD x36 x8 | s104 => DD x36 x9 | s105 => DD x36 x10 | s106 => DD x36 x11 | s107 => DD x36 x12 | s108 => DD x36 x13 | s109 => DD x36 x14 | s110 => DD x36 x15 | s111 => DD x36 x16 | s112 => DD x36 x17 | s113 => DD x36 x18 | s114 => DD x36 x19 | s115 => DD x36 x20 | s116 => DD x36 x21 | s117 => DD x36 x22 | s118 => DD x36 x23 | s119 => DD x36 x24 | s120 => DD x36 x25 | s121 => DD x36 x26 | s122 => DD x36 x27 | s123 => DD x36 x28 | s124 => DD x36 x29 | s125 => DD x36 x30 | s126 => DD x36 x31 end.
Definition m2214 (c : sum2) : dd := match c with s0 => DD x34 x38 | s1 => DD x34 x39 | s2 => DD x34 x40 | s3 => DD x34 x41 | s4 => DD x34 x42 | s5 => DD x34 x43 | s6 => DD x34 x44 | s7 => DD x34 x45 | s8 => DD x34 x46 | s9 => DD x34 x47 | s10 => DD x34 x48 | s11 => DD x34 x49 | s12 => DD x34 x50 | s13 => DD x34 x51 | s14 => DD x34 x52 | s15 => DD x34 x53 | s16 => DD x34 x54 | s17 => DD x34 x55 | s18 => DD x34 x56 | s19 => DD x34 x57 | s20 => DD x34 x58 | s21 => DD x34 x59 | s22 => DD x34 x60 | s23 => DD x34 x61 | s24 => DD x34 x62 | s25 => DD x34 x63 | s26 => DD x35 x0 | s27 => DD x35 x1 | s28 => DD x35 x2 | s29 => DD x35 x3 | s30 => DD x35 x4 | s31 => DD x35 x5 | s32 => DD x35 x6 | s33 => DD x35 x7 | s34 => DD x35 x8 | s35 => DD x35 x9 | s36 => DD x35 x10 | s37 => DD x35 x11 | s38 => DD x35 x12 | s39 => DD x35 x13 | s40 => DD x35 x14 | s41 => DD x35 x15 | s42 => DD x35 x16 | s43 => DD x35 x17 | s44 => DD x35 x18 | s45 => DD x35 x19 | s46 => DD x35 x20 | s47 => DD x35 x21 | s48 => DD x35 x22 | s49 => DD x35 x23 | s50 => DD x35 x24 | s51 => DD x35 x25 | s52 => DD x35 x26 | s53 => DD x35 x27 | s54 => DD x35 x28 | s55 => DD x35 x29 | s56 => DD x35 x30 | s57 => DD x35 x31 | s58 => DD x35 x32 | s59 => DD x35 x33 | s60 => DD x35 x34 | s61 => DD x35 x35 | s62 => DD x35 x36 | s63 => DD x35 x37 | s64 => DD x35 x38 | s65 => DD x35 x39 | s66 => DD x35 x40 | s67 => DD x35 x41 | s68 => DD x35 x42 | s69 => DD x35 x43 | s70 => DD x35 x44 | s71 => DD x35 x45 | s72 => DD x35 x46 | s73 => DD x35 x47 | s74 => DD x35 x48 | s75 => DD x35 x49 | s76 => DD x35 x50 | s77 => DD x35 x51 | s78 => DD x35 x52 | s79 => DD x35 x53 | s80 => DD x35 x54 | s81 => DD x35 x55 | s82 => DD x35 x56 | s83 => DD x35 x57 | s84 => DD x35 x58 | s85 => DD x35 x59 | s86 => DD x35 x60 | s87 => DD x35 x61 | s88 => DD x35 x62 | s89 => DD x35 x63 | s90 => DD x36 x0 | s91 => DD x36 x1 | s92 => DD x36 x2 | s93 => DD x36 x3 | s94 => DD x36 x4 | s95 => DD x36 x5 | s96 => DD x36 x6 | s97 => DD x36 x7 | s98 => DD x36 x8 | s99 => DD x36 x9 | s100 => DD x36 x10 | s101 => DD x36 x11 | s102 => DD x36 x12 | s103 => DD x36 x13 | s104 => DD x36 x14 | s105 => DD x36 x15 | s106 => DD x36 x16 | s107 => DD x36 x17 | s108 => DD x36 x18 | s109 => DD x36 x19 | s110 => DD x36 x20 | s111 => DD x36 x21 | s112 => DD x36 x22 | s113 => DD x36 x23 | s114 => DD x36 x24 | s115 => DD x36 x25 | s116 => DD x36 x26 | s117 => DD x36 x27 | s118 => DD x36 x28 | s119 => DD x36 x29 | s120 => DD x36 x30 | s121 => DD x36 x31 | s122 => DD x36 x32 | s123 => DD x36 x33 | s124 => DD x36 x34 | s125 => DD x36 x35 | s126 => DD x36 x36 end.
Definition m2220 (c : sum2) : dd := match c with s0 => DD x34 x44 | s1 => DD x34 x45 | s2 => DD x34 x46 | s3 => DD x34 x47 | s4 => DD x34 x48 | s5 => DD x34 x49 | s6 => DD x34 x50 | s7 => DD x34 x51 | s8 => DD x34 x52 | s9 => DD x34 x53 | s10 => DD x34 x54 | s11 => DD x34 x55 | s12 => DD x34 x56 | s13 => DD x34 x57 | s14 => DD x34 x58 | s15 => DD x34 x59 | s16 => DD x34 x60 | s17 => DD x34 x61 | s18 => DD x34 x62 | s19 => DD x34 x63 | s20 => DD x35 x0 | s21 => DD x35 x1 | s22 => DD x35 x2 | s23 => DD x35 x3 | s24 => DD x35 x4 | s25 => DD x35 x5 | s26 => DD x35 x6 | s27 => DD x35 x7 | s28 => DD x35 x8 | s29 => DD x35 x9 | s30 => DD x35 x10 | s31 => DD x35 x11 | s32 => DD x35 x12 | s33 => DD x35 x13 | s34 => DD x35 x14 | s35 => DD x35 x15 | s36 => DD x35 x16 | s37 => DD x35 x17 | s38 => DD x35 x18 | s39 => DD x35 x19 | s40 => DD x35 x20 | s41 => DD x35 x21 | s42 => DD x35 x22 | s43 => DD x35 x23 | s44 => DD x35 x24 | s45 => DD x35 x25 | s46 => DD x35 x26 | s47 => DD x35 x27 | s48 => DD x35 x28 | s49 => DD x35 x29 | s50 => DD x35 x30 | s51 => DD x35 x31 | s52 => DD x35 x32 | s53 => DD x35 x33 | s54 => DD x35 x34 | s55 => DD x35 x35 | s56 => DD x35 x36 | s57 => DD x35 x37 | s58 => DD x35 x38 | s59 => DD x35 x39 | s60 => DD x35 x40 | s61 => DD x35 x41 | s62 => DD x35 x42 | s63 => DD x35 x43 | s64 => DD x35 x44 | s65 => DD x35 x45 | s66 => DD x35 x46 | s67 => DD x35 x47 | s68 => DD x35 x48 | s69 => DD x35 x49 | s70 => DD x35 x50 | s71 => DD x35 x51 | s72 => DD x35 x52 | s73 => DD x35 x53 | s74 => DD x35 x54 | s75 => DD x35 x55 | s76 => DD x35 x56 | s77 => DD x35 x57 | s78 => DD x35 x58 | s79 => DD x35 x59 | s80 => DD x35 x60 | s81 => DD x35 x61 | s82 => DD x35 x62 | s83 => DD x35 x63 | s84 => DD x36 x0 | s85 => DD x36 x1 | s86 => DD x36 x2 | s87 => DD x36 x3 | s88 => DD x36 x4 | s89 => DD x36 x5 | s90 => DD x36 x6 | s91 => DD x36 x7 | s92 => DD x36 x8 | s93 => DD x36 x9 | s94 => DD x36 x10 | s95 => DD x36 x11 | s96 => DD x36 x12 | s97 => DD x36 x13 | s98 => DD x36 x14 | s99 => DD x36 x15 | s100 => DD x36 x16 | s101 => DD x36 x17 | s102 => DD x36 x18 | s103 => DD x36 x19 | s104 => DD x36 x20 | s105 => DD x36 x21 | s106 => DD x36 x22 | s107 => DD x36 x23 | s108 => DD x36 x24 | s109 => DD x36 x25 | s110 => DD x36 x26 | s111 => DD x36 x27 | s112 => DD x36 x28 | s113 => DD x36 x29 | s114 => DD x36 x30 | s115 => DD x36 x31 | s116 => DD x36 x32 | s117 => DD x36 x33 | s118 => DD x36 x34 | s119 => DD x36 x35 | s120 => DD x36 x36 | s121 => DD x36 x37 | s122 => DD x36 x38 | s123 => DD x36 x39 | s124 => DD x36 x40 | s125 => DD x36 x41 | s126 => DD x36 x42 end.
Definition m2223 (c : sum2) : dd := match c with s0 => DD x34 x47 | s1 => DD x34 x48 | s2 => DD x34 x49 | s3 => DD x34 x50 | s4 => DD x34 x51 | s5 => DD x34 x52 | s6 => DD x34 x53 | s7 => DD x34 x54 | s8 => DD x34 x55 | s9 => DD x34 x56 | s10 => DD x34 x57 | s11 => DD x34 x58 | s12 => DD x34 x59 | s13 => DD x34 x60 | s14 => DD x34 x61 | s15 => DD x34 x62 | s16 => DD x34 x63 | s17 => DD x35 x0 | s18 => DD x35 x1 | s19 => DD x35 x2 | s20 => DD x35 x3 | s21 => DD x35 x4 | s22 => DD x35 x5 | s23 => DD x35 x6 | s24 => DD x35 x7 | s25 => DD x35 x8 | s26 => DD x35 x9 | s27 => DD x35 x10 | s28 => DD x35 x11 | s29 => DD x35 x12 | s30 => DD x35 x13 | s31 => DD x35 x14 | s32 => DD x35 x15 | s33 => DD x35 x16 | s34 => DD x35 x17 | s35 => DD x35 x18 | s36 => DD x35 x19 | s37 => DD x35 x20 | s38 => DD x35 x21 | s39 => DD x35 x22 | s40 => DD x35 x23 | s41 => DD x35 x24 | s42 => DD x35 x25 | s43 => DD x35 x26 | s44 => DD x35 x27 | s45 => DD x35 x28 | s46 => DD x35 x29 | s47 => DD x35 x30 | s48 => DD x35 x31 | s49 => DD x35 x32 | s50 => DD x35 x33 | s51 => DD x35 x34 | s52 => DD x35 x35 | s53 => DD x35 x36 | s54 => DD x35 x37 | s55 => DD x35 x38 | s56 => DD x35 x39 | s57 => DD x35 x40 | s58 => DD x35 x41 | s59 => DD x35 x42 | s60 => DD x35 x43 | s61 => DD x35 x44 | s62 => DD x35 x45 | s63 => DD x35 x46 | s64 => DD x35 x47 | s65 => DD x35 x48 | s66 => DD x35 x49 | s67 => DD x35 x50 | s68 => DD x35 x51 | s69 => DD x35 x52 | s70 => DD x35 x53 | s71 => DD x35 x54 | s72 => DD x35 x55 | s73 => DD x35 x56 | s74 => DD x35 x57 | s75 => DD x35 x58 | s76 => DD x35 x59 | s77 => DD x35 x60 | s78 => DD x35 x61 | s79 => DD x35 x62 | s80 => DD x35 x63 | s81 => DD x36 x0 | s82 => DD x36 x1 | s83 => DD x36 x2 | s84 => DD x36 x3 | s85 => DD x36 x4 | s86 => DD x36 x5 | s87 => DD x36 x6 | s88 => DD x36 x7 | s89 => DD x36 x8 | s90 => DD x36 x9 | s91 => DD x36 x10 | s92 => DD x36 x11 | s93 => DD x36 x12 | s94 => DD x36 x13 | s95 => DD x36 x14 | s96 => DD x36 x15 | s97 => DD x36 x16 | s98 => DD x36 x17 | s99 => DD x36 x18 | s100 => DD x36 x19 | s101 => DD x36 x20 | s102 => DD x36 x21 | s103 => DD x36 x22 | s104 => DD x36 x23 | s105 => DD x36 x24 | s106 => DD x36 x25 | s107 => DD x36 x26 | s108 => DD x36 x27 | s109 => DD x36 x28 | s110 => DD x36 x29 | s111 => DD x36 x30 | s112 => DD x36 x31 | s113 => DD x36 x32 | s114 => DD x36 x33 | s115 => DD x36 x34 | s116 => DD x36 x35 | s117 => DD x36 x36 | s118 => DD x36 x37 | s119 => DD x36 x38 | s120 => DD x36 x39 | s121 => DD x36 x40 | s122 => DD x36 x41 | s123 => DD x36 x42 | s124 => DD x36 x43 | s125 => DD x36 x44 | s126 => DD x36 x45 end.
Definition m2226 (c : sum2) : dd := match c with s0 => DD x34 x50 | s1 => DD x34 x51 | s2 => DD x34 x52 | s3 => DD x34 x53 | s4 => DD x34 x54 | s5 => DD x34 x55 | s6 => DD x34 x56 | s7 => DD x34 x57 | s8 => DD x34 x58 | s9 => DD x34 x59 | s10 => DD x34 x60 | s11 => DD x34 x61 | s12 => DD x34 x62 | s13 => DD x34 x63 | s14 => DD x35 x0 | s15 => DD x35 x1 | s16 => DD x35 x2 | s17 => DD x35 x3 | s18 => DD x35 x4 | s19 => DD x35 x5 | s20 => DD x35 x6 | s21 => DD x35 x7 | s22 => DD x35 x8 | s23 => DD x35 x9 | s24 => DD x35 x10 | s25 => DD x35 x11 | s26 => DD x35 x12 | s27 => DD x35 x13 | s28 => DD x35 x14 | s29 => DD x35 x15 | s30 => DD x35 x16 | s31 => DD x35 x17 | s32 => DD x35 x18 | s33 => DD x35 x19 | s34 => DD x35 x20 | s35 => DD x35 x21 | s36 => DD x35 x22 | s37 => DD x35 x23 | s38 => DD x35 x24 | s39 => DD x35 x25 | s40 => DD x35 x26 | s41 => DD x35 x27 | s42 => DD x35 x28 | s43 => DD x35 x29 | s44 => DD x35 x30 | s45 => DD x35 x31 | s46 => DD x35 x32 | s47 => DD x35 x33 | s48 => DD x35 x34 | s49 => DD x35 x35 | s50 => DD x35 x36 | s51 => DD x35 x37 | s52 => DD x35 x38 | s53 => DD x35 x39 | s54 => DD x35 x40 | s55 => DD x35 x41 | s56 => DD x35 x42 | s57 => DD x35 x43 | s58 => DD x35 x44 | s59 => DD x35 x45 | s60 => DD x35 x46 | s61 => DD x35 x47 | s62 => DD x35 x48 | s63 => DD x35 x49 | s64 => DD x35 x50 | s65 => DD x35 x51 | s66 => DD x35 x52 | s67 => DD x35 x53 | s68 => DD x35 x54 | s69 => DD x35 x55 | s70 => DD x35 x56 | s71 => DD x35 x57 | s72 => DD x35 x58 | s73 => DD x35 x59 | s74 => DD x35 x60 | s75 => DD x35 x61 | s76 => DD x35 x62 | s77 => DD x35 x63 | s78 => DD x36 x0 | s79 => DD x36 x1 | s80 => DD x36 x2 | s81 => DD x36 x3 | s82 => DD x36 x4 | s83 => DD x36 x5 | s84 => DD x36 x6 | s85 => DD x36 x7 | s86 => DD x36 x8 | s87 => DD x36 x9 | s88 => DD x36 x10 | s89 => DD x36 x11 | s90 => DD x36 x12 | s91 => DD x36 x13 | s92 => DD x36 x14 | s93 => DD x36 x15 | s94 => DD x36 x16 | s95 => DD x36 x17 | s96 => DD x36 x18 | s97 => DD x36 x19 | s98 => DD x36 x20 | s99 => DD x36 x21 | s100 => DD x36 x22 | s101 => DD x36 x23 | s102 => DD x36 x24 | s103 => DD x36 x25 | s104 => DD x36 x26 | s105 => DD x36 x27 | s106 => DD x36 x28 | s107 => DD x36 x29 | s108 => DD x36 x30 | s109 => DD x36 x31 | s110 => DD x36 x32 | s111 => DD x36 x33 | s112 => DD x36 x34 | s113 => DD x36 x35 | s114 => DD x36 x36 | s115 => DD x36 x37 | s116 => DD x36 x38 | s117 => DD x36 x39 | s118 => DD x36 x40 | s119 => DD x36 x41 | s120 => DD x36 x42 | s121 => DD x36 x43 | s122 => DD x36 x44 | s123 => DD x36 x45 | s124 => DD x36 x46 | s125 => DD x36 x47 | s126 => DD x36 x48 end.
Definition m2232 (c : sum2) : dd := match c with s0 => DD x34 x56 | s1 => DD x34 x57 | s2 => DD x34 x58 | s3 => DD x34 x59 | s4 => DD x34 x60 | s5 => DD x34 x61 | s6 => DD x34 x62 | s7 => DD x34 x63 | s8 => DD x35 x0 | s9 => DD x35 x1 | s10 => DD x35 x2 | s11 => DD x35 x3 | s12 => DD x35 x4 | s13 => DD x35 x5 | s14 => DD x35 x6 | s15 => DD x35 x7 | s16 => DD x35 x8 | s17 => DD x35 x9 | s18 => DD x35 x10 | s19 => DD x35 x11 | s20 => DD x35 x12 | s21 => DD x35 x13 | s22 => DD x35 x14 | s23 => DD x35 x15 | s24 => DD x35 x16 | s25 => DD x35 x17 | s26 => DD x35 x18 | s27 => DD x35 x19 | s28 => DD x35 x20 | s29 => DD x35 x21 | s30 => DD x35 x22 | s31 => DD x35 x23 | s32 => DD x35 x24 | s33 => DD x35 x25 | s34 => DD x35 x26 | s35 => DD x35 x27 | s36 => DD x35 x28 | s37 => DD x35 x29 | s38 => DD x35 x30 | s39 => DD x35 x31 | s40 => DD x35 x32 | s41 => DD x35 x33 | s42 => DD x35 x34 | s43 => DD x35 x35 | s44 => DD x35 x36 | s45 => DD x35 x37 | s46 => DD x35 x38 | s47 => DD x35 x39 | s48 => DD x35 x40 | s49 => DD x35 x41 | s50 => DD x35 x42 | s51 => DD x35 x43 | s52 => DD x35 x44 | s53 => DD x35 x45 | s54 => DD x35 x46 | s55 => DD x35 x47 | s56 => DD x35 x48 | s57 => DD x35 x49 | s58 => DD x35 x50 | s59 => DD x35 x51 | s60 => DD x35 x52 | s61 => DD x35 x53 | s62 => DD x35 x54 | s63 => DD x35 x55 | s64 => DD x35 x56 | s65 => DD x35 x57 | s66 => DD x35 x58 | s67 => DD x35 x59 | s68 => DD x35 x60 | s69 => DD x35 x61 | s70 => DD x35 x62 | s71 => DD x35 x63 | s72 => DD x36 x0 | s73 => DD x36 x1 | s74 => DD x36 x2 | s75 => DD x36 x3 | s76 => DD x36 x4 | s77 => DD x36 x5 | s78 => DD x36 x6 | s79 => DD x36 x7 | s80 => DD x36 x8 | s81 => DD x36 x9 | s82 => DD x36 x10 | s83 => DD x36 x11 | s84 => DD x36 x12 | s85 => DD x36 x13 | s86 => DD x36 x14 | s87 => DD x36 x15 | s88 => DD x36 x16 | s89 => DD x36 x17 | s90 => DD x36 x18 | s91 => DD x36 x19 | s92 => DD x36 x20 | s93 => DD x36 x21 | s94 => DD x36 x22 | s95 => DD x36 x23 | s96 => DD x36 x24 | s97 => DD x36 x25 | s98 => DD x36 x26 | s99 => DD x36 x27 | s100 => DD x36 x28 | s101 => DD x36 x29 | s102 => DD x36 x30 | s103 => DD x36 x31 | s104 => DD x36 x32 | s105 => DD x36 x33 | s106 => DD x36 x34 | s107 => DD x36 x35 | s108 => DD x36 x36 | s109 => DD x36 x37 | s110 => DD x36 x38 | s111 => DD x36 x39 | s112 => DD x36 x40 | s113 => DD x36 x41 | s114 => DD x36 x42 | s115 => DD x36 x43 | s116 => DD x36 x44 | s117 => DD x36 x45 | s118 => DD x36 x46 | s119 => DD x36 x47 | s120 => DD x36 x48 | s121 => DD x36 x49 | s122 => DD x36 x50 | s123 => DD x36 x51 | s124 => DD x36 x52 | s125 => DD x36 x53 | s126 => DD x36 x54 end.
Definition m2236 (c : sum2) : dd := match c with s0 => DD x34 x60 | s1 => DD x34 x61 | s2 => DD x34 x62 | s3 => DD x34 x63 | s4 => DD x35 x0 | s5 => DD x35 x1 | s6 => DD x35 x2 | s7 => DD x35 x3 | s8 => DD x35 x4 | s9 => DD x35 x5 | s10 => DD x35 x6 | s11 => DD x35 x7 | s12 => DD x35 x8 | s13 => DD x35 x9 | s14 => DD x35 x10 | s15 => DD x35 x11 | s16 => DD x35 x12 | s17 => DD x35 x13 | s18 => DD x35 x14 | s19 => DD x35 x15 | s20 => DD x35 x16 | s21 => DD x35 x17 | s22 => DD x35 x18 | s23 => DD x35 x19 | s24 => DD x35 x20 | s25 => DD x35 x21 | s26 => DD x35 x22 | s27 => DD x35 x23 | s28 => DD x35 x24 | s29 => DD x35 x25 | s30 => DD x35 x26 | s31 => DD x35 x27 | s32 => DD x35 x28 | s33 => DD x35 x29 | s34 => DD x35 x30 | s35 => DD x35 x31 | s36 => DD x35 x32 | s37 => DD x35 x33 | s38 => DD x35 x34 | s39 => DD x35 x35 | s40 => DD x35 x36 | s41 => DD x35 x37 | s42 => DD x35 x38 | s43 => DD x35 x39 | s44 => DD x35 x40 | s45 => DD x35 x41 | s46 => DD x35 x42 | s47 => DD x35 x43 | s48 => DD x35 x44 | s49 => DD x35 x45 | s50 => DD x35 x46 | s51 => DD x35 x47 | s52 => DD x35 x48 | s53 => DD x35 x49 | s54 => DD x35 x50 | s55 => DD x35 x51 | s56 => DD x35 x52 | s57 => DD x35 x53 | s58 => DD x35 x54 | s59 => DD x35 x55 | s60 => DD x35 x56 | s61 => DD x35 x57 | s62 => DD x35 x58 | s63 => DD x35 x59 | s64 => DD x35 x60 | s65 => DD x35 x61 | s66 => DD x35 x62 | s67 => DD x35 x63 | s68 => DD x36 x0 | s69 => DD x36 x1 | s70 => DD x36 x2 | s71 => DD x36 x3 | s72 => DD x36 x4 | s73 => DD x36 x5 | s74 => DD x36 x6 | s75 => DD x36 x7 | s76 => DD x36 x8 | s77 => DD x36 x9 | s78 => DD x36 x10 | s79 => DD x36 x11 | s80 => DD x36 x12 | s81 => DD x36 x13 | s82 => DD x36 x14 | s83 => DD x36 x15 | s84 => DD x36 x16 | s85 => DD x36 x17 | s86 => DD x36 x18 | s87 => DD x36 x19 | s88 => DD x36 x20 | s89 => DD x36 x21 | s90 => DD x36 x22 | s91 => DD x36 x23 | s92 => DD x36 x24 | s93 => DD x36 x25 | s94 => DD x36 x26 | s95 => DD x36 x27 | s96 => DD x36 x28 | s97 => DD x36 x29 | s98 => DD x36 x30 | s99 => DD x36 x31 | s100 => DD x36 x32 | s101 => DD x36 x33 | s102 => DD x36 x34 | s103 => DD x36 x35 | s104 => DD x36 x36 | s105 => DD x36 x37 | s106 => DD x36 x38 | s107 => DD x36 x39 | s108 => DD x36 x40 | s109 => DD x36 x41 | s110 => DD x36 x42 | s111 => DD x36 x43 | s112 => DD x36 x44 | s113 => DD x36 x45 | s114 => DD x36 x46 | s115 => DD x36 x47 | s116 => DD x36 x48 | s117 => DD x36 x49 | s118 => DD x36 x50 | s119 => DD x36 x51 | s120 => DD x36 x52 | s121 => DD x36 x53 | s122 => DD x36 x54 | s123 => DD x36 x55 | s124 => DD x36 x56 | s125 => DD x36 x57 | s126 => DD x36 x58 end.
Definition m2240 (c : sum2) : dd := match c with s0 => DD x35 x0 | s1 => DD x35 x1 | s2 => DD x35 x2 | s3 => DD x35 x3 | s4 => DD x35 x4 | s5 => DD x35 x5 | s6 => DD x35 x6 | s7 => DD x35 x7 | s8 => DD x35 x8 | s9 => DD x35 x9 | s10 => DD x35 x10 | s11 => DD x35 x11 | s12 => DD x35 x12 | s13 => DD x35 x13 | s14 => DD x35 x14 | s15 => DD x35 x15 | s16 => DD x35 x16 | s17 => DD x35 x17 | s18 => DD x35 x18 | s19 => DD x35 x19 | s20 => DD x35 x20 | s21 => DD x35 x21 | s22 => DD x35 x22 | s23 => DD x35 x23 | s24 => DD x35 x24 | s25 => DD x35 x25 | s26 => DD x35 x26 | s27 => DD x35 x27 | s28 => DD x35 x28 | s29 => DD x35 x29 | s30 => DD x35 x30 | s31 => DD x35 x31 | s32 => DD x35 x32 | s33 => DD x35 x33 | s34 => DD x35 x34 | s35 => DD x35 x35 | s36 => DD x35 x36 | s37 => DD x35 x37 | s38 => DD x35 x38 | s39 => DD x35 x39 | s40 => DD x35 x40 | s41 => DD x35 x41 | s42 => DD x35 x42 | s43 => DD x35 x43 | s44 => DD x35 x44 | s45 => DD x35 x45 | s46 => DD x35 x46 | s47 => DD x35 x47 | s48 => DD x35 x48 | s49 => DD x35 x49 | s50 => DD x35 x50 | s51 => DD x35 x51 | s52 => DD x35 x52 | s53 => DD x35 x53 | s54 => DD x35 x54 | s55 => DD x35 x55 | s56 => DD x35 x56 | s57 => DD x35 x57 | s58 => DD x35 x58 | s59 => DD x35 x59 | s60 => DD x35 x60 | s61 => DD x35 x61 | s62 => DD x35 x62 | s63 => DD x35 x63 | s64 => DD x36 x0 | s65 => DD x36 x1 | s66 => DD x36 x2 | s67 => DD x36 x3 | s68 => DD x36 x4 | s69 => DD x36 x5 | s70 => DD x36 x6 | s71 => DD x36 x7 | s72 => DD x36 x8 | s73 => DD x36 x9 | s74 => DD x36 x10 | s75 => DD x36 x11 | s76 => DD x36 x12 | s77 => DD x36 x13 | s78 => DD x36 x14 | s79 => DD x36 x15 | s80 => DD x36 x16 | s81 => DD x36 x17 | s82 => DD x36 x18 | s83 => DD x36 x19 | s84 => DD x36 x20 | s85 => DD x36 x21 | s86 => DD x36 x22 | s87 => DD x36 x23 | s88 => DD x36 x24 | s89 => DD x36 x25 | s90 => DD x36 x26 | s91 => DD x36 x27 | s92 => DD x36 x28 | s93 => DD x36 x29 | s94 => DD x36 x30 | s95 => DD x36 x31 | s96 => DD x36 x32 | s97 => DD x36 x33 | s98 => DD x36 x34 | s99 => DD x36 x35 | s100 => DD x36 x36 | s101 => DD x36 x37 | s102 => DD x36 x38 | s103 => DD x36 x39 | s104 => DD x36 x40 | s105 => DD x36 x41 | s106 => DD x36 x42 | s107 => DD x36 x43 | s108 => DD x36 x44 | s109 => DD x36 x45 | s110 => DD x36 x46 | s111 => DD x36 x47 | s112 => DD x36 x48 | s113 => DD x36 x49 | s114 => DD x36 x50 | s115 => DD x36 x51 | s116 => DD x36 x52 | s117 => DD x36 x53 | s118 => DD x36 x54 | s119 => DD x36 x55 | s120 => DD x36 x56 | s121 => DD x36 x57 | s122 => DD x36 x58 | s123 => DD x36 x59 | s124 => DD x36 x60 | s125 => DD x36 x61 | s126 => DD x36 x62 end.
Definition m2242 (c : sum2) : dd := match c with s0 => DD x35 x2 | s1 => DD x35 x3 | s2 => DD x35 x4 | s3 => DD x35 x5 | s4 => DD x35 x6 | s5 => DD x35 x7 | s6 => DD x35 x8 | s7 => DD x35 x9 | s8 => DD x35 x10 | s9 => DD x35 x11 | s10 => DD x35 x12 | s11 => DD x35 x13 | s12 => DD x35 x14 | s13 => DD x35 x15 | s14 => DD x35 x16 | s15 => DD x35 x17 | s16 => DD x35 x18 | s17 => DD x35 x19 | s18 => DD x35 x20 | s19 => DD x35 x21 | s20 => DD x35 x22 | s21 => DD x35 x23 | s22 => DD x35 x24 | s23 => DD x35 x25 | s24 => DD x35 x26 | s25 => DD x35 x27 | s26 => DD x35 x28 | s27 => DD x35 x29 | s28 => DD x35 x30 | s29 => DD x35 x31 | s30 => DD x35 x32 | s31 => DD x35 x33 | s32 => DD x35 x34 | s33 => DD x35 x35 | s34 => DD x35 x36 | s35 => DD x35 x37 | s36 => DD x35 x38 | s37 => DD x35 x39 | s38 => DD x35 x40 | s39 => DD x35 x41 | s40 => DD x35 x42 | s41 => DD x35 x43 | s42 => DD x35 x44 | s43 => DD x35 x45 | s44 => DD x35 x46 | s45 => DD x35 x47 | s46 => DD x35 x48 | s47 => DD x35 x49 | s48 => DD x35 x50 | s49 => DD x35 x51 | s50 => DD x35 x52 | s51 => DD x35 x53 | s52 => DD x35 x54 | s53 => DD x35 x55 | s54 => DD x35 x56 | s55 => DD x35 x57 | s56 => DD x35 x58 | s57 => DD x35 x59 | s58 => DD x35 x60 | s59 => DD x35 x61 | s60 => DD x35 x62 | s61 => DD x35 x63 | s62 => DD x36 x0 | s63 => DD x36 x1 | s64 => DD x36 x2 | s65 => DD x36 x3 | s66 => DD x36 x4 | s67 => DD x36 x5 | s68 => DD x36 x6 | s69 => DD x36 x7 | s70 => DD x36 x8 | s71 => DD x36 x9 | s72 => DD x36 x10 | s73 => DD x36 x11 | s74 => DD x36 x12 | s75 => DD x36 x13 | s76 => DD x36 x14 | s77 => DD x36 x15 | s78 => DD x36 x16 | s79 => DD x36 x17 | s80 => DD x36 x18 | s81 => DD x36 x19 | s82 => DD x36 x20 | s83 => DD x36 x21 | s84 => DD x36 x22 | s85 => DD x36 x23 | s86 => DD x36 x24 | s87 => DD x36 x25 | s88 => DD x36 x26 | s89 => DD x36 x27 | s90 => DD x36 x28 | s91 => DD x36 x29 | s92 => DD x36 x30 | s93 => DD x36 x31 | s94 => DD x36 x32 | s95 => DD x36 x33 | s96 => DD x36 x34 | s97 => DD x36 x35 | s98 => DD x36 x36 | s99 => DD x36 x37 | s100 => DD x36 x38 | s101 => DD x36 x39 | s102 => DD x36 x40 | s103 => DD x36 x41 | s104 => DD x36 x42 | s105 => DD x36 x43 | s106 => DD x36 x44 | s107 => DD x36 x45 | s108 => DD x36 x46 | s109 => DD x36 x47 | s110 => DD x36 x48 | s111 => DD x36 x49 | s112 => DD x36 x50 | s113 => DD x36 x51 | s114 => DD x36 x52 | s115 => DD x36 x53 | s116 => DD x36 x54 | s117 => DD x36 x55 | s118 => DD x36 x56 | s119 => DD x36 x57 | s120 => DD x36 x58 | s121 => DD x36 x59 | s122 => DD x36 x60 | s123 => DD x36 x61 | s124 => DD x36 x62 | s125 => DD x36 x63 | s126 => DD x37 x0 end.
Definition m2244 (c : sum2) : dd := match c with s0 => DD x35 x4 | s1 => DD x35 x5 | s2 => DD x35 x6 | s3 => DD x35 x7 | s4 => DD x35 x8 | s5 => DD x35 x9 | s6 => DD x35 x10 | s7 => DD x35 x11 | s8 => DD x35 x12 | s9 => DD x35 x13 | s10 => DD x35 x14 | s11 => DD x35 x15 | s12 => DD x35 x16 | s13 => DD x35 x17 | s14 => DD x35 x18 | s15 => DD x35 x19 | s16 => DD x35 x20 | s17 => DD x35 x21 | s18 => DD x35 x22 | s19 => DD x35 x23 | s20 => DD x35 x24 | s21 => DD x35 x25 | s22 => DD x35 x26 | s23 => DD x35 x27 | s24 => DD x35 x28 | s25 => DD x35 x29 | s26 => DD x35 x30 | s27 => DD x35 x31 | s28 => DD x35 x32 | s29 => DD x35 x33 | s30 => DD x35 x34 | s31 => DD x35 x35 | s32 => DD x35 x36 | s33 => DD x35 x37 | s34 => DD x35 x38 | s35 => DD x35 x39 | s36 => DD x35 x40 | s37 => DD x35 x41 | s38 => DD x35 x42 | s39 => DD x35 x43 | s40 => DD x35 x44 | s41 => DD x35 x45 | s42 => DD x35 x46 | s43 => DD x35 x47 | s44 => DD x35 x48 | s45 => DD x35 x49 | s46 => DD x35 x50 | s47 => DD x35 x51 | s48 => DD x35 x52 | s49 => DD x35 x53 | s50 => DD x35 x54 | s51 => DD x35 x55 | s52 => DD x35 x56 | s53 => DD x35 x57 | s54 => DD x35 x58 | s55 => DD x35 x59 | s56 => DD x35 x60 | s57 => DD x35 x61 | s58 => DD x35 x62 | s59 => DD x35 x63 | s60 => DD x36 x0 | s61 => DD x36 x1 | s62 => DD x36 x2 | s63 => DD x36 x3 | s64 => DD x36 x4 | s65 => DD x36 x5 | s66 => DD x36 x6 | s67 => DD x36 x7 | s68 => DD x36 x8 | s69 => DD x36 x9 | s70 => DD x36 x10 | s71 => DD x36 x11 | s72 => DD x36 x12 | s73 => DD x36 x13 | s74 => DD x36 x14 | s75 => DD x36 x15 | s76 => DD x36 x16 | s77 => DD x36 x17 | s78 => DD x36 x18 | s79 => DD x36 x19 | s80 => DD x36 x20 | s81 => DD x36 x21 | s82 => DD x36 x22 | s83 => DD x36 x23 | s84 => DD x36 x24 | s85 => DD x36 x25 | s86 => DD x36 x26 | s87 => DD x36 x27 | s88 => DD x36 x28 | s89 => DD x36 x29 | s90 => DD x36 x30 | s91 => DD x36 x31 | s92 => DD x36 x32 | s93 => DD x36 x33 | s94 => DD x36 x34 | s95 => DD x36 x35 | s96 => DD x36 x36 | s97 => DD x36 x37 | s98 => DD x36 x38 | s99 => DD x36 x39 | s100 => DD x36 x40 | s101 => DD x36 x41 | s102 => DD x36 x42 | s103 => DD x36 x43 | s104 => DD x36 x44 | s105 => DD x36 x45 | s106 => DD x36 x46 | s107 => DD x36 x47 | s108 => DD x36 x48 | s109 => DD x36 x49 | s110 => DD x36 x50 | s111 => DD x36 x51 | s112 => DD x36 x52 | s113 => DD x36 x53 | s114 => DD x36 x54 | s115 => DD x36 x55 | s116 => DD x36 x56 | s117 => DD x36 x57 | s118 => DD x36 x58 | s119 => DD x36 x59 | s120 => DD x36 x60 | s121 => DD x36 x61 | s122 => DD x36 x62 | s123 => DD x36 x63 | s124 => DD x37 x0 | s125 => DD x37 x1 | s126 => DD x37 x2 end.
Definition m2250 (c : sum2) : dd := match c with s0 => DD x35 x10 | s1 => DD x35 x11 | s2 => DD x35 x12 | s3 => DD x35 x13 | s4 => DD x35 x14 | s5 => DD x35 x15 | s6 => DD x35 x16 | s7 => DD x35 x17 | s8 => DD x35 x18 | s9 => DD x35 x19 | s10 => DD x35 x20 | s11 => DD x35 x21 | s12 => DD x35 x22 | s13 => DD x35 x23 | s14 => DD x35 x24 | s15 => DD x35 x25 | s16 => DD x35 x26 | s17 => DD x35 x27 | s18 => DD x35 x28 | s19 => DD x35 x29 | s20 => DD x35 x30 | s21 => DD x35 x31 | s22 => DD x35 x32 | s23 => DD x35 x33 | s24 => DD x35 x34 | s25 => DD x35 x35 | s26 => DD x35 x36 | s27 => DD x35 x37 | s28 => DD x35 x38 | s29 => DD x35 x39 | s30 => DD x35 x40 | s31 => DD x35 x41 | s32 => DD x35 x42 | s33 => DD x35 x43 | s34 => DD x35 x44 | s35 => DD x35 x45 | s36 => DD x35 x46 | s37 => DD x35 x47 | s38 => DD x35 x48 | s39 => DD x35 x49 | s40 => DD x35 x50 | s41 => DD x35 x51 | s42 => DD x35 x52 | s43 => DD x35 x53 | s44 => DD x35 x54 | s45 => DD x35 x55 | s46 => DD x35 x56 | s47 => DD x35 x57 | s48 => DD x35 x58 | s49 => DD x35 x59 | s50 => DD x35 x60 | s51 => DD x35 x61 | s52 => DD x35 x62 | s53 => DD x35 x63 | s54 => DD x36 x0 | s55 => DD x36 x1 | s56 => DD x36 x2 | s57 => DD x36 x3 | s58 => DD x36 x4 | s59 => DD x36 x5 | s60 => DD x36 x6 | s61 => DD x36 x7 | s62 => DD x36 x8 | s63 => DD x36 x9 | s64 => DD x36 x10 | s65 => DD x36 x11 | s66 => DD x36 x12 | s67 => DD x36 x13 | s68 => DD x36 x14 | s69 => DD x36 x15 | s70 => DD x36 x16 | s71 => DD x36 x17 | s72 => DD x36 x18 | s73 => DD x36 x19 | s74 => DD x36 x20 | s75 => DD x36 x21 | s76 => DD x36 x22 | s77 => DD x36 x23 | s78 => DD x36 x24 | s79 => DD x36 x25 | s80 => DD x36 x26 | s81 => DD x36 x27 | s82 => DD x36 x28 | s83 => DD x36 x29 | s84 => DD x36 x30 | s85 => DD x36 x31 | s86 => DD x36 x32 | s87 => DD x36 x33 | s88 => DD x36 x34 | s89 => DD x36 x35 | s90 => DD x36 x36 | s91 => DD x36 x37 | s92 => DD x36 x38 | s93 => DD x36 x39 | s94 => DD x36 x40 | s95 => DD x36 x41 | s96 => DD x36 x42 | s97 => DD x36 x43 | s98 => DD x36 x44 | s99 => DD x36 x45 | s100 => DD x36 x46 | s101 => DD x36 x47 | s102 => DD x36 x48 | s103 => DD x36 x49 | s104 => DD x36 x50 | s105 => DD x36 x51 | s106 => DD x36 x52 | s107 => DD x36 x53 | s108 => DD x36 x54 | s109 => DD x36 x55 | s110 => DD x36 x56 | s111 => DD x36 x57 | s112 => DD x36 x58 | s113 => DD x36 x59 | s114 => DD x36 x60 | s115 => DD x36 x61 | s116 => DD x36 x62 | s117 => DD x36 x63 | s118 => DD x37 x0 | s119 => DD x37 x1 | s120 => DD x37 x2 | s121 => DD x37 x3 | s122 => DD x37 x4 | s123 => DD x37 x5 | s124 => DD x37 x6 | s125 => DD x37 x7 | s126 => DD x37 x8 end.
Definition m2254 (c : sum2) : dd := match c with s0 => DD x35 x14 | s1 => DD x35 x15 | s2 => DD x35 x16 | s3 => DD x35 x17 | s4 => DD x35 x18 | s5 => DD x35 x19 | s6 => DD x35 x20 | s7 => DD x35 x21 | s8 => DD x35 x22 | s9 => DD x35 x23 | s10 => DD x35 x24 | s11 => DD x35 x25 | s12 => DD x35 x26 | s13 => DD x35 x27 | s14 => DD x35 x28 | s15 => DD x35 x29 | s16 => DD x35 x30 | s17 => DD x35 x31 | s18 => DD x35 x32 | s19 => DD x35 x33 | s20 => DD x35 x34 | s21 => DD x35 x35 | s22 => DD x35 x36 | s23 => DD x35 x37 | s24 => DD x35 x38 | s25 => DD x35 x39 | s26 => DD x35 x40 | s27 => DD x35 x41 | s28 => DD x35 x42 | s29 => DD x35 x43 | s30 => DD x35 x44 | s31 => DD x35 x45 | s32 => DD x35 x46 | s33 => DD x35 x47 | s34 => DD x35 x48 | s35 => DD x35 x49 | s36 => DD x35 x50 | s37 => DD x35 x51 | s38 => DD x35 x52 | s39 => DD x35 x53 | s40 => DD x35 x54 | s41 => DD x35 x55 | s42 => DD x35 x56 | s43 => DD x35 x57 | s44 => DD x35 x58 | s45 => DD x35 x59 | s46 => DD x35 x60 | s47 => DD x35 x61 | s48 => DD x35 x62 | s49 => DD x35 x63 | s50 => DD x36 x0 | s51 => DD x36 x1 | s52 => DD x36 x2 | s53 => DD x36 x3 | s54 => DD x36 x4 | s55 => DD x36 x5 | s56 => DD x36 x6 | s57 => DD x36 x7 | s58 => DD x36 x8 | s59 => DD x36 x9 | s60 => DD x36 x10 | s61 => DD x36 x11 | s62 => DD x36 x12 | s63 => DD x36 x13 | s64 => DD x36 x14 | s65 => DD x36 x15 | s66 => DD x36 x16 | s67 => DD x36 x17 | s68 => DD x36 x18 | s69 => DD x36 x19 | s70 => DD x36 x20 | s71 => DD x36 x21 | s72 => DD x36 x22 | s73 => DD x36 x23 | s74 => DD x36 x24 | s75 => DD x36 x25 | s76 => DD x36 x26 | s77 => DD x36 x27 | s78 => DD x36 x28 | s79 => DD x36 x29 | s80 => DD x36 x30 | s81 => DD x36 x31 | s82 => DD x36 x32 | s83 => DD x36 x33 | s84 => DD x36 x34 | s85 => DD x36 x35 | s86 => DD x36 x36 | s87 => DD x36 x37 | s88 => DD x36 x38 | s89 => DD x36 x39 | s90 => DD x36 x40 | s91 => DD x36 x41 | s92 => DD x36 x42 | s93 => DD x36 x43 | s94 => DD x36 x44 | s95 => DD x36 x45 | s96 => DD x36 x46 | s97 => DD x36 x47 | s98 => DD x36 x48 | s99 => DD x36 x49 | s100 => DD x36 x50 | s101 => DD x36 x51 | s102 => DD x36 x52 | s103 => DD x36 x53 | s104 => DD x36 x54 | s105 => DD x36 x55 | s106 => DD x36 x56 | s107 => DD x36 x57 | s108 => DD x36 x58 | s109 => DD x36 x59 | s110 => DD x36 x60 | s111 => DD x36 x61 | s112 => DD x36 x62 | s113 => DD x36 x63 | s114 => DD x37 x0 | s115 => DD x37 x1 | s116 => DD x37 x2 | s117 => DD x37 x3 | s118 => DD x37 x4 | s119 => DD x37 x5 | s120 => DD x37 x6 | s121 => DD x37 x7 | s122 => DD x37 x8 | s123 => DD x37 x9 | s124 => DD x37 x10 | s125 => DD x37 x11 | s126 => DD x37 x12 end.
Definition m2255 (c : sum2) : dd := match c with s0 => DD x35 x15 | s1 => DD x35 x16 | s2 => DD x35 x17 | s3 => DD x35 x18 | s4 => DD x35 x19 | s5 => DD x35 x20 | s6 => DD x35 x21 | s7 => DD x35 x22 | s8 => DD x35 x23 | s9 => DD x35 x24 | s10 => DD x35 x25 | s11 => DD x35 x26 | s12 => DD x35 x27 | s13 => DD x35 x28 | s14 => DD x35 x29 | s15 => DD x35 x30 | s16 => DD x35 x31 | s17 => DD x35 x32 | s18 => DD x35 x33 | s19 => DD x35 x34 | s20 => DD x35 x35 | s21 => DD x35 x36 | s22 => DD x35 x37 | s23 => DD x35 x38 | s24 => DD x35 x39 | s25 => DD x35 x40 | s26 => DD x35 x41 | s27 => DD x35 x42 | s28 => DD x35 x43 | s29 => DD x35 x44 | s30 => DD x35 x45 | s31 => DD x35 x46 | s32 => DD x35 x47 | s33 => DD x35 x48 | s34 => DD x35 x49 | s35 => DD x35 x50 | s36 => DD x35 x51 | s37 => DD x35 x52 | s38 => DD x35 x53 | s39 => DD x35 x54 | s40 => DD x35 x55 | s41 => DD x35 x56 | s42 => DD x35 x57 | s43 => DD x35 x58 | s44 => DD x35 x59 | s45 => DD x35 x60 | s46 => DD x35 x61 | s47 => DD x35 x62 | s48 => DD x35 x63 | s49 => DD x36 x0 | s50 => DD x36 x1 | s51 => DD x36 x2 | s52 => DD x36 x3 | s53 => DD x36 x4 | s54 => DD x36 x5 | s55 => DD x36 x6 | s56 => DD x36 x7 | s57 => DD x36 x8 | s58 => DD x36 x9 | s59 => DD x36 x10 | s60 => DD x36 x11 | s61 => DD x36 x12 | s62 => DD x36 x13 | s63 => DD x36 x14 | s64 => DD x36 x15 | s65 => DD x36 x16 | s66 => DD x36 x17 | s67 => DD x36 x18 | s68 => DD x36 x19 | s69 => DD x36 x20 | s70 => DD x36 x21 | s71 => DD x36 x22 | s72 => DD x36 x23 | s73 => DD x36 x24 | s74 => DD x36 x25 | s75 => DD x36 x26 | s76 => DD x36 x27 | s77 => DD x36 x28 | s78 => DD x36 x29 | s79 => DD x36 x30 | s80 => DD x36 x31 | s81 => DD x36 x32 | s82 => DD x36 x33 | s83 => DD x36 x34 | s84 => DD x36 x35 | s85 => DD x36 x36 | s86 => DD x36 x37 | s87 => DD x36 x38 | s88 => DD x36 x39 | s89 => DD x36 x40 | s90 => DD x36 x41 | s91 => DD x36 x42 | s92 => DD x36 x43 | s93 => DD x36 x44 | s94 => DD x36 x45 | s95 => DD x36 x46 | s96 => DD x36 x47 | s97 => DD x36 x48 | s98 => DD x36 x49 | s99 => DD x36 x50 | s100 => DD x36 x51 | s101 => DD x36 x52 | s102 => DD x36 x53 | s103 => DD x36 x54 | s104 => DD x36 x55 | s105 => DD x36 x56 | s106 => DD x36 x57 | s107 => DD x36 x58 | s108 => DD x36 x59 | s109 => DD x36 x60 | s110 => DD x36 x61 | s111 => DD x36 x62 | s112 => DD x36 x63 | s113 => DD x37 x0 | s114 => DD x37 x1 | s115 => DD x37 x2 | s116 => DD x37 x3 | s117 => DD x37 x4 | s118 => DD x37 x5 | s119 => DD x37 x6 | s120 => DD x37 x7 | s121 => DD x37 x8 | s122 => DD x37 x9 | s123 => DD x37 x10 | s124 => DD x37 x11 | s125 => DD x37 x12 | s126 => DD x37 x13 end.
Definition m2256 (c : sum2) : dd := match c with s0 => DD x35 x16 | s1 => DD x35 x17 | s2 => DD x35 x18 | s3 => DD x35 x19 | s4 => DD x35 x20 | s5 => DD x35 x21 | s6 => DD x35 x22 | s7 => DD x35 x23 | s8 => DD x35 x24 | s9 => DD x35 x25 | s10 => DD x35 x26 | s11 => DD x35 x27 | s12 => DD x35 x28 | s13 => DD x35 x29 | s14 => DD x35 x30 | s15 => DD x35 x31 | s16 => DD x35 x32 | s17 => DD x35 x33 | s18 => DD x35 x34 | s19 => DD x35 x35 | s20 => DD x35 x36 | s21 => DD x35 x37 | s22 => DD x35 x38 | s23 => DD x35 x39 | s24 => DD x35 x40 | s25 => DD x35 x41 | s26 => DD x35 x42 | s27 => DD x35 x43 | s28 => DD x35 x44 | s29 => DD x35 x45 | s30 => DD x35 x46 | s31 => DD x35 x47 | s32 => DD x35 x48 | s33 => DD x35 x49 | s34 => DD x35 x50 | s35 => DD x35 x51 | s36 => DD x35 x52 | s37 => DD x35 x53 | s38 => DD x35 x54 | s39 => DD x35 x55 | s40 => DD x35 x56 | s41 => DD x35 x57 | s42 => DD x35 x58 | s43 => DD x35 x59 | s44 => DD x35 x60 | s45 => DD x35 x61 | s46 => DD x35 x62 | s47 => DD x35 x63 | s48 => DD x36 x0 | s49 => DD x36 x1 | s50 => DD x36 x2 | s51 => DD x36 x3 | s52 => DD x36 x4 | s53 => DD x36 x5 | s54 => DD x36 x6 | s55 => DD x36 x7 | s56 => DD x36 x8 | s57 => DD x36 x9 | s58 => DD x36 x10 | s59 => DD x36 x11 | s60 => DD x36 x12 | s61 => DD x36 x13 | s62 => DD x36 x14 | s63 => DD x36 x15 | s64 => DD x36 x16 | s65 => DD x36 x17 | s66 => DD x36 x18 | s67 => DD x36 x19 | s68 => DD x36 x20 | s69 => DD x36 x21 | s70 => DD x36 x22 | s71 => DD x36 x23 | s72 => DD x36 x24 | s73 => DD x36 x25 | s74 => DD x36 x26 | s75 => DD x36 x27 | s76 => DD x36 x28 | s77 => DD x36 x29 | s78 => DD x36 x30 | s79 => DD x36 x31 | s80 => DD x36 x32 | s81 => DD x36 x33 | s82 => DD x36 x34 | s83 => DD x36 x35 | s84 => DD x36 x36 | s85 => DD x36 x37 | s86 => DD x36 x38 | s87 => DD x36 x39 | s88 => DD x36 x40 | s89 => DD x36 x41 | s90 => DD x36 x42 | s91 => DD x36 x43 | s92 => DD x36 x44 | s93 => DD x36 x45 | s94 => DD x36 x46 | s95 => DD x36 x47 | s96 => DD x36 x48 | s97 => DD x36 x49 | s98 => DD x36 x50 | s99 => DD x36 x51 | s100 => DD x36 x52 | s101 => DD x36 x53 | s102 => DD x36 x54 | s103 => DD x36 x55 | s104 => DD x36 x56 | s105 => DD x36 x57 | s106 => DD x36 x58 | s107 => DD x36 x59 | s108 => DD x36 x60 | s109 => DD x36 x61 | s110 => DD x36 x62 | s111 => DD x36 x63 | s112 => DD x37 x0 | s113 => DD x37 x1 | s114 => DD x37 x2 | s115 => DD x37 x3 | s116 => DD x37 x4 | s117 => DD x37 x5 | s118 => DD x37 x6 | s119 => DD x37 x7 | s120 => DD x37 x8 | s121 => DD x37 x9 | s122 => DD x37 x10 | s123 => DD x37 x11 | s124 => DD x37 x12 | s125 => DD x37 x13 | s126 => DD x37 x14 end.
Definition m2257 (c : sum2) : dd := match c with s0 => DD x35 x17 | s1 => DD x35 x18 | s2 => DD x35 x19 | s3 => DD x35 x20 | s4 => DD x35 x21 | s5 => DD x35 x22 | s6 => DD x35 x23 | s7 => DD x35 x24 | s8 => DD x35 x25 | s9 => DD x35 x26 | s10 => DD x35 x27 | s11 => DD x35 x28 | s12 => DD x35 x29 | s13 => DD x35 x30 | s14 => DD x35 x31 | s15 => DD x35 x32 | s16 => DD x35 x33 | s17 => DD x35 x34 | s18 => DD x35 x35 | s19 => DD x35 x36 | s20 => DD x35 x37 | s21 => DD x35 x38 | s22 => DD x35 x39 | s23 => DD x35 x40 | s24 => DD x35 x41 | s25 => DD x35 x42 | s26 => DD x35 x43 | s27 => DD x35 x44 | s28 => DD x35 x45 | s29 => DD x35 x46 | s30 => DD x35 x47 | s31 => DD x35 x48 | s32 => DD x35 x49 | s33 => DD x35 x50 | s34 => DD x35 x51 | s35 => DD x35 x52 | s36 => DD x35 x53 | s37 => DD x35 x54 | s38 => DD x35 x55 | s39 => DD x35 x56 | s40 => DD x35 x57 | s41 => DD x35 x58 | s42 => DD x35 x59 | s43 => DD x35 x60 | s44 => DD x35 x61 | s45 => DD x35 x62 | s46 => DD x35 x63 | s47 => DD x36 x0 | s48 => DD x36 x1 | s49 => DD x36 x2 | s50 => DD x36 x3 | s51 => DD x36 x4 | s52 => DD x36 x5 | s53 => DD x36 x6 | s54 => DD x36 x7 | s55 => DD x36 x8 | s56 => DD x36 x9 | s57 => DD x36 x10 | s58 => DD x36 x11 | s59 => DD x36 x12 | s60 => DD x36 x13 | s61 => DD x36 x14 | s62 => DD x36 x15 | s63 => DD x36 x16 | s64 => DD x36 x17 | s65 => DD x36 x18 | s66 => DD x36 x19 | s67 => DD x36 x20 | s68 => DD x36 x21 | s69 => DD x36 x22 | s70 => DD x36 x23 | s71 => DD x36 x24 | s72 => DD x36 x25 | s73 => DD x36 x26 | s74 => DD x36 x27 | s75 => DD x36 x28 | s76 => DD x36 x29 | s77 => DD x36 x30 | s78 => DD x36 x31 | s79 => DD x36 x32 | s80 => DD x36 x33 | s81 => DD x36 x34 | s82 => DD x36 x35 | s83 => DD x36 x36 | s84 => DD x36 x37 | s85 => DD x36 x38 | s86 => DD x36 x39 | s87 => DD x36 x40 | s88 => DD x36 x41 | s89 => DD x36 x42 | s90 => DD x36 x43 | s91 => DD x36 x44 | s92 => DD x36 x45 | s93 => DD x36 x46 | s94 => DD x36 x47 | s95 => DD x36 x48 | s96 => DD x36 x49 | s97 => DD x36 x50 | s98 => DD x36 x51 | s99 => DD x36 x52 | s100 => DD x36 x53 | s101 => DD x36 x54 | s102 => DD x36 x55 | s103 => DD x36 x56 | s104 => DD x36 x57 | s105 => DD x36 x58 | s106 => DD x36 x59 | s107 => DD x36 x60 | s108 => DD x36 x61 | s109 => DD x36 x62 | s110 => DD x36 x63 | s111 => DD x37 x0 | s112 => DD x37 x1 | s113 => DD x37 x2 | s114 => DD x37 x3 | s115 => DD x37 x4 | s116 => DD x37 x5 | s117 => DD x37 x6 | s118 => DD x37 x7 | s119 => DD x37 x8 | s120 => DD x37 x9 | s121 => DD x37 x10 | s122 => DD x37 x11 | s123 => DD x37 x12 | s124 => DD x37 x13 | s125 => DD x37 x14 | s126 => DD x37 x15 end.
Definition m2262 (c : sum2) : dd := match c with s0 => DD x35 x22 | s1 => DD x35 x23 | s2 => DD x35 x24 | s3 => DD x35 x25 | s4 => DD x35 x26 | s5 => DD x35 x27 | s6 => DD x35 x28 | s7 => DD x35 x29 | s8 => DD x35 x30 | s9 => DD x35 x31 | s10 => DD x35 x32 | s11 => DD x35 x33 | s12 => DD x35 x34 | s13 => DD x35 x35 | s14 => DD x35 x36 | s15 => DD x35 x37 | s16 => DD x35 x38 | s17 => DD x35 x39 | s18 => DD x35 x40 | s19 => DD x35 x41 | s20 => DD x35 x42 | s21 => DD x35 x43 | s22 => DD x35 x44 | s23 => DD x35 x45 | s24 => DD x35 x46 | s25 => DD x35 x47 | s26 => DD x35 x48 | s27 => DD x35 x49 | s28 => DD x35 x50 | s29 => DD x35 x51 | s30 => DD x35 x52 | s31 => DD x35 x53 | s32 => DD x35 x54 | s33 => DD x35 x55 | s34 => DD x35 x56 | s35 => DD x35 x57 | s36 => DD x35 x58 | s37 => DD x35 x59 | s38 => DD x35 x60 | s39 => DD x35 x61 | s40 => DD x35 x62 | s41 => DD x35 x63 | s42 => DD x36 x0 | s43 => DD x36 x1 | s44 => DD x36 x2 | s45 => DD x36 x3 | s46 => DD x36 x4 | s47 => DD x36 x5 | s48 => DD x36 x6 | s49 => DD x36 x7 | s50 => DD x36 x8 | s51 => DD x36 x9 | s52 => DD x36 x10 | s53 => DD x36 x11 | s54 => DD x36 x12 | s55 => DD x36 x13 | s56 => DD x36 x14 | s57 => DD x36 x15 | s58 => DD x36 x16 | s59 => DD x36 x17 | s60 => DD x36 x18 | s61 => DD x36 x19 | s62 => DD x36 x20 | s63 => DD x36 x21 | s64 => DD x36 x22 | s65 => DD x36 x23 | s66 => DD x36 x24 | s67 => DD x36 x25 | s68 => DD x36 x26 | s69 => DD x36 x27 | s70 => DD x36 x28 | s71 => DD x36 x29 | s72 => DD x36 x30 | s73 => DD x36 x31 | s74 => DD x36 x32 | s75 => DD x36 x33 | s76 => DD x36 x34 | s77 => DD x36 x35 | s78 => DD x36 x36 | s79 => DD x36 x37 | s80 => DD x36 x38 | s81 => DD x36 x39 | s82 => DD x36 x40 | s83 => DD x36 x41 | s84 => DD x36 x42 | s85 => DD x36 x43 | s86 => DD x36 x44 | s87 => DD x36 x45 | s88 => DD x36 x46 | s89 => DD x36 x47 | s90 => DD x36 x48 | s91 => DD x36 x49 | s92 => DD x36 x50 | s93 => DD x36 x51 | s94 => DD x36 x52 | s95 => DD x36 x53 | s96 => DD x36 x54 | s97 => DD x36 x55 | s98 => DD x36 x56 | s99 => DD x36 x57 | s100 => DD x36 x58 | s101 => DD x36 x59 | s102 => DD x36 x60 | s103 => DD x36 x61 | s104 => DD x36 x62 | s105 => DD x36 x63 | s106 => DD x37 x0 | s107 => DD x37 x1 | s108 => DD x37 x2 | s109 => DD x37 x3 | s110 => DD x37 x4 | s111 => DD x37 x5 | s112 => DD x37 x6 | s113 => DD x37 x7 | s114 => DD x37 x8 | s115 => DD x37 x9 | s116 => DD x37 x10 | s117 => DD x37 x11 | s118 => DD x37 x12 | s119 => DD x37 x13 | s120 => DD x37 x14 | s121 => DD x37 x15 | s122 => DD x37 x16 | s123 => DD x37 x17 | s124 => DD x37 x18 | s125 => DD x37 x19 | s126 => DD x37 x20 end.
Definition m2268 (c : sum2) : dd := match c with s0 => DD x35 x28 | s1 => DD x35 x29 | s2 => DD x35 x30 | s3 => DD x35 x31 | s4 => DD x35 x32 | s5 => DD x35 x33 | s6 => DD x35 x34 | s7 => DD x35 x35 | s8 => DD x35 x36 | s9 => DD x35 x37 | s10 => DD x35 x38 | s11 => DD x35 x39 | s12 => DD x35 x40 | s13 => DD x35 x41 | s14 => DD x35 x42 | s15 => DD x35 x43 | s16 => DD x35 x44 | s17 => DD x35 x45 | s18 => DD x35 x46 | s19 => DD x35 x47 | s20 => DD x35 x48 | s21 => DD x35 x49 | s22 => DD x35 x50 | s23 => DD x35 x51 | s24 => DD x35 x52 | s25 => DD x35 x53 | s26 => DD x35 x54 | s27 => DD x35 x55 | s28 => DD x35 x56 | s29 => DD x35 x57 | s30 => DD x35 x58 | s31 => DD x35 x59 | s32 => DD x35 x60 | s33 => DD x35 x61 | s34 => DD x35 x62 | s35 => DD x35 x63 | s36 => DD x36 x0 | s37 => DD x36 x1 | s38 => DD x36 x2 | s39 => DD x36 x3 | s40 => DD x36 x4 | s41 => DD x36 x5 | s42 => DD x36 x6 | s43 => DD x36 x7 | s44 => DD x36 x8 | s45 => DD x36 x9 | s46 => DD x36 x10 | s47 => DD x36 x11 | s48 => DD x36 x12 | s49 => DD x36 x13 | s50 => DD x36 x14 | s51 => DD x36 x15 | s52 => DD x36 x16 | s53 => DD x36 x17 | s54 => DD x36 x18 | s55 => DD x36 x19 | s56 => DD x36 x20 | s57 => DD x36 x21 | s58 => DD x36 x22 | s59 => DD x36 x23 | s60 => DD x36 x24 | s61 => DD x36 x25 | s62 => DD x36 x26 | s63 => DD x36 x27 | s64 => DD x36 x28 | s65 => DD x36 x29 | s66 => DD x36 x30 | s67 => DD x36 x31 | s68 => DD x36 x32 | s69 => DD x36 x33 | s70 => DD x36 x34 | s71 => DD x36 x35 | s72 => DD x36 x36 | s73 => DD x36 x37 | s74 => DD x36 x38 | s75 => DD x36 x39 | s76 => DD x36 x40 | s77 => DD x36 x41 | s78 => DD x36 x42 | s79 => DD x36 x43 | s80 => DD x36 x44 | s81 => DD x36 x45 | s82 => DD x36 x46 | s83 => DD x36 x47 | s84 => DD x36 x48 | s85 => DD x36 x49 | s86 => DD x36 x50 | s87 => DD x36 x51 | s88 => DD x36 x52 | s89 => DD x36 x53 | s90 => DD x36 x54 | s91 => DD x36 x55 | s92 => DD x36 x56 | s93 => DD x36 x57 | s94 => DD x36 x58 | s95 => DD x36 x59 | s96 => DD x36 x60 | s97 => DD x36 x61 | s98 => DD x36 x62 | s99 => DD x36 x63 | s100 => DD x37 x0 | s101 => DD x37 x1 | s102 => DD x37 x2 | s103 => DD x37 x3 | s104 => DD x37 x4 | s105 => DD x37 x5 | s106 => DD x37 x6 | s107 => DD x37 x7 | s108 => DD x37 x8 | s109 => DD x37 x9 | s110 => DD x37 x10 | s111 => DD x37 x11 | s112 => DD x37 x12 | s113 => DD x37 x13 | s114 => DD x37 x14 | s115 => DD x37 x15 | s116 => DD x37 x16 | s117 => DD x37 x17 | s118 => DD x37 x18 | s119 => DD x37 x19 | s120 => DD x37 x20 | s121 => DD x37 x21 | s122 => DD x37 x22 | s123 => DD x37 x23 | s124 => DD x37 x24 | s125 => DD x37 x25 | s126 => DD x37 x26 end.
Definition m2279 (c : sum2) : dd := match c with s0 => DD x35 x39 | s1 => DD x35 x40 | s2 => DD x35 x41 | s3 => DD x35 x42 | s4 => DD x35 x43 | s5 => DD x35 x44 | s6 => DD x35 x45 | s7 => DD x35 x46 | s8 => DD x35 x47 | s9 => DD x35 x48 | s10 => DD x35 x49 | s11 => DD x35 x50 | s12 => DD x35 x51 | s13 => DD x35 x52 | s14 => DD x35 x53 | s15 => DD x35 x54 | s16 => DD x35 x55 | s17 => DD x35 x56 | s18 => DD x35 x57 | s19 => DD x35 x58 | s20 => DD x35 x59 | s21 => DD x35 x60 | s22 => DD x35 x61 | s23 => DD x35 x62 | s24 => DD x35 x63 | s25 => DD x36 x0 | s26 => DD x36 x1 | s27 => DD x36 x2 | s28 => DD x36 x3 | s29 => DD x36 x4 | s30 => DD x36 x5 | s31 => DD x36 x6 | s32 => DD x36 x7 | s33 => DD x36 x8 | s34 => DD x36 x9 | s35 => DD x36 x10 | s36 => DD x36 x11 | s37 => DD x36 x12 | s38 => DD x36 x13 | s39 => DD x36 x14 | s40 => DD x36 x15 | s41 => DD x36 x16 | s42 => DD x36 x17 | s43 => DD x36 x18 | s44 => DD x36 x19 | s45 => DD x36 x20 | s46 => DD x36 x21 | s47 => DD x36 x22 | s48 => DD x36 x23 | s49 => DD x36 x24 | s50 => DD x36 x25 | s51 => DD x36 x26 | s52 => DD x36 x27 | s53 => DD x36 x28 | s54 => DD x36 x29 | s55 => DD x36 x30 | s56 => DD x36 x31 | s57 => DD x36 x32 | s58 => DD x36 x33 | s59 => DD x36 x34 | s60 => DD x36 x35 | s61 => DD x36 x36 | s62 => DD x36 x37 | s63 => DD x36 x38 | s64 => DD x36 x39 | s65 => DD x36 x40 | s66 => DD x36 x41 | s67 => DD x36 x42 | s68 => DD x36 x43 | s69 => DD x36 x44 | s70 => DD x36 x45 | s71 => DD x36 x46 | s72 => DD x36 x47 | s73 => DD x36 x48 | s74 => DD x36 x49 | s75 => DD x36 x50 | s76 => DD x36 x51 | s77 => DD x36 x52 | s78 => DD x36 x53 | s79 => DD x36 x54 | s80 => DD x36 x55 | s81 => DD x36 x56 | s82 => DD x36 x57 | s83 => DD x36 x58 | s84 => DD x36 x59 | s85 => DD x36 x60 | s86 => DD x36 x61 | s87 => DD x36 x62 | s88 => DD x36 x63 | s89 => DD x37 x0 | s90 => DD x37 x1 | s91 => DD x37 x2 | s92 => DD x37 x3 | s93 => DD x37 x4 | s94 => DD x37 x5 | s95 => DD x37 x6 | s96 => DD x37 x7 | s97 => DD x37 x8 | s98 => DD x37 x9 | s99 => DD x37 x10 | s100 => DD x37 x11 | s101 => DD x37 x12 | s102 => DD x37 x13 | s103 => DD x37 x14 | s104 => DD x37 x15 | s105 => DD x37 x16 | s106 => DD x37 x17 | s107 => DD x37 x18 | s108 => DD x37 x19 | s109 => DD x37 x20 | s110 => DD x37 x21 | s111 => DD x37 x22 | s112 => DD x37 x23 | s113 => DD x37 x24 | s114 => DD x37 x25 | s115 => DD x37 x26 | s116 => DD x37 x27 | s117 => DD x37 x28 | s118 => DD x37 x29 | s119 => DD x37 x30 | s120 => DD x37 x31 | s121 => DD x37 x32 | s122 => DD x37 x33 | s123 => DD x37 x34 | s124 => DD x37 x35 | s125 => DD x37 x36 | s126 => DD x37 x37 end.
Definition m2280 (c : sum2) : dd := match c with s0 => DD x35 x40 | s1 => DD x35 x41 | s2 => DD x35 x42 | s3 => DD x35 x43 | s4 => DD x35 x44 | s5 => DD x35 x45 | s6 => DD x35 x46 | s7 => DD x35 x47 | s8 => DD x35 x48 | s9 => DD x35 x49 | s10 => DD x35 x50 | s11 => DD x35 x51 | s12 => DD x35 x52 | s13 => DD x35 x53 | s14 => DD x35 x54 | s15 => DD x35 x55 | s16 => DD x35 x56 | s17 => DD x35 x57 | s18 => DD x35 x58 | s19 => DD x35 x59 | s20 => DD x35 x60 | s21 => DD x35 x61 | s22 => DD x35 x62 | s23 => DD x35 x63 | s24 => DD x36 x0 | s25 => DD x36 x1 | s26 => DD x36 x2 | s27 => DD x36 x3 | s28 => DD x36 x4 | s29 => DD x36 x5 | s30 => DD x36 x6 | s31 => DD x36 x7 | s32 => DD x36 x8 | s33 => DD x36 x9 | s34 => DD x36 x10 | s35 => DD x36 x11 | s36 => DD x36 x12 | s37 => DD x36 x13 | s38 => DD x36 x14 | s39 => DD x36 x15 | s40 => DD x36 x16 | s41 => DD x36 x17 | s42 => DD x36 x18 | s43 => DD x36 x19 | s44 => DD x36 x20 | s45 => DD x36 x21 | s46 => DD x36 x22 | s47 => DD x36 x23 | s48 => DD x36 x24 | s49 => DD x36 x25 | s50 => DD x36 x26 | s51 => DD x36 x27 | s52 => DD x36 x28 | s53 => DD x36 x29 | s54 => DD x36 x30 | s55 => DD x36 x31 | s56 => DD x36 x32 | s57 => DD x36 x33 | s58 => DD x36 x34 | s59 => DD x36 x35 | s60 => DD x36 x36 | s61 => DD x36 x37 | s62 => DD x36 x38 | s63 => DD x36 x39 | s64 => DD x36 x40 | s65 => DD x36 x41 | s66 => DD x36 x42 | s67 => DD x36 x43 | s68 => DD x36 x44 | s69 => DD x36 x45 | s70 => DD x36 x46 | s71 => DD x36 x47 | s72 => DD x36 x48 | s73 => DD x36 x49 | s74 => DD x36 x50 | s75 => DD x36 x51 | s76 => DD x36 x52 | s77 => DD x36 x53 | s78 => DD x36 x54 | s79 => DD x36 x55 | s80 => DD x36 x56 | s81 => DD x36 x57 | s82 => DD x36 x58 | s83 => DD x36 x59 | s84 => DD x36 x60 | s85 => DD x36 x61 | s86 => DD x36 x62 | s87 => DD x36 x63 | s88 => DD x37 x0 | s89 => DD x37 x1 | s90 => DD x37 x2 | s91 => DD x37 x3 | s92 => DD x37 x4 | s93 => DD x37 x5 | s94 => DD x37 x6 | s95 => DD x37 x7 | s96 => DD x37 x8 | s97 => DD x37 x9 | s98 => DD x37 x10 | s99 => DD x37 x11 | s100 => DD x37 x12 | s101 => DD x37 x13 | s102 => DD x37 x14 | s103 => DD x37 x15 | s104 => DD x37 x16 | s105 => DD x37 x17 | s106 => DD x37 x18 | s107 => DD x37 x19 | s108 => DD x37 x20 | s109 => DD x37 x21 | s110 => DD x37 x22 | s111 => DD x37 x23 | s112 => DD x37 x24 | s113 => DD x37 x25 | s114 => DD x37 x26 | s115 => DD x37 x27 | s116 => DD x37 x28 | s117 => DD x37 x29 | s118 => DD x37 x30 | s119 => DD x37 x31 | s120 => DD x37 x32 | s121 => DD x37 x33 | s122 => DD x37 x34 | s123 => DD x37 x35 | s124 => DD x37 x36 | s125 => DD x37 x37 | s126 => DD x37 x38 end.
Definition m2288 (c : sum2) : dd := match c with s0 => DD x35 x48 | s1 => DD x35 x49 | s2 => DD x35 x50 | s3 => DD x35 x51 | s4 => DD x35 x52 | s5 => DD x35 x53 | s6 => DD x35 x54 | s7 => DD x35 x55 | s8 => DD x35 x56 | s9 => DD x35 x57 | s10 => DD x35 x58 | s11 => DD x35 x59 | s12 => DD x35 x60 | s13 => DD x35 x61 | s14 => DD x35 x62 | s15 => DD x35 x63 | s16 => DD x36 x0 | s17 => DD x36 x1 | s18 => DD x36 x2 | s19 => DD x36 x3 | s20 => DD x36 x4 | s21 => DD x36 x5 | s22 => DD x36 x6 | s23 => DD x36 x7 | s24 => DD x36 x8 | s25 => DD x36 x9 | s26 => DD x36 x10 | s27 => DD x36 x11 | s28 => DD x36 x12 | s29 => DD x36 x13 | s30 => DD x36 x14 | s31 => DD x36 x15 | s32 => DD x36 x16 | s33 => DD x36 x17 | s34 => DD x36 x18 | s35 => DD x36 x19 | s36 => DD x36 x20 | s37 => DD x36 x21 | s38 => DD x36 x22 | s39 => DD x36 x23 | s40 => DD x36 x24 | s41 => DD x36 x25 | s42 => DD x36 x26 | s43 => DD x36 x27 | s44 => DD x36 x28 | s45 => DD x36 x29 | s46 => DD x36 x30 | s47 => DD x36 x31 | s48 => DD x36 x32 | s49 => DD x36 x33 | s50 => DD x36 x34 | s51 => DD x36 x35 | s52 => DD x36 x36 | s53 => DD x36 x37 | s54 => DD x36 x38 | s55 => DD x36 x39 | s56 => DD x36 x40 | s57 => DD x36 x41 | s58 => DD x36 x42 | s59 => DD x36 x43 | s60 => DD x36 x44 | s61 => DD x36 x45 | s62 => DD x36 x46 | s63 => DD x36 x47 | s64 => DD x36 x48 | s65 => DD x36 x49 | s66 => DD x36 x50 | s67 => DD x36 x51 | s68 => DD x36 x52 | s69 => DD x36 x53 | s70 => DD x36 x54 | s71 => DD x36 x55 | s72 => DD x36 x56 | s73 => DD x36 x57 | s74 => DD x36 x58 | s75 => DD x36 x59 | s76 => DD x36 x60 | s77 => DD x36 x61 | s78 => DD x36 x62 | s79 => DD x36 x63 | s80 => DD x37 x0 | s81 => DD x37 x1 | s82 => DD x37 x2 | s83 => DD x37 x3 | s84 => DD x37 x4 | s85 => DD x37 x5 | s86 => DD x37 x6 | s87 => DD x37 x7 | s88 => DD x37 x8 | s89 => DD x37 x9 | s90 => DD x37 x10 | s91 => DD x37 x11 | s92 => DD x37 x12 | s93 => DD x37 x13 | s94 => DD x37 x14 | s95 => DD x37 x15 | s96 => DD x37 x16 | s97 => DD x37 x17 | s98 => DD x37 x18 | s99 => DD x37 x19 | s100 => DD x37 x20 | s101 => DD x37 x21 | s102 => DD x37 x22 | s103 => DD x37 x23 | s104 => DD x37 x24 | s105 => DD x37 x25 | s106 => DD x37 x26 | s107 => DD x37 x27 | s108 => DD x37 x28 | s109 => DD x37 x29 | s110 => DD x37 x30 | s111 => DD x37 x31 | s112 => DD x37 x32 | s113 => DD x37 x33 | s114 => DD x37 x34 | s115 => DD x37 x35 | s116 => DD x37 x36 | s117 => DD x37 x37 | s118 => DD x37 x38 | s119 => DD x37 x39 | s120 => DD x37 x40 | s121 => DD x37 x41 | s122 => DD x37 x42 | s123 => DD x37 x43 | s124 => DD x37 x44 | s125 => DD x37 x45 | s126 => DD x37 x46 end.
Definition m2294 (c : sum2) : dd := match c with s0 => DD x35 x54 | s1 => DD x35 x55 | s2 => DD x35 x56 | s3 => DD x35 x57 | s4 => DD x35 x58 | s5 => DD x35 x59 | s6 => DD x35 x60 | s7 => DD x35 x61 | s8 => DD x35 x62 | s9 => DD x35 x63 | s10 => DD x36 x0 | s11 => DD x36 x1 | s12 => DD x36 x2 | s13 => DD x36 x3 | s14 => DD x36 x4 | s15 => DD x36 x5 | s16 => DD x36 x6 | s17 => DD x36 x7 | s18 => DD x36 x8 | s19 => DD x36 x9 | s20 => DD x36 x10 | s21 => DD x36 x11 | s22 => DD x36 x12 | s23 => DD x36 x13 | s24 => DD x36 x14 | s25 => DD x36 x15 | s26 => DD x36 x16 | s27 => DD x36 x17 | s28 => DD x36 x18 | s29 => DD x36 x19 | s30 => DD x36 x20 | s31 => DD x36 x21 | s32 => DD x36 x22 | s33 => DD x36 x23 | s34 => DD x36 x24 | s35 => DD x36 x25 | s36 => DD x36 x26 | s37 => DD x36 x27 | s38 => DD x36 x28 | s39 => DD x36 x29 | s40 => DD x36 x30 | s41 => DD x36 x31 | s42 => DD x36 x32 | s43 => DD x36 x33 | s44 => DD x36 x34 | s45 => DD x36 x35 | s46 => DD x36 x36 | s47 => DD x36 x37 | s48 => DD x36 x38 | s49 => DD x36 x39 | s50 => DD x36 x40 | s51 => DD x36 x41 | s52 => DD x36 x42 | s53 => DD x36 x43 | s54 => DD x36 x44 | s55 => DD x36 x45 | s56 => DD x36 x46 | s57 => DD x36 x47 | s58 => DD x36 x48 | s59 => DD x36 x49 | s60 => DD x36 x50 | s61 => DD x36 x51 | s62 => DD x36 x52 | s63 => DD x36 x53 | s64 => DD x36 x54 | s65 => DD x36 x55 | s66 => DD x36 x56 | s67 => DD x36 x57 | s68 => DD x36 x58 | s69 => DD x36 x59 | s70 => DD x36 x60 | s71 => DD x36 x61 | s72 => DD x36 x62 | s73 => DD x36 x63 | s74 => DD x37 x0 | s75 => DD x37 x1 | s76 => DD x37 x2 | s77 => DD x37 x3 | s78 => DD x37 x4 | s79 => DD x37 x5 | s80 => DD x37 x6 | s81 => DD x37 x7 | s82 => DD x37 x8 | s83 => DD x37 x9 | s84 => DD x37 x10 | s85 => DD x37 x11 | s86 => DD x37 x12 | s87 => DD x37 x13 | s88 => DD x37 x14 | s89 => DD x37 x15 | s90 => DD x37 x16 | s91 => DD x37 x17 | s92 => DD x37 x18 | s93 => DD x37 x19 | s94 => DD x37 x20 | s95 => DD x37 x21 | s96 => DD x37 x22 | s97 => DD x37 x23 | s98 => DD x37 x24 | s99 => DD x37 x25 | s100 => DD x37 x26 | s101 => DD x37 x27 | s102 => DD x37 x28 | s103 => DD x37 x29 | s104 => DD x37 x30 | s105 => DD x37 x31 | s106 => DD x37 x32 | s107 => DD x37 x33 | s108 => DD x37 x34 | s109 => DD x37 x35 | s110 => DD x37 x36 | s111 => DD x37 x37 | s112 => DD x37 x38 | s113 => DD x37 x39 | s114 => DD x37 x40 | s115 => DD x37 x41 | s116 => DD x37 x42 | s117 => DD x37 x43 | s118 => DD x37 x44 | s119 => DD x37 x45 | s120 => DD x37 x46 | s121 => DD x37 x47 | s122 => DD x37 x48 | s123 => DD x37 x49 | s124 => DD x37 x50 | s125 => DD x37 x51 | s126 => DD x37 x52 end.
Definition m2295 (c : sum2) : dd := match c with s0 => DD x35 x55 | s1 => DD x35 x56 | s2 => DD x35 x57 | s3 => DD x35 x58 | s4 => DD x35 x59 | s5 => DD x35 x60 | s6 => DD x35 x61 | s7 => DD x35 x62 | s8 => DD x35 x63 | s9 => DD x36 x0 | s10 => DD x36 x1 | s11 => DD x36 x2 | s12 => DD x36 x3 | s13 => DD x36 x4 | s14 => DD x36 x5 | s15 => DD x36 x6 | s16 => DD x36 x7 | s17 => DD x36 x8 | s18 => DD x36 x9 | s19 => DD x36 x10 | s20 => DD x36 x11 | s21 => DD x36 x12 | s22 => DD x36 x13 | s23 => DD x36 x14 | s24 => DD x36 x15 | s25 => DD x36 x16 | s26 => DD x36 x17 | s27 => DD x36 x18 | s28 => DD x36 x19 | s29 => DD x36 x20 | s30 => DD x36 x21 | s31 => DD x36 x22 | s32 => DD x36 x23 | s33 => DD x36 x24 | s34 => DD x36 x25 | s35 => DD x36 x26 | s36 => DD x36 x27 | s37 => DD x36 x28 | s38 => DD x36 x29 | s39 => DD x36 x30 | s40 => DD x36 x31 | s41 => DD x36 x32 | s42 => DD x36 x33 | s43 => DD x36 x34 | s44 => DD x36 x35 | s45 => DD x36 x36 | s46 => DD x36 x37 | s47 => DD x36 x38 | s48 => DD x36 x39 | s49 => DD x36 x40 | s50 => DD x36 x41 | s51 => DD x36 x42 | s52 => DD x36 x43 | s53 => DD x36 x44 | s54 => DD x36 x45 | s55 => DD x36 x46 | s56 => DD x36 x47 | s57 => DD x36 x48 | s58 => DD x36 x49 | s59 => DD x36 x50 | s60 => DD x36 x51 | s61 => DD x36 x52 | s62 => DD x36 x53 | s63 => DD x36 x54 | s64 => DD x36 x55 | s65 => DD x36 x56 | s66 => DD x36 x57 | s67 => DD x36 x58 | s68 => DD x36 x59 | s69 => DD x36 x60 | s70 => DD x36 x61 | s71 => DD x36 x62 | s72 => DD x36 x63 | s73 => DD x37 x0 | s74 => DD x37 x1 | s75 => DD x37 x2 | s76 => DD x37 x3 | s77 => DD x37 x4 | s78 => DD x37 x5 | s79 => DD x37 x6 | s80 => DD x37 x7 | s81 => DD x37 x8 | s82 => DD x37 x9 | s83 => DD x37 x10 | s84 => DD x37 x11 | s85 => DD x37 x12 | s86 => DD x37 x13 | s87 => DD x37 x14 | s88 => DD x37 x15 | s89 => DD x37 x16 | s90 => DD x37 x17 | s91 => DD x37 x18 | s92 => DD x37 x19 | s93 => DD x37 x20 | s94 => DD x37 x21 | s95 => DD x37 x22 | s96 => DD x37 x23 | s97 => DD x37 x24 | s98 => DD x37 x25 | s99 => DD x37 x26 | s100 => DD x37 x27 | s101 => DD x37 x28 | s102 => DD x37 x29 | s103 => DD x37 x30 | s104 => DD x37 x31 | s105 => DD x37 x32 | s106 => DD x37 x33 | s107 => DD x37 x34 | s108 => DD x37 x35 | s109 => DD x37 x36 | s110 => DD x37 x37 | s111 => DD x37 x38 | s112 => DD x37 x39 | s113 => DD x37 x40 | s114 => DD x37 x41 | s115 => DD x37 x42 | s116 => DD x37 x43 | s117 => DD x37 x44 | s118 => DD x37 x45 | s119 => DD x37 x46 | s120 => DD x37 x47 | s121 => DD x37 x48 | s122 => DD x37 x49 | s123 => DD x37 x50 | s124 => DD x37 x51 | s125 => DD x37 x52 | s126 => DD x37 x53 end.
Definition m2296 (c : sum2) : dd := match c with s0 => DD x35 x56 | s1 => DD x35 x57 | s2 => DD x35 x58 | s3 => DD x35 x59 | s4 => DD x35 x60 | s5 => DD x35 x61 | s6 => DD x35 x62 | s7 => DD x35 x63 | s8 => DD x36 x0 | s9 => DD x36 x1 | s10 => DD x36 x2 | s11 => DD x36 x3 | s12 => DD x36 x4 | s13 => DD x36 x5 | s14 => DD x36 x6 | s15 => DD x36 x7 | s16 => DD x36 x8 | s17 => DD x36 x9 | s18 => DD x36 x10 | s19 => DD x36 x11 | s20 => DD x36 x12 | s21 => DD x36 x13 | s22 => DD x36 x14 | s23 => DD x36 x15 | s24 => DD x36 x16 | s25 => DD x36 x17 | s26 => DD x36 x18 | s27 => DD x36 x19 | s28 => DD x36 x20 | s29 => DD x36 x21 | s30 => DD x36 x22 | s31 => DD x36 x23 | s32 => DD x36 x24 | s33 => DD x36 x25 | s34 => DD x36 x26 | s35 => DD x36 x27 | s36 => DD x36 x28 | s37 => DD x36 x29 | s38 => DD x36 x30 | s39 => DD x36 x31 | s40 => DD x36 x32 | s41 => DD x36 x33 | s42 => DD x36 x34 | s43 => DD x36 x35 | s44 => DD x36 x36 | s45 => DD x36 x37 | s46 => DD x36 x38 | s47 => DD x36 x39 | s48 => DD x36 x40 | s49 => DD x36 x41 | s50 => DD x36 x42 | s51 => DD x36 x43 | s52 => DD x36 x44 | s53 => DD x36 x45 | s54 => DD x36 x46 | s55 => DD x36 x47 | s56 => DD x36 x48 | s57 => DD x36 x49 | s58 => DD x36 x50 | s59 => DD x36 x51 | s60 => DD x36 x52 | s61 => DD x36 x53 | s62 => DD x36 x54 | s63 => DD x36 x55 | s64 => DD x36 x56 | s65 => DD x36 x57 | s66 => DD x36 x58 | s67 => DD x36 x59 | s68 => DD x36 x60 | s69 => DD x36 x61 | s70 => DD x36 x62 | s71 => DD x36 x63 | s72 => DD x37 x0 | s73 => DD x37 x1 | s74 => DD x37 x2 | s75 => DD x37 x3 | s76 => DD x37 x4 | s77 => DD x37 x5 | s78 => DD x37 x6 | s79 => DD x37 x7 | s80 => DD x37 x8 | s81 => DD x37 x9 | s82 => DD x37 x10 | s83 => DD x37 x11 | s84 => DD x37 x12 | s85 => DD x37 x13 | s86 => DD x37 x14 | s87 => DD x37 x15 | s88 => DD x37 x16 | s89 => DD x37 x17 | s90 => DD x37 x18 | s91 => DD x37 x19 | s92 => DD x37 x20 | s93 => DD x37 x21 | s94 => DD x37 x22 | s95 => DD x37 x23 | s96 => DD x37 x24 | s97 => DD x37 x25 | s98 => DD x37 x26 | s99 => DD x37 x27 | s100 => DD x37 x28 | s101 => DD x37 x29 | s102 => DD x37 x30 | s103 => DD x37 x31 | s104 => DD x37 x32 | s105 => DD x37 x33 | s106 => DD x37 x34 | s107 => DD x37 x35 | s108 => DD x37 x36 | s109 => DD x37 x37 | s110 => DD x37 x38 | s111 => DD x37 x39 | s112 => DD x37 x40 | s113 => DD x37 x41 | s114 => DD x37 x42 | s115 => DD x37 x43 | s116 => DD x37 x44 | s117 => DD x37 x45 | s118 => DD x37 x46 | s119 => DD x37 x47 | s120 => DD x37 x48 | s121 => DD x37 x49 | s122 => DD x37 x50 | s123 => DD x37 x51 | s124 => DD x37 x52 | s125 => DD x37 x53 | s126 => DD x37 x54 end.
Definition m2300 (c : sum2) : dd := match c with s0 => DD x35 x60 | s1 => DD x35 x61 | s2 => DD x35 x62 | s3 => DD x35 x63 | s4 => DD x36 x0 | s5 => DD x36 x1 | s6 => DD x36 x2 | s7 => DD x36 x3 | s8 => DD x36 x4 | s9 => DD x36 x5 | s10 => DD x36 x6 | s11 => DD x36 x7 | s12 => DD x36 x8 | s13 => DD x36 x9 | s14 => DD x36 x10 | s15 => DD x36 x11 | s16 => DD x36 x12 | s17 => DD x36 x13 | s18 => DD x36 x14 | s19 => DD x36 x15 | s20 => DD x36 x16 | s21 => DD x36 x17 | s22 => DD x36 x18 | s23 => DD x36 x19 | s24 => DD x36 x20 | s25 => DD x36 x21 | s26 => DD x36 x22 | s27 => DD x36 x23 | s28 => DD x36 x24 | s29 => DD x36 x25 | s30 => DD x36 x26 | s31 => DD x36 x27 | s32 => DD x36 x28 | s33 => DD x36 x29 | s34 => DD x36 x30 | s35 => DD x36 x31 | s36 => DD x36 x32 | s37 => DD x36 x33 | s38 => DD x36 x34 | s39 => DD x36 x35 | s40 => DD x36 x36 | s41 => DD x36 x37 | s42 => DD x36 x38 | s43 => DD x36 x39 | s44 => DD x36 x40 | s45 => DD x36 x41 | s46 => DD x36 x42 | s47 => DD x36 x43 | s48 => DD x36 x44 | s49 => DD x36 x45 | s50 => DD x36 x46 | s51 => DD x36 x47 | s52 => DD x36 x48 | s53 => DD x36 x49 | s54 => DD x36 x50 | s55 => DD x36 x51 | s56 => DD x36 x52 | s57 => DD x36 x53 | s58 => DD x36 x54 | s59 => DD x36 x55 | s60 => DD x36 x56 | s61 => DD x36 x57 | s62 => DD x36 x58 | s63 => DD x36 x59 | s64 => DD x36 x60 | s65 => DD x36 x61 | s66 => DD x36 x62 | s67 => DD x36 x63 | s68 => DD x37 x0 | s69 => DD x37 x1 | s70 => DD x37 x2 | s71 => DD x37 x3 | s72 => DD x37 x4 | s73 => DD x37 x5 | s74 => DD x37 x6 | s75 => DD x37 x7 | s76 => DD x37 x8 | s77 => DD x37 x9 | s78 => DD x37 x10 | s79 => DD x37 x11 | s80 => DD x37 x12 | s81 => DD x37 x13 | s82 => DD x37 x14 | s83 => DD x37 x15 | s84 => DD x37 x16 | s85 => DD x37 x17 | s86 => DD x37 x18 | s87 => DD x37 x19 | s88 => DD x37 x20 | s89 => DD x37 x21 | s90 => DD x37 x22 | s91 => DD x37 x23 | s92 => DD x37 x24 | s93 => DD x37 x25 | s94 => DD x37 x26 | s95 => DD x37 x27 | s96 => DD x37 x28 | s97 => DD x37 x29 | s98 => DD x37 x30 | s99 => DD x37 x31 | s100 => DD x37 x32 | s101 => DD x37 x33 | s102 => DD x37 x34 | s103 => DD x37 x35 | s104 => DD x37 x36 | s105 => DD x37 x37 | s106 => DD x37 x38 | s107 => DD x37 x39 | s108 => DD x37 x40 | s109 => DD x37 x41 | s110 => DD x37 x42 | s111 => DD x37 x43 | s112 => DD x37 x44 | s113 => DD x37 x45 | s114 => DD x37 x46 | s115 => DD x37 x47 | s116 => DD x37 x48 | s117 => DD x37 x49 | s118 => DD x37 x50 | s119 => DD x37 x51 | s120 => DD x37 x52 | s121 => DD x37 x53 | s122 => DD x37 x54 | s123 => DD x37 x55 | s124 => DD x37 x56 | s125 => DD x37 x57 | s126 => DD x37 x58 end.
Definition m2301 (c : sum2) : dd := match c with s0 => DD x35 x61 | s1 => DD x35 x62 | s2 => DD x35 x63 | s3 => DD x36 x0 | s4 => DD x36 x1 | s5 => DD x36 x2 | s6 => DD x36 x3 | s7 => DD x36 x4 | s8 => DD x36 x5 | s9 => DD x36 x6 | s10 => DD x36 x7 | s11 => DD x36 x8 | s12 => DD x36 x9 | s13 => DD x36 x10 | s14 => DD x36 x11 | s15 => DD x36 x12 | s16 => DD x36 x13 | s17 => DD x36 x14 | s18 => DD x36 x15 | s19 => DD x36 x16 | s20 => DD x36 x17 | s21 => DD x36 x18 | s22 => DD x36 x19 | s23 => DD x36 x20 | s24 => DD x36 x21 | s25 => DD x36 x22 | s26 => DD x36 x23 | s27 => DD x36 x24 | s28 => DD x36 x25 | s29 => DD x36 x26 | s30 => DD x36 x27 | s31 => DD x36 x28 | s32 => DD x36 x29 | s33 => DD x36 x30 | s34 => DD x36 x31 | s35 => DD x36 x32 | s36 => DD x36 x33 | s37 => DD x36 x34 | s38 => DD x36 x35 | s39 => DD x36 x36 | s40 => DD x36 x37 | s41 => DD x36 x38 | s42 => DD x36 x39 | s43 => DD x36 x40 | s44 => DD x36 x41 | s45 => DD x36 x42 | s46 => DD x36 x43 | s47 => DD x36 x44 | s48 => DD x36 x45 | s49 => DD x36 x46 | s50 => DD x36 x47 | s51 => DD x36 x48 | s52 => DD x36 x49 | s53 => DD x36 x50 | s54 => DD x36 x51 | s55 => DD x36 x52 | s56 => DD x36 x53 | s57 => DD x36 x54 | s58 => DD x36 x55 | s59 => DD x36 x56 | s60 => DD x36 x57 | s61 => DD x36 x58 | s62 => DD x36 x59 | s63 => DD x36 x60 | s64 => DD x36 x61 | s65 => DD x36 x62 | s66 => DD x36 x63 | s67 => DD x37 x0 | s68 => DD x37 x1 | s69 => DD x37 x2 | s70 => DD x37 x3 | s71 => DD x37 x4 | s72 => DD x37 x5 | s73 => DD x37 x6 | s74 => DD x37 x7 | s75 => DD x37 x8 | s76 => DD x37 x9 | s77 => DD x37 x10 | s78 => DD x37 x11 | s79 => DD x37 x12 | s80 => DD x37 x13 | s81 => DD x37 x14 | s82 => DD x37 x15 | s83 => DD x37 x16 | s84 => DD x37 x17 | s85 => DD x37 x18 | s86 => DD x37 x19 | s87 => DD x37 x20 | s88 => DD x37 x21 | s89 => DD x37 x22 | s90 => DD x37 x23 | s91 => DD x37 x24 | s92 => DD x37 x25 | s93 => DD x37 x26 | s94 => DD x37 x27 | s95 => DD x37 x28 | s96 => DD x37 x29 | s97 => DD x37 x30 | s98 => DD x37 x31 | s99 => DD x37 x32 | s100 => DD x37 x33 | s101 => DD x37 x34 | s102 => DD x37 x35 | s103 => DD x37 x36 | s104 => DD x37 x37 | s105 => DD x37 x38 | s106 => DD x37 x39 | s107 => DD x37 x40 | s108 => DD x37 x41 | s109 => DD x37 x42 | s110 => DD x37 x43 | s111 => DD x37 x44 | s112 => DD x37 x45 | s113 => DD x37 x46 | s114 => DD x37 x47 | s115 => DD x37 x48 | s116 => DD x37 x49 | s117 => DD x37 x50 | s118 => DD x37 x51 | s119 => DD x37 x52 | s120 => DD x37 x53 | s121 => DD x37 x54 | s122 => DD x37 x55 | s123 => DD x37 x56 | s124 => DD x37 x57 | s125 => DD x37 x58 | s126 => DD x37 x59 end.
Definition m2303 (c : sum2) : dd := match c with s0 => DD x35 x63 | s1 => DD x36 x0 | s2 => DD x36 x1 | s3 => DD x36 x2 | s4 => DD x36 x3 | s5 => DD x36 x4 | s6 => DD x36 x5 | s7 => DD x36 x6 | s8 => DD x36 x7 | s9 => DD x36 x8 | s10 => DD x36 x9 | s11 => DD x36 x10 | s12 => DD x36 x11 | s13 => DD x36 x12 | s14 => DD x36 x13 | s15 => DD x36 x14 | s16 => DD x36 x15 | s17 => DD x36 x16 | s18 => DD x36 x17 | s19 => DD x36 x18 | s20 => DD x36 x19 | s21 => DD x36 x20 | s22 => DD x36 x21 | s23 => DD x36 x22 | s24 => DD x36 x23 | s25 => DD x36 x24 | s26 => DD x36 x25 | s27 => DD x36 x26 | s28 => DD x36 x27 | s29 => DD x36 x28 | s30 => DD x36 x29 | s31 => DD x36 x30 | s32 => DD x36 x31 | s33 => DD x36 x32 | s34 => DD x36 x33 | s35 => DD x36 x34 | s36 => DD x36 x35 | s37 => DD x36 x36 | s38 => DD x36 x37 | s39 => DD x36 x38 | s40 => DD x36 x39 | s41 => DD x36 x40 | s42 => DD x36 x41 | s43 => DD x36 x42 | s44 => DD x36 x43 | s45 => DD x36 x44 | s46 => DD x36 x45 | s47 => DD x36 x46 | s48 => DD x36 x47 | s49 => DD x36 x48 | s50 => DD x36 x49 | s51 => DD x36 x50 | s52 => DD x36 x51 | s53 => DD x36 x52 | s54 => DD x36 x53 | s55 => DD x36 x54 | s56 => DD x36 x55 | s57 => DD x36 x56 | s58 => DD x36 x57 | s59 => DD x36 x58 | s60 => DD x36 x59 | s61 => DD x36 x60 | s62 => DD x36 x61 | s63 => DD x36 x62 | s64 => DD x36 x63 | s65 => DD x37 x0 | s66 => DD x37 x1 | s67 => DD x37 x2 | s68 => DD x37 x3 | s69 => DD x37 x4 | s70 => DD x37 x5 | s71 => DD x37 x6 | s72 => DD x37 x7 | s73 => DD x37 x8 | s74 => DD x37 x9 | s75 => DD x37 x10 | s76 => DD x37 x11 | s77 => DD x37 x12 | s78 => DD x37 x13 | s79 => DD x37 x14 | s80 => DD x37 x15 | s81 => DD x37 x16 | s82 => DD x37 x17 | s83 => DD x37 x18 | s84 => DD x37 x19 | s85 => DD x37 x20 | s86 => DD x37 x21 | s87 => DD x37 x22 | s88 => DD x37 x23 | s89 => DD x37 x24 | s90 => DD x37 x25 | s91 => DD x37 x26 | s92 => DD x37 x27 | s93 => DD x37 x28 | s94 => DD x37 x29 | s95 => DD x37 x30 | s96 => DD x37 x31 | s97 => DD x37 x32 | s98 => DD x37 x33 | s99 => DD x37 x34 | s100 => DD x37 x35 | s101 => DD x37 x36 | s102 => DD x37 x37 | s103 => DD x37 x38 | s104 => DD x37 x39 | s105 => DD x37 x40 | s106 => DD x37 x41 | s107 => DD x37 x42 | s108 => DD x37 x43 | s109 => DD x37 x44 | s110 => DD x37 x45 | s111 => DD x37 x46 | s112 => DD x37 x47 | s113 => DD x37 x48 | s114 => DD x37 x49 | s115 => DD x37 x50 | s116 => DD x37 x51 | s117 => DD x37 x52 | s118 => DD x37 x53 | s119 => DD x37 x54 | s120 => DD x37 x55 | s121 => DD x37 x56 | s122 => DD x37 x57 | s123 => DD x37 x58 | s124 => DD x37 x59 | s125 => DD x37 x60 | s126 => DD x37 x61 end.
Definition m2304 (c : sum2) : dd := match c with s0 => DD x36 x0 | s1 => DD x36 x1 | s2 => DD x36 x2 | s3 => DD x36 x3 | s4 => DD x36 x4 | s5 => DD x36 x5 | s6 => DD x36 x6 | s7 => DD x36 x7 | s8 => DD x36 x8 | s9 => DD x36 x9 | s10 => DD x36 x10 | s11 => DD x36 x11 | s12 => DD x36 x12 | s13 => DD x36 x13 | s14 => DD x36 x14 | s15 => DD x36 x15 | s16 => DD x36 x16 | s17 => DD x36 x17 | s18 => DD x36 x18 | s19 => DD x36 x19 | s20 => DD x36 x20 | s21 => DD x36 x21 | s22 => DD x36 x22 | s23 => DD x36 x23 | s24 => DD x36 x24 | s25 => DD x36 x25 | s26 => DD x36 x26 | s27 => DD x36 x27 | s28 => DD x36 x28 | s29 => DD x36 x29 | s30 => DD x36 x30 | s31 => DD x36 x31 | s32 => DD x36 x32 | s33 => DD x36 x33 | s34 => DD x36 x34 | s35 => DD x36 x35 | s36 => DD x36 x36 | s37 => DD x36 x37 | s38 => DD x36 x38 | s39 => DD x36 x39 | s40 => DD x36 x40 | s41 => DD x36 x41 | s42 => DD x36 x42 | s43 => DD x36 x43 | s44 => DD x36 x44 | s45 => DD x36 x45 | s46 => DD x36 x46 | s47 => DD x36 x47 | s48 => DD x36 x48 | s49 => DD x36 x49 | s50 => DD x36 x50 | s51 => DD x36 x51 | s52 => DD x36 x52 | s53 => DD x36 x53 | s54 => DD x36 x54 | s55 => DD x36 x55 | s56 => DD x36 x56 | s57 => DD x36 x57 | s58 => DD x36 x58 | s59 => DD x36 x59 | s60 => DD x36 x60 | s61 => DD x36 x61 | s62 => DD x36 x62 | s63 => DD x36 x63 | s64 => DD x37 x0 | s65 => DD x37 x1 | s66 => DD x37 x2 | s67 => DD x37 x3 | s68 => DD x37 x4 | s69 => DD x37 x5 | s70 => DD x37 x6 | s71 => DD x37 x7 | s72 => DD x37 x8 | s73 => DD x37 x9 | s74 => DD x37 x10 | s75 => DD x37 x11 | s76 => DD x37 x12 | s77 => DD x37 x13 | s78 => DD x37 x14 | s79 => DD x37 x15 | s80 => DD x37 x16 | s81 => DD x37 x17 | s82 => DD x37 x18 | s83 => DD x37 x19 | s84 => DD x37 x20 | s85 => DD x37 x21 | s86 => DD x37 x22 | s87 => DD x37 x23 | s88 => DD x37 x24 | s89 => DD x37 x25 | s90 => DD x37 x26 | s91 => DD x37 x27 | s92 => DD x37 x28 | s93 => DD x37 x29 | s94 => DD x37 x30 | s95 => DD x37 x31 | s96 => DD x37 x32 | s97 => DD x37 x33 | s98 => DD x37 x34 | s99 => DD x37 x35 | s100 => DD x37 x36 | s101 => DD x37 x37 | s102 => DD x37 x38 | s103 => DD x37 x39 | s104 => DD x37 x40 | s105 => DD x37 x41 | s106 => DD x37 x42 | s107 => DD x37 x43 | s108 => DD x37 x44 | s109 => DD x37 x45 | s110 => DD x37 x46 | s111 => DD x37 x47 | s112 => DD x37 x48 | s113 => DD x37 x49 | s114 => DD x37 x50 | s115 => DD x37 x51 | s116 => DD x37 x52 | s117 => DD x37 x53 | s118 => DD x37 x54 | s119 => DD x37 x55 | s120 => DD x37 x56 | s121 => DD x37 x57 | s122 => DD x37 x58 | s123 => DD x37 x59 | s124 => DD x37 x60 | s125 => DD x37 x61 | s126 => DD x37 x62 end.
Definition m2310 (c : sum2) : dd := match c with s0 => DD x36 x6 | s1 => DD x36 x7 | s2 => DD x36 x8 | s3 => DD x36 x9 | s4 => DD x36 x10 | s5 => DD x36 x11 | s6 => DD x36 x12 | s7 => DD x36 x13 | s8 => DD x36 x14 | s9 => DD x36 x15 | s10 => DD x36 x16 | s11 => DD x36 x17 | s12 => DD x36 x18 | s13 => DD x36 x19 | s14 => DD x36 x20 | s15 => DD x36 x21 | s16 => DD x36 x22 | s17 => DD x36 x23 | s18 => DD x36 x24 | s19 => DD x36 x25 | s20 => DD x36 x26 | s21 => DD x36 x27 | s22 => DD x36 x28 | s23 => DD x36 x29 | s24 => DD x36 x30 | s25 => DD x36 x31 | s26 => DD x36 x32 | s27 => DD x36 x33 | s28 => DD x36 x34 | s29 => DD x36 x35 | s30 => DD x36 x36 | s31 => DD x36 x37 | s32 => DD x36 x38 | s33 => DD x36 x39 | s34 => DD x36 x40 | s35 => DD x36 x41 | s36 => DD x36 x42 | s37 => DD x36 x43 | s38 => DD x36 x44 | s39 => DD x36 x45 | s40 => DD x36 x46 | s41 => DD x36 x47 | s42 => DD x36 x48 | s43 => DD x36 x49 | s44 => DD x36 x50 | s45 => DD x36 x51 | s46 => DD x36 x52 | s47 => DD x36 x53 | s48 => DD x36 x54 | s49 => DD x36 x55 | s50 => DD x36 x56 | s51 => DD x36 x57 | s52 => DD x36 x58 | s53 => DD x36 x59 | s54 => DD x36 x60 | s55 => DD x36 x61 | s56 => DD x36 x62 | s57 => DD x36 x63 | s58 => DD x37 x0 | s59 => DD x37 x1 | s60 => DD x37 x2 | s61 => DD x37 x3 | s62 => DD x37 x4 | s63 => DD x37 x5 | s64 => DD x37 x6 | s65 => DD x37 x7 | s66 => DD x37 x8 | s67 => DD x37 x9 | s68 => DD x37 x10 | s69 => DD x37 x11 | s70 => DD x37 x12 | s71 => DD x37 x13 | s72 => DD x37 x14 | s73 => DD x37 x15 | s74 => DD x37 x16 | s75 => DD x37 x17 | s76 => DD x37 x18 | s77 => DD x37 x19 | s78 => DD x37 x20 | s79 => DD x37 x21 | s80 => DD x37 x22 | s81 => DD x37 x23 | s82 => DD x37 x24 | s83 => DD x37 x25 | s84 => DD x37 x26 | s85 => DD x37 x27 | s86 => DD x37 x28 | s87 => DD x37 x29 | s88 => DD x37 x30 | s89 => DD x37 x31 | s90 => DD x37 x32 | s91 => DD x37 x33 | s92 => DD x37 x34 | s93 => DD x37 x35 | s94 => DD x37 x36 | s95 => DD x37 x37 | s96 => DD x37 x38 | s97 => DD x37 x39 | s98 => DD x37 x40 | s99 => DD x37 x41 | s100 => DD x37 x42 | s101 => DD x37 x43 | s102 => DD x37 x44 | s103 => DD x37 x45 | s104 => DD x37 x46 | s105 => DD x37 x47 | s106 => DD x37 x48 | s107 => DD x37 x49 | s108 => DD x37 x50 | s109 => DD x37 x51 | s110 => DD x37 x52 | s111 => DD x37 x53 | s112 => DD x37 x54 | s113 => DD x37 x55 | s114 => DD x37 x56 | s115 => DD x37 x57 | s116 => DD x37 x58 | s117 => DD x37 x59 | s118 => DD x37 x60 | s119 => DD x37 x61 | s120 => DD x37 x62 | s121 => DD x37 x63 | s122 => DD x38 x0 | s123 => DD x38 x1 | s124 => DD x38 x2 | s125 => DD x38 x3 | s126 => DD x38 x4 end.
Definition m2318 (c : sum2) : dd := match c with s0 => DD x36 x14 | s1 => DD x36 x15 | s2 => DD x36 x16 | s3 => DD x36 x17 | s4 => DD x36 x18 | s5 => DD x36 x19 | s6 => DD x36 x20 | s7 => DD x36 x21 | s8 => DD x36 x22 | s9 => DD x36 x23 | s10 => DD x36 x24 | s11 => DD x36 x25 | s12 => DD x36 x26 | s13 => DD x36 x27 | s14 => DD x36 x28 | s15 => DD x36 x29 | s16 => DD x36 x30 | s17 => DD x36 x31 | s18 => DD x36 x32 | s19 => DD x36 x33 | s20 => DD x36 x34 | s21 => DD x36 x35 | s22 => DD x36 x36 | s23 => DD x36 x37 | s24 => DD x36 x38 | s25 => DD x36 x39 | s26 => DD x36 x40 | s27 => DD x36 x41 | s28 => DD x36 x42 | s29 => DD x36 x43 | s30 => DD x36 x44 | s31 => DD x36 x45 | s32 => DD x36 x46 | s33 => DD x36 x47 | s34 => DD x36 x48 | s35 => DD x36 x49 | s36 => DD x36 x50 | s37 => DD x36 x51 | s38 => DD x36 x52 | s39 => DD x36 x53 | s40 => DD x36 x54 | s41 => DD x36 x55 | s42 => DD x36 x56 | s43 => DD x36 x57 | s44 => DD x36 x58 | s45 => DD x36 x59 | s46 => DD x36 x60 | s47 => DD x36 x61 | s48 => DD x36 x62 | s49 => DD x36 x63 | s50 => DD x37 x0 | s51 => DD x37 x1 | s52 => DD x37 x2 | s53 => DD x37 x3 | s54 => DD x37 x4 | s55 => DD x37 x5 | s56 => DD x37 x6 | s57 => DD x37 x7 | s58 => DD x37 x8 | s59 => DD x37 x9 | s60 => DD x37 x10 | s61 => DD x37 x11 | s62 => DD x37 x12 | s63 => DD x37 x13 | s64 => DD x37 x14 | s65 => DD x37 x15 | s66 => DD x37 x16 | s67 => DD x37 x17 | s68 => DD x37 x18 | s69 => DD x37 x19 | s70 => DD x37 x20 | s71 => DD x37 x21 | s72 => DD x37 x22 | s73 => DD x37 x23 | s74 => DD x37 x24 | s75 => DD x37 x25 | s76 => DD x37 x26 | s77 => DD x37 x27 | s78 => DD x37 x28 | s79 => DD x37 x29 | s80 => DD x37 x30 | s81 => DD x37 x31 | s82 => DD x37 x32 | s83 => DD x37 x33 | s84 => DD x37 x34 | s85 => DD x37 x35 | s86 => DD x37 x36 | s87 => DD x37 x37 | s88 => DD x37 x38 | s89 => DD x37 x39 | s90 => DD x37 x40 | s91 => DD x37 x41 | s92 => DD x37 x42 | s93 => DD x37 x43 | s94 => DD x37 x44 | s95 => DD x37 x45 | s96 => DD x37 x46 | s97 => DD x37 x47 | s98 => DD x37 x48 | s99 => DD x37 x49 | s100 => DD x37 x50 | s101 => DD x37 x51 | s102 => DD x37 x52 | s103 => DD x37 x53 | s104 => DD x37 x54 | s105 => DD x37 x55 | s106 => DD x37 x56 | s107 => DD x37 x57 | s108 => DD x37 x58 | s109 => DD x37 x59 | s110 => DD x37 x60 | s111 => DD x37 x61 | s112 => DD x37 x62 | s113 => DD x37 x63 | s114 => DD x38 x0 | s115 => DD x38 x1 | s116 => DD x38 x2 | s117 => DD x38 x3 | s118 => DD x38 x4 | s119 => DD x38 x5 | s120 => DD x38 x6 | s121 => DD x38 x7 | s122 => DD x38 x8 | s123 => DD x38 x9 | s124 => DD x38 x10 | s125 => DD x38 x11 | s126 => DD x38 x12 end.
Definition m2320 (c : sum2) : dd := match c with s0 => DD x36 x16 | s1 => DD x36 x17 | s2 => DD x36 x18 | s3 => DD x36 x19 | s4 => DD x36 x20 | s5 => DD x36 x21 | s6 => DD x36 x22 | s7 => DD x36 x23 | s8 => DD x36 x24 | s9 => DD x36 x25 | s10 => DD x36 x26 | s11 => DD x36 x27 | s12 => DD x36 x28 | s13 => DD x36 x29 | s14 => DD x36 x30 | s15 => DD x36 x31 | s16 => DD x36 x32 | s17 => DD x36 x33 | s18 => DD x36 x34 | s19 => DD x36 x35 | s20 => DD x36 x36 | s21 => DD x36 x37 | s22 => DD x36 x38 | s23 => DD x36 x39 | s24 => DD x36 x40 | s25 => DD x36 x41 | s26 => DD x36 x42 | s27 => DD x36 x43 | s28 => DD x36 x44 | s29 => DD x36 x45 | s30 => DD x36 x46 | s31 => DD x36 x47 | s32 => DD x36 x48 | s33 => DD x36 x49 | s34 => DD x36 x50 | s35 => DD x36 x51 | s36 => DD x36 x52 | s37 => DD x36 x53 | s38 => DD x36 x54 | s39 => DD x36 x55 | s40 => DD x36 x56 | s41 => DD x36 x57 | s42 => DD x36 x58 | s43 => DD x36 x59 | s44 => DD x36 x60 | s45 => DD x36 x61 | s46 => DD x36 x62 | s47 => DD x36 x63 | s48 => DD x37 x0 | s49 => DD x37 x1 | s50 => DD x37 x2 | s51 => DD x37 x3 | s52 => DD x37 x4 | s53 => DD x37 x5 | s54 => DD x37 x6 | s55 => DD x37 x7 | s56 => DD x37 x8 | s57 => DD x37 x9 | s58 => DD x37 x10 | s59 => DD x37 x11 | s60 => DD x37 x12 | s61 => DD x37 x13 | s62 => DD x37 x14 | s63 => DD x37 x15 | s64 => DD x37 x16 | s65 => DD x37 x17 | s66 => DD x37 x18 | s67 => DD x37 x19 | s68 => DD x37 x20 | s69 => DD x37 x21 | s70 => DD x37 x22 | s71 => DD x37 x23 | s72 => DD x37 x24 | s73 => DD x37 x25 | s74 => DD x37 x26 | s75 => DD x37 x27 | s76 => DD x37 x28 | s77 => DD x37 x29 | s78 => DD x37 x30 | s79 => DD x37 x31 | s80 => DD x37 x32 | s81 => DD x37 x33 | s82 => DD x37 x34 | s83 => DD x37 x35 | s84 => DD x37 x36 | s85 => DD x37 x37 | s86 => DD x37 x38 | s87 => DD x37 x39 | s88 => DD x37 x40 | s89 => DD x37 x41 | s90 => DD x37 x42 | s91 => DD x37 x43 | s92 => DD x37 x44 | s93 => DD x37 x45 | s94 => DD x37 x46 | s95 => DD x37 x47 | s96 => DD x37 x48 | s97 => DD x37 x49 | s98 => DD x37 x50 | s99 => DD x37 x51 | s100 => DD x37 x52 | s101 => DD x37 x53 | s102 => DD x37 x54 | s103 => DD x37 x55 | s104 => DD x37 x56 | s105 => DD x37 x57 | s106 => DD x37 x58 | s107 => DD x37 x59 | s108 => DD x37 x60 | s109 => DD x37 x61 | s110 => DD x37 x62 | s111 => DD x37 x63 | s112 => DD x38 x0 | s113 => DD x38 x1 | s114 => DD x38 x2 | s115 => DD x38 x3 | s116 => DD x38 x4 | s117 => DD x38 x5 | s118 => DD x38 x6 | s119 => DD x38 x7 | s120 => DD x38 x8 | s121 => DD x38 x9 | s122 => DD x38 x10 | s123 => DD x38 x11 | s124 => DD x38 x12 | s125 => DD x38 x13 | s126 => DD x38 x14 end.
Definition m2322 (c : sum2) : dd := match c with s0 => DD x36 x18 | s1 => DD x36 x19 | s2 => DD x36 x20 | s3 => DD x36 x21 | s4 => DD x36 x22 | s5 => DD x36 x23 | s6 => DD x36 x24 | s7 => DD x36 x25 | s8 => DD x36 x26 | s9 => DD x36 x27 | s10 => DD x36 x28 | s11 => DD x36 x29 | s12 => DD x36 x30 | s13 => DD x36 x31 | s14 => DD x36 x32 | s15 => DD x36 x33 | s16 => DD x36 x34 | s17 => DD x36 x35 | s18 => DD x36 x36 | s19 => DD x36 x37 | s20 => DD x36 x38 | s21 => DD x36 x39 | s22 => DD x36 x40 | s23 => DD x36 x41 | s24 => DD x36 x42 | s25 => DD x36 x43 | s26 => DD x36 x44 | s27 => DD x36 x45 | s28 => DD x36 x46 | s29 => DD x36 x47 | s30 => DD x36 x48 | s31 => DD x36 x49 | s32 => DD x36 x50 | s33 => DD x36 x51 | s34 => DD x36 x52 | s35 => DD x36 x53 | s36 => DD x36 x54 | s37 => DD x36 x55 | s38 => DD x36 x56 | s39 => DD x36 x57 | s40 => DD x36 x58 | s41 => DD x36 x59 | s42 => DD x36 x60 | s43 => DD x36 x61 | s44 => DD x36 x62 | s45 => DD x36 x63 | s46 => DD x37 x0 | s47 => DD x37 x1 | s48 => DD x37 x2 | s49 => DD x37 x3 | s50 => DD x37 x4 | s51 => DD x37 x5 | s52 => DD x37 x6 | s53 => DD x37 x7 | s54 => DD x37 x8 | s55 => DD x37 x9 | s56 => DD x37 x10 | s57 => DD x37 x11 | s58 => DD x37 x12 | s59 => DD x37 x13 | s60 => DD x37 x14 | s61 => DD x37 x15 | s62 => DD x37 x16 | s63 => DD x37 x17 | s64 => DD x37 x18 | s65 => DD x37 x19 | s66 => DD x37 x20 | s67 => DD x37 x21 | s68 => DD x37 x22 | s69 => DD x37 x23 | s70 => DD x37 x24 | s71 => DD x37 x25 | s72 => DD x37 x26 | s73 => DD x37 x27 | s74 => DD x37 x28 | s75 => DD x37 x29 | s76 => DD x37 x30 | s77 => DD x37 x31 | s78 => DD x37 x32 | s79 => DD x37 x33 | s80 => DD x37 x34 | s81 => DD x37 x35 | s82 => DD x37 x36 | s83 => DD x37 x37 | s84 => DD x37 x38 | s85 => DD x37 x39 | s86 => DD x37 x40 | s87 => DD x37 x41 | s88 => DD x37 x42 | s89 => DD x37 x43 | s90 => DD x37 x44 | s91 => DD x37 x45 | s92 => DD x37 x46 | s93 => DD x37 x47 | s94 => DD x37 x48 | s95 => DD x37 x49 | s96 => DD x37 x50 | s97 => DD x37 x51 | s98 => DD x37 x52 | s99 => DD x37 x53 | s100 => DD x37 x54 | s101 => DD x37 x55 | s102 => DD x37 x56 | s103 => DD x37 x57 | s104 => DD x37 x58 | s105 => DD x37 x59 | s106 => DD x37 x60 | s107 => DD x37 x61 | s108 => DD x37 x62 | s109 => DD x37 x63 | s110 => DD x38 x0 | s111 => DD x38 x1 | s112 => DD x38 x2 | s113 => DD x38 x3 | s114 => DD x38 x4 | s115 => DD x38 x5 | s116 => DD x38 x6 | s117 => DD x38 x7 | s118 => DD x38 x8 | s119 => DD x38 x9 | s120 => DD x38 x10 | s121 => DD x38 x11 | s122 => DD x38 x12 | s123 => DD x38 x13 | s124 => DD x38 x14 | s125 => DD x38 x15 | s126 => DD x38 x16 end.
Definition m2331 (c : sum2) : dd := match c with s0 => DD x36 x27 | s1 => DD x36 x28 | s2 => DD x36 x29 | s3 => DD x36 x30 | s4 => DD x36 x31 | s5 => DD x36 x32 | s6 => DD x36 x33 | s7 => DD x36 x34 | s8 => DD x36 x35 | s9 => DD x36 x36 | s10 => DD x36 x37 | s11 => DD x36 x38 | s12 => DD x36 x39 | s13 => DD x36 x40 | s14 => DD x36 x41 | s15 => DD x36 x42 | s16 => DD x36 x43 | s17 => DD x36 x44 | s18 => DD x36 x45 | s19 => DD x36 x46 | s20 => DD x36 x47 | s21 => DD x36 x48 | s22 => DD x36 x49 | s23 => DD x36 x50 | s24 => DD x36 x51 | s25 => DD x36 x52 | s26 => DD x36 x53 | s27 => DD x36 x54 | s28 => DD x36 x55 | s29 => DD x36 x56 | s30 => DD x36 x57 | s31 => DD x36 x58 | s32 => DD x36 x59 | s33 => DD x36 x60 | s34 => DD x36 x61 | s35 => DD x36 x62 | s36 => DD x36 x63 | s37 => DD x37 x0 | s38 => DD x37 x1 | s39 => DD x37 x2 | s40 => DD x37 x3 | s41 => DD x37 x4 | s42 => DD x37 x5 | s43 => DD x37 x6 | s44 => DD x37 x7 | s45 => DD x37 x8 | s46 => DD x37 x9 | s47 => DD x37 x10 | s48 => DD x37 x11 | s49 => DD x37 x12 | s50 => DD x37 x13 | s51 => DD x37 x14 | s52 => DD x37 x15 | s53 => DD x37 x16 | s54 => DD x37 x17 | s55 => DD x37 x18 | s56 => DD x37 x19 | s57 => DD x37 x20 | s58 => DD x37 x21 | s59 => DD x37 x22 | s60 => DD x37 x23 | s61 => DD x37 x24 | s62 => DD x37 x25 | s63 => DD x37 x26 | s64 => DD x37 x27 | s65 => DD x37 x28 | s66 => DD x37 x29 | s67 => DD x37 x30 | s68 => DD x37 x31 | s69 => DD x37 x32 | s70 => DD x37 x33 | s71 => DD x37 x34 | s72 => DD x37 x35 | s73 => DD x37 x36 | s74 => DD x37 x37 | s75 => DD x37 x38 | s76 => DD x37 x39 | s77 => DD x37 x40 | s78 => DD x37 x41 | s79 => DD x37 x42 | s80 => DD x37 x43 | s81 => DD x37 x44 | s82 => DD x37 x45 | s83 => DD x37 x46 | s84 => DD x37 x47 | s85 => DD x37 x48 | s86 => DD x37 x49 | s87 => DD x37 x50 | s88 => DD x37 x51 | s89 => DD x37 x52 | s90 => DD x37 x53 | s91 => DD x37 x54 | s92 => DD x37 x55 | s93 => DD x37 x56 | s94 => DD x37 x57 | s95 => DD x37 x58 | s96 => DD x37 x59 | s97 => DD x37 x60 | s98 => DD x37 x61 | s99 => DD x37 x62 | s100 => DD x37 x63 | s101 => DD x38 x0 | s102 => DD x38 x1 | s103 => DD x38 x2 | s104 => DD x38 x3 | s105 => DD x38 x4 | s106 => DD x38 x5 | s107 => DD x38 x6 | s108 => DD x38 x7 | s109 => DD x38 x8 | s110 => DD x38 x9 | s111 => DD x38 x10 | s112 => DD x38 x11 | s113 => DD x38 x12 | s114 => DD x38 x13 | s115 => DD x38 x14 | s116 => DD x38 x15 | s117 => DD x38 x16 | s118 => DD x38 x17 | s119 => DD x38 x18 | s120 => DD x38 x19 | s121 => DD x38 x20 | s122 => DD x38 x21 | s123 => DD x38 x22 | s124 => DD x38 x23 | s125 => DD x38 x24 | s126 => DD x38 x25 end.
Definition m2332 (c : sum2) : dd := match c with s0 => DD x36 x28 | s1 => DD x36 x29 | s2 => DD x36 x30 | s3 => DD x36 x31 | s4 => DD x36 x32 | s5 => DD x36 x33 | s6 => DD x36 x34 | s7 => DD x36 x35 | s8 => DD x36 x36 | s9 => DD x36 x37 | s10 => DD x36 x38 | s11 => DD x36 x39 | s12 => DD x36 x40 | s13 => DD x36 x41 | s14 => DD x36 x42 | s15 => DD x36 x43 | s16 => DD x36 x44 | s17 => DD x36 x45 | s18 => DD x36 x46 | s19 => DD x36 x47 | s20 => DD x36 x48 | s21 => DD x36 x49 | s22 => DD x36 x50 | s23 => DD x36 x51 | s24 => DD x36 x52 | s25 => DD x36 x53 | s26 => DD x36 x54 | s27 => DD x36 x55 | s28 => DD x36 x56 | s29 => DD x36 x57 | s30 => DD x36 x58 | s31 => DD x36 x59 | s32 => DD x36 x60 | s33 => DD x36 x61 | s34 => DD x36 x62 | s35 => DD x36 x63 | s36 => DD x37 x0 | s37 => DD x37 x1 | s38 => DD x37 x2 | s39 => DD x37 x3 | s40 => DD x37 x4 | s41 => DD x37 x5 | s42 => DD x37 x6 | s43 => DD x37 x7 | s44 => DD x37 x8 | s45 => DD x37 x9 | s46 => DD x37 x10 | s47 => DD x37 x11 | s48 => DD x37 x12 | s49 => DD x37 x13 | s50 => DD x37 x14 | s51 => DD x37 x15 | s52 => DD x37 x16 | s53 => DD x37 x17 | s54 => DD x37 x18 | s55 => DD x37 x19 | s56 => DD x37 x20 | s57 => DD x37 x21 | s58 => DD x37 x22 | s59 => DD x37 x23 | s60 => DD x37 x24 | s61 => DD x37 x25 | s62 => DD x37 x26 | s63 => DD x37 x27 | s64 => DD x37 x28 | s65 => DD x37 x29 | s66 => DD x37 x30 | s67 => DD x37 x31 | s68 => DD x37 x32 | s69 => DD x37 x33 | s70 => DD x37 x34 | s71 => DD x37 x35 | s72 => DD x37 x36 | s73 => DD x37 x37 | s74 => DD x37 x38 | s75 => DD x37 x39 | s76 => DD x37 x40 | s77 => DD x37 x41 | s78 => DD x37 x42 | s79 => DD x37 x43 | s80 => DD x37 x44 | s81 => DD x37 x45 | s82 => DD x37 x46 | s83 => DD x37 x47 | s84 => DD x37 x48 | s85 => DD x37 x49 | s86 => DD x37 x50 | s87 => DD x37 x51 | s88 => DD x37 x52 | s89 => DD x37 x53 | s90 => DD x37 x54 | s91 => DD x37 x55 | s92 => DD x37 x56 | s93 => DD x37 x57 | s94 => DD x37 x58 | s95 => DD x37 x59 | s96 => DD x37 x60 | s97 => DD x37 x61 | s98 => DD x37 x62 | s99 => DD x37 x63 | s100 => DD x38 x0 | s101 => DD x38 x1 | s102 => DD x38 x2 | s103 => DD x38 x3 | s104 => DD x38 x4 | s105 => DD x38 x5 | s106 => DD x38 x6 | s107 => DD x38 x7 | s108 => DD x38 x8 | s109 => DD x38 x9 | s110 => DD x38 x10 | s111 => DD x38 x11 | s112 => DD x38 x12 | s113 => DD x38 x13 | s114 => DD x38 x14 | s115 => DD x38 x15 | s116 => DD x38 x16 | s117 => DD x38 x17 | s118 => DD x38 x18 | s119 => DD x38 x19 | s120 => DD x38 x20 | s121 => DD x38 x21 | s122 => DD x38 x22 | s123 => DD x38 x23 | s124 => DD x38 x24 | s125 => DD x38 x25 | s126 => DD x38 x26 end.
Definition m2337 (c : sum2) : dd := match c with s0 => DD x36 x33 | s1 => DD x36 x34 | s2 => DD x36 x35 | s3 => DD x36 x36 | s4 => DD x36 x37 | s5 => DD x36 x38 | s6 => DD x36 x39 | s7 => DD x36 x40 | s8 => DD x36 x41 | s9 => DD x36 x42 | s10 => DD x36 x43 | s11 => DD x36 x44 | s12 => DD x36 x45 | s13 => DD x36 x46 | s14 => DD x36 x47 | s15 => DD x36 x48 | s16 => DD x36 x49 | s17 => DD x36 x50 | s18 => DD x36 x51 | s19 => DD x36 x52 | s20 => DD x36 x53 | s21 => DD x36 x54 | s22 => DD x36 x55 | s23 => DD x36 x56 | s24 => DD x36 x57 | s25 => DD x36 x58 | s26 => DD x36 x59 | s27 => DD x36 x60 | s28 => DD x36 x61 | s29 => DD x36 x62 | s30 => DD x36 x63 | s31 => DD x37 x0 | s32 => DD x37 x1 | s33 => DD x37 x2 | s34 => DD x37 x3 | s35 => DD x37 x4 | s36 => DD x37 x5 | s37 => DD x37 x6 | s38 => DD x37 x7 | s39 => DD x37 x8 | s40 => DD x37 x9 | s41 => DD x37 x10 | s42 => DD x37 x11 | s43 => DD x37 x12 | s44 => DD x37 x13 | s45 => DD x37 x14 | s46 => DD x37 x15 | s47 => DD x37 x16 | s48 => DD x37 x17 | s49 => DD x37 x18 | s50 => DD x37 x19 | s51 => DD x37 x20 | s52 => DD x37 x21 | s53 => DD x37 x22 | s54 => DD x37 x23 | s55 => DD x37 x24 | s56 => DD x37 x25 | s57 => DD x37 x26 | s58 => DD x37 x27 | s59 => DD x37 x28 | s60 => DD x37 x29 | s61 => DD x37 x30 | s62 => DD x37 x31 | s63 => DD x37 x32 | s64 => DD x37 x33 | s65 => DD x37 x34 | s66 => DD x37 x35 | s67 => DD x37 x36 | s68 => DD x37 x37 | s69 => DD x37 x38 | s70 => DD x37 x39 | s71 => DD x37 x40 | s72 => DD x37 x41 | s73 => DD x37 x42 | s74 => DD x37 x43 | s75 => DD x37 x44 | s76 => DD x37 x45 | s77 => DD x37 x46 | s78 => DD x37 x47 | s79 => DD x37 x48 | s80 => DD x37 x49 | s81 => DD x37 x50 | s82 => DD x37 x51 | s83 => DD x37 x52 | s84 => DD x37 x53 | s85 => DD x37 x54 | s86 => DD x37 x55 | s87 => DD x37 x56 | s88 => DD x37 x57 | s89 => DD x37 x58 | s90 => DD x37 x59 | s91 => DD x37 x60 | s92 => DD x37 x61 | s93 => DD x37 x62 | s94 => DD x37 x63 | s95 => DD x38 x0 | s96 => DD x38 x1 | s97 => DD x38 x2 | s98 => DD x38 x3 | s99 => DD x38 x4 | s100 => DD x38 x5 | s101 => DD x38 x6 | s102 => DD x38 x7 | s103 => DD x38 x8 | s104 => DD x38 x9 | s105 => DD x38 x10 | s106 => DD x38 x11 | s107 => DD x38 x12 | s108 => DD x38 x13 | s109 => DD x38 x14 | s110 => DD x38 x15 | s111 => DD x38 x16 | s112 => DD x38 x17 | s113 => DD x38 x18 | s114 => DD x38 x19 | s115 => DD x38 x20 | s116 => DD x38 x21 | s117 => DD x38 x22 | s118 => DD x38 x23 | s119 => DD x38 x24 | s120 => DD x38 x25 | s121 => DD x38 x26 | s122 => DD x38 x27 | s123 => DD x38 x28 | s124 => DD x38 x29 | s125 => DD x38 x30 | s126 => DD x38 x31 end.
Definition m2340 (c : sum2) : dd := match c with s0 => DD x36 x36 | s1 => DD x36 x37 | s2 => DD x36 x38 | s3 => DD x36 x39 | s4 => DD x36 x40 | s5 => DD x36 x41 | s6 => DD x36 x42 | s7 => DD x36 x43 | s8 => DD x36 x44 | s9 => DD x36 x45 | s10 => DD x36 x46 | s11 => DD x36 x47 | s12 => DD x36 x48 | s13 => DD x36 x49 | s14 => DD x36 x50 | s15 => DD x36 x51 | s16 => DD x36 x52 | s17 => DD x36 x53 | s18 => DD x36 x54 | s19 => DD x36 x55 | s20 => DD x36 x56 | s21 => DD x36 x57 | s22 => DD x36 x58 | s23 => DD x36 x59 | s24 => DD x36 x60 | s25 => DD x36 x61 | s26 => DD x36 x62 | s27 => DD x36 x63 | s28 => DD x37 x0 | s29 => DD x37 x1 | s30 => DD x37 x2 | s31 => DD x37 x3 | s32 => DD x37 x4 | s33 => DD x37 x5 | s34 => DD x37 x6 | s35 => DD x37 x7 | s36 => DD x37 x8 | s37 => DD x37 x9 | s38 => DD x37 x10 | s39 => DD x37 x11 | s40 => DD x37 x12 | s41 => DD x37 x13 | s42 => DD x37 x14 | s43 => DD x37 x15 | s44 => DD x37 x16 | s45 => DD x37 x17 | s46 => DD x37 x18 | s47 => DD x37 x19 | s48 => DD x37 x20 | s49 => DD x37 x21 | s50 => DD x37 x22 | s51 => DD x37 x23 | s52 => DD x37 x24 | s53 => DD x37 x25 | s54 => DD x37 x26 | s55 => DD x37 x27 | s56 => DD x37 x28 | s57 => DD x37 x29 | s58 => DD x37 x30 | s59 => DD x37 x31 | s60 => DD x37 x32 | s61 => DD x37 x33 | s62 => DD x37 x34 | s63 => DD x37 x35 | s64 => DD x37 x36 | s65 => DD x37 x37 | s66 => DD x37 x38 | s67 => DD x37 x39 | s68 => DD x37 x40 | s69 => DD x37 x41 | s70 => DD x37 x42 | s71 => DD x37 x43 | s72 => DD x37 x44 | s73 => DD x37 x45 | s74 => DD x37 x46 | s75 => DD x37 x47 | s76 => DD x37 x48 | s77 => DD x37 x49 | s78 => DD x37 x50 | s79 => DD x37 x51 | s80 => DD x37 x52 | s81 => DD x37 x53 | s82 => DD x37 x54 | s83 => DD x37 x55 | s84 => DD x37 x56 | s85 => DD x37 x57 | s86 => DD x37 x58 | s87 => DD x37 x59 | s88 => DD x37 x60 | s89 => DD x37 x61 | s90 => DD x37 x62 | s91 => DD x37 x63 | s92 => DD x38 x0 | s93 => DD x38 x1 | s94 => DD x38 x2 | s95 => DD x38 x3 | s96 => DD x38 x4 | s97 => DD x38 x5 | s98 => DD x38 x6 | s99 => DD x38 x7 | s100 => DD x38 x8 | s101 => DD x38 x9 | s102 => DD x38 x10 | s103 => DD x38 x11 | s104 => DD x38 x12 | s105 => DD x38 x13 | s106 => DD x38 x14 | s107 => DD x38 x15 | s108 => DD x38 x16 | s109 => DD x38 x17 | s110 => DD x38 x18 | s111 => DD x38 x19 | s112 => DD x38 x20 | s113 => DD x38 x21 | s114 => DD x38 x22 | s115 => DD x38 x23 | s116 => DD x38 x24 | s117 => DD x38 x25 | s118 => DD x38 x26 | s119 => DD x38 x27 | s120 => DD x38 x28 | s121 => DD x38 x29 | s122 => DD x38 x30 | s123 => DD x38 x31 | s124 => DD x38 x32 | s125 => DD x38 x33 | s126 => DD x38 x34 end.
Definition m2346 (c : sum2) : dd := match c with s0 => DD x36 x42 | s1 => DD x36 x43 | s2 => DD x36 x44 | s3 => DD x36 x45 | s4 => DD x36 x46 | s5 => DD x36 x47 | s6 => DD x36 x48 | s7 => DD x36 x49 | s8 => DD x36 x50 | s9 => DD x36 x51 | s10 => DD x36 x52 | s11 => DD x36 x53 | s12 => DD x36 x54 | s13 => DD x36 x55 | s14 => DD x36 x56 | s15 => DD x36 x57 | s16 => DD x36 x58 | s17 => DD x36 x59 | s18 => DD x36 x60 | s19 => DD x36 x61 | s20 => DD x36 x62 | s21 => DD x36 x63 | s22 => DD x37 x0 | s23 => DD x37 x1 | s24 => DD x37 x2 | s25 => DD x37 x3 | s26 => DD x37 x4 | s27 => DD x37 x5 | s28 => DD x37 x6 | s29 => DD x37 x7 | s30 => DD x37 x8 | s31 => DD x37 x9 | s32 => DD x37 x10 | s33 => DD x37 x11 | s34 => DD x37 x12 | s35 => DD x37 x13 | s36 => DD x37 x14 | s37 => DD x37 x15 | s38 => DD x37 x16 | s39 => DD x37 x17 | s40 => DD x37 x18 | s41 => DD x37 x19 | s42 => DD x37 x20 | s43 => DD x37 x21 | s44 => DD x37 x22 | s45 => DD x37 x23 | s46 => DD x37 x24 | s47 => DD x37 x25 | s48 => DD x37 x26 | s49 => DD x37 x27 | s50 => DD x37 x28 | s51 => DD x37 x29 | s52 => DD x37 x30 | s53 => DD x37 x31 | s54 => DD x37 x32 | s55 => DD x37 x33 | s56 => DD x37 x34 | s57 => DD x37 x35 | s58 => DD x37 x36 | s59 => DD x37 x37 | s60 => DD x37 x38 | s61 => DD x37 x39 | s62 => DD x37 x40 | s63 => DD x37 x41 | s64 => DD x37 x42 | s65 => DD x37 x43 | s66 => DD x37 x44 | s67 => DD x37 x45 | s68 => DD x37 x46 | s69 => DD x37 x47 | s70 => DD x37 x48 | s71 => DD x37 x49 | s72 => DD x37 x50 | s73 => DD x37 x51 | s74 => DD x37 x52 | s75 => DD x37 x53 | s76 => DD x37 x54 | s77 => DD x37 x55 | s78 => DD x37 x56 | s79 => DD x37 x57 | s80 => DD x37 x58 | s81 => DD x37 x59 | s82 => DD x37 x60 | s83 => DD x37 x61 | s84 => DD x37 x62 | s85 => DD x37 x63 | s86 => DD x38 x0 | s87 => DD x38 x1 | s88 => DD x38 x2 | s89 => DD x38 x3 | s90 => DD x38 x4 | s91 => DD x38 x5 | s92 => DD x38 x6 | s93 => DD x38 x7 | s94 => DD x38 x8 | s95 => DD x38 x9 | s96 => DD x38 x10 | s97 => DD x38 x11 | s98 => DD x38 x12 | s99 => DD x38 x13 | s100 => DD x38 x14 | s101 => DD x38 x15 | s102 => DD x38 x16 | s103 => DD x38 x17 | s104 => DD x38 x18 | s105 => DD x38 x19 | s106 => DD x38 x20 | s107 => DD x38 x21 | s108 => DD x38 x22 | s109 => DD x38 x23 | s110 => DD x38 x24 | s111 => DD x38 x25 | s112 => DD x38 x26 | s113 => DD x38 x27 | s114 => DD x38 x28 | s115 => DD x38 x29 | s116 => DD x38 x30 | s117 => DD x38 x31 | s118 => DD x38 x32 | s119 => DD x38 x33 | s120 => DD x38 x34 | s121 => DD x38 x35 | s122 => DD x38 x36 | s123 => DD x38 x37 | s124 => DD x38 x38 | s125 => DD x38 x39 | s126 => DD x38 x40 end.
Definition m2350 (c : sum2) : dd := match c with s0 => DD x36 x46 | s1 => DD x36 x47 | s2 => DD x36 x48 | s3 => DD x36 x49 | s4 => DD x36 x50 | s5 => DD x36 x51 | s6 => DD x36 x52 | s7 => DD x36 x53 | s8 => DD x36 x54 | s9 => DD x36 x55 | s10 => DD x36 x56 | s11 => DD x36 x57 | s12 => DD x36 x58 | s13 => DD x36 x59 | s14 => DD x36 x60 | s15 => DD x36 x61 | s16 => DD x36 x62 | s17 => DD x36 x63 | s18 => DD x37 x0 | s19 => DD x37 x1 | s20 => DD x37 x2 | s21 => DD x37 x3 | s22 => DD x37 x4 | s23 => DD x37 x5 | s24 => DD x37 x6 | s25 => DD x37 x7 | s26 => DD x37 x8 | s27 => DD x37 x9 | s28 => DD x37 x10 | s29 => DD x37 x11 | s30 => DD x37 x12 | s31 => DD x37 x13 | s32 => DD x37 x14 | s33 => DD x37 x15 | s34 => DD x37 x16 | s35 => DD x37 x17 | s36 => DD x37 x18 | s37 => DD x37 x19 | s38 => DD x37 x20 | s39 => DD x37 x21 | s40 => DD x37 x22 | s41 => DD x37 x23 | s42 => DD x37 x24 | s43 => DD x37 x25 | s44 => DD x37 x26 | s45 => DD x37 x27 | s46 => DD x37 x28 | s47 => DD x37 x29 | s48 => DD x37 x30 | s49 => DD x37 x31 | s50 => DD x37 x32 | s51 => DD x37 x33 | s52 => DD x37 x34 | s53 => DD x37 x35 | s54 => DD x37 x36 | s55 => DD x37 x37 | s56 => DD x37 x38 | s57 => DD x37 x39 | s58 => DD x37 x40 | s59 => DD x37 x41 | s60 => DD x37 x42 | s61 => DD x37 x43 | s62 => DD x37 x44 | s63 => DD x37 x45 | s64 => DD x37 x46 | s65 => DD x37 x47 | s66 => DD x37 x48 | s67 => DD x37 x49 | s68 => DD x37 x50 | s69 => DD x37 x51 | s70 => DD x37 x52 | s71 => DD x37 x53 | s72 => DD x37 x54 | s73 => DD x37 x55 | s74 => DD x37 x56 | s75 => DD x37 x57 | s76 => DD x37 x58 | s77 => DD x37 x59 | s78 => DD x37 x60 | s79 => DD x37 x61 | s80 => DD x37 x62 | s81 => DD x37 x63 | s82 => DD x38 x0 | s83 => DD x38 x1 | s84 => DD x38 x2 | s85 => DD x38 x3 | s86 => DD x38 x4 | s87 => DD x38 x5 | s88 => DD x38 x6 | s89 => DD x38 x7 | s90 => DD x38 x8 | s91 => DD x38 x9 | s92 => DD x38 x10 | s93 => DD x38 x11 | s94 => DD x38 x12 | s95 => DD x38 x13 | s96 => DD x38 x14 | s97 => DD x38 x15 | s98 => DD x38 x16 | s99 => DD x38 x17 | s100 => DD x38 x18 | s101 => DD x38 x19 | s102 => DD x38 x20 | s103 => DD x38 x21 | s104 => DD x38 x22 | s105 => DD x38 x23 | s106 => DD x38 x24 | s107 => DD x38 x25 | s108 => DD x38 x26 | s109 => DD x38 x27 | s110 => DD x38 x28 | s111 => DD x38 x29 | s112 => DD x38 x30 | s113 => DD x38 x31 | s114 => DD x38 x32 | s115 => DD x38 x33 | s116 => DD x38 x34 | s117 => DD x38 x35 | s118 => DD x38 x36 | s119 => DD x38 x37 | s120 => DD x38 x38 | s121 => DD x38 x39 | s122 => DD x38 x40 | s123 => DD x38 x41 | s124 => DD x38 x42 | s125 => DD x38 x43 | s126 => DD x38 x44 end.
Definition m2352 (c : sum2) : dd := match c with s0 => DD x36 x48 | s1 => DD x36 x49 | s2 => DD x36 x50 | s3 => DD x36 x51 | s4 => DD x36 x52 | s5 => DD x36 x53 | s6 => DD x36 x54 | s7 => DD x36 x55 | s8 => DD x36 x56 | s9 => DD x36 x57 | s10 => DD x36 x58 | s11 => DD x36 x59 | s12 => DD x36 x60 | s13 => DD x36 x61 | s14 => DD x36 x62 | s15 => DD x36 x63 | s16 => DD x37 x0 | s17 => DD x37 x1 | s18 => DD x37 x2 | s19 => DD x37 x3 | s20 => DD x37 x4 | s21 => DD x37 x5 | s22 => DD x37 x6 | s23 => DD x37 x7 | s24 => DD x37 x8 | s25 => DD x37 x9 | s26 => DD x37 x10 | s27 => DD x37 x11 | s28 => DD x37 x12 | s29 => DD x37 x13 | s30 => DD x37 x14 | s31 => DD x37 x15 | s32 => DD x37 x16 | s33 => DD x37 x17 | s34 => DD x37 x18 | s35 => DD x37 x19 | s36 => DD x37 x20 | s37 => DD x37 x21 | s38 => DD x37 x22 | s39 => DD x37 x23 | s40 => DD x37 x24 | s41 => DD x37 x25 | s42 => DD x37 x26 | s43 => DD x37 x27 | s44 => DD x37 x28 | s45 => DD x37 x29 | s46 => DD x37 x30 | s47 => DD x37 x31 | s48 => DD x37 x32 | s49 => DD x37 x33 | s50 => DD x37 x34 | s51 => DD x37 x35 | s52 => DD x37 x36 | s53 => DD x37 x37 | s54 => DD x37 x38 | s55 => DD x37 x39 | s56 => DD x37 x40 | s57 => DD x37 x41 | s58 => DD x37 x42 | s59 => DD x37 x43 | s60 => DD x37 x44 | s61 => DD x37 x45 | s62 => DD x37 x46 | s63 => DD x37 x47 | s64 => DD x37 x48 | s65 => DD x37 x49 | s66 => DD x37 x50 | s67 => DD x37 x51 | s68 => DD x37 x52 | s69 => DD x37 x53 | s70 => DD x37 x54 | s71 => DD x37 x55 | s72 => DD x37 x56 | s73 => DD x37 x57 | s74 => DD x37 x58 | s75 => DD x37 x59 | s76 => DD x37 x60 | s77 => DD x37 x61 | s78 => DD x37 x62 | s79 => DD x37 x63 | s80 => DD x38 x0 | s81 => DD x38 x1 | s82 => DD x38 x2 | s83 => DD x38 x3 | s84 => DD x38 x4 | s85 => DD x38 x5 | s86 => DD x38 x6 | s87 => DD x38 x7 | s88 => DD x38 x8 | s89 => DD x38 x9 | s90 => DD x38 x10 | s91 => DD x38 x11 | s92 => DD x38 x12 | s93 => DD x38 x13 | s94 => DD x38 x14 | s95 => DD x38 x15 | s96 => DD x38 x16 | s97 => DD x38 x17 | s98 => DD x38 x18 | s99 => DD x38 x19 | s100 => DD x38 x20 | s101 => DD x38 x21 | s102 => DD x38 x22 | s103 => DD x38 x23 | s104 => DD x38 x24 | s105 => DD x38 x25 | s106 => DD x38 x26 | s107 => DD x38 x27 | s108 => DD x38 x28 | s109 => DD x38 x29 | s110 => DD x38 x30 | s111 => DD x38 x31 | s112 => DD x38 x32 | s113 => DD x38 x33 | s114 => DD x38 x34 | s115 => DD x38 x35 | s116 => DD x38 x36 | s117 => DD x38 x37 | s118 => DD x38 x38 | s119 => DD x38 x39 | s120 => DD x38 x40 | s121 => DD x38 x41 | s122 => DD x38 x42 | s123 => DD x38 x43 | s124 => DD x38 x44 | s125 => DD x38 x45 | s126 => DD x38 x46 end.
Definition m2356 (c : sum2) : dd := match c with s0 => DD x36 x52 | s1 => DD x36 x53 | s2 => DD x36 x54 | s3 => DD x36 x55 | s4 => DD x36 x56 | s5 => DD x36 x57 | s6 => DD x36 x58 | s7 => DD x36 x59 | s8 => DD x36 x60 | s9 => DD x36 x61 | s10 => DD x36 x62 | s11 => DD x36 x63 | s12 => DD x37 x0 | s13 => DD x37 x1 | s14 => DD x37 x2 | s15 => DD x37 x3 | s16 => DD x37 x4 | s17 => DD x37 x5 | s18 => DD x37 x6 | s19 => DD x37 x7 | s20 => DD x37 x8 | s21 => DD x37 x9 | s22 => DD x37 x10 | s23 => DD x37 x11 | s24 => DD x37 x12 | s25 => DD x37 x13 | s26 => DD x37 x14 | s27 => DD x37 x15 | s28 => DD x37 x16 | s29 => DD x37 x17 | s30 => DD x37 x18 | s31 => DD x37 x19 | s32 => DD x37 x20 | s33 => DD x37 x21 | s34 => DD x37 x22 | s35 => DD x37 x23 | s36 => DD x37 x24 | s37 => DD x37 x25 | s38 => DD x37 x26 | s39 => DD x37 x27 | s40 => DD x37 x28 | s41 => DD x37 x29 | s42 => DD x37 x30 | s43 => DD x37 x31 | s44 => DD x37 x32 | s45 => DD x37 x33 | s46 => DD x37 x34 | s47 => DD x37 x35 | s48 => DD x37 x36 | s49 => DD x37 x37 | s50 => DD x37 x38 | s51 => DD x37 x39 | s52 => DD x37 x40 | s53 => DD x37 x41 | s54 => DD x37 x42 | s55 => DD x37 x43 | s56 => DD x37 x44 | s57 => DD x37 x45 | s58 => DD x37 x46 | s59 => DD x37 x47 | s60 => DD x37 x48 | s61 => DD x37 x49 | s62 => DD x37 x50 | s63 => DD x37 x51 | s64 => DD x37 x52 | s65 => DD x37 x53 | s66 => DD x37 x54 | s67 => DD x37 x55 | s68 => DD x37 x56 | s69 => DD x37 x57 | s70 => DD x37 x58 | s71 => DD x37 x59 | s72 => DD x37 x60 | s73 => DD x37 x61 | s74 => DD x37 x62 | s75 => DD x37 x63 | s76 => DD x38 x0 | s77 => DD x38 x1 | s78 => DD x38 x2 | s79 => DD x38 x3 | s80 => DD x38 x4 | s81 => DD x38 x5 | s82 => DD x38 x6 | s83 => DD x38 x7 | s84 => DD x38 x8 | s85 => DD x38 x9 | s86 => DD x38 x10 | s87 => DD x38 x11 | s88 => DD x38 x12 | s89 => DD x38 x13 | s90 => DD x38 x14 | s91 => DD x38 x15 | s92 => DD x38 x16 | s93 => DD x38 x17 | s94 => DD x38 x18 | s95 => DD x38 x19 | s96 => DD x38 x20 | s97 => DD x38 x21 | s98 => DD x38 x22 | s99 => DD x38 x23 | s100 => DD x38 x24 | s101 => DD x38 x25 | s102 => DD x38 x26 | s103 => DD x38 x27 | s104 => DD x38 x28 | s105 => DD x38 x29 | s106 => DD x38 x30 | s107 => DD x38 x31 | s108 => DD x38 x32 | s109 => DD x38 x33 | s110 => DD x38 x34 | s111 => DD x38 x35 | s112 => DD x38 x36 | s113 => DD x38 x37 | s114 => DD x38 x38 | s115 => DD x38 x39 | s116 => DD x38 x40 | s117 => DD x38 x41 | s118 => DD x38 x42 | s119 => DD x38 x43 | s120 => DD x38 x44 | s121 => DD x38 x45 | s122 => DD x38 x46 | s123 => DD x38 x47 | s124 => DD x38 x48 | s125 => DD x38 x49 | s126 => DD x38 x50 end.
Definition m2360 (c : sum2) : dd := match c with s0 => DD x36 x56 | s1 => DD x36 x57 | s2 => DD x36 x58 | s3 => DD x36 x59 | s4 => DD x36 x60 | s5 => DD x36 x61 | s6 => DD x36 x62 | s7 => DD x36 x63 | s8 => DD x37 x0 | s9 => DD x37 x1 | s10 => DD x37 x2 | s11 => DD x37 x3 | s12 => DD x37 x4 | s13 => DD x37 x5 | s14 => DD x37 x6 | s15 => DD x37 x7 | s16 => DD x37 x8 | s17 => DD x37 x9 | s18 => DD x37 x10 | s19 => DD x37 x11 | s20 => DD x37 x12 | s21 => DD x37 x13 | s22 => DD x37 x14 | s23 => DD x37 x15 | s24 => DD x37 x16 | s25 => DD x37 x17 | s26 => DD x37 x18 | s27 => DD x37 x19 | s28 => DD x37 x20 | s29 => DD x37 x21 | s30 => DD x37 x22 | s31 => DD x37 x23 | s32 => DD x37 x24 | s33 => DD x37 x25 | s34 => DD x37 x26 | s35 => DD x37 x27 | s36 => DD x37 x28 | s37 => DD x37 x29 | s38 => DD x37 x30 | s39 => DD x37 x31 | s40 => DD x37 x32 | s41 => DD x37 x33 | s42 => DD x37 x34 | s43 => DD x37 x35 | s44 => DD x37 x36 | s45 => DD x37 x37 | s46 => DD x37 x38 | s47 => DD x37 x39 | s48 => DD x37 x40 | s49 => DD x37 x41 | s50 => DD x37 x42 | s51 => DD x37 x43 | s52 => DD x37 x44 | s53 => DD x37 x45 | s54 => DD x37 x46 | s55 => DD x37 x47 | s56 => DD x37 x48 | s57 => DD x37 x49 | s58 => DD x37 x50 | s59 => DD x37 x51 | s60 => DD x37 x52 | s61 => DD x37 x53 | s62 => DD x37 x54 | s63 => DD x37 x55 | s64 => DD x37 x56 | s65 => DD x37 x57 | s66 => DD x37 x58 | s67 => DD x37 x59 | s68 => DD x37 x60 | s69 => DD x37 x61 | s70 => DD x37 x62 | s71 => DD x37 x63 | s72 => DD x38 x0 | s73 => DD x38 x1 | s74 => DD x38 x2 | s75 => DD x38 x3 | s76 => DD x38 x4 | s77 => DD x38 x5 | s78 => DD x38 x6 | s79 => DD x38 x7 | s80 => DD x38 x8 | s81 => DD x38 x9 | s82 => DD x38 x10 | s83 => DD x38 x11 | s84 => DD x38 x12 | s85 => DD x38 x13 | s86 => DD x38 x14 | s87 => DD x38 x15 | s88 => DD x38 x16 | s89 => DD x38 x17 | s90 => DD x38 x18 | s91 => DD x38 x19 | s92 => DD x38 x20 | s93 => DD x38 x21 | s94 => DD x38 x22 | s95 => DD x38 x23 | s96 => DD x38 x24 | s97 => DD x38 x25 | s98 => DD x38 x26 | s99 => DD x38 x27 | s100 => DD x38 x28 | s101 => DD x38 x29 | s102 => DD x38 x30 | s103 => DD x38 x31 | s104 => DD x38 x32 | s105 => DD x38 x33 | s106 => DD x38 x34 | s107 => DD x38 x35 | s108 => DD x38 x36 | s109 => DD x38 x37 | s110 => DD x38 x38 | s111 => DD x38 x39 | s112 => DD x38 x40 | s113 => DD x38 x41 | s114 => DD x38 x42 | s115 => DD x38 x43 | s116 => DD x38 x44 | s117 => DD x38 x45 | s118 => DD x38 x46 | s119 => DD x38 x47 | s120 => DD x38 x48 | s121 => DD x38 x49 | s122 => DD x38 x50 | s123 => DD x38 x51 | s124 => DD x38 x52 | s125 => DD x38 x53 | s126 => DD x38 x54 end.
Definition m2365 (c : sum2) : dd := match c with s0 => DD x36 x61 | s1 => DD x36 x62 | s2 => DD x36 x63 | s3 => DD x37 x0 | s4 => DD x37 x1 | s5 => DD x37 x2 | s6 => DD x37 x3 | s7 => DD x37 x4 | s8 => DD x37 x5 | s9 => DD x37 x6 | s10 => DD x37 x7 | s11 => DD x37 x8 | s12 => DD x37 x9 | s13 => DD x37 x10 | s14 => DD x37 x11 | s15 => DD x37 x12 | s16 => DD x37 x13 | s17 => DD x37 x14 | s18 => DD x37 x15 | s19 => DD x37 x16 | s20 => DD x37 x17 | s21 => DD x37 x18 | s22 => DD x37 x19 | s23 => DD x37 x20 | s24 => DD x37 x21 | s25 => DD x37 x22 | s26 => DD x37 x23 | s27 => DD x37 x24 | s28 => DD x37 x25 | s29 => DD x37 x26 | s30 => DD x37 x27 | s31 => DD x37 x28 | s32 => DD x37 x29 | s33 => DD x37 x30 | s34 => DD x37 x31 | s35 => DD x37 x32 | s36 => DD x37 x33 | s37 => DD x37 x34 | s38 => DD x37 x35 | s39 => DD x37 x36 | s40 => DD x37 x37 | s41 => DD x37 x38 | s42 => DD x37 x39 | s43 => DD x37 x40 | s44 => DD x37 x41 | s45 => DD x37 x42 | s46 => DD x37 x43 | s47 => DD x37 x44 | s48 => DD x37 x45 | s49 => DD x37 x46 | s50 => DD x37 x47 | s51 => DD x37 x48 | s52 => DD x37 x49 | s53 => DD x37 x50 | s54 => DD x37 x51 | s55 => DD x37 x52 | s56 => DD x37 x53 | s57 => DD x37 x54 | s58 => DD x37 x55 | s59 => DD x37 x56 | s60 => DD x37 x57 | s61 => DD x37 x58 | s62 => DD x37 x59 | s63 => DD x37 x60 | s64 => DD x37 x61 | s65 => DD x37 x62 | s66 => DD x37 x63 | s67 => DD x38 x0 | s68 => DD x38 x1 | s69 => DD x38 x2 | s70 => DD x38 x3 | s71 => DD x38 x4 | s72 => DD x38 x5 | s73 => DD x38 x6 | s74 => DD x38 x7 | s75 => DD x38 x8 | s76 => DD x38 x9 | s77 => DD x38 x10 | s78 => DD x38 x11 | s79 => DD x38 x12 | s80 => DD x38 x13 | s81 => DD x38 x14 | s82 => DD x38 x15 | s83 => DD x38 x16 | s84 => DD x38 x17 | s85 => DD x38 x18 | s86 => DD x38 x19 | s87 => DD x38 x20 | s88 => DD x38 x21 | s89 => DD x38 x22 | s90 => DD x38 x23 | s91 => DD x38 x24 | s92 => DD x38 x25 | s93 => DD x38 x26 | s94 => DD x38 x27 | s95 => DD x38 x28 | s96 => DD x38 x29 | s97 => DD x38 x30 | s98 => DD x38 x31 | s99 => DD x38 x32 | s100 => DD x38 x33 | s101 => DD x38 x34 | s102 => DD x38 x35 | s103 => DD x38 x36 | s104 => DD x38 x37 | s105 => DD x38 x38 | s106 => DD x38 x39 | s107 => DD x38 x40 | s108 => DD x38 x41 | s109 => DD x38 x42 | s110 => DD x38 x43 | s111 => DD x38 x44 | s112 => DD x38 x45 | s113 => DD x38 x46 | s114 => DD x38 x47 | s115 => DD x38 x48 | s116 => DD x38 x49 | s117 => DD x38 x50 | s118 => DD x38 x51 | s119 => DD x38 x52 | s120 => DD x38 x53 | s121 => DD x38 x54 | s122 => DD x38 x55 | s123 => DD x38 x56 | s124 => DD x38 x57 | s125 => DD x38 x58 | s126 => DD x38 x59 end.
Definition m2376 (c : sum2) : dd := match c with s0 => DD x37 x8 | s1 => DD x37 x9 | s2 => DD x37 x10 | s3 => DD x37 x11 | s4 => DD x37 x12 | s5 => DD x37 x13 | s6 => DD x37 x14 | s7 => DD x37 x15 | s8 => DD x37 x16 | s9 => DD x37 x17 | s10 => DD x37 x18 | s11 => DD x37 x19 | s12 => DD x37 x20 | s13 => DD x37 x21 | s14 => DD x37 x22 | s15 => DD x37 x23 | s16 => DD x37 x24 | s17 => DD x37 x25 | s18 => DD x37 x26 | s19 => DD x37 x27 | s20 => DD x37 x28 | s21 => DD x37 x29 | s22 => DD x37 x30 | s23 => DD x37 x31 | s24 => DD x37 x32 | s25 => DD x37 x33 | s26 => DD x37 x34 | s27 => DD x37 x35 | s28 => DD x37 x36 | s29 => DD x37 x37 | s30 => DD x37 x38 | s31 => DD x37 x39 | s32 => DD x37 x40 | s33 => DD x37 x41 | s34 => DD x37 x42 | s35 => DD x37 x43 | s36 => DD x37 x44 | s37 => DD x37 x45 | s38 => DD x37 x46 | s39 => DD x37 x47 | s40 => DD x37 x48 | s41 => DD x37 x49 | s42 => DD x37 x50 | s43 => DD x37 x51 | s44 => DD x37 x52 | s45 => DD x37 x53 | s46 => DD x37 x54 | s47 => DD x37 x55 | s48 => DD x37 x56 | s49 => DD x37 x57 | s50 => DD x37 x58 | s51 => DD x37 x59 | s52 => DD x37 x60 | s53 => DD x37 x61 | s54 => DD x37 x62 | s55 => DD x37 x63 | s56 => DD x38 x0 | s57 => DD x38 x1 | s58 => DD x38 x2 | s59 => DD x38 x3 | s60 => DD x38 x4 | s61 => DD x38 x5 | s62 => DD x38 x6 | s63 => DD x38 x7 | s64 => DD x38 x8 | s65 => DD x38 x9 | s66 => DD x38 x10 | s67 => DD x38 x11 | s68 => DD x38 x12 | s69 => DD x38 x13 | s70 => DD x38 x14 | s71 => DD x38 x15 | s72 => DD x38 x16 | s73 => DD x38 x17 | s74 => DD x38 x18 | s75 => DD x38 x19 | s76 => DD x38 x20 | s77 => DD x38 x21 | s78 => DD x38 x22 | s79 => DD x38 x23 | s80 => DD x38 x24 | s81 => DD x38 x25 | s82 => DD x38 x26 | s83 => DD x38 x27 | s84 => DD x38 x28 | s85 => DD x38 x29 | s86 => DD x38 x30 | s87 => DD x38 x31 | s88 => DD x38 x32 | s89 => DD x38 x33 | s90 => DD x38 x34 | s91 => DD x38 x35 | s92 => DD x38 x36 | s93 => DD x38 x37 | s94 => DD x38 x38 | s95 => DD x38 x39 | s96 => DD x38 x40 | s97 => DD x38 x41 | s98 => DD x38 x42 | s99 => DD x38 x43 | s100 => DD x38 x44 | s101 => DD x38 x45 | s102 => DD x38 x46 | s103 => DD x38 x47 | s104 => DD x38 x48 | s105 => DD x38 x49 | s106 => DD x38 x50 | s107 => DD x38 x51 | s108 => DD x38 x52 | s109 => DD x38 x53 | s110 => DD x38 x54 | s111 => DD x38 x55 | s112 => DD x38 x56 | s113 => DD x38 x57 | s114 => DD x38 x58 | s115 => DD x38 x59 | s116 => DD x38 x60 | s117 => DD x38 x61 | s118 => DD x38 x62 | s119 => DD x38 x63 | s120 => DD x39 x0 | s121 => DD x39 x1 | s122 => DD x39 x2 | s123 => DD x39 x3 | s124 => DD x39 x4 | s125 => DD x39 x5 | s126 => DD x39 x6 end.
Definition m2378 (c : sum2) : dd := match c with s0 => DD x37 x10 | s1 => DD x37 x11 | s2 => DD x37 x12 | s3 => DD x37 x13 | s4 => DD x37 x14 | s5 => DD x37 x15 | s6 => DD x37 x16 | s7 => DD x37 x17 | s8 => DD x37 x18 | s9 => DD x37 x19 | s10 => DD x37 x20 | s11 => DD x37 x21 | s12 => DD x37 x22 | s13 => DD x37 x23 | s14 => DD x37 x24 | s15 => DD x37 x25 | s16 => DD x37 x26 | s17 => DD x37 x27 | s18 => DD x37 x28 | s19 => DD x37 x29 | s20 => DD x37 x30 | s21 => DD x37 x31 | s22 => DD x37 x32 | s23 => DD x37 x33 | s24 => DD x37 x34 | s25 => DD x37 x35 | s26 => DD x37 x36 | s27 => DD x37 x37 | s28 => DD x37 x38 | s29 => DD x37 x39 | s30 => DD x37 x40 | s31 => DD x37 x41 | s32 => DD x37 x42 | s33 => DD x37 x43 | s34 => DD x37 x44 | s35 => DD x37 x45 | s36 => DD x37 x46 | s37 => DD x37 x47 | s38 => DD x37 x48 | s39 => DD x37 x49 | s40 => DD x37 x50 | s41 => DD x37 x51 | s42 => DD x37 x52 | s43 => DD x37 x53 | s44 => DD x37 x54 | s45 => DD x37 x55 | s46 => DD x37 x56 | s47 => DD x37 x57 | s48 => DD x37 x58 | s49 => DD x37 x59 | s50 => DD x37 x60 | s51 => DD x37 x61 | s52 => DD x37 x62 | s53 => DD x37 x63 | s54 => DD x38 x0 | s55 => DD x38 x1 | s56 => DD x38 x2 | s57 => DD x38 x3 | s58 => DD x38 x4 | s59 => DD x38 x5 | s60 => DD x38 x6 | s61 => DD x38 x7 | s62 => DD x38 x8 | s63 => DD x38 x9 | s64 => DD x38 x10 | s65 => DD x38 x11 | s66 => DD x38 x12 | s67 => DD x38 x13 | s68 => DD x38 x14 | s69 => DD x38 x15 | s70 => DD x38 x16 | s71 => DD x38 x17 | s72 => DD x38 x18 | s73 => DD x38 x19 | s74 => DD x38 x20 | s75 => DD x38 x21 | s76 => DD x38 x22 | s77 => DD x38 x23 | s78 => DD x38 x24 | s79 => DD x38 x25 | s80 => DD x38 x26 | s81 => DD x38 x27 | s82 => DD x38 x28 | s83 => DD x38 x29 | s84 => DD x38 x30 | s85 => DD x38 x31 | s86 => DD x38 x32 | s87 => DD x38 x33 | s88 => DD x38 x34 | s89 => DD x38 x35 | s90 => DD x38 x36 | s91 => DD x38 x37 | s92 => DD x38 x38 | s93 => DD x38 x39 | s94 => DD x38 x40 | s95 => DD x38 x41 | s96 => DD x38 x42 | s97 => DD x38 x43 | s98 => DD x38 x44 | s99 => DD x38 x45 | s100 => DD x38 x46 | s101 => DD x38 x47 | s102 => DD x38 x48 | s103 => DD x38 x49 | s104 => DD x38 x50 | s105 => DD x38 x51 | s106 => DD x38 x52 | s107 => DD x38 x53 | s108 => DD x38 x54 | s109 => DD x38 x55 | s110 => DD x38 x56 | s111 => DD x38 x57 | s112 => DD x38 x58 | s113 => DD x38 x59 | s114 => DD x38 x60 | s115 => DD x38 x61 | s116 => DD x38 x62 | s117 => DD x38 x63 | s118 => DD x39 x0 | s119 => DD x39 x1 | s120 => DD x39 x2 | s121 => DD x39 x3 | s122 => DD x39 x4 | s123 => DD x39 x5 | s124 => DD x39 x6 | s125 => DD x39 x7 | s126 => DD x39 x8 end.
Definition m2379 (c : sum2) : dd := match c with s0 => DD x37 x11 | s1 => DD x37 x12 | s2 => DD x37 x13 | s3 => DD x37 x14 | s4 => DD x37 x15 | s5 => DD x37 x16 | s6 => DD x37 x17 | s7 => DD x37 x18 | s8 => DD x37 x19 | s9 => DD x37 x20 | s10 => DD x37 x21 | s11 => DD x37 x22 | s12 => DD x37 x23 | s13 => DD x37 x24 | s14 => DD x37 x25 | s15 => DD x37 x26 | s16 => DD x37 x27 | s17 => DD x37 x28 | s18 => DD x37 x29 | s19 => DD x37 x30 | s20 => DD x37 x31 | s21 => DD x37 x32 | s22 => DD x37 x33 | s23 => DD x37 x34 | s24 => DD x37 x35 | s25 => DD x37 x36 | s26 => DD x37 x37 | s27 => DD x37 x38 | s28 => DD x37 x39 | s29 => DD x37 x40 | s30 => DD x37 x41 | s31 => DD x37 x42 | s32 => DD x37 x43 | s33 => DD x37 x44 | s34 => DD x37 x45 | s35 => DD x37 x46 | s36 => DD x37 x47 | s37 => DD x37 x48 | s38 => DD x37 x49 | s39 => DD x37 x50 | s40 => DD x37 x51 | s41 => DD x37 x52 | s42 => DD x37 x53 | s43 => DD x37 x54 | s44 => DD x37 x55 | s45 => DD x37 x56 | s46 => DD x37 x57 | s47 => DD x37 x58 | s48 => DD x37 x59 | s49 => DD x37 x60 | s50 => DD x37 x61 | s51 => DD x37 x62 | s52 => DD x37 x63 | s53 => DD x38 x0 | s54 => DD x38 x1 | s55 => DD x38 x2 | s56 => DD x38 x3 | s57 => DD x38 x4 | s58 => DD x38 x5 | s59 => DD x38 x6 | s60 => DD x38 x7 | s61 => DD x38 x8 | s62 => DD x38 x9 | s63 => DD x38 x10 | s64 => DD x38 x11 | s65 => DD x38 x12 | s66 => DD x38 x13 | s67 => DD x38 x14 | s68 => DD x38 x15 | s69 => DD x38 x16 | s70 => DD x38 x17 | s71 => DD x38 x18 | s72 => DD x38 x19 | s73 => DD x38 x20 | s74 => DD x38 x21 | s75 => DD x38 x22 | s76 => DD x38 x23 | s77 => DD x38 x24 | s78 => DD x38 x25 | s79 => DD x38 x26 | s80 => DD x38 x27 | s81 => DD x38 x28 | s82 => DD x38 x29 | s83 => DD x38 x30 | s84 => DD x38 x31 | s85 => DD x38 x32 | s86 => DD x38 x33 | s87 => DD x38 x34 | s88 => DD x38 x35 | s89 => DD x38 x36 | s90 => DD x38 x37 | s91 => DD x38 x38 | s92 => DD x38 x39 | s93 => DD x38 x40 | s94 => DD x38 x41 | s95 => DD x38 x42 | s96 => DD x38 x43 | s97 => DD x38 x44 | s98 => DD x38 x45 | s99 => DD x38 x46 | s100 => DD x38 x47 | s101 => DD x38 x48 | s102 => DD x38 x49 | s103 => DD x38 x50 | s104 => DD x38 x51 | s105 => DD x38 x52 | s106 => DD x38 x53 | s107 => DD x38 x54 | s108 => DD x38 x55 | s109 => DD x38 x56 | s110 => DD x38 x57 | s111 => DD x38 x58 | s112 => DD x38 x59 | s113 => DD x38 x60 | s114 => DD x38 x61 | s115 => DD x38 x62 | s116 => DD x38 x63 | s117 => DD x39 x0 | s118 => DD x39 x1 | s119 => DD x39 x2 | s120 => DD x39 x3 | s121 => DD x39 x4 | s122 => DD x39 x5 | s123 => DD x39 x6 | s124 => DD x39 x7 | s125 => DD x39 x8 | s126 => DD x39 x9 end.
Definition m2385 (c : sum2) : dd := match c with s0 => DD x37 x17 | s1 => DD x37 x18 | s2 => DD x37 x19 | s3 => DD x37 x20 | s4 => DD x37 x21 | s5 => DD x37 x22 | s6 => DD x37 x23 | s7 => DD x37 x24 | s8 => DD x37 x25 | s9 => DD x37 x26 | s10 => DD x37 x27 | s11 => DD x37 x28 | s12 => DD x37 x29 | s13 => DD x37 x30 | s14 => DD x37 x31 | s15 => DD x37 x32 | s16 => DD x37 x33 | s17 => DD x37 x34 | s18 => DD x37 x35 | s19 => DD x37 x36 | s20 => DD x37 x37 | s21 => DD x37 x38 | s22 => DD x37 x39 | s23 => DD x37 x40 | s24 => DD x37 x41 | s25 => DD x37 x42 | s26 => DD x37 x43 | s27 => DD x37 x44 | s28 => DD x37 x45 | s29 => DD x37 x46 | s30 => DD x37 x47 | s31 => DD x37 x48 | s32 => DD x37 x49 | s33 => DD x37 x50 | s34 => DD x37 x51 | s35 => DD x37 x52 | s36 => DD x37 x53 | s37 => DD x37 x54 | s38 => DD x37 x55 | s39 => DD x37 x56 | s40 => DD x37 x57 | s41 => DD x37 x58 | s42 => DD x37 x59 | s43 => DD x37 x60 | s44 => DD x37 x61 | s45 => DD x37 x62 | s46 => DD x37 x63 | s47 => DD x38 x0 | s48 => DD x38 x1 | s49 => DD x38 x2 | s50 => DD x38 x3 | s51 => DD x38 x4 | s52 => DD x38 x5 | s53 => DD x38 x6 | s54 => DD x38 x7 | s55 => DD x38 x8 | s56 => DD x38 x9 | s57 => DD x38 x10 | s58 => DD x38 x11 | s59 => DD x38 x12 | s60 => DD x38 x13 | s61 => DD x38 x14 | s62 => DD x38 x15 | s63 => DD x38 x16 | s64 => DD x38 x17 | s65 => DD x38 x18 | s66 => DD x38 x19 | s67 => DD x38 x20 | s68 => DD x38 x21 | s69 => DD x38 x22 | s70 => DD x38 x23 | s71 => DD x38 x24 | s72 => DD x38 x25 | s73 => DD x38 x26 | s74 => DD x38 x27 | s75 => DD x38 x28 | s76 => DD x38 x29 | s77 => DD x38 x30 | s78 => DD x38 x31 | s79 => DD x38 x32 | s80 => DD x38 x33 | s81 => DD x38 x34 | s82 => DD x38 x35 | s83 => DD x38 x36 | s84 => DD x38 x37 | s85 => DD x38 x38 | s86 => DD x38 x39 | s87 => DD x38 x40 | s88 => DD x38 x41 | s89 => DD x38 x42 | s90 => DD x38 x43 | s91 => DD x38 x44 | s92 => DD x38 x45 | s93 => DD x38 x46 | s94 => DD x38 x47 | s95 => DD x38 x48 | s96 => DD x38 x49 | s97 => DD x38 x50 | s98 => DD x38 x51 | s99 => DD x38 x52 | s100 => DD x38 x53 | s101 => DD x38 x54 | s102 => DD x38 x55 | s103 => DD x38 x56 | s104 => DD x38 x57 | s105 => DD x38 x58 | s106 => DD x38 x59 | s107 => DD x38 x60 | s108 => DD x38 x61 | s109 => DD x38 x62 | s110 => DD x38 x63 | s111 => DD x39 x0 | s112 => DD x39 x1 | s113 => DD x39 x2 | s114 => DD x39 x3 | s115 => DD x39 x4 | s116 => DD x39 x5 | s117 => DD x39 x6 | s118 => DD x39 x7 | s119 => DD x39 x8 | s120 => DD x39 x9 | s121 => DD x39 x10 | s122 => DD x39 x11 | s123 => DD x39 x12 | s124 => DD x39 x13 | s125 => DD x39 x14 | s126 => DD x39 x15 end.
Definition m2392 (c : sum2) : dd := match c with s0 => DD x37 x24 | s1 => DD x37 x25 | s2 => DD x37 x26 | s3 => DD x37 x27 | s4 => DD x37 x28 | s5 => DD x37 x29 | s6 => DD x37 x30 | s7 => DD x37 x31 | s8 => DD x37 x32 | s9 => DD x37 x33 | s10 => DD x37 x34 | s11 => DD x37 x35 | s12 => DD x37 x36 | s13 => DD x37 x37 | s14 => DD x37 x38 | s15 => DD x37 x39 | s16 => DD x37 x40 | s17 => DD x37 x41 | s18 => DD x37 x42 | s19 => DD x37 x43 | s20 => DD x37 x44 | s21 => DD x37 x45 | s22 => DD x37 x46 | s23 => DD x37 x47 | s24 => DD x37 x48 | s25 => DD x37 x49 | s26 => DD x37 x50 | s27 => DD x37 x51 | s28 => DD x37 x52 | s29 => DD x37 x53 | s30 => DD x37 x54 | s31 => DD x37 x55 | s32 => DD x37 x56 | s33 => DD x37 x57 | s34 => DD x37 x58 | s35 => DD x37 x59 | s36 => DD x37 x60 | s37 => DD x37 x61 | s38 => DD x37 x62 | s39 => DD x37 x63 | s40 => DD x38 x0 | s41 => DD x38 x1 | s42 => DD x38 x2 | s43 => DD x38 x3 | s44 => DD x38 x4 | s45 => DD x38 x5 | s46 => DD x38 x6 | s47 => DD x38 x7 | s48 => DD x38 x8 | s49 => DD x38 x9 | s50 => DD x38 x10 | s51 => DD x38 x11 | s52 => DD x38 x12 | s53 => DD x38 x13 | s54 => DD x38 x14 | s55 => DD x38 x15 | s56 => DD x38 x16 | s57 => DD x38 x17 | s58 => DD x38 x18 | s59 => DD x38 x19 | s60 => DD x38 x20 | s61 => DD x38 x21 | s62 => DD x38 x22 | s63 => DD x38 x23 | s64 => DD x38 x24 | s65 => DD x38 x25 | s66 => DD x38 x26 | s67 => DD x38 x27 | s68 => DD x38 x28 | s69 => DD x38 x29 | s70 => DD x38 x30 | s71 => DD x38 x31 | s72 => DD x38 x32 | s73 => DD x38 x33 | s74 => DD x38 x34 | s75 => DD x38 x35 | s76 => DD x38 x36 | s77 => DD x38 x37 | s78 => DD x38 x38 | s79 => DD x38 x39 | s80 => DD x38 x40 | s81 => DD x38 x41 | s82 => DD x38 x42 | s83 => DD x38 x43 | s84 => DD x38 x44 | s85 => DD x38 x45 | s86 => DD x38 x46 | s87 => DD x38 x47 | s88 => DD x38 x48 | s89 => DD x38 x49 | s90 => DD x38 x50 | s91 => DD x38 x51 | s92 => DD x38 x52 | s93 => DD x38 x53 | s94 => DD x38 x54 | s95 => DD x38 x55 | s96 => DD x38 x56 | s97 => DD x38 x57 | s98 => DD x38 x58 | s99 => DD x38 x59 | s100 => DD x38 x60 | s101 => DD x38 x61 | s102 => DD x38 x62 | s103 => DD x38 x63 | s104 => DD x39 x0 | s105 => DD x39 x1 | s106 => DD x39 x2 | s107 => DD x39 x3 | s108 => DD x39 x4 | s109 => DD x39 x5 | s110 => DD x39 x6 | s111 => DD x39 x7 | s112 => DD x39 x8 | s113 => DD x39 x9 | s114 => DD x39 x10 | s115 => DD x39 x11 | s116 => DD x39 x12 | s117 => DD x39 x13 | s118 => DD x39 x14 | s119 => DD x39 x15 | s120 => DD x39 x16 | s121 => DD x39 x17 | s122 => DD x39 x18 | s123 => DD x39 x19 | s124 => DD x39 x20 | s125 => DD x39 x21 | s126 => DD x39 x22 end.
Definition m2394 (c : sum2) : dd := match c with s0 => DD x37 x26 | s1 => DD x37 x27 | s2 => DD x37 x28 | s3 => DD x37 x29 | s4 => DD x37 x30 | s5 => DD x37 x31 | s6 => DD x37 x32 | s7 => DD x37 x33 | s8 => DD x37 x34 | s9 => DD x37 x35 | s10 => DD x37 x36 | s11 => DD x37 x37 | s12 => DD x37 x38 | s13 => DD x37 x39 | s14 => DD x37 x40 | s15 => DD x37 x41 | s16 => DD x37 x42 | s17 => DD x37 x43 | s18 => DD x37 x44 | s19 => DD x37 x45 | s20 => DD x37 x46 | s21 => DD x37 x47 | s22 => DD x37 x48 | s23 => DD x37 x49 | s24 => DD x37 x50 | s25 => DD x37 x51 | s26 => DD x37 x52 | s27 => DD x37 x53 | s28 => DD x37 x54 | s29 => DD x37 x55 | s30 => DD x37 x56 | s31 => DD x37 x57 | s32 => DD x37 x58 | s33 => DD x37 x59 | s34 => DD x37 x60 | s35 => DD x37 x61 | s36 => DD x37 x62 | s37 => DD x37 x63 | s38 => DD x38 x0 | s39 => DD x38 x1 | s40 => DD x38 x2 | s41 => DD x38 x3 | s42 => DD x38 x4 | s43 => DD x38 x5 | s44 => DD x38 x6 | s45 => DD x38 x7 | s46 => DD x38 x8 | s47 => DD x38 x9 | s48 => DD x38 x10 | s49 => DD x38 x11 | s50 => DD x38 x12 | s51 => DD x38 x13 | s52 => DD x38 x14 | s53 => DD x38 x15 | s54 => DD x38 x16 | s55 => DD x38 x17 | s56 => DD x38 x18 | s57 => DD x38 x19 | s58 => DD x38 x20 | s59 => DD x38 x21 | s60 => DD x38 x22 | s61 => DD x38 x23 | s62 => DD x38 x24 | s63 => DD x38 x25 | s64 => DD x38 x26 | s65 => DD x38 x27 | s66 => DD x38 x28 | s67 => DD x38 x29 | s68 => DD x38 x30 | s69 => DD x38 x31 | s70 => DD x38 x32 | s71 => DD x38 x33 | s72 => DD x38 x34 | s73 => DD x38 x35 | s74 => DD x38 x36 | s75 => DD x38 x37 | s76 => DD x38 x38 | s77 => DD x38 x39 | s78 => DD x38 x40 | s79 => DD x38 x41 | s80 => DD x38 x42 | s81 => DD x38 x43 | s82 => DD x38 x44 | s83 => DD x38 x45 | s84 => DD x38 x46 | s85 => DD x38 x47 | s86 => DD x38 x48 | s87 => DD x38 x49 | s88 => DD x38 x50 | s89 => DD x38 x51 | s90 => DD x38 x52 | s91 => DD x38 x53 | s92 => DD x38 x54 | s93 => DD x38 x55 | s94 => DD x38 x56 | s95 => DD x38 x57 | s96 => DD x38 x58 | s97 => DD x38 x59 | s98 => DD x38 x60 | s99 => DD x38 x61 | s100 => DD x38 x62 | s101 => DD x38 x63 | s102 => DD x39 x0 | s103 => DD x39 x1 | s104 => DD x39 x2 | s105 => DD x39 x3 | s106 => DD x39 x4 | s107 => DD x39 x5 | s108 => DD x39 x6 | s109 => DD x39 x7 | s110 => DD x39 x8 | s111 => DD x39 x9 | s112 => DD x39 x10 | s113 => DD x39 x11 | s114 => DD x39 x12 | s115 => DD x39 x13 | s116 => DD x39 x14 | s117 => DD x39 x15 | s118 => DD x39 x16 | s119 => DD x39 x17 | s120 => DD x39 x18 | s121 => DD x39 x19 | s122 => DD x39 x20 | s123 => DD x39 x21 | s124 => DD x39 x22 | s125 => DD x39 x23 | s126 => DD x39 x24 end.
Definition m2397 (c : sum2) : dd := match c with s0 => DD x37 x29 | s1 => DD x37 x30 | s2 => DD x37 x31 | s3 => DD x37 x32 | s4 => DD x37 x33 | s5 => DD x37 x34 | s6 => DD x37 x35 | s7 => DD x37 x36 | s8 => DD x37 x37 | s9 => DD x37 x38 | s10 => DD x37 x39 | s11 => DD x37 x40 | s12 => DD x37 x41 | s13 => DD x37 x42 | s14 => DD x37 x43 | s15 => DD x37 x44 | s16 => DD x37 x45 | s17 => DD x37 x46 | s18 => DD x37 x47 | s19 => DD x37 x48 | s20 => DD x37 x49 | s21 => DD x37 x50 | s22 => DD x37 x51 | s23 => DD x37 x52 | s24 => DD x37 x53 | s25 => DD x37 x54 | s26 => DD x37 x55 | s27 => DD x37 x56 | s28 => DD x37 x57 | s29 => DD x37 x58 | s30 => DD x37 x59 | s31 => DD x37 x60 | s32 => DD x37 x61 | s33 => DD x37 x62 | s34 => DD x37 x63 | s35 => DD x38 x0 | s36 => DD x38 x1 | s37 => DD x38 x2 | s38 => DD x38 x3 | s39 => DD x38 x4 | s40 => DD x38 x5 | s41 => DD x38 x6 | s42 => DD x38 x7 | s43 => DD x38 x8 | s44 => DD x38 x9 | s45 => DD x38 x10 | s46 => DD x38 x11 | s47 => DD x38 x12 | s48 => DD x38 x13 | s49 => DD x38 x14 | s50 => DD x38 x15 | s51 => DD x38 x16 | s52 => DD x38 x17 | s53 => DD x38 x18 | s54 => DD x38 x19 | s55 => DD x38 x20 | s56 => DD x38 x21 | s57 => DD x38 x22 | s58 => DD x38 x23 | s59 => DD x38 x24 | s60 => DD x38 x25 | s61 => DD x38 x26 | s62 => DD x38 x27 | s63 => DD x38 x28 | s64 => DD x38 x29 | s65 => DD x38 x30 | s66 => DD x38 x31 | s67 => DD x38 x32 | s68 => DD x38 x33 | s69 => DD x38 x34 | s70 => DD x38 x35 | s71 => DD x38 x36 | s72 => DD x38 x37 | s73 => DD x38 x38 | s74 => DD x38 x39 | s75 => DD x38 x40 | s76 => DD x38 x41 | s77 => DD x38 x42 | s78 => DD x38 x43 | s79 => DD x38 x44 | s80 => DD x38 x45 | s81 => DD x38 x46 | s82 => DD x38 x47 | s83 => DD x38 x48 | s84 => DD x38 x49 | s85 => DD x38 x50 | s86 => DD x38 x51 | s87 => DD x38 x52 | s88 => DD x38 x53 | s89 => DD x38 x54 | s90 => DD x38 x55 | s91 => DD x38 x56 | s92 => DD x38 x57 | s93 => DD x38 x58 | s94 => DD x38 x59 | s95 => DD x38 x60 | s96 => DD x38 x61 | s97 => DD x38 x62 | s98 => DD x38 x63 | s99 => DD x39 x0 | s100 => DD x39 x1 | s101 => DD x39 x2 | s102 => DD x39 x3 | s103 => DD x39 x4 | s104 => DD x39 x5 | s105 => DD x39 x6 | s106 => DD x39 x7 | s107 => DD x39 x8 | s108 => DD x39 x9 | s109 => DD x39 x10 | s110 => DD x39 x11 | s111 => DD x39 x12 | s112 => DD x39 x13 | s113 => DD x39 x14 | s114 => DD x39 x15 | s115 => DD x39 x16 | s116 => DD x39 x17 | s117 => DD x39 x18 | s118 => DD x39 x19 | s119 => DD x39 x20 | s120 => DD x39 x21 | s121 => DD x39 x22 | s122 => DD x39 x23 | s123 => DD x39 x24 | s124 => DD x39 x25 | s125 => DD x39 x26 | s126 => DD x39 x27 end.
Definition m2400 (c : sum2) : dd := match c with s0 => DD x37 x32 | s1 => DD x37 x33 | s2 => DD x37 x34 | s3 => DD x37 x35 | s4 => DD x37 x36 | s5 => DD x37 x37 | s6 => DD x37 x38 | s7 => DD x37 x39 | s8 => DD x37 x40 | s9 => DD x37 x41 | s10 => DD x37 x42 | s11 => DD x37 x43 | s12 => DD x37 x44 | s13 => DD x37 x45 | s14 => DD x37 x46 | s15 => DD x37 x47 | s16 => DD x37 x48 | s17 => DD x37 x49 | s18 => DD x37 x50 | s19 => DD x37 x51 | s20 => DD x37 x52 | s21 => DD x37 x53 | s22 => DD x37 x54 | s23 => DD x37 x55 | s24 => DD x37 x56 | s25 => DD x37 x57 | s26 => DD x37 x58 | s27 => DD x37 x59 | s28 => DD x37 x60 | s29 => DD x37 x61 | s30 => DD x37 x62 | s31 => DD x37 x63 | s32 => DD x38 x0 | s33 => DD x38 x1 | s34 => DD x38 x2 | s35 => DD x38 x3 | s36 => DD x38 x4 | s37 => DD x38 x5 | s38 => DD x38 x6 | s39 => DD x38 x7 | s40 => DD x38 x8 | s41 => DD x38 x9 | s42 => DD x38 x10 | s43 => DD x38 x11 | s44 => DD x38 x12 | s45 => DD x38 x13 | s46 => DD x38 x14 | s47 => DD x38 x15 | s48 => DD x38 x16 | s49 => DD x38 x17 | s50 => DD x38 x18 | s51 => DD x38 x19 | s52 => DD x38 x20 | s53 => DD x38 x21 | s54 => DD x38 x22 | s55 => DD x38 x23 | s56 => DD x38 x24 | s57 => DD x38 x25 | s58 => DD x38 x26 | s59 => DD x38 x27 | s60 => DD x38 x28 | s61 => DD x38 x29 | s62 => DD x38 x30 | s63 => DD x38 x31 | s64 => DD x38 x32 | s65 => DD x38 x33 | s66 => DD x38 x34 | s67 => DD x38 x35 | s68 => DD x38 x36 | s69 => DD x38 x37 | s70 => DD x38 x38 | s71 => DD x38 x39 | s72 => DD x38 x40 | s73 => DD x38 x41 | s74 => DD x38 x42 | s75 => DD x38 x43 | s76 => DD x38 x44 | s77 => DD x38 x45 | s78 => DD x38 x46 | s79 => DD x38 x47 | s80 => DD x38 x48 | s81 => DD x38 x49 | s82 => DD x38 x50 | s83 => DD x38 x51 | s84 => DD x38 x52 | s85 => DD x38 x53 | s86 => DD x38 x54 | s87 => DD x38 x55 | s88 => DD x38 x56 | s89 => DD x38 x57 | s90 => DD x38 x58 | s91 => DD x38 x59 | s92 => DD x38 x60 | s93 => DD x38 x61 | s94 => DD x38 x62 | s95 => DD x38 x63 | s96 => DD x39 x0 | s97 => DD x39 x1 | s98 => DD x39 x2 | s99 => DD x39 x3 | s100 => DD x39 x4 | s101 => DD x39 x5 | s102 => DD x39 x6 | s103 => DD x39 x7 | s104 => DD x39 x8 | s105 => DD x39 x9 | s106 => DD x39 x10 | s107 => DD x39 x11 | s108 => DD x39 x12 | s109 => DD x39 x13 | s110 => DD x39 x14 | s111 => DD x39 x15 | s112 => DD x39 x16 | s113 => DD x39 x17 | s114 => DD x39 x18 | s115 => DD x39 x19 | s116 => DD x39 x20 | s117 => DD x39 x21 | s118 => DD x39 x22 | s119 => DD x39 x23 | s120 => DD x39 x24 | s121 => DD x39 x25 | s122 => DD x39 x26 | s123 => DD x39 x27 | s124 => DD x39 x28 | s125 => DD x39 x29 | s126 => DD x39 x30 end.
Definition m2401 (c : sum2) : dd := match c with s0 => DD x37 x33 | s1 => DD x37 x34 | s2 => DD x37 x35 | s3 => DD x37 x36 | s4 => DD x37 x37 | s5 => DD x37 x38 | s6 => DD x37 x39 | s7 => DD x37 x40 | s8 => DD x37 x41 | s9 => DD x37 x42 | s10 => DD x37 x43 | s11 => DD x37 x44 | s12 => DD x37 x45 | s13 => DD x37 x46 | s14 => DD x37 x47 | s15 => DD x37 x48 | s16 => DD x37 x49 | s17 => DD x37 x50 | s18 => DD x37 x51 | s19 => DD x37 x52 | s20 => DD x37 x53 | s21 => DD x37 x54 | s22 => DD x37 x55 | s23 => DD x37 x56 | s24 => DD x37 x57 | s25 => DD x37 x58 | s26 => DD x37 x59 | s27 => DD x37 x60 | s28 => DD x37 x61 | s29 => DD x37 x62 | s30 => DD x37 x63 | s31 => DD x38 x0 | s32 => DD x38 x1 | s33 => DD x38 x2 | s34 => DD x38 x3 | s35 => DD x38 x4 | s36 => DD x38 x5 | s37 => DD x38 x6 | s38 => DD x38 x7 | s39 => DD x38 x8 | s40 => DD x38 x9 | s41 => DD x38 x10 | s42 => DD x38 x11 | s43 => DD x38 x12 | s44 => DD x38 x13 | s45 => DD x38 x14 | s46 => DD x38 x15 | s47 => DD x38 x16 | s48 => DD x38 x17 | s49 => DD x38 x18 | s50 => DD x38 x19 | s51 => DD x38 x20 | s52 => DD x38 x21 | s53 => DD x38 x22 | s54 => DD x38 x23 | s55 => DD x38 x24 | s56 => DD x38 x25 | s57 => DD x38 x26 | s58 => DD x38 x27 | s59 => DD x38 x28 | s60 => DD x38 x29 | s61 => DD x38 x30 | s62 => DD x38 x31 | s63 => DD x38 x32 | s64 => DD x38 x33 | s65 => DD x38 x34 | s66 => DD x38 x35 | s67 => DD x38 x36 | s68 => DD x38 x37 | s69 => DD x38 x38 | s70 => DD x38 x39 | s71 => DD x38 x40 | s72 => DD x38 x41 | s73 => DD x38 x42 | s74 => DD x38 x43 | s75 => DD x38 x44 | s76 => DD x38 x45 | s77 => DD x38 x46 | s78 => DD x38 x47 | s79 => DD x38 x48 | s80 => DD x38 x49 | s81 => DD x38 x50 | s82 => DD x38 x51 | s83 => DD x38 x52 | s84 => DD x38 x53 | s85 => DD x38 x54 | s86 => DD x38 x55 | s87 => DD x38 x56 | s88 => DD x38 x57 | s89 => DD x38 x58 | s90 => DD x38 x59 | s91 => DD x38 x60 | s92 => DD x38 x61 | s93 => DD x38 x62 | s94 => DD x38 x63 | s95 => DD x39 x0 | s96 => DD x39 x1 | s97 => DD x39 x2 | s98 => DD x39 x3 | s99 => DD x39 x4 | s100 => DD x39 x5 | s101 => DD x39 x6 | s102 => DD x39 x7 | s103 => DD x39 x8 | s104 => DD x39 x9 | s105 => DD x39 x10 | s106 => DD x39 x11 | s107 => DD x39 x12 | s108 => DD x39 x13 | s109 => DD x39 x14 | s110 => DD x39 x15 | s111 => DD x39 x16 | s112 => DD x39 x17 | s113 => DD x39 x18 | s114 => DD x39 x19 | s115 => DD x39 x20 | s116 => DD x39 x21 | s117 => DD x39 x22 | s118 => DD x39 x23 | s119 => DD x39 x24 | s120 => DD x39 x25 | s121 => DD x39 x26 | s122 => DD x39 x27 | s123 => DD x39 x28 | s124 => DD x39 x29 | s125 => DD x39 x30 | s126 => DD x39 x31 end.
Definition m2408 (c : sum2) : dd := match c with s0 => DD x37 x40 | s1 => DD x37 x41 | s2 => DD x37 x42 | s3 => DD x37 x43 | s4 => DD x37 x44 | s5 => DD x37 x45 | s6 => DD x37 x46 | s7 => DD x37 x47 | s8 => DD x37 x48 | s9 => DD x37 x49 | s10 => DD x37 x50 | s11 => DD x37 x51 | s12 => DD x37 x52 | s13 => DD x37 x53 | s14 => DD x37 x54 | s15 => DD x37 x55 | s16 => DD x37 x56 | s17 => DD x37 x57 | s18 => DD x37 x58 | s19 => DD x37 x59 | s20 => DD x37 x60 | s21 => DD x37 x61 | s22 => DD x37 x62 | s23 => DD x37 x63 | s24 => DD x38 x0 | s25 => DD x38 x1 | s26 => DD x38 x2 | s27 => DD x38 x3 | s28 => DD x38 x4 | s29 => DD x38 x5 | s30 => DD x38 x6 | s31 => DD x38 x7 | s32 => DD x38 x8 | s33 => DD x38 x9 | s34 => DD x38 x10 | s35 => DD x38 x11 | s36 => DD x38 x12 | s37 => DD x38 x13 | s38 => DD x38 x14 | s39 => DD x38 x15 | s40 => DD x38 x16 | s41 => DD x38 x17 | s42 => DD x38 x18 | s43 => DD x38 x19 | s44 => DD x38 x20 | s45 => DD x38 x21 | s46 => DD x38 x22 | s47 => DD x38 x23 | s48 => DD x38 x24 | s49 => DD x38 x25 | s50 => DD x38 x26 | s51 => DD x38 x27 | s52 => DD x38 x28 | s53 => DD x38 x29 | s54 => DD x38 x30 | s55 => DD x38 x31 | s56 => DD x38 x32 | s57 => DD x38 x33 | s58 => DD x38 x34 | s59 => DD x38 x35 | s60 => DD x38 x36 | s61 => DD x38 x37 | s62 => DD x38 x38 | s63 => DD x38 x39 | s64 => DD x38 x40 | s65 => DD x38 x41 | s66 => DD x38 x42 | s67 => DD x38 x43 | s68 => DD x38 x44 | s69 => DD x38 x45 | s70 => DD x38 x46 | s71 => DD x38 x47 | s72 => DD x38 x48 | s73 => DD x38 x49 | s74 => DD x38 x50 | s75 => DD x38 x51 | s76 => DD x38 x52 | s77 => DD x38 x53 | s78 => DD x38 x54 | s79 => DD x38 x55 | s80 => DD x38 x56 | s81 => DD x38 x57 | s82 => DD x38 x58 | s83 => DD x38 x59 | s84 => DD x38 x60 | s85 => DD x38 x61 | s86 => DD x38 x62 | s87 => DD x38 x63 | s88 => DD x39 x0 | s89 => DD x39 x1 | s90 => DD x39 x2 | s91 => DD x39 x3 | s92 => DD x39 x4 | s93 => DD x39 x5 | s94 => DD x39 x6 | s95 => DD x39 x7 | s96 => DD x39 x8 | s97 => DD x39 x9 | s98 => DD x39 x10 | s99 => DD x39 x11 | s100 => DD x39 x12 | s101 => DD x39 x13 | s102 => DD x39 x14 | s103 => DD x39 x15 | s104 => DD x39 x16 | s105 => DD x39 x17 | s106 => DD x39 x18 | s107 => DD x39 x19 | s108 => DD x39 x20 | s109 => DD x39 x21 | s110 => DD x39 x22 | s111 => DD x39 x23 | s112 => DD x39 x24 | s113 => DD x39 x25 | s114 => DD x39 x26 | s115 => DD x39 x27 | s116 => DD x39 x28 | s117 => DD x39 x29 | s118 => DD x39 x30 | s119 => DD x39 x31 | s120 => DD x39 x32 | s121 => DD x39 x33 | s122 => DD x39 x34 | s123 => DD x39 x35 | s124 => DD x39 x36 | s125 => DD x39 x37 | s126 => DD x39 x38 end.
Definition m2418 (c : sum2) : dd := match c with s0 => DD x37 x50 | s1 => DD x37 x51 | s2 => DD x37 x52 | s3 => DD x37 x53 | s4 => DD x37 x54 | s5 => DD x37 x55 | s6 => DD x37 x56 | s7 => DD x37 x57 | s8 => DD x37 x58 | s9 => DD x37 x59 | s10 => DD x37 x60 | s11 => DD x37 x61 | s12 => DD x37 x62 | s13 => DD x37 x63 | s14 => DD x38 x0 | s15 => DD x38 x1 | s16 => DD x38 x2 | s17 => DD x38 x3 | s18 => DD x38 x4 | s19 => DD x38 x5 | s20 => DD x38 x6 | s21 => DD x38 x7 | s22 => DD x38 x8 | s23 => DD x38 x9 | s24 => DD x38 x10 | s25 => DD x38 x11 | s26 => DD x38 x12 | s27 => DD x38 x13 | s28 => DD x38 x14 | s29 => DD x38 x15 | s30 => DD x38 x16 | s31 => DD x38 x17 | s32 => DD x38 x18 | s33 => DD x38 x19 | s34 => DD x38 x20 | s35 => DD x38 x21 | s36 => DD x38 x22 | s37 => DD x38 x23 | s38 => DD x38 x24 | s39 => DD x38 x25 | s40 => DD x38 x26 | s41 => DD x38 x27 | s42 => DD x38 x28 | s43 => DD x38 x29 | s44 => DD x38 x30 | s45 => DD x38 x31 | s46 => DD x38 x32 | s47 => DD x38 x33 | s48 => DD x38 x34 | s49 => DD x38 x35 | s50 => DD x38 x36 | s51 => DD x38 x37 | s52 => DD x38 x38 | s53 => DD x38 x39 | s54 => DD x38 x40 | s55 => DD x38 x41 | s56 => DD x38 x42 | s57 => DD x38 x43 | s58 => DD x38 x44 | s59 => DD x38 x45 | s60 => DD x38 x46 | s61 => DD x38 x47 | s62 => DD x38 x48 | s63 => DD x38 x49 | s64 => DD x38 x50 | s65 => DD x38 x51 | s66 => DD x38 x52 | s67 => DD x38 x53 | s68 => DD x38 x54 | s69 => DD x38 x55 | s70 => DD x38 x56 | s71 => DD x38 x57 | s72 => DD x38 x58 | s73 => DD x38 x59 | s74 => DD x38 x60 | s75 => DD x38 x61 | s76 => DD x38 x62 | s77 => DD x38 x63 | s78 => DD x39 x0 | s79 => DD x39 x1 | s80 => DD x39 x2 | s81 => DD x39 x3 | s82 => DD x39 x4 | s83 => DD x39 x5 | s84 => DD x39 x6 | s85 => DD x39 x7 | s86 => DD x39 x8 | s87 => DD x39 x9 | s88 => DD x39 x10 | s89 => DD x39 x11 | s90 => DD x39 x12 | s91 => DD x39 x13 | s92 => DD x39 x14 | s93 => DD x39 x15 | s94 => DD x39 x16 | s95 => DD x39 x17 | s96 => DD x39 x18 | s97 => DD x39 x19 | s98 => DD x39 x20 | s99 => DD x39 x21 | s100 => DD x39 x22 | s101 => DD x39 x23 | s102 => DD x39 x24 | s103 => DD x39 x25 | s104 => DD x39 x26 | s105 => DD x39 x27 | s106 => DD x39 x28 | s107 => DD x39 x29 | s108 => DD x39 x30 | s109 => DD x39 x31 | s110 => DD x39 x32 | s111 => DD x39 x33 | s112 => DD x39 x34 | s113 => DD x39 x35 | s114 => DD x39 x36 | s115 => DD x39 x37 | s116 => DD x39 x38 | s117 => DD x39 x39 | s118 => DD x39 x40 | s119 => DD x39 x41 | s120 => DD x39 x42 | s121 => DD x39 x43 | s122 => DD x39 x44 | s123 => DD x39 x45 | s124 => DD x39 x46 | s125 => DD x39 x47 | s126 => DD x39 x48 end.
Definition m2419 (c : sum2) : dd := match c with s0 => DD x37 x51 | s1 => DD x37 x52 | s2 => DD x37 x53 | s3 => DD x37 x54 | s4 => DD x37 x55 | s5 => DD x37 x56 | s6 => DD x37 x57 | s7 => DD x37 x58 | s8 => DD x37 x59 | s9 => DD x37 x60 | s10 => DD x37 x61 | s11 => DD x37 x62 | s12 => DD x37 x63 | s13 => DD x38 x0 | s14 => DD x38 x1 | s15 => DD x38 x2 | s16 => DD x38 x3 | s17 => DD x38 x4 | s18 => DD x38 x5 | s19 => DD x38 x6 | s20 => DD x38 x7 | s21 => DD x38 x8 | s22 => DD x38 x9 | s23 => DD x38 x10 | s24 => DD x38 x11 | s25 => DD x38 x12 | s26 => DD x38 x13 | s27 => DD x38 x14 | s28 => DD x38 x15 | s29 => DD x38 x16 | s30 => DD x38 x17 | s31 => DD x38 x18 | s32 => DD x38 x19 | s33 => DD x38 x20 | s34 => DD x38 x21 | s35 => DD x38 x22 | s36 => DD x38 x23 | s37 => DD x38 x24 | s38 => DD x38 x25 | s39 => DD x38 x26 | s40 => DD x38 x27 | s41 => DD x38 x28 | s42 => DD x38 x29 | s43 => DD x38 x30 | s44 => DD x38 x31 | s45 => DD x38 x32 | s46 => DD x38 x33 | s47 => DD x38 x34 | s48 => DD x38 x35 | s49 => DD x38 x36 | s50 => DD x38 x37 | s51 => DD x38 x38 | s52 => DD x38 x39 | s53 => DD x38 x40 | s54 => DD x38 x41 | s55 => DD x38 x42 | s56 => DD x38 x43 | s57 => DD x38 x44 | s58 => DD x38 x45 | s59 => DD x38 x46 | s60 => DD x38 x47 | s61 => DD x38 x48 | s62 => DD x38 x49 | s63 => DD x38 x50 | s64 => DD x38 x51 | s65 => DD x38 x52 | s66 => DD x38 x53 | s67 => DD x38 x54 | s68 => DD x38 x55 | s69 => DD x38 x56 | s70 => DD x38 x57 | s71 => DD x38 x58 | s72 => DD x38 x59 | s73 => DD x38 x60 | s74 => DD x38 x61 | s75 => DD x38 x62 | s76 => DD x38 x63 | s77 => DD x39 x0 | s78 => DD x39 x1 | s79 => DD x39 x2 | s80 => DD x39 x3 | s81 => DD x39 x4 | s82 => DD x39 x5 | s83 => DD x39 x6 | s84 => DD x39 x7 | s85 => DD x39 x8 | s86 => DD x39 x9 | s87 => DD x39 x10 | s88 => DD x39 x11 | s89 => DD x39 x12 | s90 => DD x39 x13 | s91 => DD x39 x14 | s92 => DD x39 x15 | s93 => DD x39 x16 | s94 => DD x39 x17 | s95 => DD x39 x18 | s96 => DD x39 x19 | s97 => DD x39 x20 | s98 => DD x39 x21 | s99 => DD x39 x22 | s100 => DD x39 x23 | s101 => DD x39 x24 | s102 => DD x39 x25 | s103 => DD x39 x26 | s104 => DD x39 x27 | s105 => DD x39 x28 | s106 => DD x39 x29 | s107 => DD x39 x30 | s108 => DD x39 x31 | s109 => DD x39 x32 | s110 => DD x39 x33 | s111 => DD x39 x34 | s112 => DD x39 x35 | s113 => DD x39 x36 | s114 => DD x39 x37 | s115 => DD x39 x38 | s116 => DD x39 x39 | s117 => DD x39 x40 | s118 => DD x39 x41 | s119 => DD x39 x42 | s120 => DD x39 x43 | s121 => DD x39 x44 | s122 => DD x39 x45 | s123 => DD x39 x46 | s124 => DD x39 x47 | s125 => DD x39 x48 | s126 => DD x39 x49 end.
Definition m2420 (c : sum2) : dd := match c with s0 => DD x37 x52 | s1 => DD x37 x53 | s2 => DD x37 x54 | s3 => DD x37 x55 | s4 => DD x37 x56 | s5 => DD x37 x57 | s6 => DD x37 x58 | s7 => DD x37 x59 | s8 => DD x37 x60 | s9 => DD x37 x61 | s10 => DD x37 x62 | s11 => DD x37 x63 | s12 => DD x38 x0 | s13 => DD x38 x1 | s14 => DD x38 x2 | s15 => DD x38 x3 | s16 => DD x38 x4 | s17 => DD x38 x5 | s18 => DD x38 x6 | s19 => DD x38 x7 | s20 => DD x38 x8 | s21 => DD x38 x9 | s22 => DD x38 x10 | s23 => DD x38 x11 | s24 => DD x38 x12 | s25 => DD x38 x13 | s26 => DD x38 x14 | s27 => DD x38 x15 | s28 => DD x38 x16 | s29 => DD x38 x17 | s30 => DD x38 x18 | s31 => DD x38 x19 | s32 => DD x38 x20 | s33 => DD x38 x21 | s34 => DD x38 x22 | s35 => DD x38 x23 | s36 => DD x38 x24 | s37 => DD x38 x25 | s38 => DD x38 x26 | s39 => DD x38 x27 | s40 => DD x38 x28 | s41 => DD x38 x29 | s42 => DD x38 x30 | s43 => DD x38 x31 | s44 => DD x38 x32 | s45 => DD x38 x33 | s46 => DD x38 x34 | s47 => DD x38 x35 | s48 => DD x38 x36 | s49 => DD x38 x37 | s50 => DD x38 x38 | s51 => DD x38 x39 | s52 => DD x38 x40 | s53 => DD x38 x41 | s54 => DD x38 x42 | s55 => DD x38 x43 | s56 => DD x38 x44 | s57 => DD x38 x45 | s58 => DD x38 x46 | s59 => DD x38 x47 | s60 => DD x38 x48 | s61 => DD x38 x49 | s62 => DD x38 x50 | s63 => DD x38 x51 | s64 => DD x38 x52 | s65 => DD x38 x53 | s66 => DD x38 x54 | s67 => DD x38 x55 | s68 => DD x38 x56 | s69 => DD x38 x57 | s70 => DD x38 x58 | s71 => DD x38 x59 | s72 => DD x38 x60 | s73 => DD x38 x61 | s74 => DD x38 x62 | s75 => DD x38 x63 | s76 => DD x39 x0 | s77 => DD x39 x1 | s78 => DD x39 x2 | s79 => DD x39 x3 | s80 => DD x39 x4 | s81 => DD x39 x5 | s82 => DD x39 x6 | s83 => DD x39 x7 | s84 => DD x39 x8 | s85 => DD x39 x9 | s86 => DD x39 x10 | s87 => DD x39 x11 | s88 => DD x39 x12 | s89 => DD x39 x13 | s90 => DD x39 x14 | s91 => DD x39 x15 | s92 => DD x39 x16 | s93 => DD x39 x17 | s94 => DD x39 x18 | s95 => DD x39 x19 | s96 => DD x39 x20 | s97 => DD x39 x21 | s98 => DD x39 x22 | s99 => DD x39 x23 | s100 => DD x39 x24 | s101 => DD x39 x25 | s102 => DD x39 x26 | s103 => DD x39 x27 | s104 => DD x39 x28 | s105 => DD x39 x29 | s106 => DD x39 x30 | s107 => DD x39 x31 | s108 => DD x39 x32 | s109 => DD x39 x33 | s110 => DD x39 x34 | s111 => DD x39 x35 | s112 => DD x39 x36 | s113 => DD x39 x37 | s114 => DD x39 x38 | s115 => DD x39 x39 | s116 => DD x39 x40 | s117 => DD x39 x41 | s118 => DD x39 x42 | s119 => DD x39 x43 | s120 => DD x39 x44 | s121 => DD x39 x45 | s122 => DD x39 x46 | s123 => DD x39 x47 | s124 => DD x39 x48 | s125 => DD x39 x49 | s126 => DD x39 x50 end.
Definition m2430 (c : sum2) : dd := match c with s0 => DD x37 x62 | s1 => DD x37 x63 | s2 => DD x38 x0 | s3 => DD x38 x1 | s4 => DD x38 x2 | s5 => DD x38 x3 | s6 => DD x38 x4 | s7 => DD x38 x5 | s8 => DD x38 x6 | s9 => DD x38 x7 | s10 => DD x38 x8 | s11 => DD x38 x9 | s12 => DD x38 x10 | s13 => DD x38 x11 | s14 => DD x38 x12 | s15 => DD x38 x13 | s16 => DD x38 x14 | s17 => DD x38 x15 | s18 => DD x38 x16 | s19 => DD x38 x17 | s20 => DD x38 x18 | s21 => DD x38 x19 | s22 => DD x38 x20 | s23 => DD x38 x21 | s24 => DD x38 x22 | s25 => DD x38 x23 | s26 => DD x38 x24 | s27 => DD x38 x25 | s28 => DD x38 x26 | s29 => DD x38 x27 | s30 => DD x38 x28 | s31 => DD x38 x29 | s32 => DD x38 x30 | s33 => DD x38 x31 | s34 => DD x38 x32 | s35 => DD x38 x33 | s36 => DD x38 x34 | s37 => DD x38 x35 | s38 => DD x38 x36 | s39 => DD x38 x37 | s40 => DD x38 x38 | s41 => DD x38 x39 | s42 => DD x38 x40 | s43 => DD x38 x41 | s44 => DD x38 x42 | s45 => DD x38 x43 | s46 => DD x38 x44 | s47 => DD x38 x45 | s48 => DD x38 x46 | s49 => DD x38 x47 | s50 => DD x38 x48 | s51 => DD x38 x49 | s52 => DD x38 x50 | s53 => DD x38 x51 | s54 => DD x38 x52 | s55 => DD x38 x53 | s56 => DD x38 x54 | s57 => DD x38 x55 | s58 => DD x38 x56 | s59 => DD x38 x57 | s60 => DD x38 x58 | s61 => DD x38 x59 | s62 => DD x38 x60 | s63 => DD x38 x61 | s64 => DD x38 x62 | s65 => DD x38 x63 | s66 => DD x39 x0 | s67 => DD x39 x1 | s68 => DD x39 x2 | s69 => DD x39 x3 | s70 => DD x39 x4 | s71 => DD x39 x5 | s72 => DD x39 x6 | s73 => DD x39 x7 | s74 => DD x39 x8 | s75 => DD x39 x9 | s76 => DD x39 x10 | s77 => DD x39 x11 | s78 => DD x39 x12 | s79 => DD x39 x13 | s80 => DD x39 x14 | s81 => DD x39 x15 | s82 => DD x39 x16 | s83 => DD x39 x17 | s84 => DD x39 x18 | s85 => DD x39 x19 | s86 => DD x39 x20 | s87 => DD x39 x21 | s88 => DD x39 x22 | s89 => DD x39 x23 | s90 => DD x39 x24 | s91 => DD x39 x25 | s92 => DD x39 x26 | s93 => DD x39 x27 | s94 => DD x39 x28 | s95 => DD x39 x29 | s96 => DD x39 x30 | s97 => DD x39 x31 | s98 => DD x39 x32 | s99 => DD x39 x33 | s100 => DD x39 x34 | s101 => DD x39 x35 | s102 => DD x39 x36 | s103 => DD x39 x37 | s104 => DD x39 x38 | s105 => DD x39 x39 | s106 => DD x39 x40 | s107 => DD x39 x41 | s108 => DD x39 x42 | s109 => DD x39 x43 | s110 => DD x39 x44 | s111 => DD x39 x45 | s112 => DD x39 x46 | s113 => DD x39 x47 | s114 => DD x39 x48 | s115 => DD x39 x49 | s116 => DD x39 x50 | s117 => DD x39 x51 | s118 => DD x39 x52 | s119 => DD x39 x53 | s120 => DD x39 x54 | s121 => DD x39 x55 | s122 => DD x39 x56 | s123 => DD x39 x57 | s124 => DD x39 x58 | s125 => DD x39 x59 | s126 => DD x39 x60 end.
Definition m2436 (c : sum2) : dd := match c with s0 => DD x38 x4 | s1 => DD x38 x5 | s2 => DD x38 x6 | s3 => DD x38 x7 | s4 => DD x38 x8 | s5 => DD x38 x9 | s6 => DD x38 x10 | s7 => DD x38 x11 | s8 => DD x38 x12 | s9 => DD x38 x13 | s10 => DD x38 x14 | s11 => DD x38 x15 | s12 => DD x38 x16 | s13 => DD x38 x17 | s14 => DD x38 x18 | s15 => DD x38 x19 | s16 => DD x38 x20 | s17 => DD x38 x21 | s18 => DD x38 x22 | s19 => DD x38 x23 | s20 => DD x38 x24 | s21 => DD x38 x25 | s22 => DD x38 x26 | s23 => DD x38 x27 | s24 => DD x38 x28 | s25 => DD x38 x29 | s26 => DD x38 x30 | s27 => DD x38 x31 | s28 => DD x38 x32 | s29 => DD x38 x33 | s30 => DD x38 x34 | s31 => DD x38 x35 | s32 => DD x38 x36 | s33 => DD x38 x37 | s34 => DD x38 x38 | s35 => DD x38 x39 | s36 => DD x38 x40 | s37 => DD x38 x41 | s38 => DD x38 x42 | s39 => DD x38 x43 | s40 => DD x38 x44 | s41 => DD x38 x45 | s42 => DD x38 x46 | s43 => DD x38 x47 | s44 => DD x38 x48 | s45 => DD x38 x49 | s46 => DD x38 x50 | s47 => DD x38 x51 | s48 => DD x38 x52 | s49 => DD x38 x53 | s50 => DD x38 x54 | s51 => DD x38 x55 | s52 => DD x38 x56 | s53 => DD x38 x57 | s54 => DD x38 x58 | s55 => DD x38 x59 | s56 => DD x38 x60 | s57 => DD x38 x61 | s58 => DD x38 x62 | s59 => DD x38 x63 | s60 => DD x39 x0 | s61 => DD x39 x1 | s62 => DD x39 x2 | s63 => DD x39 x3 | s64 => DD x39 x4 | s65 => DD x39 x5 | s66 => DD x39 x6 | s67 => DD x39 x7 | s68 => DD x39 x8 | s69 => DD x39 x9 | s70 => DD x39 x10 | s71 => DD x39 x11 | s72 => DD x39 x12 | s73 => DD x39 x13 | s74 => DD x39 x14 | s75 => DD x39 x15 | s76 => DD x39 x16 | s77 => DD x39 x17 | s78 => DD x39 x18 | s79 => DD x39 x19 | s80 => DD x39 x20 | s81 => DD x39 x21 | s82 => DD x39 x22 | s83 => DD x39 x23 | s84 => DD x39 x24 | s85 => DD x39 x25 | s86 => DD x39 x26 | s87 => DD x39 x27 | s88 => DD x39 x28 | s89 => DD x39 x29 | s90 => DD x39 x30 | s91 => DD x39 x31 | s92 => DD x39 x32 | s93 => DD x39 x33 | s94 => DD x39 x34 | s95 => DD x39 x35 | s96 => DD x39 x36 | s97 => DD x39 x37 | s98 => DD x39 x38 | s99 => DD x39 x39 | s100 => DD x39 x40 | s101 => DD x39 x41 | s102 => DD x39 x42 | s103 => DD x39 x43 | s104 => DD x39 x44 | s105 => DD x39 x45 | s106 => DD x39 x46 | s107 => DD x39 x47 | s108 => DD x39 x48 | s109 => DD x39 x49 | s110 => DD x39 x50 | s111 => DD x39 x51 | s112 => DD x39 x52 | s113 => DD x39 x53 | s114 => DD x39 x54 | s115 => DD x39 x55 | s116 => DD x39 x56 | s117 => DD x39 x57 | s118 => DD x39 x58 | s119 => DD x39 x59 | s120 => DD x39 x60 | s121 => DD x39 x61 | s122 => DD x39 x62 | s123 => DD x39 x63 | s124 => DD x40 x0 | s125 => DD x40 x1 | s126 => DD x40 x2 end.
Definition m2438 (c : sum2) : dd := match c with s0 => DD x38 x6 | s1 => DD x38 x7 | s2 => DD x38 x8 | s3 => DD x38 x9 | s4 => DD x38 x10 | s5 => DD x38 x11 | s6 => DD x38 x12 | s7 => DD x38 x13 | s8 => DD x38 x14 | s9 => DD x38 x15 | s10 => DD x38 x16 | s11 => DD x38 x17 | s12 => DD x38 x18 | s13 => DD x38 x19 | s14 => DD x38 x20 | s15 => DD x38 x21 | s16 => DD x38 x22 | s17 => DD x38 x23 | s18 => DD x38 x24 | s19 => DD x38 x25 | s20 => DD x38 x26 | s21 => DD x38 x27 | s22 => DD x38 x28 | s23 => DD x38 x29 | s24 => DD x38 x30 | s25 => DD x38 x31 | s26 => DD x38 x32 | s27 => DD x38 x33 | s28 => DD x38 x34 | s29 => DD x38 x35 | s30 => DD x38 x36 | s31 => DD x38 x37 | s32 => DD x38 x38 | s33 => DD x38 x39 | s34 => DD x38 x40 | s35 => DD x38 x41 | s36 => DD x38 x42 | s37 => DD x38 x43 | s38 => DD x38 x44 | s39 => DD x38 x45 | s40 => DD x38 x46 | s41 => DD x38 x47 | s42 => DD x38 x48 | s43 => DD x38 x49 | s44 => DD x38 x50 | s45 => DD x38 x51 | s46 => DD x38 x52 | s47 => DD x38 x53 | s48 => DD x38 x54 | s49 => DD x38 x55 | s50 => DD x38 x56 | s51 => DD x38 x57 | s52 => DD x38 x58 | s53 => DD x38 x59 | s54 => DD x38 x60 | s55 => DD x38 x61 | s56 => DD x38 x62 | s57 => DD x38 x63 | s58 => DD x39 x0 | s59 => DD x39 x1 | s60 => DD x39 x2 | s61 => DD x39 x3 | s62 => DD x39 x4 | s63 => DD x39 x5 | s64 => DD x39 x6 | s65 => DD x39 x7 | s66 => DD x39 x8 | s67 => DD x39 x9 | s68 => DD x39 x10 | s69 => DD x39 x11 | s70 => DD x39 x12 | s71 => DD x39 x13 | s72 => DD x39 x14 | s73 => DD x39 x15 | s74 => DD x39 x16 | s75 => DD x39 x17 | s76 => DD x39 x18 | s77 => DD x39 x19 | s78 => DD x39 x20 | s79 => DD x39 x21 | s80 => DD x39 x22 | s81 => DD x39 x23 | s82 => DD x39 x24 | s83 => DD x39 x25 | s84 => DD x39 x26 | s85 => DD x39 x27 | s86 => DD x39 x28 | s87 => DD x39 x29 | s88 => DD x39 x30 | s89 => DD x39 x31 | s90 => DD x39 x32 | s91 => DD x39 x33 | s92 => DD x39 x34 | s93 => DD x39 x35 | s94 => DD x39 x36 | s95 => DD x39 x37 | s96 => DD x39 x38 | s97 => DD x39 x39 | s98 => DD x39 x40 | s99 => DD x39 x41 | s100 => DD x39 x42 | s101 => DD x39 x43 | s102 => DD x39 x44 | s103 => DD x39 x45 | s104 => DD x39 x46 | s105 => DD x39 x47 | s106 => DD x39 x48 | s107 => DD x39 x49 | s108 => DD x39 x50 | s109 => DD x39 x51 | s110 => DD x39 x52 | s111 => DD x39 x53 | s112 => DD x39 x54 | s113 => DD x39 x55 | s114 => DD x39 x56 | s115 => DD x39 x57 | s116 => DD x39 x58 | s117 => DD x39 x59 | s118 => DD x39 x60 | s119 => DD x39 x61 | s120 => DD x39 x62 | s121 => DD x39 x63 | s122 => DD x40 x0 | s123 => DD x40 x1 | s124 => DD x40 x2 | s125 => DD x40 x3 | s126 => DD x40 x4 end.
Definition m2440 (c : sum2) : dd := match c with s0 => DD x38 x8 | s1 => DD x38 x9 | s2 => DD x38 x10 | s3 => DD x38 x11 | s4 => DD x38 x12 | s5 => DD x38 x13 | s6 => DD x38 x14 | s7 => DD x38 x15 | s8 => DD x38 x16 | s9 => DD x38 x17 | s10 => DD x38 x18 | s11 => DD x38 x19 | s12 => DD x38 x20 | s13 => DD x38 x21 | s14 => DD x38 x22 | s15 => DD x38 x23 | s16 => DD x38 x24 | s17 => DD x38 x25 | s18 => DD x38 x26 | s19 => DD x38 x27 | s20 => DD x38 x28 | s21 => DD x38 x29 | s22 => DD x38 x30 | s23 => DD x38 x31 | s24 => DD x38 x32 | s25 => DD x38 x33 | s26 => DD x38 x34 | s27 => DD x38 x35 | s28 => DD x38 x36 | s29 => DD x38 x37 | s30 => DD x38 x38 | s31 => DD x38 x39 | s32 => DD x38 x40 | s33 => DD x38 x41 | s34 => DD x38 x42 | s35 => DD x38 x43 | s36 => DD x38 x44 | s37 => DD x38 x45 | s38 => DD x38 x46 | s39 => DD x38 x47 | s40 => DD x38 x48 | s41 => DD x38 x49 | s42 => DD x38 x50 | s43 => DD x38 x51 | s44 => DD x38 x52 | s45 => DD x38 x53 | s46 => DD x38 x54 | s47 => DD x38 x55 | s48 => DD x38 x56 | s49 => DD x38 x57 | s50 => DD x38 x58 | s51 => DD x38 x59 | s52 => DD x38 x60 | s53 => DD x38 x61 | s54 => DD x38 x62 | s55 => DD x38 x63 | s56 => DD x39 x0 | s57 => DD x39 x1 | s58 => DD x39 x2 | s59 => DD x39 x3 | s60 => DD x39 x4 | s61 => DD x39 x5 | s62 => DD x39 x6 | s63 => DD x39 x7 | s64 => DD x39 x8 | s65 => DD x39 x9 | s66 => DD x39 x10 | s67 => DD x39 x11 | s68 => DD x39 x12 | s69 => DD x39 x13 | s70 => DD x39 x14 | s71 => DD x39 x15 | s72 => DD x39 x16 | s73 => DD x39 x17 | s74 => DD x39 x18 | s75 => DD x39 x19 | s76 => DD x39 x20 | s77 => DD x39 x21 | s78 => DD x39 x22 | s79 => DD x39 x23 | s80 => DD x39 x24 | s81 => DD x39 x25 | s82 => DD x39 x26 | s83 => DD x39 x27 | s84 => DD x39 x28 | s85 => DD x39 x29 | s86 => DD x39 x30 | s87 => DD x39 x31 | s88 => DD x39 x32 | s89 => DD x39 x33 | s90 => DD x39 x34 | s91 => DD x39 x35 | s92 => DD x39 x36 | s93 => DD x39 x37 | s94 => DD x39 x38 | s95 => DD x39 x39 | s96 => DD x39 x40 | s97 => DD x39 x41 | s98 => DD x39 x42 | s99 => DD x39 x43 | s100 => DD x39 x44 | s101 => DD x39 x45 | s102 => DD x39 x46 | s103 => DD x39 x47 | s104 => DD x39 x48 | s105 => DD x39 x49 | s106 => DD x39 x50 | s107 => DD x39 x51 | s108 => DD x39 x52 | s109 => DD x39 x53 | s110 => DD x39 x54 | s111 => DD x39 x55 | s112 => DD x39 x56 | s113 => DD x39 x57 | s114 => DD x39 x58 | s115 => DD x39 x59 | s116 => DD x39 x60 | s117 => DD x39 x61 | s118 => DD x39 x62 | s119 => DD x39 x63 | s120 => DD x40 x0 | s121 => DD x40 x1 | s122 => DD x40 x2 | s123 => DD x40 x3 | s124 => DD x40 x4 | s125 => DD x40 x5 | s126 => DD x40 x6 end.
Definition m2444 (c : sum2) : dd := match c with s0 => DD x38 x12 | s1 => DD x38 x13 | s2 => DD x38 x14 | s3 => DD x38 x15 | s4 => DD x38 x16 | s5 => DD x38 x17 | s6 => DD x38 x18 | s7 => DD x38 x19 | s8 => DD x38 x20 | s9 => DD x38 x21 | s10 => DD x38 x22 | s11 => DD x38 x23 | s12 => DD x38 x24 | s13 => DD x38 x25 | s14 => DD x38 x26 | s15 => DD x38 x27 | s16 => DD x38 x28 | s17 => DD x38 x29 | s18 => DD x38 x30 | s19 => DD x38 x31 | s20 => DD x38 x32 | s21 => DD x38 x33 | s22 => DD x38 x34 | s23 => DD x38 x35 | s24 => DD x38 x36 | s25 => DD x38 x37 | s26 => DD x38 x38 | s27 => DD x38 x39 | s28 => DD x38 x40 | s29 => DD x38 x41 | s30 => DD x38 x42 | s31 => DD x38 x43 | s32 => DD x38 x44 | s33 => DD x38 x45 | s34 => DD x38 x46 | s35 => DD x38 x47 | s36 => DD x38 x48 | s37 => DD x38 x49 | s38 => DD x38 x50 | s39 => DD x38 x51 | s40 => DD x38 x52 | s41 => DD x38 x53 | s42 => DD x38 x54 | s43 => DD x38 x55 | s44 => DD x38 x56 | s45 => DD x38 x57 | s46 => DD x38 x58 | s47 => DD x38 x59 | s48 => DD x38 x60 | s49 => DD x38 x61 | s50 => DD x38 x62 | s51 => DD x38 x63 | s52 => DD x39 x0 | s53 => DD x39 x1 | s54 => DD x39 x2 | s55 => DD x39 x3 | s56 => DD x39 x4 | s57 => DD x39 x5 | s58 => DD x39 x6 | s59 => DD x39 x7 | s60 => DD x39 x8 | s61 => DD x39 x9 | s62 => DD x39 x10 | s63 => DD x39 x11 | s64 => DD x39 x12 | s65 => DD x39 x13 | s66 => DD x39 x14 | s67 => DD x39 x15 | s68 => DD x39 x16 | s69 => DD x39 x17 | s70 => DD x39 x18 | s71 => DD x39 x19 | s72 => DD x39 x20 | s73 => DD x39 x21 | s74 => DD x39 x22 | s75 => DD x39 x23 | s76 => DD x39 x24 | s77 => DD x39 x25 | s78 => DD x39 x26 | s79 => DD x39 x27 | s80 => DD x39 x28 | s81 => DD x39 x29 | s82 => DD x39 x30 | s83 => DD x39 x31 | s84 => DD x39 x32 | s85 => DD x39 x33 | s86 => DD x39 x34 | s87 => DD x39 x35 | s88 => DD x39 x36 | s89 => DD x39 x37 | s90 => DD x39 x38 | s91 => DD x39 x39 | s92 => DD x39 x40 | s93 => DD x39 x41 | s94 => DD x39 x42 | s95 => DD x39 x43 | s96 => DD x39 x44 | s97 => DD x39 x45 | s98 => DD x39 x46 | s99 => DD x39 x47 | s100 => DD x39 x48 | s101 => DD x39 x49 | s102 => DD x39 x50 | s103 => DD x39 x51 | s104 => DD x39 x52 | s105 => DD x39 x53 | s106 => DD x39 x54 | s107 => DD x39 x55 | s108 => DD x39 x56 | s109 => DD x39 x57 | s110 => DD x39 x58 | s111 => DD x39 x59 | s112 => DD x39 x60 | s113 => DD x39 x61 | s114 => DD x39 x62 | s115 => DD x39 x63 | s116 => DD x40 x0 | s117 => DD x40 x1 | s118 => DD x40 x2 | s119 => DD x40 x3 | s120 => DD x40 x4 | s121 => DD x40 x5 | s122 => DD x40 x6 | s123 => DD x40 x7 | s124 => DD x40 x8 | s125 => DD x40 x9 | s126 => DD x40 x10 end.
Definition m2448 (c : sum2) : dd := match c with s0 => DD x38 x16 | s1 => DD x38 x17 | s2 => DD x38 x18 | s3 => DD x38 x19 | s4 => DD x38 x20 | s5 => DD x38 x21 | s6 => DD x38 x22 | s7 => DD x38 x23 | s8 => DD x38 x24 | s9 => DD x38 x25 | s10 => DD x38 x26 | s11 => DD x38 x27 | s12 => DD x38 x28 | s13 => DD x38 x29 | s14 => DD x38 x30 | s15 => DD x38 x31 | s16 => DD x38 x32 | s17 => DD x38 x33 | s18 => DD x38 x34 | s19 => DD x38 x35 | s20 => DD x38 x36 | s21 => DD x38 x37 | s22 => DD x38 x38 | s23 => DD x38 x39 | s24 => DD x38 x40 | s25 => DD x38 x41 | s26 => DD x38 x42 | s27 => DD x38 x43 | s28 => DD x38 x44 | s29 => DD x38 x45 | s30 => DD x38 x46 | s31 => DD x38 x47 | s32 => DD x38 x48 | s33 => DD x38 x49 | s34 => DD x38 x50 | s35 => DD x38 x51 | s36 => DD x38 x52 | s37 => DD x38 x53 | s38 => DD x38 x54 | s39 => DD x38 x55 | s40 => DD x38 x56 | s41 => DD x38 x57 | s42 => DD x38 x58 | s43 => DD x38 x59 | s44 => DD x38 x60 | s45 => DD x38 x61 | s46 => DD x38 x62 | s47 => DD x38 x63 | s48 => DD x39 x0 | s49 => DD x39 x1 | s50 => DD x39 x2 | s51 => DD x39 x3 | s52 => DD x39 x4 | s53 => DD x39 x5 | s54 => DD x39 x6 | s55 => DD x39 x7 | s56 => DD x39 x8 | s57 => DD x39 x9 | s58 => DD x39 x10 | s59 => DD x39 x11 | s60 => DD x39 x12 | s61 => DD x39 x13 | s62 => DD x39 x14 | s63 => DD x39 x15 | s64 => DD x39 x16 | s65 => DD x39 x17 | s66 => DD x39 x18 | s67 => DD x39 x19 | s68 => DD x39 x20 | s69 => DD x39 x21 | s70 => DD x39 x22 | s71 => DD x39 x23 | s72 => DD x39 x24 | s73 => DD x39 x25 | s74 => DD x39 x26 | s75 => DD x39 x27 | s76 => DD x39 x28 | s77 => DD x39 x29 | s78 => DD x39 x30 | s79 => DD x39 x31 | s80 => DD x39 x32 | s81 => DD x39 x33 | s82 => DD x39 x34 | s83 => DD x39 x35 | s84 => DD x39 x36 | s85 => DD x39 x37 | s86 => DD x39 x38 | s87 => DD x39 x39 | s88 => DD x39 x40 | s89 => DD x39 x41 | s90 => DD x39 x42 | s91 => DD x39 x43 | s92 => DD x39 x44 | s93 => DD x39 x45 | s94 => DD x39 x46 | s95 => DD x39 x47 | s96 => DD x39 x48 | s97 => DD x39 x49 | s98 => DD x39 x50 | s99 => DD x39 x51 | s100 => DD x39 x52 | s101 => DD x39 x53 | s102 => DD x39 x54 | s103 => DD x39 x55 | s104 => DD x39 x56 | s105 => DD x39 x57 | s106 => DD x39 x58 | s107 => DD x39 x59 | s108 => DD x39 x60 | s109 => DD x39 x61 | s110 => DD x39 x62 | s111 => DD x39 x63 | s112 => DD x40 x0 | s113 => DD x40 x1 | s114 => DD x40 x2 | s115 => DD x40 x3 | s116 => DD x40 x4 | s117 => DD x40 x5 | s118 => DD x40 x6 | s119 => DD x40 x7 | s120 => DD x40 x8 | s121 => DD x40 x9 | s122 => DD x40 x10 | s123 => DD x40 x11 | s124 => DD x40 x12 | s125 => DD x40 x13 | s126 => DD x40 x14 end.
Definition m2450 (c : sum2) : dd := match c with s0 => DD x38 x18 | s1 => DD x38 x19 | s2 => DD x38 x20 | s3 => DD x38 x21 | s4 => DD x38 x22 | s5 => DD x38 x23 | s6 => DD x38 x24 | s7 => DD x38 x25 | s8 => DD x38 x26 | s9 => DD x38 x27 | s10 => DD x38 x28 | s11 => DD x38 x29 | s12 => DD x38 x30 | s13 => DD x38 x31 | s14 => DD x38 x32 | s15 => DD x38 x33 | s16 => DD x38 x34 | s17 => DD x38 x35 | s18 => DD x38 x36 | s19 => DD x38 x37 | s20 => DD x38 x38 | s21 => DD x38 x39 | s22 => DD x38 x40 | s23 => DD x38 x41 | s24 => DD x38 x42 | s25 => DD x38 x43 | s26 => DD x38 x44 | s27 => DD x38 x45 | s28 => DD x38 x46 | s29 => DD x38 x47 | s30 => DD x38 x48 | s31 => DD x38 x49 | s32 => DD x38 x50 | s33 => DD x38 x51 | s34 => DD x38 x52 | s35 => DD x38 x53 | s36 => DD x38 x54 | s37 => DD x38 x55 | s38 => DD x38 x56 | s39 => DD x38 x57 | s40 => DD x38 x58 | s41 => DD x38 x59 | s42 => DD x38 x60 | s43 => DD x38 x61 | s44 => DD x38 x62 | s45 => DD x38 x63 | s46 => DD x39 x0 | s47 => DD x39 x1 | s48 => DD x39 x2 | s49 => DD x39 x3 | s50 => DD x39 x4 | s51 => DD x39 x5 | s52 => DD x39 x6 | s53 => DD x39 x7 | s54 => DD x39 x8 | s55 => DD x39 x9 | s56 => DD x39 x10 | s57 => DD x39 x11 | s58 => DD x39 x12 | s59 => DD x39 x13 | s60 => DD x39 x14 | s61 => DD x39 x15 | s62 => DD x39 x16 | s63 => DD x39 x17 | s64 => DD x39 x18 | s65 => DD x39 x19 | s66 => DD x39 x20 | s67 => DD x39 x21 | s68 => DD x39 x22 | s69 => DD x39 x23 | s70 => DD x39 x24 | s71 => DD x39 x25 | s72 => DD x39 x26 | s73 => DD x39 x27 | s74 => DD x39 x28 | s75 => DD x39 x29 | s76 => DD x39 x30 | s77 => DD x39 x31 | s78 => DD x39 x32 | s79 => DD x39 x33 | s80 => DD x39 x34 | s81 => DD x39 x35 | s82 => DD x39 x36 | s83 => DD x39 x37 | s84 => DD x39 x38 | s85 => DD x39 x39 | s86 => DD x39 x40 | s87 => DD x39 x41 | s88 => DD x39 x42 | s89 => DD x39 x43 | s90 => DD x39 x44 | s91 => DD x39 x45 | s92 => DD x39 x46 | s93 => DD x39 x47 | s94 => DD x39 x48 | s95 => DD x39 x49 | s96 => DD x39 x50 | s97 => DD x39 x51 | s98 => DD x39 x52 | s99 => DD x39 x53 | s100 => DD x39 x54 | s101 => DD x39 x55 | s102 => DD x39 x56 | s103 => DD x39 x57 | s104 => DD x39 x58 | s105 => DD x39 x59 | s106 => DD x39 x60 | s107 => DD x39 x61 | s108 => DD x39 x62 | s109 => DD x39 x63 | s110 => DD x40 x0 | s111 => DD x40 x1 | s112 => DD x40 x2 | s113 => DD x40 x3 | s114 => DD x40 x4 | s115 => DD x40 x5 | s116 => DD x40 x6 | s117 => DD x40 x7 | s118 => DD x40 x8 | s119 => DD x40 x9 | s120 => DD x40 x10 | s121 => DD x40 x11 | s122 => DD x40 x12 | s123 => DD x40 x13 | s124 => DD x40 x14 | s125 => DD x40 x15 | s126 => DD x40 x16 end.
Definition m2451 (c : sum2) : dd := match c with s0 => DD x38 x19 | s1 => DD x38 x20 | s2 => DD x38 x21 | s3 => DD x38 x22 | s4 => DD x38 x23 | s5 => DD x38 x24 | s6 => DD x38 x25 | s7 => DD x38 x26 | s8 => DD x38 x27 | s9 => DD x38 x28 | s10 => DD x38 x29 | s11 => DD x38 x30 | s12 => DD x38 x31 | s13 => DD x38 x32 | s14 => DD x38 x33 | s15 => DD x38 x34 | s16 => DD x38 x35 | s17 => DD x38 x36 | s18 => DD x38 x37 | s19 => DD x38 x38 | s20 => DD x38 x39 | s21 => DD x38 x40 | s22 => DD x38 x41 | s23 => DD x38 x42 | s24 => DD x38 x43 | s25 => DD x38 x44 | s26 => DD x38 x45 | s27 => DD x38 x46 | s28 => DD x38 x47 | s29 => DD x38 x48 | s30 => DD x38 x49 | s31 => DD x38 x50 | s32 => DD x38 x51 | s33 => DD x38 x52 | s34 => DD x38 x53 | s35 => DD x38 x54 | s36 => DD x38 x55 | s37 => DD x38 x56 | s38 => DD x38 x57 | s39 => DD x38 x58 | s40 => DD x38 x59 | s41 => DD x38 x60 | s42 => DD x38 x61 | s43 => DD x38 x62 | s44 => DD x38 x63 | s45 => DD x39 x0 | s46 => DD x39 x1 | s47 => DD x39 x2 | s48 => DD x39 x3 | s49 => DD x39 x4 | s50 => DD x39 x5 | s51 => DD x39 x6 | s52 => DD x39 x7 | s53 => DD x39 x8 | s54 => DD x39 x9 | s55 => DD x39 x10 | s56 => DD x39 x11 | s57 => DD x39 x12 | s58 => DD x39 x13 | s59 => DD x39 x14 | s60 => DD x39 x15 | s61 => DD x39 x16 | s62 => DD x39 x17 | s63 => DD x39 x18 | s64 => DD x39 x19 | s65 => DD x39 x20 | s66 => DD x39 x21 | s67 => DD x39 x22 | s68 => DD x39 x23 | s69 => DD x39 x24 | s70 => DD x39 x25 | s71 => DD x39 x26 | s72 => DD x39 x27 | s73 => DD x39 x28 | s74 => DD x39 x29 | s75 => DD x39 x30 | s76 => DD x39 x31 | s77 => DD x39 x32 | s78 => DD x39 x33 | s79 => DD x39 x34 | s80 => DD x39 x35 | s81 => DD x39 x36 | s82 => DD x39 x37 | s83 => DD x39 x38 | s84 => DD x39 x39 | s85 => DD x39 x40 | s86 => DD x39 x41 | s87 => DD x39 x42 | s88 => DD x39 x43 | s89 => DD x39 x44 | s90 => DD x39 x45 | s91 => DD x39 x46 | s92 => DD x39 x47 | s93 => DD x39 x48 | s94 => DD x39 x49 | s95 => DD x39 x50 | s96 => DD x39 x51 | s97 => DD x39 x52 | s98 => DD x39 x53 | s99 => DD x39 x54 | s100 => DD x39 x55 | s101 => DD x39 x56 | s102 => DD x39 x57 | s103 => DD x39 x58 | s104 => DD x39 x59 | s105 => DD x39 x60 | s106 => DD x39 x61 | s107 => DD x39 x62 | s108 => DD x39 x63 | s109 => DD x40 x0 | s110 => DD x40 x1 | s111 => DD x40 x2 | s112 => DD x40 x3 | s113 => DD x40 x4 | s114 => DD x40 x5 | s115 => DD x40 x6 | s116 => DD x40 x7 | s117 => DD x40 x8 | s118 => DD x40 x9 | s119 => DD x40 x10 | s120 => DD x40 x11 | s121 => DD x40 x12 | s122 => DD x40 x13 | s123 => DD x40 x14 | s124 => DD x40 x15 | s125 => DD x40 x16 | s126 => DD x40 x17 end.
Definition m2457 (c : sum2) : dd := match c with s0 => DD x38 x25 | s1 => DD x38 x26 | s2 => DD x38 x27 | s3 => DD x38 x28 | s4 => DD x38 x29 | s5 => DD x38 x30 | s6 => DD x38 x31 | s7 => DD x38 x32 | s8 => DD x38 x33 | s9 => DD x38 x34 | s10 => DD x38 x35 | s11 => DD x38 x36 | s12 => DD x38 x37 | s13 => DD x38 x38 | s14 => DD x38 x39 | s15 => DD x38 x40 | s16 => DD x38 x41 | s17 => DD x38 x42 | s18 => DD x38 x43 | s19 => DD x38 x44 | s20 => DD x38 x45 | s21 => DD x38 x46 | s22 => DD x38 x47 | s23 => DD x38 x48 | s24 => DD x38 x49 | s25 => DD x38 x50 | s26 => DD x38 x51 | s27 => DD x38 x52 | s28 => DD x38 x53 | s29 => DD x38 x54 | s30 => DD x38 x55 | s31 => DD x38 x56 | s32 => DD x38 x57 | s33 => DD x38 x58 | s34 => DD x38 x59 | s35 => DD x38 x60 | s36 => DD x38 x61 | s37 => DD x38 x62 | s38 => DD x38 x63 | s39 => DD x39 x0 | s40 => DD x39 x1 | s41 => DD x39 x2 | s42 => DD x39 x3 | s43 => DD x39 x4 | s44 => DD x39 x5 | s45 => DD x39 x6 | s46 => DD x39 x7 | s47 => DD x39 x8 | s48 => DD x39 x9 | s49 => DD x39 x10 | s50 => DD x39 x11 | s51 => DD x39 x12 | s52 => DD x39 x13 | s53 => DD x39 x14 | s54 => DD x39 x15 | s55 => DD x39 x16 | s56 => DD x39 x17 | s57 => DD x39 x18 | s58 => DD x39 x19 | s59 => DD x39 x20 | s60 => DD x39 x21 | s61 => DD x39 x22 | s62 => DD x39 x23 | s63 => DD x39 x24 | s64 => DD x39 x25 | s65 => DD x39 x26 | s66 => DD x39 x27 | s67 => DD x39 x28 | s68 => DD x39 x29 | s69 => DD x39 x30 | s70 => DD x39 x31 | s71 => DD x39 x32 | s72 => DD x39 x33 | s73 => DD x39 x34 | s74 => DD x39 x35 | s75 => DD x39 x36 | s76 => DD x39 x37 | s77 => DD x39 x38 | s78 => DD x39 x39 | s79 => DD x39 x40 | s80 => DD x39 x41 | s81 => DD x39 x42 | s82 => DD x39 x43 | s83 => DD x39 x44 | s84 => DD x39 x45 | s85 => DD x39 x46 | s86 => DD x39 x47 | s87 => DD x39 x48 | s88 => DD x39 x49 | s89 => DD x39 x50 | s90 => DD x39 x51 | s91 => DD x39 x52 | s92 => DD x39 x53 | s93 => DD x39 x54 | s94 => DD x39 x55 | s95 => DD x39 x56 | s96 => DD x39 x57 | s97 => DD x39 x58 | s98 => DD x39 x59 | s99 => DD x39 x60 | s100 => DD x39 x61 | s101 => DD x39 x62 | s102 => DD x39 x63 | s103 => DD x40 x0 | s104 => DD x40 x1 | s105 => DD x40 x2 | s106 => DD x40 x3 | s107 => DD x40 x4 | s108 => DD x40 x5 | s109 => DD x40 x6 | s110 => DD x40 x7 | s111 => DD x40 x8 | s112 => DD x40 x9 | s113 => DD x40 x10 | s114 => DD x40 x11 | s115 => DD x40 x12 | s116 => DD x40 x13 | s117 => DD x40 x14 | s118 => DD x40 x15 | s119 => DD x40 x16 | s120 => DD x40 x17 | s121 => DD x40 x18 | s122 => DD x40 x19 | s123 => DD x40 x20 | s124 => DD x40 x21 | s125 => DD x40 x22 | s126 => DD x40 x23 end.
Definition m2460 (c : sum2) : dd := match c with s0 => DD x38 x28 | s1 => DD x38 x29 | s2 => DD x38 x30 | s3 => DD x38 x31 | s4 => DD x38 x32 | s5 => DD x38 x33 | s6 => DD x38 x34 | s7 => DD x38 x35 | s8 => DD x38 x36 | s9 => DD x38 x37 | s10 => DD x38 x38 | s11 => DD x38 x39 | s12 => DD x38 x40 | s13 => DD x38 x41 | s14 => DD x38 x42 | s15 => DD x38 x43 | s16 => DD x38 x44 | s17 => DD x38 x45 | s18 => DD x38 x46 | s19 => DD x38 x47 | s20 => DD x38 x48 | s21 => DD x38 x49 | s22 => DD x38 x50 | s23 => DD x38 x51 | s24 => DD x38 x52 | s25 => DD x38 x53 | s26 => DD x38 x54 | s27 => DD x38 x55 | s28 => DD x38 x56 | s29 => DD x38 x57 | s30 => DD x38 x58 | s31 => DD x38 x59 | s32 => DD x38 x60 | s33 => DD x38 x61 | s34 => DD x38 x62 | s35 => DD x38 x63 | s36 => DD x39 x0 | s37 => DD x39 x1 | s38 => DD x39 x2 | s39 => DD x39 x3 | s40 => DD x39 x4 | s41 => DD x39 x5 | s42 => DD x39 x6 | s43 => DD x39 x7 | s44 => DD x39 x8 | s45 => DD x39 x9 | s46 => DD x39 x10 | s47 => DD x39 x11 | s48 => DD x39 x12 | s49 => DD x39 x13 | s50 => DD x39 x14 | s51 => DD x39 x15 | s52 => DD x39 x16 | s53 => DD x39 x17 | s54 => DD x39 x18 | s55 => DD x39 x19 | s56 => DD x39 x20 | s57 => DD x39 x21 | s58 => DD x39 x22 | s59 => DD x39 x23 | s60 => DD x39 x24 | s61 => DD x39 x25 | s62 => DD x39 x26 | s63 => DD x39 x27 | s64 => DD x39 x28 | s65 => DD x39 x29 | s66 => DD x39 x30 | s67 => DD x39 x31 | s68 => DD x39 x32 | s69 => DD x39 x33 | s70 => DD x39 x34 | s71 => DD x39 x35 | s72 => DD x39 x36 | s73 => DD x39 x37 | s74 => DD x39 x38 | s75 => DD x39 x39 | s76 => DD x39 x40 | s77 => DD x39 x41 | s78 => DD x39 x42 | s79 => DD x39 x43 | s80 => DD x39 x44 | s81 => DD x39 x45 | s82 => DD x39 x46 | s83 => DD x39 x47 | s84 => DD x39 x48 | s85 => DD x39 x49 | s86 => DD x39 x50 | s87 => DD x39 x51 | s88 => DD x39 x52 | s89 => DD x39 x53 | s90 => DD x39 x54 | s91 => DD x39 x55 | s92 => DD x39 x56 | s93 => DD x39 x57 | s94 => DD x39 x58 | s95 => DD x39 x59 | s96 => DD x39 x60 | s97 => DD x39 x61 | s98 => DD x39 x62 | s99 => DD x39 x63 | s100 => DD x40 x0 | s101 => DD x40 x1 | s102 => DD x40 x2 | s103 => DD x40 x3 | s104 => DD x40 x4 | s105 => DD x40 x5 | s106 => DD x40 x6 | s107 => DD x40 x7 | s108 => DD x40 x8 | s109 => DD x40 x9 | s110 => DD x40 x10 | s111 => DD x40 x11 | s112 => DD x40 x12 | s113 => DD x40 x13 | s114 => DD x40 x14 | s115 => DD x40 x15 | s116 => DD x40 x16 | s117 => DD x40 x17 | s118 => DD x40 x18 | s119 => DD x40 x19 | s120 => DD x40 x20 | s121 => DD x40 x21 | s122 => DD x40 x22 | s123 => DD x40 x23 | s124 => DD x40 x24 | s125 => DD x40 x25 | s126 => DD x40 x26 end.
Definition m2464 (c : sum2) : dd := match c with s0 => DD x38 x32 | s1 => DD x38 x33 | s2 => DD x38 x34 | s3 => DD x38 x35 | s4 => DD x38 x36 | s5 => DD x38 x37 | s6 => DD x38 x38 | s7 => DD x38 x39 | s8 => DD x38 x40 | s9 => DD x38 x41 | s10 => DD x38 x42 | s11 => DD x38 x43 | s12 => DD x38 x44 | s13 => DD x38 x45 | s14 => DD x38 x46 | s15 => DD x38 x47 | s16 => DD x38 x48 | s17 => DD x38 x49 | s18 => DD x38 x50 | s19 => DD x38 x51 | s20 => DD x38 x52 | s21 => DD x38 x53 | s22 => DD x38 x54 | s23 => DD x38 x55 | s24 => DD x38 x56 | s25 => DD x38 x57 | s26 => DD x38 x58 | s27 => DD x38 x59 | s28 => DD x38 x60 | s29 => DD x38 x61 | s30 => DD x38 x62 | s31 => DD x38 x63 | s32 => DD x39 x0 | s33 => DD x39 x1 | s34 => DD x39 x2 | s35 => DD x39 x3 | s36 => DD x39 x4 | s37 => DD x39 x5 | s38 => DD x39 x6 | s39 => DD x39 x7 | s40 => DD x39 x8 | s41 => DD x39 x9 | s42 => DD x39 x10 | s43 => DD x39 x11 | s44 => DD x39 x12 | s45 => DD x39 x13 | s46 => DD x39 x14 | s47 => DD x39 x15 | s48 => DD x39 x16 | s49 => DD x39 x17 | s50 => DD x39 x18 | s51 => DD x39 x19 | s52 => DD x39 x20 | s53 => DD x39 x21 | s54 => DD x39 x22 | s55 => DD x39 x23 | s56 => DD x39 x24 | s57 => DD x39 x25 | s58 => DD x39 x26 | s59 => DD x39 x27 | s60 => DD x39 x28 | s61 => DD x39 x29 | s62 => DD x39 x30 | s63 => DD x39 x31 | s64 => DD x39 x32 | s65 => DD x39 x33 | s66 => DD x39 x34 | s67 => DD x39 x35 | s68 => DD x39 x36 | s69 => DD x39 x37 | s70 => DD x39 x38 | s71 => DD x39 x39 | s72 => DD x39 x40 | s73 => DD x39 x41 | s74 => DD x39 x42 | s75 => DD x39 x43 | s76 => DD x39 x44 | s77 => DD x39 x45 | s78 => DD x39 x46 | s79 => DD x39 x47 | s80 => DD x39 x48 | s81 => DD x39 x49 | s82 => DD x39 x50 | s83 => DD x39 x51 | s84 => DD x39 x52 | s85 => DD x39 x53 | s86 => DD x39 x54 | s87 => DD x39 x55 | s88 => DD x39 x56 | s89 => DD x39 x57 | s90 => DD x39 x58 | s91 => DD x39 x59 | s92 => DD x39 x60 | s93 => DD x39 x61 | s94 => DD x39 x62 | s95 => DD x39 x63 | s96 => DD x40 x0 | s97 => DD x40 x1 | s98 => DD x40 x2 | s99 => DD x40 x3 | s100 => DD x40 x4 | s101 => DD x40 x5 | s102 => DD x40 x6 | s103 => DD x40 x7 | s104 => DD x40 x8 | s105 => DD x40 x9 | s106 => DD x40 x10 | s107 => DD x40 x11 | s108 => DD x40 x12 | s109 => DD x40 x13 | s110 => DD x40 x14 | s111 => DD x40 x15 | s112 => DD x40 x16 | s113 => DD x40 x17 | s114 => DD x40 x18 | s115 => DD x40 x19 | s116 => DD x40 x20 | s117 => DD x40 x21 | s118 => DD x40 x22 | s119 => DD x40 x23 | s120 => DD x40 x24 | s121 => DD x40 x25 | s122 => DD x40 x26 | s123 => DD x40 x27 | s124 => DD x40 x28 | s125 => DD x40 x29 | s126 => DD x40 x30 end.
Definition m2475 (c : sum2) : dd := match c with s0 => DD x38 x43 | s1 => DD x38 x44 | s2 => DD x38 x45 | s3 => DD x38 x46 | s4 => DD x38 x47 | s5 => DD x38 x48 | s6 => DD x38 x49 | s7 => DD x38 x50 | s8 => DD x38 x51 | s9 => DD x38 x52 | s10 => DD x38 x53 | s11 => DD x38 x54 | s12 => DD x38 x55 | s13 => DD x38 x56 | s14 => DD x38 x57 | s15 => DD x38 x58 | s16 => DD x38 x59 | s17 => DD x38 x60 | s18 => DD x38 x61 | s19 => DD x38 x62 | s20 => DD x38 x63 | s21 => DD x39 x0 | s22 => DD x39 x1 | s23 => DD x39 x2 | s24 => DD x39 x3 | s25 => DD x39 x4 | s26 => DD x39 x5 | s27 => DD x39 x6 | s28 => DD x39 x7 | s29 => DD x39 x8 | s30 => DD x39 x9 | s31 => DD x39 x10 | s32 => DD x39 x11 | s33 => DD x39 x12 | s34 => DD x39 x13 | s35 => DD x39 x14 | s36 => DD x39 x15 | s37 => DD x39 x16 | s38 => DD x39 x17 | s39 => DD x39 x18 | s40 => DD x39 x19 | s41 => DD x39 x20 | s42 => DD x39 x21 | s43 => DD x39 x22 | s44 => DD x39 x23 | s45 => DD x39 x24 | s46 => DD x39 x25 | s47 => DD x39 x26 | s48 => DD x39 x27 | s49 => DD x39 x28 | s50 => DD x39 x29 | s51 => DD x39 x30 | s52 => DD x39 x31 | s53 => DD x39 x32 | s54 => DD x39 x33 | s55 => DD x39 x34 | s56 => DD x39 x35 | s57 => DD x39 x36 | s58 => DD x39 x37 | s59 => DD x39 x38 | s60 => DD x39 x39 | s61 => DD x39 x40 | s62 => DD x39 x41 | s63 => DD x39 x42 | s64 => DD x39 x43 | s65 => DD x39 x44 | s66 => DD x39 x45 | s67 => DD x39 x46 | s68 => DD x39 x47 | s69 => DD x39 x48 | s70 => DD x39 x49 | s71 => DD x39 x50 | s72 => DD x39 x51 | s73 => DD x39 x52 | s74 => DD x39 x53 | s75 => DD x39 x54 | s76 => DD x39 x55 | s77 => DD x39 x56 | s78 => DD x39 x57 | s79 => DD x39 x58 | s80 => DD x39 x59 | s81 => DD x39 x60 | s82 => DD x39 x61 | s83 => DD x39 x62 | s84 => DD x39 x63 | s85 => DD x40 x0 | s86 => DD x40 x1 | s87 => DD x40 x2 | s88 => DD x40 x3 | s89 => DD x40 x4 | s90 => DD x40 x5 | s91 => DD x40 x6 | s92 => DD x40 x7 | s93 => DD x40 x8 | s94 => DD x40 x9 | s95 => DD x40 x10 | s96 => DD x40 x11 | s97 => DD x40 x12 | s98 => DD x40 x13 | s99 => DD x40 x14 | s100 => DD x40 x15 | s101 => DD x40 x16 | s102 => DD x40 x17 | s103 => DD x40 x18 | s104 => DD x40 x19 | s105 => DD x40 x20 | s106 => DD x40 x21 | s107 => DD x40 x22 | s108 => DD x40 x23 | s109 => DD x40 x24 | s110 => DD x40 x25 | s111 => DD x40 x26 | s112 => DD x40 x27 | s113 => DD x40 x28 | s114 => DD x40 x29 | s115 => DD x40 x30 | s116 => DD x40 x31 | s117 => DD x40 x32 | s118 => DD x40 x33 | s119 => DD x40 x34 | s120 => DD x40 x35 | s121 => DD x40 x36 | s122 => DD x40 x37 | s123 => DD x40 x38 | s124 => DD x40 x39 | s125 => DD x40 x40 | s126 => DD x40 x41 end.
Definition m2478 (c : sum2) : dd := match c with s0 => DD x38 x46 | s1 => DD x38 x47 | s2 => DD x38 x48 | s3 => DD x38 x49 | s4 => DD x38 x50 | s5 => DD x38 x51 | s6 => DD x38 x52 | s7 => DD x38 x53 | s8 => DD x38 x54 | s9 => DD x38 x55 | s10 => DD x38 x56 | s11 => DD x38 x57 | s12 => DD x38 x58 | s13 => DD x38 x59 | s14 => DD x38 x60 | s15 => DD x38 x61 | s16 => DD x38 x62 | s17 => DD x38 x63 | s18 => DD x39 x0 | s19 => DD x39 x1 | s20 => DD x39 x2 | s21 => DD x39 x3 | s22 => DD x39 x4 | s23 => DD x39 x5 | s24 => DD x39 x6 | s25 => DD x39 x7 | s26 => DD x39 x8 | s27 => DD x39 x9 | s28 => DD x39 x10 | s29 => DD x39 x11 | s30 => DD x39 x12 | s31 => DD x39 x13 | s32 => DD x39 x14 | s33 => DD x39 x15 | s34 => DD x39 x16 | s35 => DD x39 x17 | s36 => DD x39 x18 | s37 => DD x39 x19 | s38 => DD x39 x20 | s39 => DD x39 x21 | s40 => DD x39 x22 | s41 => DD x39 x23 | s42 => DD x39 x24 | s43 => DD x39 x25 | s44 => DD x39 x26 | s45 => DD x39 x27 | s46 => DD x39 x28 | s47 => DD x39 x29 | s48 => DD x39 x30 | s49 => DD x39 x31 | s50 => DD x39 x32 | s51 => DD x39 x33 | s52 => DD x39 x34 | s53 => DD x39 x35 | s54 => DD x39 x36 | s55 => DD x39 x37 | s56 => DD x39 x38 | s57 => DD x39 x39 | s58 => DD x39 x40 | s59 => DD x39 x41 | s60 => DD x39 x42 | s61 => DD x39 x43 | s62 => DD x39 x44 | s63 => DD x39 x45 | s64 => DD x39 x46 | s65 => DD x39 x47 | s66 => DD x39 x48 | s67 => DD x39 x49 | s68 => DD x39 x50 | s69 => DD x39 x51 | s70 => DD x39 x52 | s71 => DD x39 x53 | s72 => DD x39 x54 | s73 => DD x39 x55 | s74 => DD x39 x56 | s75 => DD x39 x57 | s76 => DD x39 x58 | s77 => DD x39 x59 | s78 => DD x39 x60 | s79 => DD x39 x61 | s80 => DD x39 x62 | s81 => DD x39 x63 | s82 => DD x40 x0 | s83 => DD x40 x1 | s84 => DD x40 x2 | s85 => DD x40 x3 | s86 => DD x40 x4 | s87 => DD x40 x5 | s88 => DD x40 x6 | s89 => DD x40 x7 | s90 => DD x40 x8 | s91 => DD x40 x9 | s92 => DD x40 x10 | s93 => DD x40 x11 | s94 => DD x40 x12 | s95 => DD x40 x13 | s96 => DD x40 x14 | s97 => DD x40 x15 | s98 => DD x40 x16 | s99 => DD x40 x17 | s100 => DD x40 x18 | s101 => DD x40 x19 | s102 => DD x40 x20 | s103 => DD x40 x21 | s104 => DD x40 x22 | s105 => DD x40 x23 | s106 => DD x40 x24 | s107 => DD x40 x25 | s108 => DD x40 x26 | s109 => DD x40 x27 | s110 => DD x40 x28 | s111 => DD x40 x29 | s112 => DD x40 x30 | s113 => DD x40 x31 | s114 => DD x40 x32 | s115 => DD x40 x33 | s116 => DD x40 x34 | s117 => DD x40 x35 | s118 => DD x40 x36 | s119 => DD x40 x37 | s120 => DD x40 x38 | s121 => DD x40 x39 | s122 => DD x40 x40 | s123 => DD x40 x41 | s124 => DD x40 x42 | s125 => DD x40 x43 | s126 => DD x40 x44 end.
Definition m2480 (c : sum2) : dd := match c with s0 => DD x38 x48 | s1 => DD x38 x49 | s2 => DD x38 x50 | s3 => DD x38 x51 | s4 => DD x38 x52 | s5 => DD x38 x53 | s6 => DD x38 x54 | s7 => DD x38 x55 | s8 => DD x38 x56 | s9 => DD x38 x57 | s10 => DD x38 x58 | s11 => DD x38 x59 | s12 => DD x38 x60 | s13 => DD x38 x61 | s14 => DD x38 x62 | s15 => DD x38 x63 | s16 => DD x39 x0 | s17 => DD x39 x1 | s18 => DD x39 x2 | s19 => DD x39 x3 | s20 => DD x39 x4 | s21 => DD x39 x5 | s22 => DD x39 x6 | s23 => DD x39 x7 | s24 => DD x39 x8 | s25 => DD x39 x9 | s26 => DD x39 x10 | s27 => DD x39 x11 | s28 => DD x39 x12 | s29 => DD x39 x13 | s30 => DD x39 x14 | s31 => DD x39 x15 | s32 => DD x39 x16 | s33 => DD x39 x17 | s34 => DD x39 x18 | s35 => DD x39 x19 | s36 => DD x39 x20 | s37 => DD x39 x21 | s38 => DD x39 x22 | s39 => DD x39 x23 | s40 => DD x39 x24 | s41 => DD x39 x25 | s42 => DD x39 x26 | s43 => DD x39 x27 | s44 => DD x39 x28 | s45 => DD x39 x29 | s46 => DD x39 x30 | s47 => DD x39 x31 | s48 => DD x39 x32 | s49 => DD x39 x33 | s50 => DD x39 x34 | s51 => DD x39 x35 | s52 => DD x39 x36 | s53 => DD x39 x37 | s54 => DD x39 x38 | s55 => DD x39 x39 | s56 => DD x39 x40 | s57 => DD x39 x41 | s58 => DD x39 x42 | s59 => DD x39 x43 | s60 => DD x39 x44 | s61 => DD x39 x45 | s62 => DD x39 x46 | s63 => DD x39 x47 | s64 => DD x39 x48 | s65 => DD x39 x49 | s66 => DD x39 x50 | s67 => DD x39 x51 | s68 => DD x39 x52 | s69 => DD x39 x53 | s70 => DD x39 x54 | s71 => DD x39 x55 | s72 => DD x39 x56 | s73 => DD x39 x57 | s74 => DD x39 x58 | s75 => DD x39 x59 | s76 => DD x39 x60 | s77 => DD x39 x61 | s78 => DD x39 x62 | s79 => DD x39 x63 | s80 => DD x40 x0 | s81 => DD x40 x1 | s82 => DD x40 x2 | s83 => DD x40 x3 | s84 => DD x40 x4 | s85 => DD x40 x5 | s86 => DD x40 x6 | s87 => DD x40 x7 | s88 => DD x40 x8 | s89 => DD x40 x9 | s90 => DD x40 x10 | s91 => DD x40 x11 | s92 => DD x40 x12 | s93 => DD x40 x13 | s94 => DD x40 x14 | s95 => DD x40 x15 | s96 => DD x40 x16 | s97 => DD x40 x17 | s98 => DD x40 x18 | s99 => DD x40 x19 | s100 => DD x40 x20 | s101 => DD x40 x21 | s102 => DD x40 x22 | s103 => DD x40 x23 | s104 => DD x40 x24 | s105 => DD x40 x25 | s106 => DD x40 x26 | s107 => DD x40 x27 | s108 => DD x40 x28 | s109 => DD x40 x29 | s110 => DD x40 x30 | s111 => DD x40 x31 | s112 => DD x40 x32 | s113 => DD x40 x33 | s114 => DD x40 x34 | s115 => DD x40 x35 | s116 => DD x40 x36 | s117 => DD x40 x37 | s118 => DD x40 x38 | s119 => DD x40 x39 | s120 => DD x40 x40 | s121 => DD x40 x41 | s122 => DD x40 x42 | s123 => DD x40 x43 | s124 => DD x40 x44 | s125 => DD x40 x45 | s126 => DD x40 x46 end.
Definition m2484 (c : sum2) : dd := match c with s0 => DD x38 x52 | s1 => DD x38 x53 | s2 => DD x38 x54 | s3 => DD x38 x55 | s4 => DD x38 x56 | s5 => DD x38 x57 | s6 => DD x38 x58 | s7 => DD x38 x59 | s8 => DD x38 x60 | s9 => DD x38 x61 | s10 => DD x38 x62 | s11 => DD x38 x63 | s12 => DD x39 x0 | s13 => DD x39 x1 | s14 => DD x39 x2 | s15 => DD x39 x3 | s16 => DD x39 x4 | s17 => DD x39 x5 | s18 => DD x39 x6 | s19 => DD x39 x7 | s20 => DD x39 x8 | s21 => DD x39 x9 | s22 => DD x39 x10 | s23 => DD x39 x11 | s24 => DD x39 x12 | s25 => DD x39 x13 | s26 => DD x39 x14 | s27 => DD x39 x15 | s28 => DD x39 x16 | s29 => DD x39 x17 | s30 => DD x39 x18 | s31 => DD x39 x19 | s32 => DD x39 x20 | s33 => DD x39 x21 | s34 => DD x39 x22 | s35 => DD x39 x23 | s36 => DD x39 x24 | s37 => DD x39 x25 | s38 => DD x39 x26 | s39 => DD x39 x27 | s40 => DD x39 x28 | s41 => DD x39 x29 | s42 => DD x39 x30 | s43 => DD x39 x31 | s44 => DD x39 x32 | s45 => DD x39 x33 | s46 => DD x39 x34 | s47 => DD x39 x35 | s48 => DD x39 x36 | s49 => DD x39 x37 | s50 => DD x39 x38 | s51 => DD x39 x39 | s52 => DD x39 x40 | s53 => DD x39 x41 | s54 => DD x39 x42 | s55 => DD x39 x43 | s56 => DD x39 x44 | s57 => DD x39 x45 | s58 => DD x39 x46 | s59 => DD x39 x47 | s60 => DD x39 x48 | s61 => DD x39 x49 | s62 => DD x39 x50 | s63 => DD x39 x51 | s64 => DD x39 x52 | s65 => DD x39 x53 | s66 => DD x39 x54 | s67 => DD x39 x55 | s68 => DD x39 x56 | s69 => DD x39 x57 | s70 => DD x39 x58 | s71 => DD x39 x59 | s72 => DD x39 x60 | s73 => DD x39 x61 | s74 => DD x39 x62 | s75 => DD x39 x63 | s76 => DD x40 x0 | s77 => DD x40 x1 | s78 => DD x40 x2 | s79 => DD x40 x3 | s80 => DD x40 x4 | s81 => DD x40 x5 | s82 => DD x40 x6 | s83 => DD x40 x7 | s84 => DD x40 x8 | s85 => DD x40 x9 | s86 => DD x40 x10 | s87 => DD x40 x11 | s88 => DD x40 x12 | s89 => DD x40 x13 | s90 => DD x40 x14 | s91 => DD x40 x15 | s92 => DD x40 x16 | s93 => DD x40 x17 | s94 => DD x40 x18 | s95 => DD x40 x19 | s96 => DD x40 x20 | s97 => DD x40 x21 | s98 => DD x40 x22 | s99 => DD x40 x23 | s100 => DD x40 x24 | s101 => DD x40 x25 | s102 => DD x40 x26 | s103 => DD x40 x27 | s104 => DD x40 x28 | s105 => DD x40 x29 | s106 => DD x40 x30 | s107 => DD x40 x31 | s108 => DD x40 x32 | s109 => DD x40 x33 | s110 => DD x40 x34 | s111 => DD x40 x35 | s112 => DD x40 x36 | s113 => DD x40 x37 | s114 => DD x40 x38 | s115 => DD x40 x39 | s116 => DD x40 x40 | s117 => DD x40 x41 | s118 => DD x40 x42 | s119 => DD x40 x43 | s120 => DD x40 x44 | s121 => DD x40 x45 | s122 => DD x40 x46 | s123 => DD x40 x47 | s124 => DD x40 x48 | s125 => DD x40 x49 | s126 => DD x40 x50 end.
Definition m2491 (c : sum2) : dd := match c with s0 => DD x38 x59 | s1 => DD x38 x60 | s2 => DD x38 x61 | s3 => DD x38 x62 | s4 => DD x38 x63 | s5 => DD x39 x0 | s6 => DD x39 x1 | s7 => DD x39 x2 | s8 => DD x39 x3 | s9 => DD x39 x4 | s10 => DD x39 x5 | s11 => DD x39 x6 | s12 => DD x39 x7 | s13 => DD x39 x8 | s14 => DD x39 x9 | s15 => DD x39 x10 | s16 => DD x39 x11 | s17 => DD x39 x12 | s18 => DD x39 x13 | s19 => DD x39 x14 | s20 => DD x39 x15 | s21 => DD x39 x16 | s22 => DD x39 x17 | s23 => DD x39 x18 | s24 => DD x39 x19 | s25 => DD x39 x20 | s26 => DD x39 x21 | s27 => DD x39 x22 | s28 => DD x39 x23 | s29 => DD x39 x24 | s30 => DD x39 x25 | s31 => DD x39 x26 | s32 => DD x39 x27 | s33 => DD x39 x28 | s34 => DD x39 x29 | s35 => DD x39 x30 | s36 => DD x39 x31 | s37 => DD x39 x32 | s38 => DD x39 x33 | s39 => DD x39 x34 | s40 => DD x39 x35 | s41 => DD x39 x36 | s42 => DD x39 x37 | s43 => DD x39 x38 | s44 => DD x39 x39 | s45 => DD x39 x40 | s46 => DD x39 x41 | s47 => DD x39 x42 | s48 => DD x39 x43 | s49 => DD x39 x44 | s50 => DD x39 x45 | s51 => DD x39 x46 | s52 => DD x39 x47 | s53 => DD x39 x48 | s54 => DD x39 x49 | s55 => DD x39 x50 | s56 => DD x39 x51 | s57 => DD x39 x52 | s58 => DD x39 x53 | s59 => DD x39 x54 | s60 => DD x39 x55 | s61 => DD x39 x56 | s62 => DD x39 x57 | s63 => DD x39 x58 | s64 => DD x39 x59 | s65 => DD x39 x60 | s66 => DD x39 x61 | s67 => DD x39 x62 | s68 => DD x39 x63 | s69 => DD x40 x0 | s70 => DD x40 x1 | s71 => DD x40 x2 | s72 => DD x40 x3 | s73 => DD x40 x4 | s74 => DD x40 x5 | s75 => DD x40 x6 | s76 => DD x40 x7 | s77 => DD x40 x8 | s78 => DD x40 x9 | s79 => DD x40 x10 | s80 => DD x40 x11 | s81 => DD x40 x12 | s82 => DD x40 x13 | s83 => DD x40 x14 | s84 => DD x40 x15 | s85 => DD x40 x16 | s86 => DD x40 x17 | s87 => DD x40 x18 | s88 => DD x40 x19 | s89 => DD x40 x20 | s90 => DD x40 x21 | s91 => DD x40 x22 | s92 => DD x40 x23 | s93 => DD x40 x24 | s94 => DD x40 x25 | s95 => DD x40 x26 | s96 => DD x40 x27 | s97 => DD x40 x28 | s98 => DD x40 x29 | s99 => DD x40 x30 | s100 => DD x40 x31 | s101 => DD x40 x32 | s102 => DD x40 x33 | s103 => DD x40 x34 | s104 => DD x40 x35 | s105 => DD x40 x36 | s106 => DD x40 x37 | s107 => DD x40 x38 | s108 => DD x40 x39 | s109 => DD x40 x40 | s110 => DD x40 x41 | s111 => DD x40 x42 | s112 => DD x40 x43 | s113 => DD x40 x44 | s114 => DD x40 x45 | s115 => DD x40 x46 | s116 => DD x40 x47 | s117 => DD x40 x48 | s118 => DD x40 x49 | s119 => DD x40 x50 | s120 => DD x40 x51 | s121 => DD x40 x52 | s122 => DD x40 x53 | s123 => DD x40 x54 | s124 => DD x40 x55 | s125 => DD x40 x56 | s126 => DD x40 x57 end.
Definition m2494 (c : sum2) : dd := match c with s0 => DD x38 x62 | s1 => DD x38 x63 | s2 => DD x39 x0 | s3 => DD x39 x1 | s4 => DD x39 x2 | s5 => DD x39 x3 | s6 => DD x39 x4 | s7 => DD x39 x5 | s8 => DD x39 x6 | s9 => DD x39 x7 | s10 => DD x39 x8 | s11 => DD x39 x9 | s12 => DD x39 x10 | s13 => DD x39 x11 | s14 => DD x39 x12 | s15 => DD x39 x13 | s16 => DD x39 x14 | s17 => DD x39 x15 | s18 => DD x39 x16 | s19 => DD x39 x17 | s20 => DD x39 x18 | s21 => DD x39 x19 | s22 => DD x39 x20 | s23 => DD x39 x21 | s24 => DD x39 x22 | s25 => DD x39 x23 | s26 => DD x39 x24 | s27 => DD x39 x25 | s28 => DD x39 x26 | s29 => DD x39 x27 | s30 => DD x39 x28 | s31 => DD x39 x29 | s32 => DD x39 x30 | s33 => DD x39 x31 | s34 => DD x39 x32 | s35 => DD x39 x33 | s36 => DD x39 x34 | s37 => DD x39 x35 | s38 => DD x39 x36 | s39 => DD x39 x37 | s40 => DD x39 x38 | s41 => DD x39 x39 | s42 => DD x39 x40 | s43 => DD x39 x41 | s44 => DD x39 x42 | s45 => DD x39 x43 | s46 => DD x39 x44 | s47 => DD x39 x45 | s48 => DD x39 x46 | s49 => DD x39 x47 | s50 => DD x39 x48 | s51 => DD x39 x49 | s52 => DD x39 x50 | s53 => DD x39 x51 | s54 => DD x39 x52 | s55 => DD x39 x53 | s56 => DD x39 x54 | s57 => DD x39 x55 | s58 => DD x39 x56 | s59 => DD x39 x57 | s60 => DD x39 x58 | s61 => DD x39 x59 | s62 => DD x39 x60 | s63 => DD x39 x61 | s64 => DD x39 x62 | s65 => DD x39 x63 | s66 => DD x40 x0 | s67 => DD x40 x1 | s68 => DD x40 x2 | s69 => DD x40 x3 | s70 => DD x40 x4 | s71 => DD x40 x5 | s72 => DD x40 x6 | s73 => DD x40 x7 | s74 => DD x40 x8 | s75 => DD x40 x9 | s76 => DD x40 x10 | s77 => DD x40 x11 | s78 => DD x40 x12 | s79 => DD x40 x13 | s80 => DD x40 x14 | s81 => DD x40 x15 | s82 => DD x40 x16 | s83 => DD x40 x17 | s84 => DD x40 x18 | s85 => DD x40 x19 | s86 => DD x40 x20 | s87 => DD x40 x21 | s88 => DD x40 x22 | s89 => DD x40 x23 | s90 => DD x40 x24 | s91 => DD x40 x25 | s92 => DD x40 x26 | s93 => DD x40 x27 | s94 => DD x40 x28 | s95 => DD x40 x29 | s96 => DD x40 x30 | s97 => DD x40 x31 | s98 => DD x40 x32 | s99 => DD x40 x33 | s100 => DD x40 x34 | s101 => DD x40 x35 | s102 => DD x40 x36 | s103 => DD x40 x37 | s104 => DD x40 x38 | s105 => DD x40 x39 | s106 => DD x40 x40 | s107 => DD x40 x41 | s108 => DD x40 x42 | s109 => DD x40 x43 | s110 => DD x40 x44 | s111 => DD x40 x45 | s112 => DD x40 x46 | s113 => DD x40 x47 | s114 => DD x40 x48 | s115 => DD x40 x49 | s116 => DD x40 x50 | s117 => DD x40 x51 | s118 => DD x40 x52 | s119 => DD x40 x53 | s120 => DD x40 x54 | s121 => DD x40 x55 | s122 => DD x40 x56 | s123 => DD x40 x57 | s124 => DD x40 x58 | s125 => DD x40 x59 | s126 => DD x40 x60 end.
Definition m2496 (c : sum2) : dd := match c with s0 => DD x39 x0 | s1 => DD x39 x1 | s2 => DD x39 x2 | s3 => DD x39 x3 | s4 => DD x39 x4 | s5 => DD x39 x5 | s6 => DD x39 x6 | s7 => DD x39 x7 | s8 => DD x39 x8 | s9 => DD x39 x9 | s10 => DD x39 x10 | s11 => DD x39 x11 | s12 => DD x39 x12 | s13 => DD x39 x13 | s14 => DD x39 x14 | s15 => DD x39 x15 | s16 => DD x39 x16 | s17 => DD x39 x17 | s18 => DD x39 x18 | s19 => DD x39 x19 | s20 => DD x39 x20 | s21 => DD x39 x21 | s22 => DD x39 x22 | s23 => DD x39 x23 | s24 => DD x39 x24 | s25 => DD x39 x25 | s26 => DD x39 x26 | s27 => DD x39 x27 | s28 => DD x39 x28 | s29 => DD x39 x29 | s30 => DD x39 x30 | s31 => DD x39 x31 | s32 => DD x39 x32 | s33 => DD x39 x33 | s34 => DD x39 x34 | s35 => DD x39 x35 | s36 => DD x39 x36 | s37 => DD x39 x37 | s38 => DD x39 x38 | s39 => DD x39 x39 | s40 => DD x39 x40 | s41 => DD x39 x41 | s42 => DD x39 x42 | s43 => DD x39 x43 | s44 => DD x39 x44 | s45 => DD x39 x45 | s46 => DD x39 x46 | s47 => DD x39 x47 | s48 => DD x39 x48 | s49 => DD x39 x49 | s50 => DD x39 x50 | s51 => DD x39 x51 | s52 => DD x39 x52 | s53 => DD x39 x53 | s54 => DD x39 x54 | s55 => DD x39 x55 | s56 => DD x39 x56 | s57 => DD x39 x57 | s58 => DD x39 x58 | s59 => DD x39 x59 | s60 => DD x39 x60 | s61 => DD x39 x61 | s62 => DD x39 x62 | s63 => DD x39 x63 | s64 => DD x40 x0 | s65 => DD x40 x1 | s66 => DD x40 x2 | s67 => DD x40 x3 | s68 => DD x40 x4 | s69 => DD x40 x5 | s70 => DD x40 x6 | s71 => DD x40 x7 | s72 => DD x40 x8 | s73 => DD x40 x9 | s74 => DD x40 x10 | s75 => DD x40 x11 | s76 => DD x40 x12 | s77 => DD x40 x13 | s78 => DD x40 x14 | s79 => DD x40 x15 | s80 => DD x40 x16 | s81 => DD x40 x17 | s82 => DD x40 x18 | s83 => DD x40 x19 | s84 => DD x40 x20 | s85 => DD x40 x21 | s86 => DD x40 x22 | s87 => DD x40 x23 | s88 => DD x40 x24 | s89 => DD x40 x25 | s90 => DD x40 x26 | s91 => DD x40 x27 | s92 => DD x40 x28 | s93 => DD x40 x29 | s94 => DD x40 x30 | s95 => DD x40 x31 | s96 => DD x40 x32 | s97 => DD x40 x33 | s98 => DD x40 x34 | s99 => DD x40 x35 | s100 => DD x40 x36 | s101 => DD x40 x37 | s102 => DD x40 x38 | s103 => DD x40 x39 | s104 => DD x40 x40 | s105 => DD x40 x41 | s106 => DD x40 x42 | s107 => DD x40 x43 | s108 => DD x40 x44 | s109 => DD x40 x45 | s110 => DD x40 x46 | s111 => DD x40 x47 | s112 => DD x40 x48 | s113 => DD x40 x49 | s114 => DD x40 x50 | s115 => DD x40 x51 | s116 => DD x40 x52 | s117 => DD x40 x53 | s118 => DD x40 x54 | s119 => DD x40 x55 | s120 => DD x40 x56 | s121 => DD x40 x57 | s122 => DD x40 x58 | s123 => DD x40 x59 | s124 => DD x40 x60 | s125 => DD x40 x61 | s126 => DD x40 x62 end.
Definition m2499 (c : sum2) : dd := match c with s0 => DD x39 x3 | s1 => DD x39 x4 | s2 => DD x39 x5 | s3 => DD x39 x6 | s4 => DD x39 x7 | s5 => DD x39 x8 | s6 => DD x39 x9 | s7 => DD x39 x10 | s8 => DD x39 x11 | s9 => DD x39 x12 | s10 => DD x39 x13 | s11 => DD x39 x14 | s12 => DD x39 x15 | s13 => DD x39 x16 | s14 => DD x39 x17 | s15 => DD x39 x18 | s16 => DD x39 x19 | s17 => DD x39 x20 | s18 => DD x39 x21 | s19 => DD x39 x22 | s20 => DD x39 x23 | s21 => DD x39 x24 | s22 => DD x39 x25 | s23 => DD x39 x26 | s24 => DD x39 x27 | s25 => DD x39 x28 | s26 => DD x39 x29 | s27 => DD x39 x30 | s28 => DD x39 x31 | s29 => DD x39 x32 | s30 => DD x39 x33 | s31 => DD x39 x34 | s32 => DD x39 x35 | s33 => DD x39 x36 | s34 => DD x39 x37 | s35 => DD x39 x38 | s36 => DD x39 x39 | s37 => DD x39 x40 | s38 => DD x39 x41 | s39 => DD x39 x42 | s40 => DD x39 x43 | s41 => DD x39 x44 | s42 => DD x39 x45 | s43 => DD x39 x46 | s44 => DD x39 x47 | s45 => DD x39 x48 | s46 => DD x39 x49 | s47 => DD x39 x50 | s48 => DD x39 x51 | s49 => DD x39 x52 | s50 => DD x39 x53 | s51 => DD x39 x54 | s52 => DD x39 x55 | s53 => DD x39 x56 | s54 => DD x39 x57 | s55 => DD x39 x58 | s56 => DD x39 x59 | s57 => DD x39 x60 | s58 => DD x39 x61 | s59 => DD x39 x62 | s60 => DD x39 x63 | s61 => DD x40 x0 | s62 => DD x40 x1 | s63 => DD x40 x2 | s64 => DD x40 x3 | s65 => DD x40 x4 | s66 => DD x40 x5 | s67 => DD x40 x6 | s68 => DD x40 x7 | s69 => DD x40 x8 | s70 => DD x40 x9 | s71 => DD x40 x10 | s72 => DD x40 x11 | s73 => DD x40 x12 | s74 => DD x40 x13 | s75 => DD x40 x14 | s76 => DD x40 x15 | s77 => DD x40 x16 | s78 => DD x40 x17 | s79 => DD x40 x18 | s80 => DD x40 x19 | s81 => DD x40 x20 | s82 => DD x40 x21 | s83 => DD x40 x22 | s84 => DD x40 x23 | s85 => DD x40 x24 | s86 => DD x40 x25 | s87 => DD x40 x26 | s88 => DD x40 x27 | s89 => DD x40 x28 | s90 => DD x40 x29 | s91 => DD x40 x30 | s92 => DD x40 x31 | s93 => DD x40 x32 | s94 => DD x40 x33 | s95 => DD x40 x34 | s96 => DD x40 x35 | s97 => DD x40 x36 | s98 => DD x40 x37 | s99 => DD x40 x38 | s100 => DD x40 x39 | s101 => DD x40 x40 | s102 => DD x40 x41 | s103 => DD x40 x42 | s104 => DD x40 x43 | s105 => DD x40 x44 | s106 => DD x40 x45 | s107 => DD x40 x46 | s108 => DD x40 x47 | s109 => DD x40 x48 | s110 => DD x40 x49 | s111 => DD x40 x50 | s112 => DD x40 x51 | s113 => DD x40 x52 | s114 => DD x40 x53 | s115 => DD x40 x54 | s116 => DD x40 x55 | s117 => DD x40 x56 | s118 => DD x40 x57 | s119 => DD x40 x58 | s120 => DD x40 x59 | s121 => DD x40 x60 | s122 => DD x40 x61 | s123 => DD x40 x62 | s124 => DD x40 x63 | s125 => DD x41 x0 | s126 => DD x41 x1 end.
Definition m2500 (c : sum2) : dd := match c with s0 => DD x39 x4 | s1 => DD x39 x5 | s2 => DD x39 x6 | s3 => DD x39 x7 | s4 => DD x39 x8 | s5 => DD x39 x9 | s6 => DD x39 x10 | s7 => DD x39 x11 | s8 => DD x39 x12 | s9 => DD x39 x13 | s10 => DD x39 x14 | s11 => DD x39 x15 | s12 => DD x39 x16 | s13 => DD x39 x17 | s14 => DD x39 x18 | s15 => DD x39 x19 | s16 => DD x39 x20 | s17 => DD x39 x21 | s18 => DD x39 x22 | s19 => DD x39 x23 | s20 => DD x39 x24 | s21 => DD x39 x25 | s22 => DD x39 x26 | s23 => DD x39 x27 | s24 => DD x39 x28 | s25 => DD x39 x29 | s26 => DD x39 x30 | s27 => DD x39 x31 | s28 => DD x39 x32 | s29 => DD x39 x33 | s30 => DD x39 x34 | s31 => DD x39 x35 | s32 => DD x39 x36 | s33 => DD x39 x37 | s34 => DD x39 x38 | s35 => DD x39 x39 | s36 => DD x39 x40 | s37 => DD x39 x41 | s38 => DD x39 x42 | s39 => DD x39 x43 | s40 => DD x39 x44 | s41 => DD x39 x45 | s42 => DD x39 x46 | s43 => DD x39 x47 | s44 => DD x39 x48 | s45 => DD x39 x49 | s46 => DD x39 x50 | s47 => DD x39 x51 | s48 => DD x39 x52 | s49 => DD x39 x53 | s50 => DD x39 x54 | s51 => DD x39 x55 | s52 => DD x39 x56 | s53 => DD x39 x57 | s54 => DD x39 x58 | s55 => DD x39 x59 | s56 => DD x39 x60 | s57 => DD x39 x61 | s58 => DD x39 x62 | s59 => DD x39 x63 | s60 => DD x40 x0 | s61 => DD x40 x1 | s62 => DD x40 x2 | s63 => DD x40 x3 | s64 => DD x40 x4 | s65 => DD x40 x5 | s66 => DD x40 x6 | s67 => DD x40 x7 | s68 => DD x40 x8 | s69 => DD x40 x9 | s70 => DD x40 x10 | s71 => DD x40 x11 | s72 => DD x40 x12 | s73 => DD x40 x13 | s74 => DD x40 x14 | s75 => DD x40 x15 | s76 => DD x40 x16 | s77 => DD x40 x17 | s78 => DD x40 x18 | s79 => DD x40 x19 | s80 => DD x40 x20 | s81 => DD x40 x21 | s82 => DD x40 x22 | s83 => DD x40 x23 | s84 => DD x40 x24 | s85 => DD x40 x25 | s86 => DD x40 x26 | s87 => DD x40 x27 | s88 => DD x40 x28 | s89 => DD x40 x29 | s90 => DD x40 x30 | s91 => DD x40 x31 | s92 => DD x40 x32 | s93 => DD x40 x33 | s94 => DD x40 x34 | s95 => DD x40 x35 | s96 => DD x40 x36 | s97 => DD x40 x37 | s98 => DD x40 x38 | s99 => DD x40 x39 | s100 => DD x40 x40 | s101 => DD x40 x41 | s102 => DD x40 x42 | s103 => DD x40 x43 | s104 => DD x40 x44 | s105 => DD x40 x45 | s106 => DD x40 x46 | s107 => DD x40 x47 | s108 => DD x40 x48 | s109 => DD x40 x49 | s110 => DD x40 x50 | s111 => DD x40 x51 | s112 => DD x40 x52 | s113 => DD x40 x53 | s114 => DD x40 x54 | s115 => DD x40 x55 | s116 => DD x40 x56 | s117 => DD x40 x57 | s118 => DD x40 x58 | s119 => DD x40 x59 | s120 => DD x40 x60 | s121 => DD x40 x61 | s122 => DD x40 x62 | s123 => DD x40 x63 | s124 => DD x41 x0 | s125 => DD x41 x1 | s126 => DD x41 x2 end.
Definition m2501 (c : sum2) : dd := match c with s0 => DD x39 x5 | s1 => DD x39 x6 | s2 => DD x39 x7 | s3 => DD x39 x8 | s4 => DD x39 x9 | s5 => DD x39 x10 | s6 => DD x39 x11 | s7 => DD x39 x12 | s8 => DD x39 x13 | s9 => DD x39 x14 | s10 => DD x39 x15 | s11 => DD x39 x16 | s12 => DD x39 x17 | s13 => DD x39 x18 | s14 => DD x39 x19 | s15 => DD x39 x20 | s16 => DD x39 x21 | s17 => DD x39 x22 | s18 => DD x39 x23 | s19 => DD x39 x24 | s20 => DD x39 x25 | s21 => DD x39 x26 | s22 => DD x39 x27 | s23 => DD x39 x28 | s24 => DD x39 x29 | s25 => DD x39 x30 | s26 => DD x39 x31 | s27 => DD x39 x32 | s28 => DD x39 x33 | s29 => DD x39 x34 | s30 => DD x39 x35 | s31 => DD x39 x36 | s32 => DD x39 x37 | s33 => DD x39 x38 | s34 => DD x39 x39 | s35 => DD x39 x40 | s36 => DD x39 x41 | s37 => DD x39 x42 | s38 => DD x39 x43 | s39 => DD x39 x44 | s40 => DD x39 x45 | s41 => DD x39 x46 | s42 => DD x39 x47 | s43 => DD x39 x48 | s44 => DD x39 x49 | s45 => DD x39 x50 | s46 => DD x39 x51 | s47 => DD x39 x52 | s48 => DD x39 x53 | s49 => DD x39 x54 | s50 => DD x39 x55 | s51 => DD x39 x56 | s52 => DD x39 x57 | s53 => DD x39 x58 | s54 => DD x39 x59 | s55 => DD x39 x60 | s56 => DD x39 x61 | s57 => DD x39 x62 | s58 => DD x39 x63 | s59 => DD x40 x0 | s60 => DD x40 x1 | s61 => DD x40 x2 | s62 => DD x40 x3 | s63 => DD x40 x4 | s64 => DD x40 x5 | s65 => DD x40 x6 | s66 => DD x40 x7 | s67 => DD x40 x8 | s68 => DD x40 x9 | s69 => DD x40 x10 | s70 => DD x40 x11 | s71 => DD x40 x12 | s72 => DD x40 x13 | s73 => DD x40 x14 | s74 => DD x40 x15 | s75 => DD x40 x16 | s76 => DD x40 x17 | s77 => DD x40 x18 | s78 => DD x40 x19 | s79 => DD x40 x20 | s80 => DD x40 x21 | s81 => DD x40 x22 | s82 => DD x40 x23 | s83 => DD x40 x24 | s84 => DD x40 x25 | s85 => DD x40 x26 | s86 => DD x40 x27 | s87 => DD x40 x28 | s88 => DD x40 x29 | s89 => DD x40 x30 | s90 => DD x40 x31 | s91 => DD x40 x32 | s92 => DD x40 x33 | s93 => DD x40 x34 | s94 => DD x40 x35 | s95 => DD x40 x36 | s96 => DD x40 x37 | s97 => DD x40 x38 | s98 => DD x40 x39 | s99 => DD x40 x40 | s100 => DD x40 x41 | s101 => DD x40 x42 | s102 => DD x40 x43 | s103 => DD x40 x44 | s104 => DD x40 x45 | s105 => DD x40 x46 | s106 => DD x40 x47 | s107 => DD x40 x48 | s108 => DD x40 x49 | s109 => DD x40 x50 | s110 => DD x40 x51 | s111 => DD x40 x52 | s112 => DD x40 x53 | s113 => DD x40 x54 | s114 => DD x40 x55 | s115 => DD x40 x56 | s116 => DD x40 x57 | s117 => DD x40 x58 | s118 => DD x40 x59 | s119 => DD x40 x60 | s120 => DD x40 x61 | s121 => DD x40 x62 | s122 => DD x40 x63 | s123 => DD x41 x0 | s124 => DD x41 x1 | s125 => DD x41 x2 | s126 => DD x41 x3 end.
Definition m2508 (c : sum2) : dd := match c with s0 => DD x39 x12 | s1 => DD x39 x13 | s2 => DD x39 x14 | s3 => DD x39 x15 | s4 => DD x39 x16 | s5 => DD x39 x17 | s6 => DD x39 x18 | s7 => DD x39 x19 | s8 => DD x39 x20 | s9 => DD x39 x21 | s10 => DD x39 x22 | s11 => DD x39 x23 | s12 => DD x39 x24 | s13 => DD x39 x25 | s14 => DD x39 x26 | s15 => DD x39 x27 | s16 => DD x39 x28 | s17 => DD x39 x29 | s18 => DD x39 x30 | s19 => DD x39 x31 | s20 => DD x39 x32 | s21 => DD x39 x33 | s22 => DD x39 x34 | s23 => DD x39 x35 | s24 => DD x39 x36 | s25 => DD x39 x37 | s26 => DD x39 x38 | s27 => DD x39 x39 | s28 => DD x39 x40 | s29 => DD x39 x41 | s30 => DD x39 x42 | s31 => DD x39 x43 | s32 => DD x39 x44 | s33 => DD x39 x45 | s34 => DD x39 x46 | s35 => DD x39 x47 | s36 => DD x39 x48 | s37 => DD x39 x49 | s38 => DD x39 x50 | s39 => DD x39 x51 | s40 => DD x39 x52 | s41 => DD x39 x53 | s42 => DD x39 x54 | s43 => DD x39 x55 | s44 => DD x39 x56 | s45 => DD x39 x57 | s46 => DD x39 x58 | s47 => DD x39 x59 | s48 => DD x39 x60 | s49 => DD x39 x61 | s50 => DD x39 x62 | s51 => DD x39 x63 | s52 => DD x40 x0 | s53 => DD x40 x1 | s54 => DD x40 x2 | s55 => DD x40 x3 | s56 => DD x40 x4 | s57 => DD x40 x5 | s58 => DD x40 x6 | s59 => DD x40 x7 | s60 => DD x40 x8 | s61 => DD x40 x9 | s62 => DD x40 x10 | s63 => DD x40 x11 | s64 => DD x40 x12 | s65 => DD x40 x13 | s66 => DD x40 x14 | s67 => DD x40 x15 | s68 => DD x40 x16 | s69 => DD x40 x17 | s70 => DD x40 x18 | s71 => DD x40 x19 | s72 => DD x40 x20 | s73 => DD x40 x21 | s74 => DD x40 x22 | s75 => DD x40 x23 | s76 => DD x40 x24 | s77 => DD x40 x25 | s78 => DD x40 x26 | s79 => DD x40 x27 | s80 => DD x40 x28 | s81 => DD x40 x29 | s82 => DD x40 x30 | s83 => DD x40 x31 | s84 => DD x40 x32 | s85 => DD x40 x33 | s86 => DD x40 x34 | s87 => DD x40 x35 | s88 => DD x40 x36 | s89 => DD x40 x37 | s90 => DD x40 x38 | s91 => DD x40 x39 | s92 => DD x40 x40 | s93 => DD x40 x41 | s94 => DD x40 x42 | s95 => DD x40 x43 | s96 => DD x40 x44 | s97 => DD x40 x45 | s98 => DD x40 x46 | s99 => DD x40 x47 | s100 => DD x40 x48 | s101 => DD x40 x49 | s102 => DD x40 x50 | s103 => DD x40 x51 | s104 => DD x40 x52 | s105 => DD x40 x53 | s106 => DD x40 x54 | s107 => DD x40 x55 | s108 => DD x40 x56 | s109 => DD x40 x57 | s110 => DD x40 x58 | s111 => DD x40 x59 | s112 => DD x40 x60 | s113 => DD x40 x61 | s114 => DD x40 x62 | s115 => DD x40 x63 | s116 => DD x41 x0 | s117 => DD x41 x1 | s118 => DD x41 x2 | s119 => DD x41 x3 | s120 => DD x41 x4 | s121 => DD x41 x5 | s122 => DD x41 x6 | s123 => DD x41 x7 | s124 => DD x41 x8 | s125 => DD x41 x9 | s126 => DD x41 x10 end.
Definition m2520 (c : sum2) : dd := match c with s0 => DD x39 x24 | s1 => DD x39 x25 | s2 => DD x39 x26 | s3 => DD x39 x27 | s4 => DD x39 x28 | s5 => DD x39 x29 | s6 => DD x39 x30 | s7 => DD x39 x31 | s8 => DD x39 x32 | s9 => DD x39 x33 | s10 => DD x39 x34 | s11 => DD x39 x35 | s12 => DD x39 x36 | s13 => DD x39 x37 | s14 => DD x39 x38 | s15 => DD x39 x39 | s16 => DD x39 x40 | s17 => DD x39 x41 | s18 => DD x39 x42 | s19 => DD x39 x43 | s20 => DD x39 x44 | s21 => DD x39 x45 | s22 => DD x39 x46 | s23 => DD x39 x47 | s24 => DD x39 x48 | s25 => DD x39 x49 | s26 => DD x39 x50 | s27 => DD x39 x51 | s28 => DD x39 x52 | s29 => DD x39 x53 | s30 => DD x39 x54 | s31 => DD x39 x55 | s32 => DD x39 x56 | s33 => DD x39 x57 | s34 => DD x39 x58 | s35 => DD x39 x59 | s36 => DD x39 x60 | s37 => DD x39 x61 | s38 => DD x39 x62 | s39 => DD x39 x63 | s40 => DD x40 x0 | s41 => DD x40 x1 | s42 => DD x40 x2 | s43 => DD x40 x3 | s44 => DD x40 x4 | s45 => DD x40 x5 | s46 => DD x40 x6 | s47 => DD x40 x7 | s48 => DD x40 x8 | s49 => DD x40 x9 | s50 => DD x40 x10 | s51 => DD x40 x11 | s52 => DD x40 x12 | s53 => DD x40 x13 | s54 => DD x40 x14 | s55 => DD x40 x15 | s56 => DD x40 x16 | s57 => DD x40 x17 | s58 => DD x40 x18 | s59 => DD x40 x19 | s60 => DD x40 x20 | s61 => DD x40 x21 | s62 => DD x40 x22 | s63 => DD x40 x23 | s64 => DD x40 x24 | s65 => DD x40 x25 | s66 => DD x40 x26 | s67 => DD x40 x27 | s68 => DD x40 x28 | s69 => DD x40 x29 | s70 => DD x40 x30 | s71 => DD x40 x31 | s72 => DD x40 x32 | s73 => DD x40 x33 | s74 => DD x40 x34 | s75 => DD x40 x35 | s76 => DD x40 x36 | s77 => DD x40 x37 | s78 => DD x40 x38 | s79 => DD x40 x39 | s80 => DD x40 x40 | s81 => DD x40 x41 | s82 => DD x40 x42 | s83 => DD x40 x43 | s84 => DD x40 x44 | s85 => DD x40 x45 | s86 => DD x40 x46 | s87 => DD x40 x47 | s88 => DD x40 x48 | s89 => DD x40 x49 | s90 => DD x40 x50 | s91 => DD x40 x51 | s92 => DD x40 x52 | s93 => DD x40 x53 | s94 => DD x40 x54 | s95 => DD x40 x55 | s96 => DD x40 x56 | s97 => DD x40 x57 | s98 => DD x40 x58 | s99 => DD x40 x59 | s100 => DD x40 x60 | s101 => DD x40 x61 | s102 => DD x40 x62 | s103 => DD x40 x63 | s104 => DD x41 x0 | s105 => DD x41 x1 | s106 => DD x41 x2 | s107 => DD x41 x3 | s108 => DD x41 x4 | s109 => DD x41 x5 | s110 => DD x41 x6 | s111 => DD x41 x7 | s112 => DD x41 x8 | s113 => DD x41 x9 | s114 => DD x41 x10 | s115 => DD x41 x11 | s116 => DD x41 x12 | s117 => DD x41 x13 | s118 => DD x41 x14 | s119 => DD x41 x15 | s120 => DD x41 x16 | s121 => DD x41 x17 | s122 => DD x41 x18 | s123 => DD x41 x19 | s124 => DD x41 x20 | s125 => DD x41 x21 | s126 => DD x41 x22 end.
Definition m2530 (c : sum2) : dd := match c with s0 => DD x39 x34 | s1 => DD x39 x35 | s2 => DD x39 x36 | s3 => DD x39 x37 | s4 => DD x39 x38 | s5 => DD x39 x39 | s6 => DD x39 x40 | s7 => DD x39 x41 | s8 => DD x39 x42 | s9 => DD x39 x43 | s10 => DD x39 x44 | s11 => DD x39 x45 | s12 => DD x39 x46 | s13 => DD x39 x47 | s14 => DD x39 x48 | s15 => DD x39 x49 | s16 => DD x39 x50 | s17 => DD x39 x51 | s18 => DD x39 x52 | s19 => DD x39 x53 | s20 => DD x39 x54 | s21 => DD x39 x55 | s22 => DD x39 x56 | s23 => DD x39 x57 | s24 => DD x39 x58 | s25 => DD x39 x59 | s26 => DD x39 x60 | s27 => DD x39 x61 | s28 => DD x39 x62 | s29 => DD x39 x63 | s30 => DD x40 x0 | s31 => DD x40 x1 | s32 => DD x40 x2 | s33 => DD x40 x3 | s34 => DD x40 x4 | s35 => DD x40 x5 | s36 => DD x40 x6 | s37 => DD x40 x7 | s38 => DD x40 x8 | s39 => DD x40 x9 | s40 => DD x40 x10 | s41 => DD x40 x11 | s42 => DD x40 x12 | s43 => DD x40 x13 | s44 => DD x40 x14 | s45 => DD x40 x15 | s46 => DD x40 x16 | s47 => DD x40 x17 | s48 => DD x40 x18 | s49 => DD x40 x19 | s50 => DD x40 x20 | s51 => DD x40 x21 | s52 => DD x40 x22 | s53 => DD x40 x23 | s54 => DD x40 x24 | s55 => DD x40 x25 | s56 => DD x40 x26 | s57 => DD x40 x27 | s58 => DD x40 x28 | s59 => DD x40 x29 | s60 => DD x40 x30 | s61 => DD x40 x31 | s62 => DD x40 x32 | s63 => DD x40 x33 | s64 => DD x40 x34 | s65 => DD x40 x35 | s66 => DD x40 x36 | s67 => DD x40 x37 | s68 => DD x40 x38 | s69 => DD x40 x39 | s70 => DD x40 x40 | s71 => DD x40 x41 | s72 => DD x40 x42 | s73 => DD x40 x43 | s74 => DD x40 x44 | s75 => DD x40 x45 | s76 => DD x40 x46 | s77 => DD x40 x47 | s78 => DD x40 x48 | s79 => DD x40 x49 | s80 => DD x40 x50 | s81 => DD x40 x51 | s82 => DD x40 x52 | s83 => DD x40 x53 | s84 => DD x40 x54 | s85 => DD x40 x55 | s86 => DD x40 x56 | s87 => DD x40 x57 | s88 => DD x40 x58 | s89 => DD x40 x59 | s90 => DD x40 x60 | s91 => DD x40 x61 | s92 => DD x40 x62 | s93 => DD x40 x63 | s94 => DD x41 x0 | s95 => DD x41 x1 | s96 => DD x41 x2 | s97 => DD x41 x3 | s98 => DD x41 x4 | s99 => DD x41 x5 | s100 => DD x41 x6 | s101 => DD x41 x7 | s102 => DD x41 x8 | s103 => DD x41 x9 | s104 => DD x41 x10 | s105 => DD x41 x11 | s106 => DD x41 x12 | s107 => DD x41 x13 | s108 => DD x41 x14 | s109 => DD x41 x15 | s110 => DD x41 x16 | s111 => DD x41 x17 | s112 => DD x41 x18 | s113 => DD x41 x19 | s114 => DD x41 x20 | s115 => DD x41 x21 | s116 => DD x41 x22 | s117 => DD x41 x23 | s118 => DD x41 x24 | s119 => DD x41 x25 | s120 => DD x41 x26 | s121 => DD x41 x27 | s122 => DD x41 x28 | s123 => DD x41 x29 | s124 => DD x41 x30 | s125 => DD x41 x31 | s126 => DD x41 x32 end.
Definition m2537 (c : sum2) : dd := match c with s0 => DD x39 x41 | s1 => DD x39 x42 | s2 => DD x39 x43 | s3 => DD x39 x44 | s4 => DD x39 x45 | s5 => DD x39 x46 | s6 => DD x39 x47 | s7 => DD x39 x48 | s8 => DD x39 x49 | s9 => DD x39 x50 | s10 => DD x39 x51 | s11 => DD x39 x52 | s12 => DD x39 x53 | s13 => DD x39 x54 | s14 => DD x39 x55 | s15 => DD x39 x56 | s16 => DD x39 x57 | s17 => DD x39 x58 | s18 => DD x39 x59 | s19 => DD x39 x60 | s20 => DD x39 x61 | s21 => DD x39 x62 | s22 => DD x39 x63 | s23 => DD x40 x0 | s24 => DD x40 x1 | s25 => DD x40 x2 | s26 => DD x40 x3 | s27 => DD x40 x4 | s28 => DD x40 x5 | s29 => DD x40 x6 | s30 => DD x40 x7 | s31 => DD x40 x8 | s32 => DD x40 x9 | s33 => DD x40 x10 | s34 => DD x40 x11 | s35 => DD x40 x12 | s36 => DD x40 x13 | s37 => DD x40 x14 | s38 => DD x40 x15 | s39 => DD x40 x16 | s40 => DD x40 x17 | s41 => DD x40 x18 | s42 => DD x40 x19 | s43 => DD x40 x20 | s44 => DD x40 x21 | s45 => DD x40 x22 | s46 => DD x40 x23 | s47 => DD x40 x24 | s48 => DD x40 x25 | s49 => DD x40 x26 | s50 => DD x40 x27 | s51 => DD x40 x28 | s52 => DD x40 x29 | s53 => DD x40 x30 | s54 => DD x40 x31 | s55 => DD x40 x32 | s56 => DD x40 x33 | s57 => DD x40 x34 | s58 => DD x40 x35 | s59 => DD x40 x36 | s60 => DD x40 x37 | s61 => DD x40 x38 | s62 => DD x40 x39 | s63 => DD x40 x40 | s64 => DD x40 x41 | s65 => DD x40 x42 | s66 => DD x40 x43 | s67 => DD x40 x44 | s68 => DD x40 x45 | s69 => DD x40 x46 | s70 => DD x40 x47 | s71 => DD x40 x48 | s72 => DD x40 x49 | s73 => DD x40 x50 | s74 => DD x40 x51 | s75 => DD x40 x52 | s76 => DD x40 x53 | s77 => DD x40 x54 | s78 => DD x40 x55 | s79 => DD x40 x56 | s80 => DD x40 x57 | s81 => DD x40 x58 | s82 => DD x40 x59 | s83 => DD x40 x60 | s84 => DD x40 x61 | s85 => DD x40 x62 | s86 => DD x40 x63 | s87 => DD x41 x0 | s88 => DD x41 x1 | s89 => DD x41 x2 | s90 => DD x41 x3 | s91 => DD x41 x4 | s92 => DD x41 x5 | s93 => DD x41 x6 | s94 => DD x41 x7 | s95 => DD x41 x8 | s96 => DD x41 x9 | s97 => DD x41 x10 | s98 => DD x41 x11 | s99 => DD x41 x12 | s100 => DD x41 x13 | s101 => DD x41 x14 | s102 => DD x41 x15 | s103 => DD x41 x16 | s104 => DD x41 x17 | s105 => DD x41 x18 | s106 => DD x41 x19 | s107 => DD x41 x20 | s108 => DD x41 x21 | s109 => DD x41 x22 | s110 => DD x41 x23 | s111 => DD x41 x24 | s112 => DD x41 x25 | s113 => DD x41 x26 | s114 => DD x41 x27 | s115 => DD x41 x28 | s116 => DD x41 x29 | s117 => DD x41 x30 | s118 => DD x41 x31 | s119 => DD x41 x32 | s120 => DD x41 x33 | s121 => DD x41 x34 | s122 => DD x41 x35 | s123 => DD x41 x36 | s124 => DD x41 x37 | s125 => DD x41 x38 | s126 => DD x41 x39 end.
Definition m2538 (c : sum2) : dd := match c with s0 => DD x39 x42 | s1 => DD x39 x43 | s2 => DD x39 x44 | s3 => DD x39 x45 | s4 => DD x39 x46 | s5 => DD x39 x47 | s6 => DD x39 x48 | s7 => DD x39 x49 | s8 => DD x39 x50 | s9 => DD x39 x51 | s10 => DD x39 x52 | s11 => DD x39 x53 | s12 => DD x39 x54 | s13 => DD x39 x55 | s14 => DD x39 x56 | s15 => DD x39 x57 | s16 => DD x39 x58 | s17 => DD x39 x59 | s18 => DD x39 x60 | s19 => DD x39 x61 | s20 => DD x39 x62 | s21 => DD x39 x63 | s22 => DD x40 x0 | s23 => DD x40 x1 | s24 => DD x40 x2 | s25 => DD x40 x3 | s26 => DD x40 x4 | s27 => DD x40 x5 | s28 => DD x40 x6 | s29 => DD x40 x7 | s30 => DD x40 x8 | s31 => DD x40 x9 | s32 => DD x40 x10 | s33 => DD x40 x11 | s34 => DD x40 x12 | s35 => DD x40 x13 | s36 => DD x40 x14 | s37 => DD x40 x15 | s38 => DD x40 x16 | s39 => DD x40 x17 | s40 => DD x40 x18 | s41 => DD x40 x19 | s42 => DD x40 x20 | s43 => DD x40 x21 | s44 => DD x40 x22 | s45 => DD x40 x23 | s46 => DD x40 x24 | s47 => DD x40 x25 | s48 => DD x40 x26 | s49 => DD x40 x27 | s50 => DD x40 x28 | s51 => DD x40 x29 | s52 => DD x40 x30 | s53 => DD x40 x31 | s54 => DD x40 x32 | s55 => DD x40 x33 | s56 => DD x40 x34 | s57 => DD x40 x35 | s58 => DD x40 x36 | s59 => DD x40 x37 | s60 => DD x40 x38 | s61 => DD x40 x39 | s62 => DD x40 x40 | s63 => DD x40 x41 | s64 => DD x40 x42 | s65 => DD x40 x43 | s66 => DD x40 x44 | s67 => DD x40 x45 | s68 => DD x40 x46 | s69 => DD x40 x47 | s70 => DD x40 x48 | s71 => DD x40 x49 | s72 => DD x40 x50 | s73 => DD x40 x51 | s74 => DD x40 x52 | s75 => DD x40 x53 | s76 => DD x40 x54 | s77 => DD x40 x55 | s78 => DD x40 x56 | s79 => DD x40 x57 | s80 => DD x40 x58 | s81 => DD x40 x59 | s82 => DD x40 x60 | s83 => DD x40 x61 | s84 => DD x40 x62 | s85 => DD x40 x63 | s86 => DD x41 x0 | s87 => DD x41 x1 | s88 => DD x41 x2 | s89 => DD x41 x3 | s90 => DD x41 x4 | s91 => DD x41 x5 | s92 => DD x41 x6 | s93 => DD x41 x7 | s94 => DD x41 x8 | s95 => DD x41 x9 | s96 => DD x41 x10 | s97 => DD x41 x11 | s98 => DD x41 x12 | s99 => DD x41 x13 | s100 => DD x41 x14 | s101 => DD x41 x15 | s102 => DD x41 x16 | s103 => DD x41 x17 | s104 => DD x41 x18 | s105 => DD x41 x19 | s106 => DD x41 x20 | s107 => DD x41 x21 | s108 => DD x41 x22 | s109 => DD x41 x23 | s110 => DD x41 x24 | s111 => DD x41 x25 | s112 => DD x41 x26 | s113 => DD x41 x27 | s114 => DD x41 x28 | s115 => DD x41 x29 | s116 => DD x41 x30 | s117 => DD x41 x31 | s118 => DD x41 x32 | s119 => DD x41 x33 | s120 => DD x41 x34 | s121 => DD x41 x35 | s122 => DD x41 x36 | s123 => DD x41 x37 | s124 => DD x41 x38 | s125 => DD x41 x39 | s126 => DD x41 x40 end.
Definition m2542 (c : sum2) : dd := match c with s0 => DD x39 x46 | s1 => DD x39 x47 | s2 => DD x39 x48 | s3 => DD x39 x49 | s4 => DD x39 x50 | s5 => DD x39 x51 | s6 => DD x39 x52 | s7 => DD x39 x53 | s8 => DD x39 x54 | s9 => DD x39 x55 | s10 => DD x39 x56 | s11 => DD x39 x57 | s12 => DD x39 x58 | s13 => DD x39 x59 | s14 => DD x39 x60 | s15 => DD x39 x61 | s16 => DD x39 x62 | s17 => DD x39 x63 | s18 => DD x40 x0 | s19 => DD x40 x1 | s20 => DD x40 x2 | s21 => DD x40 x3 | s22 => DD x40 x4 | s23 => DD x40 x5 | s24 => DD x40 x6 | s25 => DD x40 x7 | s26 => DD x40 x8 | s27 => DD x40 x9 | s28 => DD x40 x10 | s29 => DD x40 x11 | s30 => DD x40 x12 | s31 => DD x40 x13 | s32 => DD x40 x14 | s33 => DD x40 x15 | s34 => DD x40 x16 | s35 => DD x40 x17 | s36 => DD x40 x18 | s37 => DD x40 x19 | s38 => DD x40 x20 | s39 => DD x40 x21 | s40 => DD x40 x22 | s41 => DD x40 x23 | s42 => DD x40 x24 | s43 => DD x40 x25 | s44 => DD x40 x26 | s45 => DD x40 x27 | s46 => DD x40 x28 | s47 => DD x40 x29 | s48 => DD x40 x30 | s49 => DD x40 x31 | s50 => DD x40 x32 | s51 => DD x40 x33 | s52 => DD x40 x34 | s53 => DD x40 x35 | s54 => DD x40 x36 | s55 => DD x40 x37 | s56 => DD x40 x38 | s57 => DD x40 x39 | s58 => DD x40 x40 | s59 => DD x40 x41 | s60 => DD x40 x42 | s61 => DD x40 x43 | s62 => DD x40 x44 | s63 => DD x40 x45 | s64 => DD x40 x46 | s65 => DD x40 x47 | s66 => DD x40 x48 | s67 => DD x40 x49 | s68 => DD x40 x50 | s69 => DD x40 x51 | s70 => DD x40 x52 | s71 => DD x40 x53 | s72 => DD x40 x54 | s73 => DD x40 x55 | s74 => DD x40 x56 | s75 => DD x40 x57 | s76 => DD x40 x58 | s77 => DD x40 x59 | s78 => DD x40 x60 | s79 => DD x40 x61 | s80 => DD x40 x62 | s81 => DD x40 x63 | s82 => DD x41 x0 | s83 => DD x41 x1 | s84 => DD x41 x2 | s85 => DD x41 x3 | s86 => DD x41 x4 | s87 => DD x41 x5 | s88 => DD x41 x6 | s89 => DD x41 x7 | s90 => DD x41 x8 | s91 => DD x41 x9 | s92 => DD x41 x10 | s93 => DD x41 x11 | s94 => DD x41 x12 | s95 => DD x41 x13 | s96 => DD x41 x14 | s97 => DD x41 x15 | s98 => DD x41 x16 | s99 => DD x41 x17 | s100 => DD x41 x18 | s101 => DD x41 x19 | s102 => DD x41 x20 | s103 => DD x41 x21 | s104 => DD x41 x22 | s105 => DD x41 x23 | s106 => DD x41 x24 | s107 => DD x41 x25 | s108 => DD x41 x26 | s109 => DD x41 x27 | s110 => DD x41 x28 | s111 => DD x41 x29 | s112 => DD x41 x30 | s113 => DD x41 x31 | s114 => DD x41 x32 | s115 => DD x41 x33 | s116 => DD x41 x34 | s117 => DD x41 x35 | s118 => DD x41 x36 | s119 => DD x41 x37 | s120 => DD x41 x38 | s121 => DD x41 x39 | s122 => DD x41 x40 | s123 => DD x41 x41 | s124 => DD x41 x42 | s125 => DD x41 x43 | s126 => DD x41 x44 end.
Definition m2544 (c : sum2) : dd := match c with s0 => DD x39 x48 | s1 => DD x39 x49 | s2 => DD x39 x50 | s3 => DD x39 x51 | s4 => DD x39 x52 | s5 => DD x39 x53 | s6 => DD x39 x54 | s7 => DD x39 x55 | s8 => DD x39 x56 | s9 => DD x39 x57 | s10 => DD x39 x58 | s11 => DD x39 x59 | s12 => DD x39 x60 | s13 => DD x39 x61 | s14 => DD x39 x62 | s15 => DD x39 x63 | s16 => DD x40 x0 | s17 => DD x40 x1 | s18 => DD x40 x2 | s19 => DD x40 x3 | s20 => DD x40 x4 | s21 => DD x40 x5 | s22 => DD x40 x6 | s23 => DD x40 x7 | s24 => DD x40 x8 | s25 => DD x40 x9 | s26 => DD x40 x10 | s27 => DD x40 x11 | s28 => DD x40 x12 | s29 => DD x40 x13 | s30 => DD x40 x14 | s31 => DD x40 x15 | s32 => DD x40 x16 | s33 => DD x40 x17 | s34 => DD x40 x18 | s35 => DD x40 x19 | s36 => DD x40 x20 | s37 => DD x40 x21 | s38 => DD x40 x22 | s39 => DD x40 x23 | s40 => DD x40 x24 | s41 => DD x40 x25 | s42 => DD x40 x26 | s43 => DD x40 x27 | s44 => DD x40 x28 | s45 => DD x40 x29 | s46 => DD x40 x30 | s47 => DD x40 x31 | s48 => DD x40 x32 | s49 => DD x40 x33 | s50 => DD x40 x34 | s51 => DD x40 x35 | s52 => DD x40 x36 | s53 => DD x40 x37 | s54 => DD x40 x38 | s55 => DD x40 x39 | s56 => DD x40 x40 | s57 => DD x40 x41 | s58 => DD x40 x42 | s59 => DD x40 x43 | s60 => DD x40 x44 | s61 => DD x40 x45 | s62 => DD x40 x46 | s63 => DD x40 x47 | s64 => DD x40 x48 | s65 => DD x40 x49 | s66 => DD x40 x50 | s67 => DD x40 x51 | s68 => DD x40 x52 | s69 => DD x40 x53 | s70 => DD x40 x54 | s71 => DD x40 x55 | s72 => DD x40 x56 | s73 => DD x40 x57 | s74 => DD x40 x58 | s75 => DD x40 x59 | s76 => DD x40 x60 | s77 => DD x40 x61 | s78 => DD x40 x62 | s79 => DD x40 x63 | s80 => DD x41 x0 | s81 => DD x41 x1 | s82 => DD x41 x2 | s83 => DD x41 x3 | s84 => DD x41 x4 | s85 => DD x41 x5 | s86 => DD x41 x6 | s87 => DD x41 x7 | s88 => DD x41 x8 | s89 => DD x41 x9 | s90 => DD x41 x10 | s91 => DD x41 x11 | s92 => DD x41 x12 | s93 => DD x41 x13 | s94 => DD x41 x14 | s95 => DD x41 x15 | s96 => DD x41 x16 | s97 => DD x41 x17 | s98 => DD x41 x18 | s99 => DD x41 x19 | s100 => DD x41 x20 | s101 => DD x41 x21 | s102 => DD x41 x22 | s103 => DD x41 x23 | s104 => DD x41 x24 | s105 => DD x41 x25 | s106 => DD x41 x26 | s107 => DD x41 x27 | s108 => DD x41 x28 | s109 => DD x41 x29 | s110 => DD x41 x30 | s111 => DD x41 x31 | s112 => DD x41 x32 | s113 => DD x41 x33 | s114 => DD x41 x34 | s115 => DD x41 x35 | s116 => DD x41 x36 | s117 => DD x41 x37 | s118 => DD x41 x38 | s119 => DD x41 x39 | s120 => DD x41 x40 | s121 => DD x41 x41 | s122 => DD x41 x42 | s123 => DD x41 x43 | s124 => DD x41 x44 | s125 => DD x41 x45 | s126 => DD x41 x46 end.
Definition m2548 (c : sum2) : dd := match c with s0 => DD x39 x52 | s1 => DD x39 x53 | s2 => DD x39 x54 | s3 => DD x39 x55 | s4 => DD x39 x56 | s5 => DD x39 x57 | s6 => DD x39 x58 | s7 => DD x39 x59 | s8 => DD x39 x60 | s9 => DD x39 x61 | s10 => DD x39 x62 | s11 => DD x39 x63 | s12 => DD x40 x0 | s13 => DD x40 x1 | s14 => DD x40 x2 | s15 => DD x40 x3 | s16 => DD x40 x4 | s17 => DD x40 x5 | s18 => DD x40 x6 | s19 => DD x40 x7 | s20 => DD x40 x8 | s21 => DD x40 x9 | s22 => DD x40 x10 | s23 => DD x40 x11 | s24 => DD x40 x12 | s25 => DD x40 x13 | s26 => DD x40 x14 | s27 => DD x40 x15 | s28 => DD x40 x16 | s29 => DD x40 x17 | s30 => DD x40 x18 | s31 => DD x40 x19 | s32 => DD x40 x20 | s33 => DD x40 x21 | s34 => DD x40 x22 | s35 => DD x40 x23 | s36 => DD x40 x24 | s37 => DD x40 x25 | s38 => DD x40 x26 | s39 => DD x40 x27 | s40 => DD x40 x28 | s41 => DD x40 x29 | s42 => DD x40 x30 | s43 => DD x40 x31 | s44 => DD x40 x32 | s45 => DD x40 x33 | s46 => DD x40 x34 | s47 => DD x40 x35 | s48 => DD x40 x36 | s49 => DD x40 x37 | s50 => DD x40 x38 | s51 => DD x40 x39 | s52 => DD x40 x40 | s53 => DD x40 x41 | s54 => DD x40 x42 | s55 => DD x40 x43 | s56 => DD x40 x44 | s57 => DD x40 x45 | s58 => DD x40 x46 | s59 => DD x40 x47 | s60 => DD x40 x48 | s61 => DD x40 x49 | s62 => DD x40 x50 | s63 => DD x40 x51 | s64 => DD x40 x52 | s65 => DD x40 x53 | s66 => DD x40 x54 | s67 => DD x40 x55 | s68 => DD x40 x56 | s69 => DD x40 x57 | s70 => DD x40 x58 | s71 => DD x40 x59 | s72 => DD x40 x60 | s73 => DD x40 x61 | s74 => DD x40 x62 | s75 => DD x40 x63 | s76 => DD x41 x0 | s77 => DD x41 x1 | s78 => DD x41 x2 | s79 => DD x41 x3 | s80 => DD x41 x4 | s81 => DD x41 x5 | s82 => DD x41 x6 | s83 => DD x41 x7 | s84 => DD x41 x8 | s85 => DD x41 x9 | s86 => DD x41 x10 | s87 => DD x41 x11 | s88 => DD x41 x12 | s89 => DD x41 x13 | s90 => DD x41 x14 | s91 => DD x41 x15 | s92 => DD x41 x16 | s93 => DD x41 x17 | s94 => DD x41 x18 | s95 => DD x41 x19 | s96 => DD x41 x20 | s97 => DD x41 x21 | s98 => DD x41 x22 | s99 => DD x41 x23 | s100 => DD x41 x24 | s101 => DD x41 x25 | s102 => DD x41 x26 | s103 => DD x41 x27 | s104 => DD x41 x28 | s105 => DD x41 x29 | s106 => DD x41 x30 | s107 => DD x41 x31 | s108 => DD x41 x32 | s109 => DD x41 x33 | s110 => DD x41 x34 | s111 => DD x41 x35 | s112 => DD x41 x36 | s113 => DD x41 x37 | s114 => DD x41 x38 | s115 => DD x41 x39 | s116 => DD x41 x40 | s117 => DD x41 x41 | s118 => DD x41 x42 | s119 => DD x41 x43 | s120 => DD x41 x44 | s121 => DD x41 x45 | s122 => DD x41 x46 | s123 => DD x41 x47 | s124 => DD x41 x48 | s125 => DD x41 x49 | s126 => DD x41 x50 end.
Definition m2550 (c : sum2) : dd := match c with s0 => DD x39 x54 | s1 => DD x39 x55 | s2 => DD x39 x56 | s3 => DD x39 x57 | s4 => DD x39 x58 | s5 => DD x39 x59 | s6 => DD x39 x60 | s7 => DD x39 x61 | s8 => DD x39 x62 | s9 => DD x39 x63 | s10 => DD x40 x0 | s11 => DD x40 x1 | s12 => DD x40 x2 | s13 => DD x40 x3 | s14 => DD x40 x4 | s15 => DD x40 x5 | s16 => DD x40 x6 | s17 => DD x40 x7 | s18 => DD x40 x8 | s19 => DD x40 x9 | s20 => DD x40 x10 | s21 => DD x40 x11 | s22 => DD x40 x12 | s23 => DD x40 x13 | s24 => DD x40 x14 | s25 => DD x40 x15 | s26 => DD x40 x16 | s27 => DD x40 x17 | s28 => DD x40 x18 | s29 => DD x40 x19 | s30 => DD x40 x20 | s31 => DD x40 x21 | s32 => DD x40 x22 | s33 => DD x40 x23 | s34 => DD x40 x24 | s35 => DD x40 x25 | s36 => DD x40 x26 | s37 => DD x40 x27 | s38 => DD x40 x28 | s39 => DD x40 x29 | s40 => DD x40 x30 | s41 => DD x40 x31 | s42 => DD x40 x32 | s43 => DD x40 x33 | s44 => DD x40 x34 | s45 => DD x40 x35 | s46 => DD x40 x36 | s47 => DD x40 x37 | s48 => DD x40 x38 | s49 => DD x40 x39 | s50 => DD x40 x40 | s51 => DD x40 x41 | s52 => DD x40 x42 | s53 => DD x40 x43 | s54 => DD x40 x44 | s55 => DD x40 x45 | s56 => DD x40 x46 | s57 => DD x40 x47 | s58 => DD x40 x48 | s59 => DD x40 x49 | s60 => DD x40 x50 | s61 => DD x40 x51 | s62 => DD x40 x52 | s63 => DD x40 x53 | s64 => DD x40 x54 | s65 => DD x40 x55 | s66 => DD x40 x56 | s67 => DD x40 x57 | s68 => DD x40 x58 | s69 => DD x40 x59 | s70 => DD x40 x60 | s71 => DD x40 x61 | s72 => DD x40 x62 | s73 => DD x40 x63 | s74 => DD x41 x0 | s75 => DD x41 x1 | s76 => DD x41 x2 | s77 => DD x41 x3 | s78 => DD x41 x4 | s79 => DD x41 x5 | s80 => DD x41 x6 | s81 => DD x41 x7 | s82 => DD x41 x8 | s83 => DD x41 x9 | s84 => DD x41 x10 | s85 => DD x41 x11 | s86 => DD x41 x12 | s87 => DD x41 x13 | s88 => DD x41 x14 | s89 => DD x41 x15 | s90 => DD x41 x16 | s91 => DD x41 x17 | s92 => DD x41 x18 | s93 => DD x41 x19 | s94 => DD x41 x20 | s95 => DD x41 x21 | s96 => DD x41 x22 | s97 => DD x41 x23 | s98 => DD x41 x24 | s99 => DD x41 x25 | s100 => DD x41 x26 | s101 => DD x41 x27 | s102 => DD x41 x28 | s103 => DD x41 x29 | s104 => DD x41 x30 | s105 => DD x41 x31 | s106 => DD x41 x32 | s107 => DD x41 x33 | s108 => DD x41 x34 | s109 => DD x41 x35 | s110 => DD x41 x36 | s111 => DD x41 x37 | s112 => DD x41 x38 | s113 => DD x41 x39 | s114 => DD x41 x40 | s115 => DD x41 x41 | s116 => DD x41 x42 | s117 => DD x41 x43 | s118 => DD x41 x44 | s119 => DD x41 x45 | s120 => DD x41 x46 | s121 => DD x41 x47 | s122 => DD x41 x48 | s123 => DD x41 x49 | s124 => DD x41 x50 | s125 => DD x41 x51 | s126 => DD x41 x52 end.
Definition m2552 (c : sum2) : dd := match c with s0 => DD x39 x56 | s1 => DD x39 x57 | s2 => DD x39 x58 | s3 => DD x39 x59 | s4 => DD x39 x60 | s5 => DD x39 x61 | s6 => DD x39 x62 | s7 => DD x39 x63 | s8 => DD x40 x0 | s9 => DD x40 x1 | s10 => DD x40 x2 | s11 => DD x40 x3 | s12 => DD x40 x4 | s13 => DD x40 x5 | s14 => DD x40 x6 | s15 => DD x40 x7 | s16 => DD x40 x8 | s17 => DD x40 x9 | s18 => DD x40 x10 | s19 => DD x40 x11 | s20 => DD x40 x12 | s21 => DD x40 x13 | s22 => DD x40 x14 | s23 => DD x40 x15 | s24 => DD x40 x16 | s25 => DD x40 x17 | s26 => DD x40 x18 | s27 => DD x40 x19 | s28 => DD x40 x20 | s29 => DD x40 x21 | s30 => DD x40 x22 | s31 => DD x40 x23 | s32 => DD x40 x24 | s33 => DD x40 x25 | s34 => DD x40 x26 | s35 => DD x40 x27 | s36 => DD x40 x28 | s37 => DD x40 x29 | s38 => DD x40 x30 | s39 => DD x40 x31 | s40 => DD x40 x32 | s41 => DD x40 x33 | s42 => DD x40 x34 | s43 => DD x40 x35 | s44 => DD x40 x36 | s45 => DD x40 x37 | s46 => DD x40 x38 | s47 => DD x40 x39 | s48 => DD x40 x40 | s49 => DD x40 x41 | s50 => DD x40 x42 | s51 => DD x40 x43 | s52 => DD x40 x44 | s53 => DD x40 x45 | s54 => DD x40 x46 | s55 => DD x40 x47 | s56 => DD x40 x48 | s57 => DD x40 x49 | s58 => DD x40 x50 | s59 => DD x40 x51 | s60 => DD x40 x52 | s61 => DD x40 x53 | s62 => DD x40 x54 | s63 => DD x40 x55 | s64 => DD x40 x56 | s65 => DD x40 x57 | s66 => DD x40 x58 | s67 => DD x40 x59 | s68 => DD x40 x60 | s69 => DD x40 x61 | s70 => DD x40 x62 | s71 => DD x40 x63 | s72 => DD x41 x0 | s73 => DD x41 x1 | s74 => DD x41 x2 | s75 => DD x41 x3 | s76 => DD x41 x4 | s77 => DD x41 x5 | s78 => DD x41 x6 | s79 => DD x41 x7 | s80 => DD x41 x8 | s81 => DD x41 x9 | s82 => DD x41 x10 | s83 => DD x41 x11 | s84 => DD x41 x12 | s85 => DD x41 x13 | s86 => DD x41 x14 | s87 => DD x41 x15 | s88 => DD x41 x16 | s89 => DD x41 x17 | s90 => DD x41 x18 | s91 => DD x41 x19 | s92 => DD x41 x20 | s93 => DD x41 x21 | s94 => DD x41 x22 | s95 => DD x41 x23 | s96 => DD x41 x24 | s97 => DD x41 x25 | s98 => DD x41 x26 | s99 => DD x41 x27 | s100 => DD x41 x28 | s101 => DD x41 x29 | s102 => DD x41 x30 | s103 => DD x41 x31 | s104 => DD x41 x32 | s105 => DD x41 x33 | s106 => DD x41 x34 | s107 => DD x41 x35 | s108 => DD x41 x36 | s109 => DD x41 x37 | s110 => DD x41 x38 | s111 => DD x41 x39 | s112 => DD x41 x40 | s113 => DD x41 x41 | s114 => DD x41 x42 | s115 => DD x41 x43 | s116 => DD x41 x44 | s117 => DD x41 x45 | s118 => DD x41 x46 | s119 => DD x41 x47 | s120 => DD x41 x48 | s121 => DD x41 x49 | s122 => DD x41 x50 | s123 => DD x41 x51 | s124 => DD x41 x52 | s125 => DD x41 x53 | s126 => DD x41 x54 end.
Definition m2562 (c : sum2) : dd := match c with s0 => DD x40 x2 | s1 => DD x40 x3 | s2 => DD x40 x4 | s3 => DD x40 x5 | s4 => DD x40 x6 | s5 => DD x40 x7 | s6 => DD x40 x8 | s7 => DD x40 x9 | s8 => DD x40 x10 | s9 => DD x40 x11 | s10 => DD x40 x12 | s11 => DD x40 x13 | s12 => DD x40 x14 | s13 => DD x40 x15 | s14 => DD x40 x16 | s15 => DD x40 x17 | s16 => DD x40 x18 | s17 => DD x40 x19 | s18 => DD x40 x20 | s19 => DD x40 x21 | s20 => DD x40 x22 | s21 => DD x40 x23 | s22 => DD x40 x24 | s23 => DD x40 x25 | s24 => DD x40 x26 | s25 => DD x40 x27 | s26 => DD x40 x28 | s27 => DD x40 x29 | s28 => DD x40 x30 | s29 => DD x40 x31 | s30 => DD x40 x32 | s31 => DD x40 x33 | s32 => DD x40 x34 | s33 => DD x40 x35 | s34 => DD x40 x36 | s35 => DD x40 x37 | s36 => DD x40 x38 | s37 => DD x40 x39 | s38 => DD x40 x40 | s39 => DD x40 x41 | s40 => DD x40 x42 | s41 => DD x40 x43 | s42 => DD x40 x44 | s43 => DD x40 x45 | s44 => DD x40 x46 | s45 => DD x40 x47 | s46 => DD x40 x48 | s47 => DD x40 x49 | s48 => DD x40 x50 | s49 => DD x40 x51 | s50 => DD x40 x52 | s51 => DD x40 x53 | s52 => DD x40 x54 | s53 => DD x40 x55 | s54 => DD x40 x56 | s55 => DD x40 x57 | s56 => DD x40 x58 | s57 => DD x40 x59 | s58 => DD x40 x60 | s59 => DD x40 x61 | s60 => DD x40 x62 | s61 => DD x40 x63 | s62 => DD x41 x0 | s63 => DD x41 x1 | s64 => DD x41 x2 | s65 => DD x41 x3 | s66 => DD x41 x4 | s67 => DD x41 x5 | s68 => DD x41 x6 | s69 => DD x41 x7 | s70 => DD x41 x8 | s71 => DD x41 x9 | s72 => DD x41 x10 | s73 => DD x41 x11 | s74 => DD x41 x12 | s75 => DD x41 x13 | s76 => DD x41 x14 | s77 => DD x41 x15 | s78 => DD x41 x16 | s79 => DD x41 x17 | s80 => DD x41 x18 | s81 => DD x41 x19 | s82 => DD x41 x20 | s83 => DD x41 x21 | s84 => DD x41 x22 | s85 => DD x41 x23 | s86 => DD x41 x24 | s87 => DD x41 x25 | s88 => DD x41 x26 | s89 => DD x41 x27 | s90 => DD x41 x28 | s91 => DD x41 x29 | s92 => DD x41 x30 | s93 => DD x41 x31 | s94 => DD x41 x32 | s95 => DD x41 x33 | s96 => DD x41 x34 | s97 => DD x41 x35 | s98 => DD x41 x36 | s99 => DD x41 x37 | s100 => DD x41 x38 | s101 => DD x41 x39 | s102 => DD x41 x40 | s103 => DD x41 x41 | s104 => DD x41 x42 | s105 => DD x41 x43 | s106 => DD x41 x44 | s107 => DD x41 x45 | s108 => DD x41 x46 | s109 => DD x41 x47 | s110 => DD x41 x48 | s111 => DD x41 x49 | s112 => DD x41 x50 | s113 => DD x41 x51 | s114 => DD x41 x52 | s115 => DD x41 x53 | s116 => DD x41 x54 | s117 => DD x41 x55 | s118 => DD x41 x56 | s119 => DD x41 x57 | s120 => DD x41 x58 | s121 => DD x41 x59 | s122 => DD x41 x60 | s123 => DD x41 x61 | s124 => DD x41 x62 | s125 => DD x41 x63 | s126 => DD x42 x0 end.
Definition m2565 (c : sum2) : dd := match c with s0 => DD x40 x5 | s1 => DD x40 x6 | s2 => DD x40 x7 | s3 => DD x40 x8 | s4 => DD x40 x9 | s5 => DD x40 x10 | s6 => DD x40 x11 | s7 => DD x40 x12 | s8 => DD x40 x13 | s9 => DD x40 x14 | s10 => DD x40 x15 | s11 => DD x40 x16 | s12 => DD x40 x17 | s13 => DD x40 x18 | s14 => DD x40 x19 | s15 => DD x40 x20 | s16 => DD x40 x21 | s17 => DD x40 x22 | s18 => DD x40 x23 | s19 => DD x40 x24 | s20 => DD x40 x25 | s21 => DD x40 x26 | s22 => DD x40 x27 | s23 => DD x40 x28 | s24 => DD x40 x29 | s25 => DD x40 x30 | s26 => DD x40 x31 | s27 => DD x40 x32 | s28 => DD x40 x33 | s29 => DD x40 x34 | s30 => DD x40 x35 | s31 => DD x40 x36 | s32 => DD x40 x37 | s33 => DD x40 x38 | s34 => DD x40 x39 | s35 => DD x40 x40 | s36 => DD x40 x41 | s37 => DD x40 x42 | s38 => DD x40 x43 | s39 => DD x40 x44 | s40 => DD x40 x45 | s41 => DD x40 x46 | s42 => DD x40 x47 | s43 => DD x40 x48 | s44 => DD x40 x49 | s45 => DD x40 x50 | s46 => DD x40 x51 | s47 => DD x40 x52 | s48 => DD x40 x53 | s49 => DD x40 x54 | s50 => DD x40 x55 | s51 => DD x40 x56 | s52 => DD x40 x57 | s53 => DD x40 x58 | s54 => DD x40 x59 | s55 => DD x40 x60 | s56 => DD x40 x61 | s57 => DD x40 x62 | s58 => DD x40 x63 | s59 => DD x41 x0 | s60 => DD x41 x1 | s61 => DD x41 x2 | s62 => DD x41 x3 | s63 => DD x41 x4 | s64 => DD x41 x5 | s65 => DD x41 x6 | s66 => DD x41 x7 | s67 => DD x41 x8 | s68 => DD x41 x9 | s69 => DD x41 x10 | s70 => DD x41 x11 | s71 => DD x41 x12 | s72 => DD x41 x13 | s73 => DD x41 x14 | s74 => DD x41 x15 | s75 => DD x41 x16 | s76 => DD x41 x17 | s77 => DD x41 x18 | s78 => DD x41 x19 | s79 => DD x41 x20 | s80 => DD x41 x21 | s81 => DD x41 x22 | s82 => DD x41 x23 | s83 => DD x41 x24 | s84 => DD x41 x25 | s85 => DD x41 x26 | s86 => DD x41 x27 | s87 => DD x41 x28 | s88 => DD x41 x29 | s89 => DD x41 x30 | s90 => DD x41 x31 | s91 => DD x41 x32 | s92 => DD x41 x33 | s93 => DD x41 x34 | s94 => DD x41 x35 | s95 => DD x41 x36 | s96 => DD x41 x37 | s97 => DD x41 x38 | s98 => DD x41 x39 | s99 => DD x41 x40 | s100 => DD x41 x41 | s101 => DD x41 x42 | s102 => DD x41 x43 | s103 => DD x41 x44 | s104 => DD x41 x45 | s105 => DD x41 x46 | s106 => DD x41 x47 | s107 => DD x41 x48 | s108 => DD x41 x49 | s109 => DD x41 x50 | s110 => DD x41 x51 | s111 => DD x41 x52 | s112 => DD x41 x53 | s113 => DD x41 x54 | s114 => DD x41 x55 | s115 => DD x41 x56 | s116 => DD x41 x57 | s117 => DD x41 x58 | s118 => DD x41 x59 | s119 => DD x41 x60 | s120 => DD x41 x61 | s121 => DD x41 x62 | s122 => DD x41 x63 | s123 => DD x42 x0 | s124 => DD x42 x1 | s125 => DD x42 x2 | s126 => DD x42 x3 end.
Definition m2576 (c : sum2) : dd := match c with s0 => DD x40 x16 | s1 => DD x40 x17 | s2 => DD x40 x18 | s3 => DD x40 x19 | s4 => DD x40 x20 | s5 => DD x40 x21 | s6 => DD x40 x22 | s7 => DD x40 x23 | s8 => DD x40 x24 | s9 => DD x40 x25 | s10 => DD x40 x26 | s11 => DD x40 x27 | s12 => DD x40 x28 | s13 => DD x40 x29 | s14 => DD x40 x30 | s15 => DD x40 x31 | s16 => DD x40 x32 | s17 => DD x40 x33 | s18 => DD x40 x34 | s19 => DD x40 x35 | s20 => DD x40 x36 | s21 => DD x40 x37 | s22 => DD x40 x38 | s23 => DD x40 x39 | s24 => DD x40 x40 | s25 => DD x40 x41 | s26 => DD x40 x42 | s27 => DD x40 x43 | s28 => DD x40 x44 | s29 => DD x40 x45 | s30 => DD x40 x46 | s31 => DD x40 x47 | s32 => DD x40 x48 | s33 => DD x40 x49 | s34 => DD x40 x50 | s35 => DD x40 x51 | s36 => DD x40 x52 | s37 => DD x40 x53 | s38 => DD x40 x54 | s39 => DD x40 x55 | s40 => DD x40 x56 | s41 => DD x40 x57 | s42 => DD x40 x58 | s43 => DD x40 x59 | s44 => DD x40 x60 | s45 => DD x40 x61 | s46 => DD x40 x62 | s47 => DD x40 x63 | s48 => DD x41 x0 | s49 => DD x41 x1 | s50 => DD x41 x2 | s51 => DD x41 x3 | s52 => DD x41 x4 | s53 => DD x41 x5 | s54 => DD x41 x6 | s55 => DD x41 x7 | s56 => DD x41 x8 | s57 => DD x41 x9 | s58 => DD x41 x10 | s59 => DD x41 x11 | s60 => DD x41 x12 | s61 => DD x41 x13 | s62 => DD x41 x14 | s63 => DD x41 x15 | s64 => DD x41 x16 | s65 => DD x41 x17 | s66 => DD x41 x18 | s67 => DD x41 x19 | s68 => DD x41 x20 | s69 => DD x41 x21 | s70 => DD x41 x22 | s71 => DD x41 x23 | s72 => DD x41 x24 | s73 => DD x41 x25 | s74 => DD x41 x26 | s75 => DD x41 x27 | s76 => DD x41 x28 | s77 => DD x41 x29 | s78 => DD x41 x30 | s79 => DD x41 x31 | s80 => DD x41 x32 | s81 => DD x41 x33 | s82 => DD x41 x34 | s83 => DD x41 x35 | s84 => DD x41 x36 | s85 => DD x41 x37 | s86 => DD x41 x38 | s87 => DD x41 x39 | s88 => DD x41 x40 | s89 => DD x41 x41 | s90 => DD x41 x42 | s91 => DD x41 x43 | s92 => DD x41 x44 | s93 => DD x41 x45 | s94 => DD x41 x46 | s95 => DD x41 x47 | s96 => DD x41 x48 | s97 => DD x41 x49 | s98 => DD x41 x50 | s99 => DD x41 x51 | s100 => DD x41 x52 | s101 => DD x41 x53 | s102 => DD x41 x54 | s103 => DD x41 x55 | s104 => DD x41 x56 | s105 => DD x41 x57 | s106 => DD x41 x58 | s107 => DD x41 x59 | s108 => DD x41 x60 | s109 => DD x41 x61 | s110 => DD x41 x62 | s111 => DD x41 x63 | s112 => DD x42 x0 | s113 => DD x42 x1 | s114 => DD x42 x2 | s115 => DD x42 x3 | s116 => DD x42 x4 | s117 => DD x42 x5 | s118 => DD x42 x6 | s119 => DD x42 x7 | s120 => DD x42 x8 | s121 => DD x42 x9 | s122 => DD x42 x10 | s123 => DD x42 x11 | s124 => DD x42 x12 | s125 => DD x42 x13 | s126 => DD x42 x14 end.
Definition m2580 (c : sum2) : dd := match c with s0 => DD x40 x20 | s1 => DD x40 x21 | s2 => DD x40 x22 | s3 => DD x40 x23 | s4 => DD x40 x24 | s5 => DD x40 x25 | s6 => DD x40 x26 | s7 => DD x40 x27 | s8 => DD x40 x28 | s9 => DD x40 x29 | s10 => DD x40 x30 | s11 => DD x40 x31 | s12 => DD x40 x32 | s13 => DD x40 x33 | s14 => DD x40 x34 | s15 => DD x40 x35 | s16 => DD x40 x36 | s17 => DD x40 x37 | s18 => DD x40 x38 | s19 => DD x40 x39 | s20 => DD x40 x40 | s21 => DD x40 x41 | s22 => DD x40 x42 | s23 => DD x40 x43 | s24 => DD x40 x44 | s25 => DD x40 x45 | s26 => DD x40 x46 | s27 => DD x40 x47 | s28 => DD x40 x48 | s29 => DD x40 x49 | s30 => DD x40 x50 | s31 => DD x40 x51 | s32 => DD x40 x52 | s33 => DD x40 x53 | s34 => DD x40 x54 | s35 => DD x40 x55 | s36 => DD x40 x56 | s37 => DD x40 x57 | s38 => DD x40 x58 | s39 => DD x40 x59 | s40 => DD x40 x60 | s41 => DD x40 x61 | s42 => DD x40 x62 | s43 => DD x40 x63 | s44 => DD x41 x0 | s45 => DD x41 x1 | s46 => DD x41 x2 | s47 => DD x41 x3 | s48 => DD x41 x4 | s49 => DD x41 x5 | s50 => DD x41 x6 | s51 => DD x41 x7 | s52 => DD x41 x8 | s53 => DD x41 x9 | s54 => DD x41 x10 | s55 => DD x41 x11 | s56 => DD x41 x12 | s57 => DD x41 x13 | s58 => DD x41 x14 | s59 => DD x41 x15 | s60 => DD x41 x16 | s61 => DD x41 x17 | s62 => DD x41 x18 | s63 => DD x41 x19 | s64 => DD x41 x20 | s65 => DD x41 x21 | s66 => DD x41 x22 | s67 => DD x41 x23 | s68 => DD x41 x24 | s69 => DD x41 x25 | s70 => DD x41 x26 | s71 => DD x41 x27 | s72 => DD x41 x28 | s73 => DD x41 x29 | s74 => DD x41 x30 | s75 => DD x41 x31 | s76 => DD x41 x32 | s77 => DD x41 x33 | s78 => DD x41 x34 | s79 => DD x41 x35 | s80 => DD x41 x36 | s81 => DD x41 x37 | s82 => DD x41 x38 | s83 => DD x41 x39 | s84 => DD x41 x40 | s85 => DD x41 x41 | s86 => DD x41 x42 | s87 => DD x41 x43 | s88 => DD x41 x44 | s89 => DD x41 x45 | s90 => DD x41 x46 | s91 => DD x41 x47 | s92 => DD x41 x48 | s93 => DD x41 x49 | s94 => DD x41 x50 | s95 => DD x41 x51 | s96 => DD x41 x52 | s97 => DD x41 x53 | s98 => DD x41 x54 | s99 => DD x41 x55 | s100 => DD x41 x56 | s101 => DD x41 x57 | s102 => DD x41 x58 | s103 => DD x41 x59 | s104 => DD x41 x60 | s105 => DD x41 x61 | s106 => DD x41 x62 | s107 => DD x41 x63 | s108 => DD x42 x0 | s109 => DD x42 x1 | s110 => DD x42 x2 | s111 => DD x42 x3 | s112 => DD x42 x4 | s113 => DD x42 x5 | s114 => DD x42 x6 | s115 => DD x42 x7 | s116 => DD x42 x8 | s117 => DD x42 x9 | s118 => DD x42 x10 | s119 => DD x42 x11 | s120 => DD x42 x12 | s121 => DD x42 x13 | s122 => DD x42 x14 | s123 => DD x42 x15 | s124 => DD x42 x16 | s125 => DD x42 x17 | s126 => DD x42 x18 end.
Definition m2583 (c : sum2) : dd := match c with s0 => DD x40 x23 | s1 => DD x40 x24 | s2 => DD x40 x25 | s3 => DD x40 x26 | s4 => DD x40 x27 | s5 => DD x40 x28 | s6 => DD x40 x29 | s7 => DD x40 x30 | s8 => DD x40 x31 | s9 => DD x40 x32 | s10 => DD x40 x33 | s11 => DD x40 x34 | s12 => DD x40 x35 | s13 => DD x40 x36 | s14 => DD x40 x37 | s15 => DD x40 x38 | s16 => DD x40 x39 | s17 => DD x40 x40 | s18 => DD x40 x41 | s19 => DD x40 x42 | s20 => DD x40 x43 | s21 => DD x40 x44 | s22 => DD x40 x45 | s23 => DD x40 x46 | s24 => DD x40 x47 | s25 => DD x40 x48 | s26 => DD x40 x49 | s27 => DD x40 x50 | s28 => DD x40 x51 | s29 => DD x40 x52 | s30 => DD x40 x53 | s31 => DD x40 x54 | s32 => DD x40 x55 | s33 => DD x40 x56 | s34 => DD x40 x57 | s35 => DD x40 x58 | s36 => DD x40 x59 | s37 => DD x40 x60 | s38 => DD x40 x61 | s39 => DD x40 x62 | s40 => DD x40 x63 | s41 => DD x41 x0 | s42 => DD x41 x1 | s43 => DD x41 x2 | s44 => DD x41 x3 | s45 => DD x41 x4 | s46 => DD x41 x5 | s47 => DD x41 x6 | s48 => DD x41 x7 | s49 => DD x41 x8 | s50 => DD x41 x9 | s51 => DD x41 x10 | s52 => DD x41 x11 | s53 => DD x41 x12 | s54 => DD x41 x13 | s55 => DD x41 x14 | s56 => DD x41 x15 | s57 => DD x41 x16 | s58 => DD x41 x17 | s59 => DD x41 x18 | s60 => DD x41 x19 | s61 => DD x41 x20 | s62 => DD x41 x21 | s63 => DD x41 x22 | s64 => DD x41 x23 | s65 => DD x41 x24 | s66 => DD x41 x25 | s67 => DD x41 x26 | s68 => DD x41 x27 | s69 => DD x41 x28 | s70 => DD x41 x29 | s71 => DD x41 x30 | s72 => DD x41 x31 | s73 => DD x41 x32 | s74 => DD x41 x33 | s75 => DD x41 x34 | s76 => DD x41 x35 | s77 => DD x41 x36 | s78 => DD x41 x37 | s79 => DD x41 x38 | s80 => DD x41 x39 | s81 => DD x41 x40 | s82 => DD x41 x41 | s83 => DD x41 x42 | s84 => DD x41 x43 | s85 => DD x41 x44 | s86 => DD x41 x45 | s87 => DD x41 x46 | s88 => DD x41 x47 | s89 => DD x41 x48 | s90 => DD x41 x49 | s91 => DD x41 x50 | s92 => DD x41 x51 | s93 => DD x41 x52 | s94 => DD x41 x53 | s95 => DD x41 x54 | s96 => DD x41 x55 | s97 => DD x41 x56 | s98 => DD x41 x57 | s99 => DD x41 x58 | s100 => DD x41 x59 | s101 => DD x41 x60 | s102 => DD x41 x61 | s103 => DD x41 x62 | s104 => DD x41 x63 | s105 => DD x42 x0 | s106 => DD x42 x1 | s107 => DD x42 x2 | s108 => DD x42 x3 | s109 => DD x42 x4 | s110 => DD x42 x5 | s111 => DD x42 x6 | s112 => DD x42 x7 | s113 => DD x42 x8 | s114 => DD x42 x9 | s115 => DD x42 x10 | s116 => DD x42 x11 | s117 => DD x42 x12 | s118 => DD x42 x13 | s119 => DD x42 x14 | s120 => DD x42 x15 | s121 => DD x42 x16 | s122 => DD x42 x17 | s123 => DD x42 x18 | s124 => DD x42 x19 | s125 => DD x42 x20 | s126 => DD x42 x21 end.
Definition m2585 (c : sum2) : dd := match c with s0 => DD x40 x25 | s1 => DD x40 x26 | s2 => DD x40 x27 | s3 => DD x40 x28 | s4 => DD x40 x29 | s5 => DD x40 x30 | s6 => DD x40 x31 | s7 => DD x40 x32 | s8 => DD x40 x33 | s9 => DD x40 x34 | s10 => DD x40 x35 | s11 => DD x40 x36 | s12 => DD x40 x37 | s13 => DD x40 x38 | s14 => DD x40 x39 | s15 => DD x40 x40 | s16 => DD x40 x41 | s17 => DD x40 x42 | s18 => DD x40 x43 | s19 => DD x40 x44 | s20 => DD x40 x45 | s21 => DD x40 x46 | s22 => DD x40 x47 | s23 => DD x40 x48 | s24 => DD x40 x49 | s25 => DD x40 x50 | s26 => DD x40 x51 | s27 => DD x40 x52 | s28 => DD x40 x53 | s29 => DD x40 x54 | s30 => DD x40 x55 | s31 => DD x40 x56 | s32 => DD x40 x57 | s33 => DD x40 x58 | s34 => DD x40 x59 | s35 => DD x40 x60 | s36 => DD x40 x61 | s37 => DD x40 x62 | s38 => DD x40 x63 | s39 => DD x41 x0 | s40 => DD x41 x1 | s41 => DD x41 x2 | s42 => DD x41 x3 | s43 => DD x41 x4 | s44 => DD x41 x5 | s45 => DD x41 x6 | s46 => DD x41 x7 | s47 => DD x41 x8 | s48 => DD x41 x9 | s49 => DD x41 x10 | s50 => DD x41 x11 | s51 => DD x41 x12 | s52 => DD x41 x13 | s53 => DD x41 x14 | s54 => DD x41 x15 | s55 => DD x41 x16 | s56 => DD x41 x17 | s57 => DD x41 x18 | s58 => DD x41 x19 | s59 => DD x41 x20 | s60 => DD x41 x21 | s61 => DD x41 x22 | s62 => DD x41 x23 | s63 => DD x41 x24 | s64 => DD x41 x25 | s65 => DD x41 x26 | s66 => DD x41 x27 | s67 => DD x41 x28 | s68 => DD x41 x29 | s69 => DD x41 x30 | s70 => DD x41 x31 | s71 => DD x41 x32 | s72 => DD x41 x33 | s73 => DD x41 x34 | s74 => DD x41 x35 | s75 => DD x41 x36 | s76 => DD x41 x37 | s77 => DD x41 x38 | s78 => DD x41 x39 | s79 => DD x41 x40 | s80 => DD x41 x41 | s81 => DD x41 x42 | s82 => DD x41 x43 | s83 => DD x41 x44 | s84 => DD x41 x45 | s85 => DD x41 x46 | s86 => DD x41 x47 | s87 => DD x41 x48 | s88 => DD x41 x49 | s89 => DD x41 x50 | s90 => DD x41 x51 | s91 => DD x41 x52 | s92 => DD x41 x53 | s93 => DD x41 x54 | s94 => DD x41 x55 | s95 => DD x41 x56 | s96 => DD x41 x57 | s97 => DD x41 x58 | s98 => DD x41 x59 | s99 => DD x41 x60 | s100 => DD x41 x61 | s101 => DD x41 x62 | s102 => DD x41 x63 | s103 => DD x42 x0 | s104 => DD x42 x1 | s105 => DD x42 x2 | s106 => DD x42 x3 | s107 => DD x42 x4 | s108 => DD x42 x5 | s109 => DD x42 x6 | s110 => DD x42 x7 | s111 => DD x42 x8 | s112 => DD x42 x9 | s113 => DD x42 x10 | s114 => DD x42 x11 | s115 => DD x42 x12 | s116 => DD x42 x13 | s117 => DD x42 x14 | s118 => DD x42 x15 | s119 => DD x42 x16 | s120 => DD x42 x17 | s121 => DD x42 x18 | s122 => DD x42 x19 | s123 => DD x42 x20 | s124 => DD x42 x21 | s125 => DD x42 x22 | s126 => DD x42 x23 end.
Definition m2592 (c : sum2) : dd := match c with s0 => DD x40 x32 | s1 => DD x40 x33 | s2 => DD x40 x34 | s3 => DD x40 x35 | s4 => DD x40 x36 | s5 => DD x40 x37 | s6 => DD x40 x38 | s7 => DD x40 x39 | s8 => DD x40 x40 | s9 => DD x40 x41 | s10 => DD x40 x42 | s11 => DD x40 x43 | s12 => DD x40 x44 | s13 => DD x40 x45 | s14 => DD x40 x46 | s15 => DD x40 x47 | s16 => DD x40 x48 | s17 => DD x40 x49 | s18 => DD x40 x50 | s19 => DD x40 x51 | s20 => DD x40 x52 | s21 => DD x40 x53 | s22 => DD x40 x54 | s23 => DD x40 x55 | s24 => DD x40 x56 | s25 => DD x40 x57 | s26 => DD x40 x58 | s27 => DD x40 x59 | s28 => DD x40 x60 | s29 => DD x40 x61 | s30 => DD x40 x62 | s31 => DD x40 x63 | s32 => DD x41 x0 | s33 => DD x41 x1 | s34 => DD x41 x2 | s35 => DD x41 x3 | s36 => DD x41 x4 | s37 => DD x41 x5 | s38 => DD x41 x6 | s39 => DD x41 x7 | s40 => DD x41 x8 | s41 => DD x41 x9 | s42 => DD x41 x10 | s43 => DD x41 x11 | s44 => DD x41 x12 | s45 => DD x41 x13 | s46 => DD x41 x14 | s47 => DD x41 x15 | s48 => DD x41 x16 | s49 => DD x41 x17 | s50 => DD x41 x18 | s51 => DD x41 x19 | s52 => DD x41 x20 | s53 => DD x41 x21 | s54 => DD x41 x22 | s55 => DD x41 x23 | s56 => DD x41 x24 | s57 => DD x41 x25 | s58 => DD x41 x26 | s59 => DD x41 x27 | s60 => DD x41 x28 | s61 => DD x41 x29 | s62 => DD x41 x30 | s63 => DD x41 x31 | s64 => DD x41 x32 | s65 => DD x41 x33 | s66 => DD x41 x34 | s67 => DD x41 x35 | s68 => DD x41 x36 | s69 => DD x41 x37 | s70 => DD x41 x38 | s71 => DD x41 x39 | s72 => DD x41 x40 | s73 => DD x41 x41 | s74 => DD x41 x42 | s75 => DD x41 x43 | s76 => DD x41 x44 | s77 => DD x41 x45 | s78 => DD x41 x46 | s79 => DD x41 x47 | s80 => DD x41 x48 | s81 => DD x41 x49 | s82 => DD x41 x50 | s83 => DD x41 x51 | s84 => DD x41 x52 | s85 => DD x41 x53 | s86 => DD x41 x54 | s87 => DD x41 x55 | s88 => DD x41 x56 | s89 => DD x41 x57 | s90 => DD x41 x58 | s91 => DD x41 x59 | s92 => DD x41 x60 | s93 => DD x41 x61 | s94 => DD x41 x62 | s95 => DD x41 x63 | s96 => DD x42 x0 | s97 => DD x42 x1 | s98 => DD x42 x2 | s99 => DD x42 x3 | s100 => DD x42 x4 | s101 => DD x42 x5 | s102 => DD x42 x6 | s103 => DD x42 x7 | s104 => DD x42 x8 | s105 => DD x42 x9 | s106 => DD x42 x10 | s107 => DD x42 x11 | s108 => DD x42 x12 | s109 => DD x42 x13 | s110 => DD x42 x14 | s111 => DD x42 x15 | s112 => DD x42 x16 | s113 => DD x42 x17 | s114 => DD x42 x18 | s115 => DD x42 x19 | s116 => DD x42 x20 | s117 => DD x42 x21 | s118 => DD x42 x22 | s119 => DD x42 x23 | s120 => DD x42 x24 | s121 => DD x42 x25 | s122 => DD x42 x26 | s123 => DD x42 x27 | s124 => DD x42 x28 | s125 => DD x42 x29 | s126 => DD x42 x30 end.
Definition m2596 (c : sum2) : dd := match c with s0 => DD x40 x36 | s1 => DD x40 x37 | s2 => DD x40 x38 | s3 => DD x40 x39 | s4 => DD x40 x40 | s5 => DD x40 x41 | s6 => DD x40 x42 | s7 => DD x40 x43 | s8 => DD x40 x44 | s9 => DD x40 x45 | s10 => DD x40 x46 | s11 => DD x40 x47 | s12 => DD x40 x48 | s13 => DD x40 x49 | s14 => DD x40 x50 | s15 => DD x40 x51 | s16 => DD x40 x52 | s17 => DD x40 x53 | s18 => DD x40 x54 | s19 => DD x40 x55 | s20 => DD x40 x56 | s21 => DD x40 x57 | s22 => DD x40 x58 | s23 => DD x40 x59 | s24 => DD x40 x60 | s25 => DD x40 x61 | s26 => DD x40 x62 | s27 => DD x40 x63 | s28 => DD x41 x0 | s29 => DD x41 x1 | s30 => DD x41 x2 | s31 => DD x41 x3 | s32 => DD x41 x4 | s33 => DD x41 x5 | s34 => DD x41 x6 | s35 => DD x41 x7 | s36 => DD x41 x8 | s37 => DD x41 x9 | s38 => DD x41 x10 | s39 => DD x41 x11 | s40 => DD x41 x12 | s41 => DD x41 x13 | s42 => DD x41 x14 | s43 => DD x41 x15 | s44 => DD x41 x16 | s45 => DD x41 x17 | s46 => DD x41 x18 | s47 => DD x41 x19 | s48 => DD x41 x20 | s49 => DD x41 x21 | s50 => DD x41 x22 | s51 => DD x41 x23 | s52 => DD x41 x24 | s53 => DD x41 x25 | s54 => DD x41 x26 | s55 => DD x41 x27 | s56 => DD x41 x28 | s57 => DD x41 x29 | s58 => DD x41 x30 | s59 => DD x41 x31 | s60 => DD x41 x32 | s61 => DD x41 x33 | s62 => DD x41 x34 | s63 => DD x41 x35 | s64 => DD x41 x36 | s65 => DD x41 x37 | s66 => DD x41 x38 | s67 => DD x41 x39 | s68 => DD x41 x40 | s69 => DD x41 x41 | s70 => DD x41 x42 | s71 => DD x41 x43 | s72 => DD x41 x44 | s73 => DD x41 x45 | s74 => DD x41 x46 | s75 => DD x41 x47 | s76 => DD x41 x48 | s77 => DD x41 x49 | s78 => DD x41 x50 | s79 => DD x41 x51 | s80 => DD x41 x52 | s81 => DD x41 x53 | s82 => DD x41 x54 | s83 => DD x41 x55 | s84 => DD x41 x56 | s85 => DD x41 x57 | s86 => DD x41 x58 | s87 => DD x41 x59 | s88 => DD x41 x60 | s89 => DD x41 x61 | s90 => DD x41 x62 | s91 => DD x41 x63 | s92 => DD x42 x0 | s93 => DD x42 x1 | s94 => DD x42 x2 | s95 => DD x42 x3 | s96 => DD x42 x4 | s97 => DD x42 x5 | s98 => DD x42 x6 | s99 => DD x42 x7 | s100 => DD x42 x8 | s101 => DD x42 x9 | s102 => DD x42 x10 | s103 => DD x42 x11 | s104 => DD x42 x12 | s105 => DD x42 x13 | s106 => DD x42 x14 | s107 => DD x42 x15 | s108 => DD x42 x16 | s109 => DD x42 x17 | s110 => DD x42 x18 | s111 => DD x42 x19 | s112 => DD x42 x20 | s113 => DD x42 x21 | s114 => DD x42 x22 | s115 => DD x42 x23 | s116 => DD x42 x24 | s117 => DD x42 x25 | s118 => DD x42 x26 | s119 => DD x42 x27 | s120 => DD x42 x28 | s121 => DD x42 x29 | s122 => DD x42 x30 | s123 => DD x42 x31 | s124 => DD x42 x32 | s125 => DD x42 x33 | s126 => DD x42 x34 end.
Definition m2597 (c : sum2) : dd := match c with s0 => DD x40 x37 | s1 => DD x40 x38 | s2 => DD x40 x39 | s3 => DD x40 x40 | s4 => DD x40 x41 | s5 => DD x40 x42 | s6 => DD x40 x43 | s7 => DD x40 x44 | s8 => DD x40 x45 | s9 => DD x40 x46 | s10 => DD x40 x47 | s11 => DD x40 x48 | s12 => DD x40 x49 | s13 => DD x40 x50 | s14 => DD x40 x51 | s15 => DD x40 x52 | s16 => DD x40 x53 | s17 => DD x40 x54 | s18 => DD x40 x55 | s19 => DD x40 x56 | s20 => DD x40 x57 | s21 => DD x40 x58 | s22 => DD x40 x59 | s23 => DD x40 x60 | s24 => DD x40 x61 | s25 => DD x40 x62 | s26 => DD x40 x63 | s27 => DD x41 x0 | s28 => DD x41 x1 | s29 => DD x41 x2 | s30 => DD x41 x3 | s31 => DD x41 x4 | s32 => DD x41 x5 | s33 => DD x41 x6 | s34 => DD x41 x7 | s35 => DD x41 x8 | s36 => DD x41 x9 | s37 => DD x41 x10 | s38 => DD x41 x11 | s39 => DD x41 x12 | s40 => DD x41 x13 | s41 => DD x41 x14 | s42 => DD x41 x15 | s43 => DD x41 x16 | s44 => DD x41 x17 | s45 => DD x41 x18 | s46 => DD x41 x19 | s47 => DD x41 x20 | s48 => DD x41 x21 | s49 => DD x41 x22 | s50 => DD x41 x23 | s51 => DD x41 x24 | s52 => DD x41 x25 | s53 => DD x41 x26 | s54 => DD x41 x27 | s55 => DD x41 x28 | s56 => DD x41 x29 | s57 => DD x41 x30 | s58 => DD x41 x31 | s59 => DD x41 x32 | s60 => DD x41 x33 | s61 => DD x41 x34 | s62 => DD x41 x35 | s63 => DD x41 x36 | s64 => DD x41 x37 | s65 => DD x41 x38 | s66 => DD x41 x39 | s67 => DD x41 x40 | s68 => DD x41 x41 | s69 => DD x41 x42 | s70 => DD x41 x43 | s71 => DD x41 x44 | s72 => DD x41 x45 | s73 => DD x41 x46 | s74 => DD x41 x47 | s75 => DD x41 x48 | s76 => DD x41 x49 | s77 => DD x41 x50 | s78 => DD x41 x51 | s79 => DD x41 x52 | s80 => DD x41 x53 | s81 => DD x41 x54 | s82 => DD x41 x55 | s83 => DD x41 x56 | s84 => DD x41 x57 | s85 => DD x41 x58 | s86 => DD x41 x59 | s87 => DD x41 x60 | s88 => DD x41 x61 | s89 => DD x41 x62 | s90 => DD x41 x63 | s91 => DD x42 x0 | s92 => DD x42 x1 | s93 => DD x42 x2 | s94 => DD x42 x3 | s95 => DD x42 x4 | s96 => DD x42 x5 | s97 => DD x42 x6 | s98 => DD x42 x7 | s99 => DD x42 x8 | s100 => DD x42 x9 | s101 => DD x42 x10 | s102 => DD x42 x11 | s103 => DD x42 x12 | s104 => DD x42 x13 | s105 => DD x42 x14 | s106 => DD x42 x15 | s107 => DD x42 x16 | s108 => DD x42 x17 | s109 => DD x42 x18 | s110 => DD x42 x19 | s111 => DD x42 x20 | s112 => DD x42 x21 | s113 => DD x42 x22 | s114 => DD x42 x23 | s115 => DD x42 x24 | s116 => DD x42 x25 | s117 => DD x42 x26 | s118 => DD x42 x27 | s119 => DD x42 x28 | s120 => DD x42 x29 | s121 => DD x42 x30 | s122 => DD x42 x31 | s123 => DD x42 x32 | s124 => DD x42 x33 | s125 => DD x42 x34 | s126 => DD x42 x35 end.
Definition m2600 (c : sum2) : dd := match c with s0 => DD x40 x40 | s1 => DD x40 x41 | s2 => DD x40 x42 | s3 => DD x40 x43 | s4 => DD x40 x44 | s5 => DD x40 x45 | s6 => DD x40 x46 | s7 => DD x40 x47 | s8 => DD x40 x48 | s9 => DD x40 x49 | s10 => DD x40 x50 | s11 => DD x40 x51 | s12 => DD x40 x52 | s13 => DD x40 x53 | s14 => DD x40 x54 | s15 => DD x40 x55 | s16 => DD x40 x56 | s17 => DD x40 x57 | s18 => DD x40 x58 | s19 => DD x40 x59 | s20 => DD x40 x60 | s21 => DD x40 x61 | s22 => DD x40 x62 | s23 => DD x40 x63 | s24 => DD x41 x0 | s25 => DD x41 x1 | s26 => DD x41 x2 | s27 => DD x41 x3 | s28 => DD x41 x4 | s29 => DD x41 x5 | s30 => DD x41 x6 | s31 => DD x41 x7 | s32 => DD x41 x8 | s33 => DD x41 x9 | s34 => DD x41 x10 | s35 => DD x41 x11 | s36 => DD x41 x12 | s37 => DD x41 x13 | s38 => DD x41 x14 | s39 => DD x41 x15 | s40 => DD x41 x16 | s41 => DD x41 x17 | s42 => DD x41 x18 | s43 => DD x41 x19 | s44 => DD x41 x20 | s45 => DD x41 x21 | s46 => DD x41 x22 | s47 => DD x41 x23 | s48 => DD x41 x24 | s49 => DD x41 x25 | s50 => DD x41 x26 | s51 => DD x41 x27 | s52 => DD x41 x28 | s53 => DD x41 x29 | s54 => DD x41 x30 | s55 => DD x41 x31 | s56 => DD x41 x32 | s57 => DD x41 x33 | s58 => DD x41 x34 | s59 => DD x41 x35 | s60 => DD x41 x36 | s61 => DD x41 x37 | s62 => DD x41 x38 | s63 => DD x41 x39 | s64 => DD x41 x40 | s65 => DD x41 x41 | s66 => DD x41 x42 | s67 => DD x41 x43 | s68 => DD x41 x44 | s69 => DD x41 x45 | s70 => DD x41 x46 | s71 => DD x41 x47 | s72 => DD x41 x48 | s73 => DD x41 x49 | s74 => DD x41 x50 | s75 => DD x41 x51 | s76 => DD x41 x52 | s77 => DD x41 x53 | s78 => DD x41 x54 | s79 => DD x41 x55 | s80 => DD x41 x56 | s81 => DD x41 x57 | s82 => DD x41 x58 | s83 => DD x41 x59 | s84 => DD x41 x60 | s85 => DD x41 x61 | s86 => DD x41 x62 | s87 => DD x41 x63 | s88 => DD x42 x0 | s89 => DD x42 x1 | s90 => DD x42 x2 | s91 => DD x42 x3 | s92 => DD x42 x4 | s93 => DD x42 x5 | s94 => DD x42 x6 | s95 => DD x42 x7 | s96 => DD x42 x8 | s97 => DD x42 x9 | s98 => DD x42 x10 | s99 => DD x42 x11 | s100 => DD x42 x12 | s101 => DD x42 x13 | s102 => DD x42 x14 | s103 => DD x42 x15 | s104 => DD x42 x16 | s105 => DD x42 x17 | s106 => DD x42 x18 | s107 => DD x42 x19 | s108 => DD x42 x20 | s109 => DD x42 x21 | s110 => DD x42 x22 | s111 => DD x42 x23 | s112 => DD x42 x24 | s113 => DD x42 x25 | s114 => DD x42 x26 | s115 => DD x42 x27 | s116 => DD x42 x28 | s117 => DD x42 x29 | s118 => DD x42 x30 | s119 => DD x42 x31 | s120 => DD x42 x32 | s121 => DD x42 x33 | s122 => DD x42 x34 | s123 => DD x42 x35 | s124 => DD x42 x36 | s125 => DD x42 x37 | s126 => DD x42 x38 end.
Definition m2601 (c : sum2) : dd := match c with s0 => DD x40 x41 | s1 => DD x40 x42 | s2 => DD x40 x43 | s3 => DD x40 x44 | s4 => DD x40 x45 | s5 => DD x40 x46 | s6 => DD x40 x47 | s7 => DD x40 x48 | s8 => DD x40 x49 | s9 => DD x40 x50 | s10 => DD x40 x51 | s11 => DD x40 x52 | s12 => DD x40 x53 | s13 => DD x40 x54 | s14 => DD x40 x55 | s15 => DD x40 x56 | s16 => DD x40 x57 | s17 => DD x40 x58 | s18 => DD x40 x59 | s19 => DD x40 x60 | s20 => DD x40 x61 | s21 => DD x40 x62 | s22 => DD x40 x63 | s23 => DD x41 x0 | s24 => DD x41 x1 | s25 => DD x41 x2 | s26 => DD x41 x3 | s27 => DD x41 x4 | s28 => DD x41 x5 | s29 => DD x41 x6 | s30 => DD x41 x7 | s31 => DD x41 x8 | s32 => DD x41 x9 | s33 => DD x41 x10 | s34 => DD x41 x11 | s35 => DD x41 x12 | s36 => DD x41 x13 | s37 => DD x41 x14 | s38 => DD x41 x15 | s39 => DD x41 x16 | s40 => DD x41 x17 | s41 => DD x41 x18 | s42 => DD x41 x19 | s43 => DD x41 x20 | s44 => DD x41 x21 | s45 => DD x41 x22 | s46 => DD x41 x23 | s47 => DD x41 x24 | s48 => DD x41 x25 | s49 => DD x41 x26 | s50 => DD x41 x27 | s51 => DD x41 x28 | s52 => DD x41 x29 | s53 => DD x41 x30 | s54 => DD x41 x31 | s55 => DD x41 x32 | s56 => DD x41 x33 | s57 => DD x41 x34 | s58 => DD x41 x35 | s59 => DD x41 x36 | s60 => DD x41 x37 | s61 => DD x41 x38 | s62 => DD x41 x39 | s63 => DD x41 x40 | s64 => DD x41 x41 | s65 => DD x41 x42 | s66 => DD x41 x43 | s67 => DD x41 x44 | s68 => DD x41 x45 | s69 => DD x41 x46 | s70 => DD x41 x47 | s71 => DD x41 x48 | s72 => DD x41 x49 | s73 => DD x41 x50 | s74 => DD x41 x51 | s75 => DD x41 x52 | s76 => DD x41 x53 | s77 => DD x41 x54 | s78 => DD x41 x55 | s79 => DD x41 x56 | s80 => DD x41 x57 | s81 => DD x41 x58 | s82 => DD x41 x59 | s83 => DD x41 x60 | s84 => DD x41 x61 | s85 => DD x41 x62 | s86 => DD x41 x63 | s87 => DD x42 x0 | s88 => DD x42 x1 | s89 => DD x42 x2 | s90 => DD x42 x3 | s91 => DD x42 x4 | s92 => DD x42 x5 | s93 => DD x42 x6 | s94 => DD x42 x7 | s95 => DD x42 x8 | s96 => DD x42 x9 | s97 => DD x42 x10 | s98 => DD x42 x11 | s99 => DD x42 x12 | s100 => DD x42 x13 | s101 => DD x42 x14 | s102 => DD x42 x15 | s103 => DD x42 x16 | s104 => DD x42 x17 | s105 => DD x42 x18 | s106 => DD x42 x19 | s107 => DD x42 x20 | s108 => DD x42 x21 | s109 => DD x42 x22 | s110 => DD x42 x23 | s111 => DD x42 x24 | s112 => DD x42 x25 | s113 => DD x42 x26 | s114 => DD x42 x27 | s115 => DD x42 x28 | s116 => DD x42 x29 | s117 => DD x42 x30 | s118 => DD x42 x31 | s119 => DD x42 x32 | s120 => DD x42 x33 | s121 => DD x42 x34 | s122 => DD x42 x35 | s123 => DD x42 x36 | s124 => DD x42 x37 | s125 => DD x42 x38 | s126 => DD x42 x39 end.
Definition m2604 (c : sum2) : dd := match c with s0 => DD x40 x44 | s1 => DD x40 x45 | s2 => DD x40 x46 | s3 => DD x40 x47 | s4 => DD x40 x48 | s5 => DD x40 x49 | s6 => DD x40 x50 | s7 => DD x40 x51 | s8 => DD x40 x52 | s9 => DD x40 x53 | s10 => DD x40 x54 | s11 => DD x40 x55 | s12 => DD x40 x56 | s13 => DD x40 x57 | s14 => DD x40 x58 | s15 => DD x40 x59 | s16 => DD x40 x60 | s17 => DD x40 x61 | s18 => DD x40 x62 | s19 => DD x40 x63 | s20 => DD x41 x0 | s21 => DD x41 x1 | s22 => DD x41 x2 | s23 => DD x41 x3 | s24 => DD x41 x4 | s25 => DD x41 x5 | s26 => DD x41 x6 | s27 => DD x41 x7 | s28 => DD x41 x8 | s29 => DD x41 x9 | s30 => DD x41 x10 | s31 => DD x41 x11 | s32 => DD x41 x12 | s33 => DD x41 x13 | s34 => DD x41 x14 | s35 => DD x41 x15 | s36 => DD x41 x16 | s37 => DD x41 x17 | s38 => DD x41 x18 | s39 => DD x41 x19 | s40 => DD x41 x20 | s41 => DD x41 x21 | s42 => DD x41 x22 | s43 => DD x41 x23 | s44 => DD x41 x24 | s45 => DD x41 x25 | s46 => DD x41 x26 | s47 => DD x41 x27 | s48 => DD x41 x28 | s49 => DD x41 x29 | s50 => DD x41 x30 | s51 => DD x41 x31 | s52 => DD x41 x32 | s53 => DD x41 x33 | s54 => DD x41 x34 | s55 => DD x41 x35 | s56 => DD x41 x36 | s57 => DD x41 x37 | s58 => DD x41 x38 | s59 => DD x41 x39 | s60 => DD x41 x40 | s61 => DD x41 x41 | s62 => DD x41 x42 | s63 => DD x41 x43 | s64 => DD x41 x44 | s65 => DD x41 x45 | s66 => DD x41 x46 | s67 => DD x41 x47 | s68 => DD x41 x48 | s69 => DD x41 x49 | s70 => DD x41 x50 | s71 => DD x41 x51 | s72 => DD x41 x52 | s73 => DD x41 x53 | s74 => DD x41 x54 | s75 => DD x41 x55 | s76 => DD x41 x56 | s77 => DD x41 x57 | s78 => DD x41 x58 | s79 => DD x41 x59 | s80 => DD x41 x60 | s81 => DD x41 x61 | s82 => DD x41 x62 | s83 => DD x41 x63 | s84 => DD x42 x0 | s85 => DD x42 x1 | s86 => DD x42 x2 | s87 => DD x42 x3 | s88 => DD x42 x4 | s89 => DD x42 x5 | s90 => DD x42 x6 | s91 => DD x42 x7 | s92 => DD x42 x8 | s93 => DD x42 x9 | s94 => DD x42 x10 | s95 => DD x42 x11 | s96 => DD x42 x12 | s97 => DD x42 x13 | s98 => DD x42 x14 | s99 => DD x42 x15 | s100 => DD x42 x16 | s101 => DD x42 x17 | s102 => DD x42 x18 | s103 => DD x42 x19 | s104 => DD x42 x20 | s105 => DD x42 x21 | s106 => DD x42 x22 | s107 => DD x42 x23 | s108 => DD x42 x24 | s109 => DD x42 x25 | s110 => DD x42 x26 | s111 => DD x42 x27 | s112 => DD x42 x28 | s113 => DD x42 x29 | s114 => DD x42 x30 | s115 => DD x42 x31 | s116 => DD x42 x32 | s117 => DD x42 x33 | s118 => DD x42 x34 | s119 => DD x42 x35 | s120 => DD x42 x36 | s121 => DD x42 x37 | s122 => DD x42 x38 | s123 => DD x42 x39 | s124 => DD x42 x40 | s125 => DD x42 x41 | s126 => DD x42 x42 end.
Definition m2610 (c : sum2) : dd := match c with s0 => DD x40 x50 | s1 => DD x40 x51 | s2 => DD x40 x52 | s3 => DD x40 x53 | s4 => DD x40 x54 | s5 => DD x40 x55 | s6 => DD x40 x56 | s7 => DD x40 x57 | s8 => DD x40 x58 | s9 => DD x40 x59 | s10 => DD x40 x60 | s11 => DD x40 x61 | s12 => DD x40 x62 | s13 => DD x40 x63 | s14 => DD x41 x0 | s15 => DD x41 x1 | s16 => DD x41 x2 | s17 => DD x41 x3 | s18 => DD x41 x4 | s19 => DD x41 x5 | s20 => DD x41 x6 | s21 => DD x41 x7 | s22 => DD x41 x8 | s23 => DD x41 x9 | s24 => DD x41 x10 | s25 => DD x41 x11 | s26 => DD x41 x12 | s27 => DD x41 x13 | s28 => DD x41 x14 | s29 => DD x41 x15 | s30 => DD x41 x16 | s31 => DD x41 x17 | s32 => DD x41 x18 | s33 => DD x41 x19 | s34 => DD x41 x20 | s35 => DD x41 x21 | s36 => DD x41 x22 | s37 => DD x41 x23 | s38 => DD x41 x24 | s39 => DD x41 x25 | s40 => DD x41 x26 | s41 => DD x41 x27 | s42 => DD x41 x28 | s43 => DD x41 x29 | s44 => DD x41 x30 | s45 => DD x41 x31 | s46 => DD x41 x32 | s47 => DD x41 x33 | s48 => DD x41 x34 | s49 => DD x41 x35 | s50 => DD x41 x36 | s51 => DD x41 x37 | s52 => DD x41 x38 | s53 => DD x41 x39 | s54 => DD x41 x40 | s55 => DD x41 x41 | s56 => DD x41 x42 | s57 => DD x41 x43 | s58 => DD x41 x44 | s59 => DD x41 x45 | s60 => DD x41 x46 | s61 => DD x41 x47 | s62 => DD x41 x48 | s63 => DD x41 x49 | s64 => DD x41 x50 | s65 => DD x41 x51 | s66 => DD x41 x52 | s67 => DD x41 x53 | s68 => DD x41 x54 | s69 => DD x41 x55 | s70 => DD x41 x56 | s71 => DD x41 x57 | s72 => DD x41 x58 | s73 => DD x41 x59 | s74 => DD x41 x60 | s75 => DD x41 x61 | s76 => DD x41 x62 | s77 => DD x41 x63 | s78 => DD x42 x0 | s79 => DD x42 x1 | s80 => DD x42 x2 | s81 => DD x42 x3 | s82 => DD x42 x4 | s83 => DD x42 x5 | s84 => DD x42 x6 | s85 => DD x42 x7 | s86 => DD x42 x8 | s87 => DD x42 x9 | s88 => DD x42 x10 | s89 => DD x42 x11 | s90 => DD x42 x12 | s91 => DD x42 x13 | s92 => DD x42 x14 | s93 => DD x42 x15 | s94 => DD x42 x16 | s95 => DD x42 x17 | s96 => DD x42 x18 | s97 => DD x42 x19 | s98 => DD x42 x20 | s99 => DD x42 x21 | s100 => DD x42 x22 | s101 => DD x42 x23 | s102 => DD x42 x24 | s103 => DD x42 x25 | s104 => DD x42 x26 | s105 => DD x42 x27 | s106 => DD x42 x28 | s107 => DD x42 x29 | s108 => DD x42 x30 | s109 => DD x42 x31 | s110 => DD x42 x32 | s111 => DD x42 x33 | s112 => DD x42 x34 | s113 => DD x42 x35 | s114 => DD x42 x36 | s115 => DD x42 x37 | s116 => DD x42 x38 | s117 => DD x42 x39 | s118 => DD x42 x40 | s119 => DD x42 x41 | s120 => DD x42 x42 | s121 => DD x42 x43 | s122 => DD x42 x44 | s123 => DD x42 x45 | s124 => DD x42 x46 | s125 => DD x42 x47 | s126 => DD x42 x48 end.
Definition m2622 (c : sum2) : dd := match c with s0 => DD x40 x62 | s1 => DD x40 x63 | s2 => DD x41 x0 | s3 => DD x41 x1 | s4 => DD x41 x2 | s5 => DD x41 x3 | s6 => DD x41 x4 | s7 => DD x41 x5 | s8 => DD x41 x6 | s9 => DD x41 x7 | s10 => DD x41 x8 | s11 => DD x41 x9 | s12 => DD x41 x10 | s13 => DD x41 x11 | s14 => DD x41 x12 | s15 => DD x41 x13 | s16 => DD x41 x14 | s17 => DD x41 x15 | s18 => DD x41 x16 | s19 => DD x41 x17 | s20 => DD x41 x18 | s21 => DD x41 x19 | s22 => DD x41 x20 | s23 => DD x41 x21 | s24 => DD x41 x22 | s25 => DD x41 x23 | s26 => DD x41 x24 | s27 => DD x41 x25 | s28 => DD x41 x26 | s29 => DD x41 x27 | s30 => DD x41 x28 | s31 => DD x41 x29 | s32 => DD x41 x30 | s33 => DD x41 x31 | s34 => DD x41 x32 | s35 => DD x41 x33 | s36 => DD x41 x34 | s37 => DD x41 x35 | s38 => DD x41 x36 | s39 => DD x41 x37 | s40 => DD x41 x38 | s41 => DD x41 x39 | s42 => DD x41 x40 | s43 => DD x41 x41 | s44 => DD x41 x42 | s45 => DD x41 x43 | s46 => DD x41 x44 | s47 => DD x41 x45 | s48 => DD x41 x46 | s49 => DD x41 x47 | s50 => DD x41 x48 | s51 => DD x41 x49 | s52 => DD x41 x50 | s53 => DD x41 x51 | s54 => DD x41 x52 | s55 => DD x41 x53 | s56 => DD x41 x54 | s57 => DD x41 x55 | s58 => DD x41 x56 | s59 => DD x41 x57 | s60 => DD x41 x58 | s61 => DD x41 x59 | s62 => DD x41 x60 | s63 => DD x41 x61 | s64 => DD x41 x62 | s65 => DD x41 x63 | s66 => DD x42 x0 | s67 => DD x42 x1 | s68 => DD x42 x2 | s69 => DD x42 x3 | s70 => DD x42 x4 | s71 => DD x42 x5 | s72 => DD x42 x6 | s73 => DD x42 x7 | s74 => DD x42 x8 | s75 => DD x42 x9 | s76 => DD x42 x10 | s77 => DD x42 x11 | s78 => DD x42 x12 | s79 => DD x42 x13 | s80 => DD x42 x14 | s81 => DD x42 x15 | s82 => DD x42 x16 | s83 => DD x42 x17 | s84 => DD x42 x18 | s85 => DD x42 x19 | s86 => DD x42 x20 | s87 => DD x42 x21 | s88 => DD x42 x22 | s89 => DD x42 x23 | s90 => DD x42 x24 | s91 => DD x42 x25 | s92 => DD x42 x26 | s93 => DD x42 x27 | s94 => DD x42 x28 | s95 => DD x42 x29 | s96 => DD x42 x30 | s97 => DD x42 x31 | s98 => DD x42 x32 | s99 => DD x42 x33 | s100 => DD x42 x34 | s101 => DD x42 x35 | s102 => DD x42 x36 | s103 => DD x42 x37 | s104 => DD x42 x38 | s105 => DD x42 x39 | s106 => DD x42 x40 | s107 => DD x42 x41 | s108 => DD x42 x42 | s109 => DD x42 x43 | s110 => DD x42 x44 | s111 => DD x42 x45 | s112 => DD x42 x46 | s113 => DD x42 x47 | s114 => DD x42 x48 | s115 => DD x42 x49 | s116 => DD x42 x50 | s117 => DD x42 x51 | s118 => DD x42 x52 | s119 => DD x42 x53 | s120 => DD x42 x54 | s121 => DD x42 x55 | s122 => DD x42 x56 | s123 => DD x42 x57 | s124 => DD x42 x58 | s125 => DD x42 x59 | s126 => DD x42 x60 end.
Definition m2623 (c : sum2) : dd := match c with s0 => DD x40 x63 | s1 => DD x41 x0 | s2 => DD x41 x1 | s3 => DD x41 x2 | s4 => DD x41 x3 | s5 => DD x41 x4 | s6 => DD x41 x5 | s7 => DD x41 x6 | s8 => DD x41 x7 | s9 => DD x41 x8 | s10 => DD x41 x9 | s11 => DD x41 x10 | s12 => DD x41 x11 | s13 => DD x41 x12 | s14 => DD x41 x13 | s15 => DD x41 x14 | s16 => DD x41 x15 | s17 => DD x41 x16 | s18 => DD x41 x17 | s19 => DD x41 x18 | s20 => DD x41 x19 | s21 => DD x41 x20 | s22 => DD x41 x21 | s23 => DD x41 x22 | s24 => DD x41 x23 | s25 => DD x41 x24 | s26 => DD x41 x25 | s27 => DD x41 x26 | s28 => DD x41 x27 | s29 => DD x41 x28 | s30 => DD x41 x29 | s31 => DD x41 x30 | s32 => DD x41 x31 | s33 => DD x41 x32 | s34 => DD x41 x33 | s35 => DD x41 x34 | s36 => DD x41 x35 | s37 => DD x41 x36 | s38 => DD x41 x37 | s39 => DD x41 x38 | s40 => DD x41 x39 | s41 => DD x41 x40 | s42 => DD x41 x41 | s43 => DD x41 x42 | s44 => DD x41 x43 | s45 => DD x41 x44 | s46 => DD x41 x45 | s47 => DD x41 x46 | s48 => DD x41 x47 | s49 => DD x41 x48 | s50 => DD x41 x49 | s51 => DD x41 x50 | s52 => DD x41 x51 | s53 => DD x41 x52 | s54 => DD x41 x53 | s55 => DD x41 x54 | s56 => DD x41 x55 | s57 => DD x41 x56 | s58 => DD x41 x57 | s59 => DD x41 x58 | s60 => DD x41 x59 | s61 => DD x41 x60 | s62 => DD x41 x61 | s63 => DD x41 x62 | s64 => DD x41 x63 | s65 => DD x42 x0 | s66 => DD x42 x1 | s67 => DD x42 x2 | s68 => DD x42 x3 | s69 => DD x42 x4 | s70 => DD x42 x5 | s71 => DD x42 x6 | s72 => DD x42 x7 | s73 => DD x42 x8 | s74 => DD x42 x9 | s75 => DD x42 x10 | s76 => DD x42 x11 | s77 => DD x42 x12 | s78 => DD x42 x13 | s79 => DD x42 x14 | s80 => DD x42 x15 | s81 => DD x42 x16 | s82 => DD x42 x17 | s83 => DD x42 x18 | s84 => DD x42 x19 | s85 => DD x42 x20 | s86 => DD x42 x21 | s87 => DD x42 x22 | s88 => DD x42 x23 | s89 => DD x42 x24 | s90 => DD x42 x25 | s91 => DD x42 x26 | s92 => DD x42 x27 | s93 => DD x42 x28 | s94 => DD x42 x29 | s95 => DD x42 x30 | s96 => DD x42 x31 | s97 => DD x42 x32 | s98 => DD x42 x33 | s99 => DD x42 x34 | s100 => DD x42 x35 | s101 => DD x42 x36 | s102 => DD x42 x37 | s103 => DD x42 x38 | s104 => DD x42 x39 | s105 => DD x42 x40 | s106 => DD x42 x41 | s107 => DD x42 x42 | s108 => DD x42 x43 | s109 => DD x42 x44 | s110 => DD x42 x45 | s111 => DD x42 x46 | s112 => DD x42 x47 | s113 => DD x42 x48 | s114 => DD x42 x49 | s115 => DD x42 x50 | s116 => DD x42 x51 | s117 => DD x42 x52 | s118 => DD x42 x53 | s119 => DD x42 x54 | s120 => DD x42 x55 | s121 => DD x42 x56 | s122 => DD x42 x57 | s123 => DD x42 x58 | s124 => DD x42 x59 | s125 => DD x42 x60 | s126 => DD x42 x61 end.
Definition m2632 (c : sum2) : dd := match c with s0 => DD x41 x8 | s1 => DD x41 x9 | s2 => DD x41 x10 | s3 => DD x41 x11 | s4 => DD x41 x12 | s5 => DD x41 x13 | s6 => DD x41 x14 | s7 => DD x41 x15 | s8 => DD x41 x16 | s9 => DD x41 x17 | s10 => DD x41 x18 | s11 => DD x41 x19 | s12 => DD x41 x20 | s13 => DD x41 x21 | s14 => DD x41 x22 | s15 => DD x41 x23 | s16 => DD x41 x24 | s17 => DD x41 x25 | s18 => DD x41 x26 | s19 => DD x41 x27 | s20 => DD x41 x28 | s21 => DD x41 x29 | s22 => DD x41 x30 | s23 => DD x41 x31 | s24 => DD x41 x32 | s25 => DD x41 x33 | s26 => DD x41 x34 | s27 => DD x41 x35 | s28 => DD x41 x36 | s29 => DD x41 x37 | s30 => DD x41 x38 | s31 => DD x41 x39 | s32 => DD x41 x40 | s33 => DD x41 x41 | s34 => DD x41 x42 | s35 => DD x41 x43 | s36 => DD x41 x44 | s37 => DD x41 x45 | s38 => DD x41 x46 | s39 => DD x41 x47 | s40 => DD x41 x48 | s41 => DD x41 x49 | s42 => DD x41 x50 | s43 => DD x41 x51 | s44 => DD x41 x52 | s45 => DD x41 x53 | s46 => DD x41 x54 | s47 => DD x41 x55 | s48 => DD x41 x56 | s49 => DD x41 x57 | s50 => DD x41 x58 | s51 => DD x41 x59 | s52 => DD x41 x60 | s53 => DD x41 x61 | s54 => DD x41 x62 | s55 => DD x41 x63 | s56 => DD x42 x0 | s57 => DD x42 x1 | s58 => DD x42 x2 | s59 => DD x42 x3 | s60 => DD x42 x4 | s61 => DD x42 x5 | s62 => DD x42 x6 | s63 => DD x42 x7 | s64 => DD x42 x8 | s65 => DD x42 x9 | s66 => DD x42 x10 | s67 => DD x42 x11 | s68 => DD x42 x12 | s69 => DD x42 x13 | s70 => DD x42 x14 | s71 => DD x42 x15 | s72 => DD x42 x16 | s73 => DD x42 x17 | s74 => DD x42 x18 | s75 => DD x42 x19 | s76 => DD x42 x20 | s77 => DD x42 x21 | s78 => DD x42 x22 | s79 => DD x42 x23 | s80 => DD x42 x24 | s81 => DD x42 x25 | s82 => DD x42 x26 | s83 => DD x42 x27 | s84 => DD x42 x28 | s85 => DD x42 x29 | s86 => DD x42 x30 | s87 => DD x42 x31 | s88 => DD x42 x32 | s89 => DD x42 x33 | s90 => DD x42 x34 | s91 => DD x42 x35 | s92 => DD x42 x36 | s93 => DD x42 x37 | s94 => DD x42 x38 | s95 => DD x42 x39 | s96 => DD x42 x40 | s97 => DD x42 x41 | s98 => DD x42 x42 | s99 => DD x42 x43 | s100 => DD x42 x44 | s101 => DD x42 x45 | s102 => DD x42 x46 | s103 => DD x42 x47 | s104 => DD x42 x48 | s105 => DD x42 x49 | s106 => DD x42 x50 | s107 => DD x42 x51 | s108 => DD x42 x52 | s109 => DD x42 x53 | s110 => DD x42 x54 | s111 => DD x42 x55 | s112 => DD x42 x56 | s113 => DD x42 x57 | s114 => DD x42 x58 | s115 => DD x42 x59 | s116 => DD x42 x60 | s117 => DD x42 x61 | s118 => DD x42 x62 | s119 => DD x42 x63 | s120 => DD x43 x0 | s121 => DD x43 x1 | s122 => DD x43 x2 | s123 => DD x43 x3 | s124 => DD x43 x4 | s125 => DD x43 x5 | s126 => DD x43 x6 end.
Definition m2640 (c : sum2) : dd := match c with s0 => DD x41 x16 | s1 => DD x41 x17 | s2 => DD x41 x18 | s3 => DD x41 x19 | s4 => DD x41 x20 | s5 => DD x41 x21 | s6 => DD x41 x22 | s7 => DD x41 x23 | s8 => DD x41 x24 | s9 => DD x41 x25 | s10 => DD x41 x26 | s11 => DD x41 x27 | s12 => DD x41 x28 | s13 => DD x41 x29 | s14 => DD x41 x30 | s15 => DD x41 x31 | s16 => DD x41 x32 | s17 => DD x41 x33 | s18 => DD x41 x34 | s19 => DD x41 x35 | s20 => DD x41 x36 | s21 => DD x41 x37 | s22 => DD x41 x38 | s23 => DD x41 x39 | s24 => DD x41 x40 | s25 => DD x41 x41 | s26 => DD x41 x42 | s27 => DD x41 x43 | s28 => DD x41 x44 | s29 => DD x41 x45 | s30 => DD x41 x46 | s31 => DD x41 x47 | s32 => DD x41 x48 | s33 => DD x41 x49 | s34 => DD x41 x50 | s35 => DD x41 x51 | s36 => DD x41 x52 | s37 => DD x41 x53 | s38 => DD x41 x54 | s39 => DD x41 x55 | s40 => DD x41 x56 | s41 => DD x41 x57 | s42 => DD x41 x58 | s43 => DD x41 x59 | s44 => DD x41 x60 | s45 => DD x41 x61 | s46 => DD x41 x62 | s47 => DD x41 x63 | s48 => DD x42 x0 | s49 => DD x42 x1 | s50 => DD x42 x2 | s51 => DD x42 x3 | s52 => DD x42 x4 | s53 => DD x42 x5 | s54 => DD x42 x6 | s55 => DD x42 x7 | s56 => DD x42 x8 | s57 => DD x42 x9 | s58 => DD x42 x10 | s59 => DD x42 x11 | s60 => DD x42 x12 | s61 => DD x42 x13 | s62 => DD x42 x14 | s63 => DD x42 x15 | s64 => DD x42 x16 | s65 => DD x42 x17 | s66 => DD x42 x18 | s67 => DD x42 x19 | s68 => DD x42 x20 | s69 => DD x42 x21 | s70 => DD x42 x22 | s71 => DD x42 x23 | s72 => DD x42 x24 | s73 => DD x42 x25 | s74 => DD x42 x26 | s75 => DD x42 x27 | s76 => DD x42 x28 | s77 => DD x42 x29 | s78 => DD x42 x30 | s79 => DD x42 x31 | s80 => DD x42 x32 | s81 => DD x42 x33 | s82 => DD x42 x34 | s83 => DD x42 x35 | s84 => DD x42 x36 | s85 => DD x42 x37 | s86 => DD x42 x38 | s87 => DD x42 x39 | s88 => DD x42 x40 | s89 => DD x42 x41 | s90 => DD x42 x42 | s91 => DD x42 x43 | s92 => DD x42 x44 | s93 => DD x42 x45 | s94 => DD x42 x46 | s95 => DD x42 x47 | s96 => DD x42 x48 | s97 => DD x42 x49 | s98 => DD x42 x50 | s99 => DD x42 x51 | s100 => DD x42 x52 | s101 => DD x42 x53 | s102 => DD x42 x54 | s103 => DD x42 x55 | s104 => DD x42 x56 | s105 => DD x42 x57 | s106 => DD x42 x58 | s107 => DD x42 x59 | s108 => DD x42 x60 | s109 => DD x42 x61 | s110 => DD x42 x62 | s111 => DD x42 x63 | s112 => DD x43 x0 | s113 => DD x43 x1 | s114 => DD x43 x2 | s115 => DD x43 x3 | s116 => DD x43 x4 | s117 => DD x43 x5 | s118 => DD x43 x6 | s119 => DD x43 x7 | s120 => DD x43 x8 | s121 => DD x43 x9 | s122 => DD x43 x10 | s123 => DD x43 x11 | s124 => DD x43 x12 | s125 => DD x43 x13 | s126 => DD x43 x14 end.
Definition m2646 (c : sum2) : dd := match c with s0 => DD x41 x22 | s1 => DD x41 x23 | s2 => DD x41 x24 | s3 => DD x41 x25 | s4 => DD x41 x26 | s5 => DD x41 x27 | s6 => DD x41 x28 | s7 => DD x41 x29 | s8 => DD x41 x30 | s9 => DD x41 x31 | s10 => DD x41 x32 | s11 => DD x41 x33 | s12 => DD x41 x34 | s13 => DD x41 x35 | s14 => DD x41 x36 | s15 => DD x41 x37 | s16 => DD x41 x38 | s17 => DD x41 x39 | s18 => DD x41 x40 | s19 => DD x41 x41 | s20 => DD x41 x42 | s21 => DD x41 x43 | s22 => DD x41 x44 | s23 => DD x41 x45 | s24 => DD x41 x46 | s25 => DD x41 x47 | s26 => DD x41 x48 | s27 => DD x41 x49 | s28 => DD x41 x50 | s29 => DD x41 x51 | s30 => DD x41 x52 | s31 => DD x41 x53 | s32 => DD x41 x54 | s33 => DD x41 x55 | s34 => DD x41 x56 | s35 => DD x41 x57 | s36 => DD x41 x58 | s37 => DD x41 x59 | s38 => DD x41 x60 | s39 => DD x41 x61 | s40 => DD x41 x62 | s41 => DD x41 x63 | s42 => DD x42 x0 | s43 => DD x42 x1 | s44 => DD x42 x2 | s45 => DD x42 x3 | s46 => DD x42 x4 | s47 => DD x42 x5 | s48 => DD x42 x6 | s49 => DD x42 x7 | s50 => DD x42 x8 | s51 => DD x42 x9 | s52 => DD x42 x10 | s53 => DD x42 x11 | s54 => DD x42 x12 | s55 => DD x42 x13 | s56 => DD x42 x14 | s57 => DD x42 x15 | s58 => DD x42 x16 | s59 => DD x42 x17 | s60 => DD x42 x18 | s61 => DD x42 x19 | s62 => DD x42 x20 | s63 => DD x42 x21 | s64 => DD x42 x22 | s65 => DD x42 x23 | s66 => DD x42 x24 | s67 => DD x42 x25 | s68 => DD x42 x26 | s69 => DD x42 x27 | s70 => DD x42 x28 | s71 => DD x42 x29 | s72 => DD x42 x30 | s73 => DD x42 x31 | s74 => DD x42 x32 | s75 => DD x42 x33 | s76 => DD x42 x34 | s77 => DD x42 x35 | s78 => DD x42 x36 | s79 => DD x42 x37 | s80 => DD x42 x38 | s81 => DD x42 x39 | s82 => DD x42 x40 | s83 => DD x42 x41 | s84 => DD x42 x42 | s85 => DD x42 x43 | s86 => DD x42 x44 | s87 => DD x42 x45 | s88 => DD x42 x46 | s89 => DD x42 x47 | s90 => DD x42 x48 | s91 => DD x42 x49 | s92 => DD x42 x50 | s93 => DD x42 x51 | s94 => DD x42 x52 | s95 => DD x42 x53 | s96 => DD x42 x54 | s97 => DD x42 x55 | s98 => DD x42 x56 | s99 => DD x42 x57 | s100 => DD x42 x58 | s101 => DD x42 x59 | s102 => DD x42 x60 | s103 => DD x42 x61 | s104 => DD x42 x62 | s105 => DD x42 x63 | s106 => DD x43 x0 | s107 => DD x43 x1 | s108 => DD x43 x2 | s109 => DD x43 x3 | s110 => DD x43 x4 | s111 => DD x43 x5 | s112 => DD x43 x6 | s113 => DD x43 x7 | s114 => DD x43 x8 | s115 => DD x43 x9 | s116 => DD x43 x10 | s117 => DD x43 x11 | s118 => DD x43 x12 | s119 => DD x43 x13 | s120 => DD x43 x14 | s121 => DD x43 x15 | s122 => DD x43 x16 | s123 => DD x43 x17 | s124 => DD x43 x18 | s125 => DD x43 x19 | s126 => DD x43 x20 end.
Definition m2650 (c : sum2) : dd := match c with s0 => DD x41 x26 | s1 => DD x41 x27 | s2 => DD x41 x28 | s3 => DD x41 x29 | s4 => DD x41 x30 | s5 => DD x41 x31 | s6 => DD x41 x32 | s7 => DD x41 x33 | s8 => DD x41 x34 | s9 => DD x41 x35 | s10 => DD x41 x36 | s11 => DD x41 x37 | s12 => DD x41 x38 | s13 => DD x41 x39 | s14 => DD x41 x40 | s15 => DD x41 x41 | s16 => DD x41 x42 | s17 => DD x41 x43 | s18 => DD x41 x44 | s19 => DD x41 x45 | s20 => DD x41 x46 | s21 => DD x41 x47 | s22 => DD x41 x48 | s23 => DD x41 x49 | s24 => DD x41 x50 | s25 => DD x41 x51 | s26 => DD x41 x52 | s27 => DD x41 x53 | s28 => DD x41 x54 | s29 => DD x41 x55 | s30 => DD x41 x56 | s31 => DD x41 x57 | s32 => DD x41 x58 | s33 => DD x41 x59 | s34 => DD x41 x60 | s35 => DD x41 x61 | s36 => DD x41 x62 | s37 => DD x41 x63 | s38 => DD x42 x0 | s39 => DD x42 x1 | s40 => DD x42 x2 | s41 => DD x42 x3 | s42 => DD x42 x4 | s43 => DD x42 x5 | s44 => DD x42 x6 | s45 => DD x42 x7 | s46 => DD x42 x8 | s47 => DD x42 x9 | s48 => DD x42 x10 | s49 => DD x42 x11 | s50 => DD x42 x12 | s51 => DD x42 x13 | s52 => DD x42 x14 | s53 => DD x42 x15 | s54 => DD x42 x16 | s55 => DD x42 x17 | s56 => DD x42 x18 | s57 => DD x42 x19 | s58 => DD x42 x20 | s59 => DD x42 x21 | s60 => DD x42 x22 | s61 => DD x42 x23 | s62 => DD x42 x24 | s63 => DD x42 x25 | s64 => DD x42 x26 | s65 => DD x42 x27 | s66 => DD x42 x28 | s67 => DD x42 x29 | s68 => DD x42 x30 | s69 => DD x42 x31 | s70 => DD x42 x32 | s71 => DD x42 x33 | s72 => DD x42 x34 | s73 => DD x42 x35 | s74 => DD x42 x36 | s75 => DD x42 x37 | s76 => DD x42 x38 | s77 => DD x42 x39 | s78 => DD x42 x40 | s79 => DD x42 x41 | s80 => DD x42 x42 | s81 => DD x42 x43 | s82 => DD x42 x44 | s83 => DD x42 x45 | s84 => DD x42 x46 | s85 => DD x42 x47 | s86 => DD x42 x48 | s87 => DD x42 x49 | s88 => DD x42 x50 | s89 => DD x42 x51 | s90 => DD x42 x52 | s91 => DD x42 x53 | s92 => DD x42 x54 | s93 => DD x42 x55 | s94 => DD x42 x56 | s95 => DD x42 x57 | s96 => DD x42 x58 | s97 => DD x42 x59 | s98 => DD x42 x60 | s99 => DD x42 x61 | s100 => DD x42 x62 | s101 => DD x42 x63 | s102 => DD x43 x0 | s103 => DD x43 x1 | s104 => DD x43 x2 | s105 => DD x43 x3 | s106 => DD x43 x4 | s107 => DD x43 x5 | s108 => DD x43 x6 | s109 => DD x43 x7 | s110 => DD x43 x8 | s111 => DD x43 x9 | s112 => DD x43 x10 | s113 => DD x43 x11 | s114 => DD x43 x12 | s115 => DD x43 x13 | s116 => DD x43 x14 | s117 => DD x43 x15 | s118 => DD x43 x16 | s119 => DD x43 x17 | s120 => DD x43 x18 | s121 => DD x43 x19 | s122 => DD x43 x20 | s123 => DD x43 x21 | s124 => DD x43 x22 | s125 => DD x43 x23 | s126 => DD x43 x24 end.
Definition m2652 (c : sum2) : dd := match c with s0 => DD x41 x28 | s1 => DD x41 x29 | s2 => DD x41 x30 | s3 => DD x41 x31 | s4 => DD x41 x32 | s5 => DD x41 x33 | s6 => DD x41 x34 | s7 => DD x41 x35 | s8 => DD x41 x36 | s9 => DD x41 x37 | s10 => DD x41 x38 | s11 => DD x41 x39 | s12 => DD x41 x40 | s13 => DD x41 x41 | s14 => DD x41 x42 | s15 => DD x41 x43 | s16 => DD x41 x44 | s17 => DD x41 x45 | s18 => DD x41 x46 | s19 => DD x41 x47 | s20 => DD x41 x48 | s21 => DD x41 x49 | s22 => DD x41 x50 | s23 => DD x41 x51 | s24 => DD x41 x52 | s25 => DD x41 x53 | s26 => DD x41 x54 | s27 => DD x41 x55 | s28 => DD x41 x56 | s29 => DD x41 x57 | s30 => DD x41 x58 | s31 => DD x41 x59 | s32 => DD x41 x60 | s33 => DD x41 x61 | s34 => DD x41 x62 | s35 => DD x41 x63 | s36 => DD x42 x0 | s37 => DD x42 x1 | s38 => DD x42 x2 | s39 => DD x42 x3 | s40 => DD x42 x4 | s41 => DD x42 x5 | s42 => DD x42 x6 | s43 => DD x42 x7 | s44 => DD x42 x8 | s45 => DD x42 x9 | s46 => DD x42 x10 | s47 => DD x42 x11 | s48 => DD x42 x12 | s49 => DD x42 x13 | s50 => DD x42 x14 | s51 => DD x42 x15 | s52 => DD x42 x16 | s53 => DD x42 x17 | s54 => DD x42 x18 | s55 => DD x42 x19 | s56 => DD x42 x20 | s57 => DD x42 x21 | s58 => DD x42 x22 | s59 => DD x42 x23 | s60 => DD x42 x24 | s61 => DD x42 x25 | s62 => DD x42 x26 | s63 => DD x42 x27 | s64 => DD x42 x28 | s65 => DD x42 x29 | s66 => DD x42 x30 | s67 => DD x42 x31 | s68 => DD x42 x32 | s69 => DD x42 x33 | s70 => DD x42 x34 | s71 => DD x42 x35 | s72 => DD x42 x36 | s73 => DD x42 x37 | s74 => DD x42 x38 | s75 => DD x42 x39 | s76 => DD x42 x40 | s77 => DD x42 x41 | s78 => DD x42 x42 | s79 => DD x42 x43 | s80 => DD x42 x44 | s81 => DD x42 x45 | s82 => DD x42 x46 | s83 => DD x42 x47 | s84 => DD x42 x48 | s85 => DD x42 x49 | s86 => DD x42 x50 | s87 => DD x42 x51 | s88 => DD x42 x52 | s89 => DD x42 x53 | s90 => DD x42 x54 | s91 => DD x42 x55 | s92 => DD x42 x56 | s93 => DD x42 x57 | s94 => DD x42 x58 | s95 => DD x42 x59 | s96 => DD x42 x60 | s97 => DD x42 x61 | s98 => DD x42 x62 | s99 => DD x42 x63 | s100 => DD x43 x0 | s101 => DD x43 x1 | s102 => DD x43 x2 | s103 => DD x43 x3 | s104 => DD x43 x4 | s105 => DD x43 x5 | s106 => DD x43 x6 | s107 => DD x43 x7 | s108 => DD x43 x8 | s109 => DD x43 x9 | s110 => DD x43 x10 | s111 => DD x43 x11 | s112 => DD x43 x12 | s113 => DD x43 x13 | s114 => DD x43 x14 | s115 => DD x43 x15 | s116 => DD x43 x16 | s117 => DD x43 x17 | s118 => DD x43 x18 | s119 => DD x43 x19 | s120 => DD x43 x20 | s121 => DD x43 x21 | s122 => DD x43 x22 | s123 => DD x43 x23 | s124 => DD x43 x24 | s125 => DD x43 x25 | s126 => DD x43 x26 end.
Definition m2655 (c : sum2) : dd := match c with s0 => DD x41 x31 | s1 => DD x41 x32 | s2 => DD x41 x33 | s3 => DD x41 x34 | s4 => DD x41 x35 | s5 => DD x41 x36 | s6 => DD x41 x37 | s7 => DD x41 x38 | s8 => DD x41 x39 | s9 => DD x41 x40 | s10 => DD x41 x41 | s11 => DD x41 x42 | s12 => DD x41 x43 | s13 => DD x41 x44 | s14 => DD x41 x45 | s15 => DD x41 x46 | s16 => DD x41 x47 | s17 => DD x41 x48 | s18 => DD x41 x49 | s19 => DD x41 x50 | s20 => DD x41 x51 | s21 => DD x41 x52 | s22 => DD x41 x53 | s23 => DD x41 x54 | s24 => DD x41 x55 | s25 => DD x41 x56 | s26 => DD x41 x57 | s27 => DD x41 x58 | s28 => DD x41 x59 | s29 => DD x41 x60 | s30 => DD x41 x61 | s31 => DD x41 x62 | s32 => DD x41 x63 | s33 => DD x42 x0 | s34 => DD x42 x1 | s35 => DD x42 x2 | s36 => DD x42 x3 | s37 => DD x42 x4 | s38 => DD x42 x5 | s39 => DD x42 x6 | s40 => DD x42 x7 | s41 => DD x42 x8 | s42 => DD x42 x9 | s43 => DD x42 x10 | s44 => DD x42 x11 | s45 => DD x42 x12 | s46 => DD x42 x13 | s47 => DD x42 x14 | s48 => DD x42 x15 | s49 => DD x42 x16 | s50 => DD x42 x17 | s51 => DD x42 x18 | s52 => DD x42 x19 | s53 => DD x42 x20 | s54 => DD x42 x21 | s55 => DD x42 x22 | s56 => DD x42 x23 | s57 => DD x42 x24 | s58 => DD x42 x25 | s59 => DD x42 x26 | s60 => DD x42 x27 | s61 => DD x42 x28 | s62 => DD x42 x29 | s63 => DD x42 x30 | s64 => DD x42 x31 | s65 => DD x42 x32 | s66 => DD x42 x33 | s67 => DD x42 x34 | s68 => DD x42 x35 | s69 => DD x42 x36 | s70 => DD x42 x37 | s71 => DD x42 x38 | s72 => DD x42 x39 | s73 => DD x42 x40 | s74 => DD x42 x41 | s75 => DD x42 x42 | s76 => DD x42 x43 | s77 => DD x42 x44 | s78 => DD x42 x45 | s79 => DD x42 x46 | s80 => DD x42 x47 | s81 => DD x42 x48 | s82 => DD x42 x49 | s83 => DD x42 x50 | s84 => DD x42 x51 | s85 => DD x42 x52 | s86 => DD x42 x53 | s87 => DD x42 x54 | s88 => DD x42 x55 | s89 => DD x42 x56 | s90 => DD x42 x57 | s91 => DD x42 x58 | s92 => DD x42 x59 | s93 => DD x42 x60 | s94 => DD x42 x61 | s95 => DD x42 x62 | s96 => DD x42 x63 | s97 => DD x43 x0 | s98 => DD x43 x1 | s99 => DD x43 x2 | s100 => DD x43 x3 | s101 => DD x43 x4 | s102 => DD x43 x5 | s103 => DD x43 x6 | s104 => DD x43 x7 | s105 => DD x43 x8 | s106 => DD x43 x9 | s107 => DD x43 x10 | s108 => DD x43 x11 | s109 => DD x43 x12 | s110 => DD x43 x13 | s111 => DD x43 x14 | s112 => DD x43 x15 | s113 => DD x43 x16 | s114 => DD x43 x17 | s115 => DD x43 x18 | s116 => DD x43 x19 | s117 => DD x43 x20 | s118 => DD x43 x21 | s119 => DD x43 x22 | s120 => DD x43 x23 | s121 => DD x43 x24 | s122 => DD x43 x25 | s123 => DD x43 x26 | s124 => DD x43 x27 | s125 => DD x43 x28 | s126 => DD x43 x29 end.
Definition m2666 (c : sum2) : dd := match c with s0 => DD x41 x42 | s1 => DD x41 x43 | s2 => DD x41 x44 | s3 => DD x41 x45 | s4 => DD x41 x46 | s5 => DD x41 x47 | s6 => DD x41 x48 | s7 => DD x41 x49 | s8 => DD x41 x50 | s9 => DD x41 x51 | s10 => DD x41 x52 | s11 => DD x41 x53 | s12 => DD x41 x54 | s13 => DD x41 x55 | s14 => DD x41 x56 | s15 => DD x41 x57 | s16 => DD x41 x58 | s17 => DD x41 x59 | s18 => DD x41 x60 | s19 => DD x41 x61 | s20 => DD x41 x62 | s21 => DD x41 x63 | s22 => DD x42 x0 | s23 => DD x42 x1 | s24 => DD x42 x2 | s25 => DD x42 x3 | s26 => DD x42 x4 | s27 => DD x42 x5 | s28 => DD x42 x6 | s29 => DD x42 x7 | s30 => DD x42 x8 | s31 => DD x42 x9 | s32 => DD x42 x10 | s33 => DD x42 x11 | s34 => DD x42 x12 | s35 => DD x42 x13 | s36 => DD x42 x14 | s37 => DD x42 x15 | s38 => DD x42 x16 | s39 => DD x42 x17 | s40 => DD x42 x18 | s41 => DD x42 x19 | s42 => DD x42 x20 | s43 => DD x42 x21 | s44 => DD x42 x22 | s45 => DD x42 x23 | s46 => DD x42 x24 | s47 => DD x42 x25 | s48 => DD x42 x26 | s49 => DD x42 x27 | s50 => DD x42 x28 | s51 => DD x42 x29 | s52 => DD x42 x30 | s53 => DD x42 x31 | s54 => DD x42 x32 | s55 => DD x42 x33 | s56 => DD x42 x34 | s57 => DD x42 x35 | s58 => DD x42 x36 | s59 => DD x42 x37 | s60 => DD x42 x38 | s61 => DD x42 x39 | s62 => DD x42 x40 | s63 => DD x42 x41 | s64 => DD x42 x42 | s65 => DD x42 x43 | s66 => DD x42 x44 | s67 => DD x42 x45 | s68 => DD x42 x46 | s69 => DD x42 x47 | s70 => DD x42 x48 | s71 => DD x42 x49 | s72 => DD x42 x50 | s73 => DD x42 x51 | s74 => DD x42 x52 | s75 => DD x42 x53 | s76 => DD x42 x54 | s77 => DD x42 x55 | s78 => DD x42 x56 | s79 => DD x42 x57 | s80 => DD x42 x58 | s81 => DD x42 x59 | s82 => DD x42 x60 | s83 => DD x42 x61 | s84 => DD x42 x62 | s85 => DD x42 x63 | s86 => DD x43 x0 | s87 => DD x43 x1 | s88 => DD x43 x2 | s89 => DD x43 x3 | s90 => DD x43 x4 | s91 => DD x43 x5 | s92 => DD x43 x6 | s93 => DD x43 x7 | s94 => DD x43 x8 | s95 => DD x43 x9 | s96 => DD x43 x10 | s97 => DD x43 x11 | s98 => DD x43 x12 | s99 => DD x43 x13 | s100 => DD x43 x14 | s101 => DD x43 x15 | s102 => DD x43 x16 | s103 => DD x43 x17 | s104 => DD x43 x18 | s105 => DD x43 x19 | s106 => DD x43 x20 | s107 => DD x43 x21 | s108 => DD x43 x22 | s109 => DD x43 x23 | s110 => DD x43 x24 | s111 => DD x43 x25 | s112 => DD x43 x26 | s113 => DD x43 x27 | s114 => DD x43 x28 | s115 => DD x43 x29 | s116 => DD x43 x30 | s117 => DD x43 x31 | s118 => DD x43 x32 | s119 => DD x43 x33 | s120 => DD x43 x34 | s121 => DD x43 x35 | s122 => DD x43 x36 | s123 => DD x43 x37 | s124 => DD x43 x38 | s125 => DD x43 x39 | s126 => DD x43 x40 end.
Definition m2668 (c : sum2) : dd := match c with s0 => DD x41 x44 | s1 => DD x41 x45 | s2 => DD x41 x46 | s3 => DD x41 x47 | s4 => DD x41 x48 | s5 => DD x41 x49 | s6 => DD x41 x50 | s7 => DD x41 x51 | s8 => DD x41 x52 | s9 => DD x41 x53 | s10 => DD x41 x54 | s11 => DD x41 x55 | s12 => DD x41 x56 | s13 => DD x41 x57 | s14 => DD x41 x58 | s15 => DD x41 x59 | s16 => DD x41 x60 | s17 => DD x41 x61 | s18 => DD x41 x62 | s19 => DD x41 x63 | s20 => DD x42 x0 | s21 => DD x42 x1 | s22 => DD x42 x2 | s23 => DD x42 x3 | s24 => DD x42 x4 | s25 => DD x42 x5 | s26 => DD x42 x6 | s27 => DD x42 x7 | s28 => DD x42 x8 | s29 => DD x42 x9 | s30 => DD x42 x10 | s31 => DD x42 x11 | s32 => DD x42 x12 | s33 => DD x42 x13 | s34 => DD x42 x14 | s35 => DD x42 x15 | s36 => DD x42 x16 | s37 => DD x42 x17 | s38 => DD x42 x18 | s39 => DD x42 x19 | s40 => DD x42 x20 | s41 => DD x42 x21 | s42 => DD x42 x22 | s43 => DD x42 x23 | s44 => DD x42 x24 | s45 => DD x42 x25 | s46 => DD x42 x26 | s47 => DD x42 x27 | s48 => DD x42 x28 | s49 => DD x42 x29 | s50 => DD x42 x30 | s51 => DD x42 x31 | s52 => DD x42 x32 | s53 => DD x42 x33 | s54 => DD x42 x34 | s55 => DD x42 x35 | s56 => DD x42 x36 | s57 => DD x42 x37 | s58 => DD x42 x38 | s59 => DD x42 x39 | s60 => DD x42 x40 | s61 => DD x42 x41 | s62 => DD x42 x42 | s63 => DD x42 x43 | s64 => DD x42 x44 | s65 => DD x42 x45 | s66 => DD x42 x46 | s67 => DD x42 x47 | s68 => DD x42 x48 | s69 => DD x42 x49 | s70 => DD x42 x50 | s71 => DD x42 x51 | s72 => DD x42 x52 | s73 => DD x42 x53 | s74 => DD x42 x54 | s75 => DD x42 x55 | s76 => DD x42 x56 | s77 => DD x42 x57 | s78 => DD x42 x58 | s79 => DD x42 x59 | s80 => DD x42 x60 | s81 => DD x42 x61 | s82 => DD x42 x62 | s83 => DD x42 x63 | s84 => DD x43 x0 | s85 => DD x43 x1 | s86 => DD x43 x2 | s87 => DD x43 x3 | s88 => DD x43 x4 | s89 => DD x43 x5 | s90 => DD x43 x6 | s91 => DD x43 x7 | s92 => DD x43 x8 | s93 => DD x43 x9 | s94 => DD x43 x10 | s95 => DD x43 x11 | s96 => DD x43 x12 | s97 => DD x43 x13 | s98 => DD x43 x14 | s99 => DD x43 x15 | s100 => DD x43 x16 | s101 => DD x43 x17 | s102 => DD x43 x18 | s103 => DD x43 x19 | s104 => DD x43 x20 | s105 => DD x43 x21 | s106 => DD x43 x22 | s107 => DD x43 x23 | s108 => DD x43 x24 | s109 => DD x43 x25 | s110 => DD x43 x26 | s111 => DD x43 x27 | s112 => DD x43 x28 | s113 => DD x43 x29 | s114 => DD x43 x30 | s115 => DD x43 x31 | s116 => DD x43 x32 | s117 => DD x43 x33 | s118 => DD x43 x34 | s119 => DD x43 x35 | s120 => DD x43 x36 | s121 => DD x43 x37 | s122 => DD x43 x38 | s123 => DD x43 x39 | s124 => DD x43 x40 | s125 => DD x43 x41 | s126 => DD x43 x42 end.
Definition m2679 (c : sum2) : dd := match c with s0 => DD x41 x55 | s1 => DD x41 x56 | s2 => DD x41 x57 | s3 => DD x41 x58 | s4 => DD x41 x59 | s5 => DD x41 x60 | s6 => DD x41 x61 | s7 => DD x41 x62 | s8 => DD x41 x63 | s9 => DD x42 x0 | s10 => DD x42 x1 | s11 => DD x42 x2 | s12 => DD x42 x3 | s13 => DD x42 x4 | s14 => DD x42 x5 | s15 => DD x42 x6 | s16 => DD x42 x7 | s17 => DD x42 x8 | s18 => DD x42 x9 | s19 => DD x42 x10 | s20 => DD x42 x11 | s21 => DD x42 x12 | s22 => DD x42 x13 | s23 => DD x42 x14 | s24 => DD x42 x15 | s25 => DD x42 x16 | s26 => DD x42 x17 | s27 => DD x42 x18 | s28 => DD x42 x19 | s29 => DD x42 x20 | s30 => DD x42 x21 | s31 => DD x42 x22 | s32 => DD x42 x23 | s33 => DD x42 x24 | s34 => DD x42 x25 | s35 => DD x42 x26 | s36 => DD x42 x27 | s37 => DD x42 x28 | s38 => DD x42 x29 | s39 => DD x42 x30 | s40 => DD x42 x31 | s41 => DD x42 x32 | s42 => DD x42 x33 | s43 => DD x42 x34 | s44 => DD x42 x35 | s45 => DD x42 x36 | s46 => DD x42 x37 | s47 => DD x42 x38 | s48 => DD x42 x39 | s49 => DD x42 x40 | s50 => DD x42 x41 | s51 => DD x42 x42 | s52 => DD x42 x43 | s53 => DD x42 x44 | s54 => DD x42 x45 | s55 => DD x42 x46 | s56 => DD x42 x47 | s57 => DD x42 x48 | s58 => DD x42 x49 | s59 => DD x42 x50 | s60 => DD x42 x51 | s61 => DD x42 x52 | s62 => DD x42 x53 | s63 => DD x42 x54 | s64 => DD x42 x55 | s65 => DD x42 x56 | s66 => DD x42 x57 | s67 => DD x42 x58 | s68 => DD x42 x59 | s69 => DD x42 x60 | s70 => DD x42 x61 | s71 => DD x42 x62 | s72 => DD x42 x63 | s73 => DD x43 x0 | s74 => DD x43 x1 | s75 => DD x43 x2 | s76 => DD x43 x3 | s77 => DD x43 x4 | s78 => DD x43 x5 | s79 => DD x43 x6 | s80 => DD x43 x7 | s81 => DD x43 x8 | s82 => DD x43 x9 | s83 => DD x43 x10 | s84 => DD x43 x11 | s85 => DD x43 x12 | s86 => DD x43 x13 | s87 => DD x43 x14 | s88 => DD x43 x15 | s89 => DD x43 x16 | s90 => DD x43 x17 | s91 => DD x43 x18 | s92 => DD x43 x19 | s93 => DD x43 x20 | s94 => DD x43 x21 | s95 => DD x43 x22 | s96 => DD x43 x23 | s97 => DD x43 x24 | s98 => DD x43 x25 | s99 => DD x43 x26 | s100 => DD x43 x27 | s101 => DD x43 x28 | s102 => DD x43 x29 | s103 => DD x43 x30 | s104 => DD x43 x31 | s105 => DD x43 x32 | s106 => DD x43 x33 | s107 => DD x43 x34 | s108 => DD x43 x35 | s109 => DD x43 x36 | s110 => DD x43 x37 | s111 => DD x43 x38 | s112 => DD x43 x39 | s113 => DD x43 x40 | s114 => DD x43 x41 | s115 => DD x43 x42 | s116 => DD x43 x43 | s117 => DD x43 x44 | s118 => DD x43 x45 | s119 => DD x43 x46 | s120 => DD x43 x47 | s121 => DD x43 x48 | s122 => DD x43 x49 | s123 => DD x43 x50 | s124 => DD x43 x51 | s125 => DD x43 x52 | s126 => DD x43 x53 end.
Definition m2684 (c : sum2) : dd := match c with s0 => DD x41 x60 | s1 => DD x41 x61 | s2 => DD x41 x62 | s3 => DD x41 x63 | s4 => DD x42 x0 | s5 => DD x42 x1 | s6 => DD x42 x2 | s7 => DD x42 x3 | s8 => DD x42 x4 | s9 => DD x42 x5 | s10 => DD x42 x6 | s11 => DD x42 x7 | s12 => DD x42 x8 | s13 => DD x42 x9 | s14 => DD x42 x10 | s15 => DD x42 x11 | s16 => DD x42 x12 | s17 => DD x42 x13 | s18 => DD x42 x14 | s19 => DD x42 x15 | s20 => DD x42 x16 | s21 => DD x42 x17 | s22 => DD x42 x18 | s23 => DD x42 x19 | s24 => DD x42 x20 | s25 => DD x42 x21 | s26 => DD x42 x22 | s27 => DD x42 x23 | s28 => DD x42 x24 | s29 => DD x42 x25 | s30 => DD x42 x26 | s31 => DD x42 x27 | s32 => DD x42 x28 | s33 => DD x42 x29 | s34 => DD x42 x30 | s35 => DD x42 x31 | s36 => DD x42 x32 | s37 => DD x42 x33 | s38 => DD x42 x34 | s39 => DD x42 x35 | s40 => DD x42 x36 | s41 => DD x42 x37 | s42 => DD x42 x38 | s43 => DD x42 x39 | s44 => DD x42 x40 | s45 => DD x42 x41 | s46 => DD x42 x42 | s47 => DD x42 x43 | s48 => DD x42 x44 | s49 => DD x42 x45 | s50 => DD x42 x46 | s51 => DD x42 x47 | s52 => DD x42 x48 | s53 => DD x42 x49 | s54 => DD x42 x50 | s55 => DD x42 x51 | s56 => DD x42 x52 | s57 => DD x42 x53 | s58 => DD x42 x54 | s59 => DD x42 x55 | s60 => DD x42 x56 | s61 => DD x42 x57 | s62 => DD x42 x58 | s63 => DD x42 x59 | s64 => DD x42 x60 | s65 => DD x42 x61 | s66 => DD x42 x62 | s67 => DD x42 x63 | s68 => DD x43 x0 | s69 => DD x43 x1 | s70 => DD x43 x2 | s71 => DD x43 x3 | s72 => DD x43 x4 | s73 => DD x43 x5 | s74 => DD x43 x6 | s75 => DD x43 x7 | s76 => DD x43 x8 | s77 => DD x43 x9 | s78 => DD x43 x10 | s79 => DD x43 x11 | s80 => DD x43 x12 | s81 => DD x43 x13 | s82 => DD x43 x14 | s83 => DD x43 x15 | s84 => DD x43 x16 | s85 => DD x43 x17 | s86 => DD x43 x18 | s87 => DD x43 x19 | s88 => DD x43 x20 | s89 => DD x43 x21 | s90 => DD x43 x22 | s91 => DD x43 x23 | s92 => DD x43 x24 | s93 => DD x43 x25 | s94 => DD x43 x26 | s95 => DD x43 x27 | s96 => DD x43 x28 | s97 => DD x43 x29 | s98 => DD x43 x30 | s99 => DD x43 x31 | s100 => DD x43 x32 | s101 => DD x43 x33 | s102 => DD x43 x34 | s103 => DD x43 x35 | s104 => DD x43 x36 | s105 => DD x43 x37 | s106 => DD x43 x38 | s107 => DD x43 x39 | s108 => DD x43 x40 | s109 => DD x43 x41 | s110 => DD x43 x42 | s111 => DD x43 x43 | s112 => DD x43 x44 | s113 => DD x43 x45 | s114 => DD x43 x46 | s115 => DD x43 x47 | s116 => DD x43 x48 | s117 => DD x43 x49 | s118 => DD x43 x50 | s119 => DD x43 x51 | s120 => DD x43 x52 | s121 => DD x43 x53 | s122 => DD x43 x54 | s123 => DD x43 x55 | s124 => DD x43 x56 | s125 => DD x43 x57 | s126 => DD x43 x58 end.
Definition m2688 (c : sum2) : dd := match c with s0 => DD x42 x0 | s1 => DD x42 x1 | s2 => DD x42 x2 | s3 => DD x42 x3 | s4 => DD x42 x4 | s5 => DD x42 x5 | s6 => DD x42 x6 | s7 => DD x42 x7 | s8 => DD x42 x8 | s9 => DD x42 x9 | s10 => DD x42 x10 | s11 => DD x42 x11 | s12 => DD x42 x12 | s13 => DD x42 x13 | s14 => DD x42 x14 | s15 => DD x42 x15 | s16 => DD x42 x16 | s17 => DD x42 x17 | s18 => DD x42 x18 | s19 => DD x42 x19 | s20 => DD x42 x20 | s21 => DD x42 x21 | s22 => DD x42 x22 | s23 => DD x42 x23 | s24 => DD x42 x24 | s25 => DD x42 x25 | s26 => DD x42 x26 | s27 => DD x42 x27 | s28 => DD x42 x28 | s29 => DD x42 x29 | s30 => DD x42 x30 | s31 => DD x42 x31 | s32 => DD x42 x32 | s33 => DD x42 x33 | s34 => DD x42 x34 | s35 => DD x42 x35 | s36 => DD x42 x36 | s37 => DD x42 x37 | s38 => DD x42 x38 | s39 => DD x42 x39 | s40 => DD x42 x40 | s41 => DD x42 x41 | s42 => DD x42 x42 | s43 => DD x42 x43 | s44 => DD x42 x44 | s45 => DD x42 x45 | s46 => DD x42 x46 | s47 => DD x42 x47 | s48 => DD x42 x48 | s49 => DD x42 x49 | s50 => DD x42 x50 | s51 => DD x42 x51 | s52 => DD x42 x52 | s53 => DD x42 x53 | s54 => DD x42 x54 | s55 => DD x42 x55 | s56 => DD x42 x56 | s57 => DD x42 x57 | s58 => DD x42 x58 | s59 => DD x42 x59 | s60 => DD x42 x60 | s61 => DD x42 x61 | s62 => DD x42 x62 | s63 => DD x42 x63 | s64 => DD x43 x0 | s65 => DD x43 x1 | s66 => DD x43 x2 | s67 => DD x43 x3 | s68 => DD x43 x4 | s69 => DD x43 x5 | s70 => DD x43 x6 | s71 => DD x43 x7 | s72 => DD x43 x8 | s73 => DD x43 x9 | s74 => DD x43 x10 | s75 => DD x43 x11 | s76 => DD x43 x12 | s77 => DD x43 x13 | s78 => DD x43 x14 | s79 => DD x43 x15 | s80 => DD x43 x16 | s81 => DD x43 x17 | s82 => DD x43 x18 | s83 => DD x43 x19 | s84 => DD x43 x20 | s85 => DD x43 x21 | s86 => DD x43 x22 | s87 => DD x43 x23 | s88 => DD x43 x24 | s89 => DD x43 x25 | s90 => DD x43 x26 | s91 => DD x43 x27 | s92 => DD x43 x28 | s93 => DD x43 x29 | s94 => DD x43 x30 | s95 => DD x43 x31 | s96 => DD x43 x32 | s97 => DD x43 x33 | s98 => DD x43 x34 | s99 => DD x43 x35 | s100 => DD x43 x36 | s101 => DD x43 x37 | s102 => DD x43 x38 | s103 => DD x43 x39 | s104 => DD x43 x40 | s105 => DD x43 x41 | s106 => DD x43 x42 | s107 => DD x43 x43 | s108 => DD x43 x44 | s109 => DD x43 x45 | s110 => DD x43 x46 | s111 => DD x43 x47 | s112 => DD x43 x48 | s113 => DD x43 x49 | s114 => DD x43 x50 | s115 => DD x43 x51 | s116 => DD x43 x52 | s117 => DD x43 x53 | s118 => DD x43 x54 | s119 => DD x43 x55 | s120 => DD x43 x56 | s121 => DD x43 x57 | s122 => DD x43 x58 | s123 => DD x43 x59 | s124 => DD x43 x60 | s125 => DD x43 x61 | s126 => DD x43 x62 end.
Definition m2695 (c : sum2) : dd := match c with s0 => DD x42 x7 | s1 => DD x42 x8 | s2 => DD x42 x9 | s3 => DD x42 x10 | s4 => DD x42 x11 | s5 => DD x42 x12 | s6 => DD x42 x13 | s7 => DD x42 x14 | s8 => DD x42 x15 | s9 => DD x42 x16 | s10 => DD x42 x17 | s11 => DD x42 x18 | s12 => DD x42 x19 | s13 => DD x42 x20 | s14 => DD x42 x21 | s15 => DD x42 x22 | s16 => DD x42 x23 | s17 => DD x42 x24 | s18 => DD x42 x25 | s19 => DD x42 x26 | s20 => DD x42 x27 | s21 => DD x42 x28 | s22 => DD x42 x29 | s23 => DD x42 x30 | s24 => DD x42 x31 | s25 => DD x42 x32 | s26 => DD x42 x33 | s27 => DD x42 x34 | s28 => DD x42 x35 | s29 => DD x42 x36 | s30 => DD x42 x37 | s31 => DD x42 x38 | s32 => DD x42 x39 | s33 => DD x42 x40 | s34 => DD x42 x41 | s35 => DD x42 x42 | s36 => DD x42 x43 | s37 => DD x42 x44 | s38 => DD x42 x45 | s39 => DD x42 x46 | s40 => DD x42 x47 | s41 => DD x42 x48 | s42 => DD x42 x49 | s43 => DD x42 x50 | s44 => DD x42 x51 | s45 => DD x42 x52 | s46 => DD x42 x53 | s47 => DD x42 x54 | s48 => DD x42 x55 | s49 => DD x42 x56 | s50 => DD x42 x57 | s51 => DD x42 x58 | s52 => DD x42 x59 | s53 => DD x42 x60 | s54 => DD x42 x61 | s55 => DD x42 x62 | s56 => DD x42 x63 | s57 => DD x43 x0 | s58 => DD x43 x1 | s59 => DD x43 x2 | s60 => DD x43 x3 | s61 => DD x43 x4 | s62 => DD x43 x5 | s63 => DD x43 x6 | s64 => DD x43 x7 | s65 => DD x43 x8 | s66 => DD x43 x9 | s67 => DD x43 x10 | s68 => DD x43 x11 | s69 => DD x43 x12 | s70 => DD x43 x13 | s71 => DD x43 x14 | s72 => DD x43 x15 | s73 => DD x43 x16 | s74 => DD x43 x17 | s75 => DD x43 x18 | s76 => DD x43 x19 | s77 => DD x43 x20 | s78 => DD x43 x21 | s79 => DD x43 x22 | s80 => DD x43 x23 | s81 => DD x43 x24 | s82 => DD x43 x25 | s83 => DD x43 x26 | s84 => DD x43 x27 | s85 => DD x43 x28 | s86 => DD x43 x29 | s87 => DD x43 x30 | s88 => DD x43 x31 | s89 => DD x43 x32 | s90 => DD x43 x33 | s91 => DD x43 x34 | s92 => DD x43 x35 | s93 => DD x43 x36 | s94 => DD x43 x37 | s95 => DD x43 x38 | s96 => DD x43 x39 | s97 => DD x43 x40 | s98 => DD x43 x41 | s99 => DD x43 x42 | s100 => DD x43 x43 | s101 => DD x43 x44 | s102 => DD x43 x45 | s103 => DD x43 x46 | s104 => DD x43 x47 | s105 => DD x43 x48 | s106 => DD x43 x49 | s107 => DD x43 x50 | s108 => DD x43 x51 | s109 => DD x43 x52 | s110 => DD x43 x53 | s111 => DD x43 x54 | s112 => DD x43 x55 | s113 => DD x43 x56 | s114 => DD x43 x57 | s115 => DD x43 x58 | s116 => DD x43 x59 | s117 => DD x43 x60 | s118 => DD x43 x61 | s119 => DD x43 x62 | s120 => DD x43 x63 | s121 => DD x44 x0 | s122 => DD x44 x1 | s123 => DD x44 x2 | s124 => DD x44 x3 | s125 => DD x44 x4 | s126 => DD x44 x5 end.
Definition m2700 (c : sum2) : dd := match c with s0 => DD x42 x12 | s1 => DD x42 x13 | s2 => DD x42 x14 | s3 => DD x42 x15 | s4 => DD x42 x16 | s5 => DD x42 x17 | s6 => DD x42 x18 | s7 => DD x42 x19 | s8 => DD x42 x20 | s9 => DD x42 x21 | s10 => DD x42 x22 | s11 => DD x42 x23 | s12 => DD x42 x24 | s13 => DD x42 x25 | s14 => DD x42 x26 | s15 => DD x42 x27 | s16 => DD x42 x28 | s17 => DD x42 x29 | s18 => DD x42 x30 | s19 => DD x42 x31 | s20 => DD x42 x32 | s21 => DD x42 x33 | s22 => DD x42 x34 | s23 => DD x42 x35 | s24 => DD x42 x36 | s25 => DD x42 x37 | s26 => DD x42 x38 | s27 => DD x42 x39 | s28 => DD x42 x40 | s29 => DD x42 x41 | s30 => DD x42 x42 | s31 => DD x42 x43 | s32 => DD x42 x44 | s33 => DD x42 x45 | s34 => DD x42 x46 | s35 => DD x42 x47 | s36 => DD x42 x48 | s37 => DD x42 x49 | s38 => DD x42 x50 | s39 => DD x42 x51 | s40 => DD x42 x52 | s41 => DD x42 x53 | s42 => DD x42 x54 | s43 => DD x42 x55 | s44 => DD x42 x56 | s45 => DD x42 x57 | s46 => DD x42 x58 | s47 => DD x42 x59 | s48 => DD x42 x60 | s49 => DD x42 x61 | s50 => DD x42 x62 | s51 => DD x42 x63 | s52 => DD x43 x0 | s53 => DD x43 x1 | s54 => DD x43 x2 | s55 => DD x43 x3 | s56 => DD x43 x4 | s57 => DD x43 x5 | s58 => DD x43 x6 | s59 => DD x43 x7 | s60 => DD x43 x8 | s61 => DD x43 x9 | s62 => DD x43 x10 | s63 => DD x43 x11 | s64 => DD x43 x12 | s65 => DD x43 x13 | s66 => DD x43 x14 | s67 => DD x43 x15 | s68 => DD x43 x16 | s69 => DD x43 x17 | s70 => DD x43 x18 | s71 => DD x43 x19 | s72 => DD x43 x20 | s73 => DD x43 x21 | s74 => DD x43 x22 | s75 => DD x43 x23 | s76 => DD x43 x24 | s77 => DD x43 x25 | s78 => DD x43 x26 | s79 => DD x43 x27 | s80 => DD x43 x28 | s81 => DD x43 x29 | s82 => DD x43 x30 | s83 => DD x43 x31 | s84 => DD x43 x32 | s85 => DD x43 x33 | s86 => DD x43 x34 | s87 => DD x43 x35 | s88 => DD x43 x36 | s89 => DD x43 x37 | s90 => DD x43 x38 | s91 => DD x43 x39 | s92 => DD x43 x40 | s93 => DD x43 x41 | s94 => DD x43 x42 | s95 => DD x43 x43 | s96 => DD x43 x44 | s97 => DD x43 x45 | s98 => DD x43 x46 | s99 => DD x43 x47 | s100 => DD x43 x48 | s101 => DD x43 x49 | s102 => DD x43 x50 | s103 => DD x43 x51 | s104 => DD x43 x52 | s105 => DD x43 x53 | s106 => DD x43 x54 | s107 => DD x43 x55 | s108 => DD x43 x56 | s109 => DD x43 x57 | s110 => DD x43 x58 | s111 => DD x43 x59 | s112 => DD x43 x60 | s113 => DD x43 x61 | s114 => DD x43 x62 | s115 => DD x43 x63 | s116 => DD x44 x0 | s117 => DD x44 x1 | s118 => DD x44 x2 | s119 => DD x44 x3 | s120 => DD x44 x4 | s121 => DD x44 x5 | s122 => DD x44 x6 | s123 => DD x44 x7 | s124 => DD x44 x8 | s125 => DD x44 x9 | s126 => DD x44 x10 end.
Definition m2703 (c : sum2) : dd := match c with s0 => DD x42 x15 | s1 => DD x42 x16 | s2 => DD x42 x17 | s3 => DD x42 x18 | s4 => DD x42 x19 | s5 => DD x42 x20 | s6 => DD x42 x21 | s7 => DD x42 x22 | s8 => DD x42 x23 | s9 => DD x42 x24 | s10 => DD x42 x25 | s11 => DD x42 x26 | s12 => DD x42 x27 | s13 => DD x42 x28 | s14 => DD x42 x29 | s15 => DD x42 x30 | s16 => DD x42 x31 | s17 => DD x42 x32 | s18 => DD x42 x33 | s19 => DD x42 x34 | s20 => DD x42 x35 | s21 => DD x42 x36 | s22 => DD x42 x37 | s23 => DD x42 x38 | s24 => DD x42 x39 | s25 => DD x42 x40 | s26 => DD x42 x41 | s27 => DD x42 x42 | s28 => DD x42 x43 | s29 => DD x42 x44 | s30 => DD x42 x45 | s31 => DD x42 x46 | s32 => DD x42 x47 | s33 => DD x42 x48 | s34 => DD x42 x49 | s35 => DD x42 x50 | s36 => DD x42 x51 | s37 => DD x42 x52 | s38 => DD x42 x53 | s39 => DD x42 x54 | s40 => DD x42 x55 | s41 => DD x42 x56 | s42 => DD x42 x57 | s43 => DD x42 x58 | s44 => DD x42 x59 | s45 => DD x42 x60 | s46 => DD x42 x61 | s47 => DD x42 x62 | s48 => DD x42 x63 | s49 => DD x43 x0 | s50 => DD x43 x1 | s51 => DD x43 x2 | s52 => DD x43 x3 | s53 => DD x43 x4 | s54 => DD x43 x5 | s55 => DD x43 x6 | s56 => DD x43 x7 | s57 => DD x43 x8 | s58 => DD x43 x9 | s59 => DD x43 x10 | s60 => DD x43 x11 | s61 => DD x43 x12 | s62 => DD x43 x13 | s63 => DD x43 x14 | s64 => DD x43 x15 | s65 => DD x43 x16 | s66 => DD x43 x17 | s67 => DD x43 x18 | s68 => DD x43 x19 | s69 => DD x43 x20 | s70 => DD x43 x21 | s71 => DD x43 x22 | s72 => DD x43 x23 | s73 => DD x43 x24 | s74 => DD x43 x25 | s75 => DD x43 x26 | s76 => DD x43 x27 | s77 => DD x43 x28 | s78 => DD x43 x29 | s79 => DD x43 x30 | s80 => DD x43 x31 | s81 => DD x43 x32 | s82 => DD x43 x33 | s83 => DD x43 x34 | s84 => DD x43 x35 | s85 => DD x43 x36 | s86 => DD x43 x37 | s87 => DD x43 x38 | s88 => DD x43 x39 | s89 => DD x43 x40 | s90 => DD x43 x41 | s91 => DD x43 x42 | s92 => DD x43 x43 | s93 => DD x43 x44 | s94 => DD x43 x45 | s95 => DD x43 x46 | s96 => DD x43 x47 | s97 => DD x43 x48 | s98 => DD x43 x49 | s99 => DD x43 x50 | s100 => DD x43 x51 | s101 => DD x43 x52 | s102 => DD x43 x53 | s103 => DD x43 x54 | s104 => DD x43 x55 | s105 => DD x43 x56 | s106 => DD x43 x57 | s107 => DD x43 x58 | s108 => DD x43 x59 | s109 => DD x43 x60 | s110 => DD x43 x61 | s111 => DD x43 x62 | s112 => DD x43 x63 | s113 => DD x44 x0 | s114 => DD x44 x1 | s115 => DD x44 x2 | s116 => DD x44 x3 | s117 => DD x44 x4 | s118 => DD x44 x5 | s119 => DD x44 x6 | s120 => DD x44 x7 | s121 => DD x44 x8 | s122 => DD x44 x9 | s123 => DD x44 x10 | s124 => DD x44 x11 | s125 => DD x44 x12 | s126 => DD x44 x13 end.
Definition m2704 (c : sum2) : dd := match c with s0 => DD x42 x16 | s1 => DD x42 x17 | s2 => DD x42 x18 | s3 => DD x42 x19 | s4 => DD x42 x20 | s5 => DD x42 x21 | s6 => DD x42 x22 | s7 => DD x42 x23 | s8 => DD x42 x24 | s9 => DD x42 x25 | s10 => DD x42 x26 | s11 => DD x42 x27 | s12 => DD x42 x28 | s13 => DD x42 x29 | s14 => DD x42 x30 | s15 => DD x42 x31 | s16 => DD x42 x32 | s17 => DD x42 x33 | s18 => DD x42 x34 | s19 => DD x42 x35 | s20 => DD x42 x36 | s21 => DD x42 x37 | s22 => DD x42 x38 | s23 => DD x42 x39 | s24 => DD x42 x40 | s25 => DD x42 x41 | s26 => DD x42 x42 | s27 => DD x42 x43 | s28 => DD x42 x44 | s29 => DD x42 x45 | s30 => DD x42 x46 | s31 => DD x42 x47 | s32 => DD x42 x48 | s33 => DD x42 x49 | s34 => DD x42 x50 | s35 => DD x42 x51 | s36 => DD x42 x52 | s37 => DD x42 x53 | s38 => DD x42 x54 | s39 => DD x42 x55 | s40 => DD x42 x56 | s41 => DD x42 x57 | s42 => DD x42 x58 | s43 => DD x42 x59 | s44 => DD x42 x60 | s45 => DD x42 x61 | s46 => DD x42 x62 | s47 => DD x42 x63 | s48 => DD x43 x0 | s49 => DD x43 x1 | s50 => DD x43 x2 | s51 => DD x43 x3 | s52 => DD x43 x4 | s53 => DD x43 x5 | s54 => DD x43 x6 | s55 => DD x43 x7 | s56 => DD x43 x8 | s57 => DD x43 x9 | s58 => DD x43 x10 | s59 => DD x43 x11 | s60 => DD x43 x12 | s61 => DD x43 x13 | s62 => DD x43 x14 | s63 => DD x43 x15 | s64 => DD x43 x16 | s65 => DD x43 x17 | s66 => DD x43 x18 | s67 => DD x43 x19 | s68 => DD x43 x20 | s69 => DD x43 x21 | s70 => DD x43 x22 | s71 => DD x43 x23 | s72 => DD x43 x24 | s73 => DD x43 x25 | s74 => DD x43 x26 | s75 => DD x43 x27 | s76 => DD x43 x28 | s77 => DD x43 x29 | s78 => DD x43 x30 | s79 => DD x43 x31 | s80 => DD x43 x32 | s81 => DD x43 x33 | s82 => DD x43 x34 | s83 => DD x43 x35 | s84 => DD x43 x36 | s85 => DD x43 x37 | s86 => DD x43 x38 | s87 => DD x43 x39 | s88 => DD x43 x40 | s89 => DD x43 x41 | s90 => DD x43 x42 | s91 => DD x43 x43 | s92 => DD x43 x44 | s93 => DD x43 x45 | s94 => DD x43 x46 | s95 => DD x43 x47 | s96 => DD x43 x48 | s97 => DD x43 x49 | s98 => DD x43 x50 | s99 => DD x43 x51 | s100 => DD x43 x52 | s101 => DD x43 x53 | s102 => DD x43 x54 | s103 => DD x43 x55 | s104 => DD x43 x56 | s105 => DD x43 x57 | s106 => DD x43 x58 | s107 => DD x43 x59 | s108 => DD x43 x60 | s109 => DD x43 x61 | s110 => DD x43 x62 | s111 => DD x43 x63 | s112 => DD x44 x0 | s113 => DD x44 x1 | s114 => DD x44 x2 | s115 => DD x44 x3 | s116 => DD x44 x4 | s117 => DD x44 x5 | s118 => DD x44 x6 | s119 => DD x44 x7 | s120 => DD x44 x8 | s121 => DD x44 x9 | s122 => DD x44 x10 | s123 => DD x44 x11 | s124 => DD x44 x12 | s125 => DD x44 x13 | s126 => DD x44 x14 end.
Definition m2709 (c : sum2) : dd := match c with s0 => DD x42 x21 | s1 => DD x42 x22 | s2 => DD x42 x23 | s3 => DD x42 x24 | s4 => DD x42 x25 | s5 => DD x42 x26 | s6 => DD x42 x27 | s7 => DD x42 x28 | s8 => DD x42 x29 | s9 => DD x42 x30 | s10 => DD x42 x31 | s11 => DD x42 x32 | s12 => DD x42 x33 | s13 => DD x42 x34 | s14 => DD x42 x35 | s15 => DD x42 x36 | s16 => DD x42 x37 | s17 => DD x42 x38 | s18 => DD x42 x39 | s19 => DD x42 x40 | s20 => DD x42 x41 | s21 => DD x42 x42 | s22 => DD x42 x43 | s23 => DD x42 x44 | s24 => DD x42 x45 | s25 => DD x42 x46 | s26 => DD x42 x47 | s27 => DD x42 x48 | s28 => DD x42 x49 | s29 => DD x42 x50 | s30 => DD x42 x51 | s31 => DD x42 x52 | s32 => DD x42 x53 | s33 => DD x42 x54 | s34 => DD x42 x55 | s35 => DD x42 x56 | s36 => DD x42 x57 | s37 => DD x42 x58 | s38 => DD x42 x59 | s39 => DD x42 x60 | s40 => DD x42 x61 | s41 => DD x42 x62 | s42 => DD x42 x63 | s43 => DD x43 x0 | s44 => DD x43 x1 | s45 => DD x43 x2 | s46 => DD x43 x3 | s47 => DD x43 x4 | s48 => DD x43 x5 | s49 => DD x43 x6 | s50 => DD x43 x7 | s51 => DD x43 x8 | s52 => DD x43 x9 | s53 => DD x43 x10 | s54 => DD x43 x11 | s55 => DD x43 x12 | s56 => DD x43 x13 | s57 => DD x43 x14 | s58 => DD x43 x15 | s59 => DD x43 x16 | s60 => DD x43 x17 | s61 => DD x43 x18 | s62 => DD x43 x19 | s63 => DD x43 x20 | s64 => DD x43 x21 | s65 => DD x43 x22 | s66 => DD x43 x23 | s67 => DD x43 x24 | s68 => DD x43 x25 | s69 => DD x43 x26 | s70 => DD x43 x27 | s71 => DD x43 x28 | s72 => DD x43 x29 | s73 => DD x43 x30 | s74 => DD x43 x31 | s75 => DD x43 x32 | s76 => DD x43 x33 | s77 => DD x43 x34 | s78 => DD x43 x35 | s79 => DD x43 x36 | s80 => DD x43 x37 | s81 => DD x43 x38 | s82 => DD x43 x39 | s83 => DD x43 x40 | s84 => DD x43 x41 | s85 => DD x43 x42 | s86 => DD x43 x43 | s87 => DD x43 x44 | s88 => DD x43 x45 | s89 => DD x43 x46 | s90 => DD x43 x47 | s91 => DD x43 x48 | s92 => DD x43 x49 | s93 => DD x43 x50 | s94 => DD x43 x51 | s95 => DD x43 x52 | s96 => DD x43 x53 | s97 => DD x43 x54 | s98 => DD x43 x55 | s99 => DD x43 x56 | s100 => DD x43 x57 | s101 => DD x43 x58 | s102 => DD x43 x59 | s103 => DD x43 x60 | s104 => DD x43 x61 | s105 => DD x43 x62 | s106 => DD x43 x63 | s107 => DD x44 x0 | s108 => DD x44 x1 | s109 => DD x44 x2 | s110 => DD x44 x3 | s111 => DD x44 x4 | s112 => DD x44 x5 | s113 => DD x44 x6 | s114 => DD x44 x7 | s115 => DD x44 x8 | s116 => DD x44 x9 | s117 => DD x44 x10 | s118 => DD x44 x11 | s119 => DD x44 x12 | s120 => DD x44 x13 | s121 => DD x44 x14 | s122 => DD x44 x15 | s123 => DD x44 x16 | s124 => DD x44 x17 | s125 => DD x44 x18 | s126 => DD x44 x19 end.
Definition m2714 (c : sum2) : dd := match c with s0 => DD x42 x26 | s1 => DD x42 x27 | s2 => DD x42 x28 | s3 => DD x42 x29 | s4 => DD x42 x30 | s5 => DD x42 x31 | s6 => DD x42 x32 | s7 => DD x42 x33 | s8 => DD x42 x34 | s9 => DD x42 x35 | s10 => DD x42 x36 | s11 => DD x42 x37 | s12 => DD x42 x38 | s13 => DD x42 x39 | s14 => DD x42 x40 | s15 => DD x42 x41 | s16 => DD x42 x42 | s17 => DD x42 x43 | s18 => DD x42 x44 | s19 => DD x42 x45 | s20 => DD x42 x46 | s21 => DD x42 x47 | s22 => DD x42 x48 | s23 => DD x42 x49 | s24 => DD x42 x50 | s25 => DD x42 x51 | s26 => DD x42 x52 | s27 => DD x42 x53 | s28 => DD x42 x54 | s29 => DD x42 x55 | s30 => DD x42 x56 | s31 => DD x42 x57 | s32 => DD x42 x58 | s33 => DD x42 x59 | s34 => DD x42 x60 | s35 => DD x42 x61 | s36 => DD x42 x62 | s37 => DD x42 x63 | s38 => DD x43 x0 | s39 => DD x43 x1 | s40 => DD x43 x2 | s41 => DD x43 x3 | s42 => DD x43 x4 | s43 => DD x43 x5 | s44 => DD x43 x6 | s45 => DD x43 x7 | s46 => DD x43 x8 | s47 => DD x43 x9 | s48 => DD x43 x10 | s49 => DD x43 x11 | s50 => DD x43 x12 | s51 => DD x43 x13 | s52 => DD x43 x14 | s53 => DD x43 x15 | s54 => DD x43 x16 | s55 => DD x43 x17 | s56 => DD x43 x18 | s57 => DD x43 x19 | s58 => DD x43 x20 | s59 => DD x43 x21 | s60 => DD x43 x22 | s61 => DD x43 x23 | s62 => DD x43 x24 | s63 => DD x43 x25 | s64 => DD x43 x26 | s65 => DD x43 x27 | s66 => DD x43 x28 | s67 => DD x43 x29 | s68 => DD x43 x30 | s69 => DD x43 x31 | s70 => DD x43 x32 | s71 => DD x43 x33 | s72 => DD x43 x34 | s73 => DD x43 x35 | s74 => DD x43 x36 | s75 => DD x43 x37 | s76 => DD x43 x38 | s77 => DD x43 x39 | s78 => DD x43 x40 | s79 => DD x43 x41 | s80 => DD x43 x42 | s81 => DD x43 x43 | s82 => DD x43 x44 | s83 => DD x43 x45 | s84 => DD x43 x46 | s85 => DD x43 x47 | s86 => DD x43 x48 | s87 => DD x43 x49 | s88 => DD x43 x50 | s89 => DD x43 x51 | s90 => DD x43 x52 | s91 => DD x43 x53 | s92 => DD x43 x54 | s93 => DD x43 x55 | s94 => DD x43 x56 | s95 => DD x43 x57 | s96 => DD x43 x58 | s97 => DD x43 x59 | s98 => DD x43 x60 | s99 => DD x43 x61 | s100 => DD x43 x62 | s101 => DD x43 x63 | s102 => DD x44 x0 | s103 => DD x44 x1 | s104 => DD x44 x2 | s105 => DD x44 x3 | s106 => DD x44 x4 | s107 => DD x44 x5 | s108 => DD x44 x6 | s109 => DD x44 x7 | s110 => DD x44 x8 | s111 => DD x44 x9 | s112 => DD x44 x10 | s113 => DD x44 x11 | s114 => DD x44 x12 | s115 => DD x44 x13 | s116 => DD x44 x14 | s117 => DD x44 x15 | s118 => DD x44 x16 | s119 => DD x44 x17 | s120 => DD x44 x18 | s121 => DD x44 x19 | s122 => DD x44 x20 | s123 => DD x44 x21 | s124 => DD x44 x22 | s125 => DD x44 x23 | s126 => DD x44 x24 end.
Definition m2726 (c : sum2) : dd := match c with s0 => DD x42 x38 | s1 => DD x42 x39 | s2 => DD x42 x40 | s3 => DD x42 x41 | s4 => DD x42 x42 | s5 => DD x42 x43 | s6 => DD x42 x44 | s7 => DD x42 x45 | s8 => DD x42 x46 | s9 => DD x42 x47 | s10 => DD x42 x48 | s11 => DD x42 x49 | s12 => DD x42 x50 | s13 => DD x42 x51 | s14 => DD x42 x52 | s15 => DD x42 x53 | s16 => DD x42 x54 | s17 => DD x42 x55 | s18 => DD x42 x56 | s19 => DD x42 x57 | s20 => DD x42 x58 | s21 => DD x42 x59 | s22 => DD x42 x60 | s23 => DD x42 x61 | s24 => DD x42 x62 | s25 => DD x42 x63 | s26 => DD x43 x0 | s27 => DD x43 x1 | s28 => DD x43 x2 | s29 => DD x43 x3 | s30 => DD x43 x4 | s31 => DD x43 x5 | s32 => DD x43 x6 | s33 => DD x43 x7 | s34 => DD x43 x8 | s35 => DD x43 x9 | s36 => DD x43 x10 | s37 => DD x43 x11 | s38 => DD x43 x12 | s39 => DD x43 x13 | s40 => DD x43 x14 | s41 => DD x43 x15 | s42 => DD x43 x16 | s43 => DD x43 x17 | s44 => DD x43 x18 | s45 => DD x43 x19 | s46 => DD x43 x20 | s47 => DD x43 x21 | s48 => DD x43 x22 | s49 => DD x43 x23 | s50 => DD x43 x24 | s51 => DD x43 x25 | s52 => DD x43 x26 | s53 => DD x43 x27 | s54 => DD x43 x28 | s55 => DD x43 x29 | s56 => DD x43 x30 | s57 => DD x43 x31 | s58 => DD x43 x32 | s59 => DD x43 x33 | s60 => DD x43 x34 | s61 => DD x43 x35 | s62 => DD x43 x36 | s63 => DD x43 x37 | s64 => DD x43 x38 | s65 => DD x43 x39 | s66 => DD x43 x40 | s67 => DD x43 x41 | s68 => DD x43 x42 | s69 => DD x43 x43 | s70 => DD x43 x44 | s71 => DD x43 x45 | s72 => DD x43 x46 | s73 => DD x43 x47 | s74 => DD x43 x48 | s75 => DD x43 x49 | s76 => DD x43 x50 | s77 => DD x43 x51 | s78 => DD x43 x52 | s79 => DD x43 x53 | s80 => DD x43 x54 | s81 => DD x43 x55 | s82 => DD x43 x56 | s83 => DD x43 x57 | s84 => DD x43 x58 | s85 => DD x43 x59 | s86 => DD x43 x60 | s87 => DD x43 x61 | s88 => DD x43 x62 | s89 => DD x43 x63 | s90 => DD x44 x0 | s91 => DD x44 x1 | s92 => DD x44 x2 | s93 => DD x44 x3 | s94 => DD x44 x4 | s95 => DD x44 x5 | s96 => DD x44 x6 | s97 => DD x44 x7 | s98 => DD x44 x8 | s99 => DD x44 x9 | s100 => DD x44 x10 | s101 => DD x44 x11 | s102 => DD x44 x12 | s103 => DD x44 x13 | s104 => DD x44 x14 | s105 => DD x44 x15 | s106 => DD x44 x16 | s107 => DD x44 x17 | s108 => DD x44 x18 | s109 => DD x44 x19 | s110 => DD x44 x20 | s111 => DD x44 x21 | s112 => DD x44 x22 | s113 => DD x44 x23 | s114 => DD x44 x24 | s115 => DD x44 x25 | s116 => DD x44 x26 | s117 => DD x44 x27 | s118 => DD x44 x28 | s119 => DD x44 x29 | s120 => DD x44 x30 | s121 => DD x44 x31 | s122 => DD x44 x32 | s123 => DD x44 x33 | s124 => DD x44 x34 | s125 => DD x44 x35 | s126 => DD x44 x36 end.
Definition m2728 (c : sum2) : dd := match c with s0 => DD x42 x40 | s1 => DD x42 x41 | s2 => DD x42 x42 | s3 => DD x42 x43 | s4 => DD x42 x44 | s5 => DD x42 x45 | s6 => DD x42 x46 | s7 => DD x42 x47 | s8 => DD x42 x48 | s9 => DD x42 x49 | s10 => DD x42 x50 | s11 => DD x42 x51 | s12 => DD x42 x52 | s13 => DD x42 x53 | s14 => DD x42 x54 | s15 => DD x42 x55 | s16 => DD x42 x56 | s17 => DD x42 x57 | s18 => DD x42 x58 | s19 => DD x42 x59 | s20 => DD x42 x60 | s21 => DD x42 x61 | s22 => DD x42 x62 | s23 => DD x42 x63 | s24 => DD x43 x0 | s25 => DD x43 x1 | s26 => DD x43 x2 | s27 => DD x43 x3 | s28 => DD x43 x4 | s29 => DD x43 x5 | s30 => DD x43 x6 | s31 => DD x43 x7 | s32 => DD x43 x8 | s33 => DD x43 x9 | s34 => DD x43 x10 | s35 => DD x43 x11 | s36 => DD x43 x12 | s37 => DD x43 x13 | s38 => DD x43 x14 | s39 => DD x43 x15 | s40 => DD x43 x16 | s41 => DD x43 x17 | s42 => DD x43 x18 | s43 => DD x43 x19 | s44 => DD x43 x20 | s45 => DD x43 x21 | s46 => DD x43 x22 | s47 => DD x43 x23 | s48 => DD x43 x24 | s49 => DD x43 x25 | s50 => DD x43 x26 | s51 => DD x43 x27 | s52 => DD x43 x28 | s53 => DD x43 x29 | s54 => DD x43 x30 | s55 => DD x43 x31 | s56 => DD x43 x32 | s57 => DD x43 x33 | s58 => DD x43 x34 | s59 => DD x43 x35 | s60 => DD x43 x36 | s61 => DD x43 x37 | s62 => DD x43 x38 | s63 => DD x43 x39 | s64 => DD x43 x40 | s65 => DD x43 x41 | s66 => DD x43 x42 | s67 => DD x43 x43 | s68 => DD x43 x44 | s69 => DD x43 x45 | s70 => DD x43 x46 | s71 => DD x43 x47 | s72 => DD x43 x48 | s73 => DD x43 x49 | s74 => DD x43 x50 | s75 => DD x43 x51 | s76 => DD x43 x52 | s77 => DD x43 x53 | s78 => DD x43 x54 | s79 => DD x43 x55 | s80 => DD x43 x56 | s81 => DD x43 x57 | s82 => DD x43 x58 | s83 => DD x43 x59 | s84 => DD x43 x60 | s85 => DD x43 x61 | s86 => DD x43 x62 | s87 => DD x43 x63 | s88 => DD x44 x0 | s89 => DD x44 x1 | s90 => DD x44 x2 | s91 => DD x44 x3 | s92 => DD x44 x4 | s93 => DD x44 x5 | s94 => DD x44 x6 | s95 => DD x44 x7 | s96 => DD x44 x8 | s97 => DD x44 x9 | s98 => DD x44 x10 | s99 => DD x44 x11 | s100 => DD x44 x12 | s101 => DD x44 x13 | s102 => DD x44 x14 | s103 => DD x44 x15 | s104 => DD x44 x16 | s105 => DD x44 x17 | s106 => DD x44 x18 | s107 => DD x44 x19 | s108 => DD x44 x20 | s109 => DD x44 x21 | s110 => DD x44 x22 | s111 => DD x44 x23 | s112 => DD x44 x24 | s113 => DD x44 x25 | s114 => DD x44 x26 | s115 => DD x44 x27 | s116 => DD x44 x28 | s117 => DD x44 x29 | s118 => DD x44 x30 | s119 => DD x44 x31 | s120 => DD x44 x32 | s121 => DD x44 x33 | s122 => DD x44 x34 | s123 => DD x44 x35 | s124 => DD x44 x36 | s125 => DD x44 x37 | s126 => DD x44 x38 end.
Definition m2736 (c : sum2) : dd := match c with s0 => DD x42 x48 | s1 => DD x42 x49 | s2 => DD x42 x50 | s3 => DD x42 x51 | s4 => DD x42 x52 | s5 => DD x42 x53 | s6 => DD x42 x54 | s7 => DD x42 x55 | s8 => DD x42 x56 | s9 => DD x42 x57 | s10 => DD x42 x58 | s11 => DD x42 x59 | s12 => DD x42 x60 | s13 => DD x42 x61 | s14 => DD x42 x62 | s15 => DD x42 x63 | s16 => DD x43 x0 | s17 => DD x43 x1 | s18 => DD x43 x2 | s19 => DD x43 x3 | s20 => DD x43 x4 | s21 => DD x43 x5 | s22 => DD x43 x6 | s23 => DD x43 x7 | s24 => DD x43 x8 | s25 => DD x43 x9 | s26 => DD x43 x10 | s27 => DD x43 x11 | s28 => DD x43 x12 | s29 => DD x43 x13 | s30 => DD x43 x14 | s31 => DD x43 x15 | s32 => DD x43 x16 | s33 => DD x43 x17 | s34 => DD x43 x18 | s35 => DD x43 x19 | s36 => DD x43 x20 | s37 => DD x43 x21 | s38 => DD x43 x22 | s39 => DD x43 x23 | s40 => DD x43 x24 | s41 => DD x43 x25 | s42 => DD x43 x26 | s43 => DD x43 x27 | s44 => DD x43 x28 | s45 => DD x43 x29 | s46 => DD x43 x30 | s47 => DD x43 x31 | s48 => DD x43 x32 | s49 => DD x43 x33 | s50 => DD x43 x34 | s51 => DD x43 x35 | s52 => DD x43 x36 | s53 => DD x43 x37 | s54 => DD x43 x38 | s55 => DD x43 x39 | s56 => DD x43 x40 | s57 => DD x43 x41 | s58 => DD x43 x42 | s59 => DD x43 x43 | s60 => DD x43 x44 | s61 => DD x43 x45 | s62 => DD x43 x46 | s63 => DD x43 x47 | s64 => DD x43 x48 | s65 => DD x43 x49 | s66 => DD x43 x50 | s67 => DD x43 x51 | s68 => DD x43 x52 | s69 => DD x43 x53 | s70 => DD x43 x54 | s71 => DD x43 x55 | s72 => DD x43 x56 | s73 => DD x43 x57 | s74 => DD x43 x58 | s75 => DD x43 x59 | s76 => DD x43 x60 | s77 => DD x43 x61 | s78 => DD x43 x62 | s79 => DD x43 x63 | s80 => DD x44 x0 | s81 => DD x44 x1 | s82 => DD x44 x2 | s83 => DD x44 x3 | s84 => DD x44 x4 | s85 => DD x44 x5 | s86 => DD x44 x6 | s87 => DD x44 x7 | s88 => DD x44 x8 | s89 => DD x44 x9 | s90 => DD x44 x10 | s91 => DD x44 x11 | s92 => DD x44 x12 | s93 => DD x44 x13 | s94 => DD x44 x14 | s95 => DD x44 x15 | s96 => DD x44 x16 | s97 => DD x44 x17 | s98 => DD x44 x18 | s99 => DD x44 x19 | s100 => DD x44 x20 | s101 => DD x44 x21 | s102 => DD x44 x22 | s103 => DD x44 x23 | s104 => DD x44 x24 | s105 => DD x44 x25 | s106 => DD x44 x26 | s107 => DD x44 x27 | s108 => DD x44 x28 | s109 => DD x44 x29 | s110 => DD x44 x30 | s111 => DD x44 x31 | s112 => DD x44 x32 | s113 => DD x44 x33 | s114 => DD x44 x34 | s115 => DD x44 x35 | s116 => DD x44 x36 | s117 => DD x44 x37 | s118 => DD x44 x38 | s119 => DD x44 x39 | s120 => DD x44 x40 | s121 => DD x44 x41 | s122 => DD x44 x42 | s123 => DD x44 x43 | s124 => DD x44 x44 | s125 => DD x44 x45 | s126 => DD x44 x46 end.
Definition m2744 (c : sum2) : dd := match c with s0 => DD x42 x56 | s1 => DD x42 x57 | s2 => DD x42 x58 | s3 => DD x42 x59 | s4 => DD x42 x60 | s5 => DD x42 x61 | s6 => DD x42 x62 | s7 => DD x42 x63 | s8 => DD x43 x0 | s9 => DD x43 x1 | s10 => DD x43 x2 | s11 => DD x43 x3 | s12 => DD x43 x4 | s13 => DD x43 x5 | s14 => DD x43 x6 | s15 => DD x43 x7 | s16 => DD x43 x8 | s17 => DD x43 x9 | s18 => DD x43 x10 | s19 => DD x43 x11 | s20 => DD x43 x12 | s21 => DD x43 x13 | s22 => DD x43 x14 | s23 => DD x43 x15 | s24 => DD x43 x16 | s25 => DD x43 x17 | s26 => DD x43 x18 | s27 => DD x43 x19 | s28 => DD x43 x20 | s29 => DD x43 x21 | s30 => DD x43 x22 | s31 => DD x43 x23 | s32 => DD x43 x24 | s33 => DD x43 x25 | s34 => DD x43 x26 | s35 => DD x43 x27 | s36 => DD x43 x28 | s37 => DD x43 x29 | s38 => DD x43 x30 | s39 => DD x43 x31 | s40 => DD x43 x32 | s41 => DD x43 x33 | s42 => DD x43 x34 | s43 => DD x43 x35 | s44 => DD x43 x36 | s45 => DD x43 x37 | s46 => DD x43 x38 | s47 => DD x43 x39 | s48 => DD x43 x40 | s49 => DD x43 x41 | s50 => DD x43 x42 | s51 => DD x43 x43 | s52 => DD x43 x44 | s53 => DD x43 x45 | s54 => DD x43 x46 | s55 => DD x43 x47 | s56 => DD x43 x48 | s57 => DD x43 x49 | s58 => DD x43 x50 | s59 => DD x43 x51 | s60 => DD x43 x52 | s61 => DD x43 x53 | s62 => DD x43 x54 | s63 => DD x43 x55 | s64 => DD x43 x56 | s65 => DD x43 x57 | s66 => DD x43 x58 | s67 => DD x43 x59 | s68 => DD x43 x60 | s69 => DD x43 x61 | s70 => DD x43 x62 | s71 => DD x43 x63 | s72 => DD x44 x0 | s73 => DD x44 x1 | s74 => DD x44 x2 | s75 => DD x44 x3 | s76 => DD x44 x4 | s77 => DD x44 x5 | s78 => DD x44 x6 | s79 => DD x44 x7 | s80 => DD x44 x8 | s81 => DD x44 x9 | s82 => DD x44 x10 | s83 => DD x44 x11 | s84 => DD x44 x12 | s85 => DD x44 x13 | s86 => DD x44 x14 | s87 => DD x44 x15 | s88 => DD x44 x16 | s89 => DD x44 x17 | s90 => DD x44 x18 | s91 => DD x44 x19 | s92 => DD x44 x20 | s93 => DD x44 x21 | s94 => DD x44 x22 | s95 => DD x44 x23 | s96 => DD x44 x24 | s97 => DD x44 x25 | s98 => DD x44 x26 | s99 => DD x44 x27 | s100 => DD x44 x28 | s101 => DD x44 x29 | s102 => DD x44 x30 | s103 => DD x44 x31 | s104 => DD x44 x32 | s105 => DD x44 x33 | s106 => DD x44 x34 | s107 => DD x44 x35 | s108 => DD x44 x36 | s109 => DD x44 x37 | s110 => DD x44 x38 | s111 => DD x44 x39 | s112 => DD x44 x40 | s113 => DD x44 x41 | s114 => DD x44 x42 | s115 => DD x44 x43 | s116 => DD x44 x44 | s117 => DD x44 x45 | s118 => DD x44 x46 | s119 => DD x44 x47 | s120 => DD x44 x48 | s121 => DD x44 x49 | s122 => DD x44 x50 | s123 => DD x44 x51 | s124 => DD x44 x52 | s125 => DD x44 x53 | s126 => DD x44 x54 end.
Definition m2745 (c : sum2) : dd := match c with s0 => DD x42 x57 | s1 => DD x42 x58 | s2 => DD x42 x59 | s3 => DD x42 x60 | s4 => DD x42 x61 | s5 => DD x42 x62 | s6 => DD x42 x63 | s7 => DD x43 x0 | s8 => DD x43 x1 | s9 => DD x43 x2 | s10 => DD x43 x3 | s11 => DD x43 x4 | s12 => DD x43 x5 | s13 => DD x43 x6 | s14 => DD x43 x7 | s15 => DD x43 x8 | s16 => DD x43 x9 | s17 => DD x43 x10 | s18 => DD x43 x11 | s19 => DD x43 x12 | s20 => DD x43 x13 | s21 => DD x43 x14 | s22 => DD x43 x15 | s23 => DD x43 x16 | s24 => DD x43 x17 | s25 => DD x43 x18 | s26 => DD x43 x19 | s27 => DD x43 x20 | s28 => DD x43 x21 | s29 => DD x43 x22 | s30 => DD x43 x23 | s31 => DD x43 x24 | s32 => DD x43 x25 | s33 => DD x43 x26 | s34 => DD x43 x27 | s35 => DD x43 x28 | s36 => DD x43 x29 | s37 => DD x43 x30 | s38 => DD x43 x31 | s39 => DD x43 x32 | s40 => DD x43 x33 | s41 => DD x43 x34 | s42 => DD x43 x35 | s43 => DD x43 x36 | s44 => DD x43 x37 | s45 => DD x43 x38 | s46 => DD x43 x39 | s47 => DD x43 x40 | s48 => DD x43 x41 | s49 => DD x43 x42 | s50 => DD x43 x43 | s51 => DD x43 x44 | s52 => DD x43 x45 | s53 => DD x43 x46 | s54 => DD x43 x47 | s55 => DD x43 x48 | s56 => DD x43 x49 | s57 => DD x43 x50 | s58 => DD x43 x51 | s59 => DD x43 x52 | s60 => DD x43 x53 | s61 => DD x43 x54 | s62 => DD x43 x55 | s63 => DD x43 x56 | s64 => DD x43 x57 | s65 => DD x43 x58 | s66 => DD x43 x59 | s67 => DD x43 x60 | s68 => DD x43 x61 | s69 => DD x43 x62 | s70 => DD x43 x63 | s71 => DD x44 x0 | s72 => DD x44 x1 | s73 => DD x44 x2 | s74 => DD x44 x3 | s75 => DD x44 x4 | s76 => DD x44 x5 | s77 => DD x44 x6 | s78 => DD x44 x7 | s79 => DD x44 x8 | s80 => DD x44 x9 | s81 => DD x44 x10 | s82 => DD x44 x11 | s83 => DD x44 x12 | s84 => DD x44 x13 | s85 => DD x44 x14 | s86 => DD x44 x15 | s87 => DD x44 x16 | s88 => DD x44 x17 | s89 => DD x44 x18 | s90 => DD x44 x19 | s91 => DD x44 x20 | s92 => DD x44 x21 | s93 => DD x44 x22 | s94 => DD x44 x23 | s95 => DD x44 x24 | s96 => DD x44 x25 | s97 => DD x44 x26 | s98 => DD x44 x27 | s99 => DD x44 x28 | s100 => DD x44 x29 | s101 => DD x44 x30 | s102 => DD x44 x31 | s103 => DD x44 x32 | s104 => DD x44 x33 | s105 => DD x44 x34 | s106 => DD x44 x35 | s107 => DD x44 x36 | s108 => DD x44 x37 | s109 => DD x44 x38 | s110 => DD x44 x39 | s111 => DD x44 x40 | s112 => DD x44 x41 | s113 => DD x44 x42 | s114 => DD x44 x43 | s115 => DD x44 x44 | s116 => DD x44 x45 | s117 => DD x44 x46 | s118 => DD x44 x47 | s119 => DD x44 x48 | s120 => DD x44 x49 | s121 => DD x44 x50 | s122 => DD x44 x51 | s123 => DD x44 x52 | s124 => DD x44 x53 | s125 => DD x44 x54 | s126 => DD x44 x55 end.
Definition m2750 (c : sum2) : dd := match c with s0 => DD x42 x62 | s1 => DD x42 x63 | s2 => DD x43 x0 | s3 => DD x43 x1 | s4 => DD x43 x2 | s5 => DD x43 x3 | s6 => DD x43 x4 | s7 => DD x43 x5 | s8 => DD x43 x6 | s9 => DD x43 x7 | s10 => DD x43 x8 | s11 => DD x43 x9 | s12 => DD x43 x10 | s13 => DD x43 x11 | s14 => DD x43 x12 | s15 => DD x43 x13 | s16 => DD x43 x14 | s17 => DD x43 x15 | s18 => DD x43 x16 | s19 => DD x43 x17 | s20 => DD x43 x18 | s21 => DD x43 x19 | s22 => DD x43 x20 | s23 => DD x43 x21 | s24 => DD x43 x22 | s25 => DD x43 x23 | s26 => DD x43 x24 | s27 => DD x43 x25 | s28 => DD x43 x26 | s29 => DD x43 x27 | s30 => DD x43 x28 | s31 => DD x43 x29 | s32 => DD x43 x30 | s33 => DD x43 x31 | s34 => DD x43 x32 | s35 => DD x43 x33 | s36 => DD x43 x34 | s37 => DD x43 x35 | s38 => DD x43 x36 | s39 => DD x43 x37 | s40 => DD x43 x38 | s41 => DD x43 x39 | s42 => DD x43 x40 | s43 => DD x43 x41 | s44 => DD x43 x42 | s45 => DD x43 x43 | s46 => DD x43 x44 | s47 => DD x43 x45 | s48 => DD x43 x46 | s49 => DD x43 x47 | s50 => DD x43 x48 | s51 => DD x43 x49 | s52 => DD x43 x50 | s53 => DD x43 x51 | s54 => DD x43 x52 | s55 => DD x43 x53 | s56 => DD x43 x54 | s57 => DD x43 x55 | s58 => DD x43 x56 | s59 => DD x43 x57 | s60 => DD x43 x58 | s61 => DD x43 x59 | s62 => DD x43 x60 | s63 => DD x43 x61 | s64 => DD x43 x62 | s65 => DD x43 x63 | s66 => DD x44 x0 | s67 => DD x44 x1 | s68 => DD x44 x2 | s69 => DD x44 x3 | s70 => DD x44 x4 | s71 => DD x44 x5 | s72 => DD x44 x6 | s73 => DD x44 x7 | s74 => DD x44 x8 | s75 => DD x44 x9 | s76 => DD x44 x10 | s77 => DD x44 x11 | s78 => DD x44 x12 | s79 => DD x44 x13 | s80 => DD x44 x14 | s81 => DD x44 x15 | s82 => DD x44 x16 | s83 => DD x44 x17 | s84 => DD x44 x18 | s85 => DD x44 x19 | s86 => DD x44 x20 | s87 => DD x44 x21 | s88 => DD x44 x22 | s89 => DD x44 x23 | s90 => DD x44 x24 | s91 => DD x44 x25 | s92 => DD x44 x26 | s93 => DD x44 x27 | s94 => DD x44 x28 | s95 => DD x44 x29 | s96 => DD x44 x30 | s97 => DD x44 x31 | s98 => DD x44 x32 | s99 => DD x44 x33 | s100 => DD x44 x34 | s101 => DD x44 x35 | s102 => DD x44 x36 | s103 => DD x44 x37 | s104 => DD x44 x38 | s105 => DD x44 x39 | s106 => DD x44 x40 | s107 => DD x44 x41 | s108 => DD x44 x42 | s109 => DD x44 x43 | s110 => DD x44 x44 | s111 => DD x44 x45 | s112 => DD x44 x46 | s113 => DD x44 x47 | s114 => DD x44 x48 | s115 => DD x44 x49 | s116 => DD x44 x50 | s117 => DD x44 x51 | s118 => DD x44 x52 | s119 => DD x44 x53 | s120 => DD x44 x54 | s121 => DD x44 x55 | s122 => DD x44 x56 | s123 => DD x44 x57 | s124 => DD x44 x58 | s125 => DD x44 x59 | s126 => DD x44 x60 end.
Definition m2754 (c : sum2) : dd := match c with s0 => DD x43 x2 | s1 => DD x43 x3 | s2 => DD x43 x4 | s3 => DD x43 x5 | s4 => DD x43 x6 | s5 => DD x43 x7 | s6 => DD x43 x8 | s7 => DD x43 x9 | s8 => DD x43 x10 | s9 => DD x43 x11 | s10 => DD x43 x12 | s11 => DD x43 x13 | s12 => DD x43 x14 | s13 => DD x43 x15 | s14 => DD x43 x16 | s15 => DD x43 x17 | s16 => DD x43 x18 | s17 => DD x43 x19 | s18 => DD x43 x20 | s19 => DD x43 x21 | s20 => DD x43 x22 | s21 => DD x43 x23 | s22 => DD x43 x24 | s23 => DD x43 x25 | s24 => DD x43 x26 | s25 => DD x43 x27 | s26 => DD x43 x28 | s27 => DD x43 x29 | s28 => DD x43 x30 | s29 => DD x43 x31 | s30 => DD x43 x32 | s31 => DD x43 x33 | s32 => DD x43 x34 | s33 => DD x43 x35 | s34 => DD x43 x36 | s35 => DD x43 x37 | s36 => DD x43 x38 | s37 => DD x43 x39 | s38 => DD x43 x40 | s39 => DD x43 x41 | s40 => DD x43 x42 | s41 => DD x43 x43 | s42 => DD x43 x44 | s43 => DD x43 x45 | s44 => DD x43 x46 | s45 => DD x43 x47 | s46 => DD x43 x48 | s47 => DD x43 x49 | s48 => DD x43 x50 | s49 => DD x43 x51 | s50 => DD x43 x52 | s51 => DD x43 x53 | s52 => DD x43 x54 | s53 => DD x43 x55 | s54 => DD x43 x56 | s55 => DD x43 x57 | s56 => DD x43 x58 | s57 => DD x43 x59 | s58 => DD x43 x60 | s59 => DD x43 x61 | s60 => DD x43 x62 | s61 => DD x43 x63 | s62 => DD x44 x0 | s63 => DD x44 x1 | s64 => DD x44 x2 | s65 => DD x44 x3 | s66 => DD x44 x4 | s67 => DD x44 x5 | s68 => DD x44 x6 | s69 => DD x44 x7 | s70 => DD x44 x8 | s71 => DD x44 x9 | s72 => DD x44 x10 | s73 => DD x44 x11 | s74 => DD x44 x12 | s75 => DD x44 x13 | s76 => DD x44 x14 | s77 => DD x44 x15 | s78 => DD x44 x16 | s79 => DD x44 x17 | s80 => DD x44 x18 | s81 => DD x44 x19 | s82 => DD x44 x20 | s83 => DD x44 x21 | s84 => DD x44 x22 | s85 => DD x44 x23 | s86 => DD x44 x24 | s87 => DD x44 x25 | s88 => DD x44 x26 | s89 => DD x44 x27 | s90 => DD x44 x28 | s91 => DD x44 x29 | s92 => DD x44 x30 | s93 => DD x44 x31 | s94 => DD x44 x32 | s95 => DD x44 x33 | s96 => DD x44 x34 | s97 => DD x44 x35 | s98 => DD x44 x36 | s99 => DD x44 x37 | s100 => DD x44 x38 | s101 => DD x44 x39 | s102 => DD x44 x40 | s103 => DD x44 x41 | s104 => DD x44 x42 | s105 => DD x44 x43 | s106 => DD x44 x44 | s107 => DD x44 x45 | s108 => DD x44 x46 | s109 => DD x44 x47 | s110 => DD x44 x48 | s111 => DD x44 x49 | s112 => DD x44 x50 | s113 => DD x44 x51 | s114 => DD x44 x52 | s115 => DD x44 x53 | s116 => DD x44 x54 | s117 => DD x44 x55 | s118 => DD x44 x56 | s119 => DD x44 x57 | s120 => DD x44 x58 | s121 => DD x44 x59 | s122 => DD x44 x60 | s123 => DD x44 x61 | s124 => DD x44 x62 | s125 => DD x44 x63 | s126 => DD x45 x0 end.
Definition m2756 (c : sum2) : dd := match c with s0 => DD x43 x4 | s1 => DD x43 x5 | s2 => DD x43 x6 | s3 => DD x43 x7 | s4 => DD x43 x8 | s5 => DD x43 x9 | s6 => DD x43 x10 | s7 => DD x43 x11 | s8 => DD x43 x12 | s9 => DD x43 x13 | s10 => DD x43 x14 | s11 => DD x43 x15 | s12 => DD x43 x16 | s13 => DD x43 x17 | s14 => DD x43 x18 | s15 => DD x43 x19 | s16 => DD x43 x20 | s17 => DD x43 x21 | s18 => DD x43 x22 | s19 => DD x43 x23 | s20 => DD x43 x24 | s21 => DD x43 x25 | s22 => DD x43 x26 | s23 => DD x43 x27 | s24 => DD x43 x28 | s25 => DD x43 x29 | s26 => DD x43 x30 | s27 => DD x43 x31 | s28 => DD x43 x32 | s29 => DD x43 x33 | s30 => DD x43 x34 | s31 => DD x43 x35 | s32 => DD x43 x36 | s33 => DD x43 x37 | s34 => DD x43 x38 | s35 => DD x43 x39 | s36 => DD x43 x40 | s37 => DD x43 x41 | s38 => DD x43 x42 | s39 => DD x43 x43 | s40 => DD x43 x44 | s41 => DD x43 x45 | s42 => DD x43 x46 | s43 => DD x43 x47 | s44 => DD x43 x48 | s45 => DD x43 x49 | s46 => DD x43 x50 | s47 => DD x43 x51 | s48 => DD x43 x52 | s49 => DD x43 x53 | s50 => DD x43 x54 | s51 => DD x43 x55 | s52 => DD x43 x56 | s53 => DD x43 x57 | s54 => DD x43 x58 | s55 => DD x43 x59 | s56 => DD x43 x60 | s57 => DD x43 x61 | s58 => DD x43 x62 | s59 => DD x43 x63 | s60 => DD x44 x0 | s61 => DD x44 x1 | s62 => DD x44 x2 | s63 => DD x44 x3 | s64 => DD x44 x4 | s65 => DD x44 x5 | s66 => DD x44 x6 | s67 => DD x44 x7 | s68 => DD x44 x8 | s69 => DD x44 x9 | s70 => DD x44 x10 | s71 => DD x44 x11 | s72 => DD x44 x12 | s73 => DD x44 x13 | s74 => DD x44 x14 | s75 => DD x44 x15 | s76 => DD x44 x16 | s77 => DD x44 x17 | s78 => DD x44 x18 | s79 => DD x44 x19 | s80 => DD x44 x20 | s81 => DD x44 x21 | s82 => DD x44 x22 | s83 => DD x44 x23 | s84 => DD x44 x24 | s85 => DD x44 x25 | s86 => DD x44 x26 | s87 => DD x44 x27 | s88 => DD x44 x28 | s89 => DD x44 x29 | s90 => DD x44 x30 | s91 => DD x44 x31 | s92 => DD x44 x32 | s93 => DD x44 x33 | s94 => DD x44 x34 | s95 => DD x44 x35 | s96 => DD x44 x36 | s97 => DD x44 x37 | s98 => DD x44 x38 | s99 => DD x44 x39 | s100 => DD x44 x40 | s101 => DD x44 x41 | s102 => DD x44 x42 | s103 => DD x44 x43 | s104 => DD x44 x44 | s105 => DD x44 x45 | s106 => DD x44 x46 | s107 => DD x44 x47 | s108 => DD x44 x48 | s109 => DD x44 x49 | s110 => DD x44 x50 | s111 => DD x44 x51 | s112 => DD x44 x52 | s113 => DD x44 x53 | s114 => DD x44 x54 | s115 => DD x44 x55 | s116 => DD x44 x56 | s117 => DD x44 x57 | s118 => DD x44 x58 | s119 => DD x44 x59 | s120 => DD x44 x60 | s121 => DD x44 x61 | s122 => DD x44 x62 | s123 => DD x44 x63 | s124 => DD x45 x0 | s125 => DD x45 x1 | s126 => DD x45 x2 end.
Definition m2760 (c : sum2) : dd := match c with s0 => DD x43 x8 | s1 => DD x43 x9 | s2 => DD x43 x10 | s3 => DD x43 x11 | s4 => DD x43 x12 | s5 => DD x43 x13 | s6 => DD x43 x14 | s7 => DD x43 x15 | s8 => DD x43 x16 | s9 => DD x43 x17 | s10 => DD x43 x18 | s11 => DD x43 x19 | s12 => DD x43 x20 | s13 => DD x43 x21 | s14 => DD x43 x22 | s15 => DD x43 x23 | s16 => DD x43 x24 | s17 => DD x43 x25 | s18 => DD x43 x26 | s19 => DD x43 x27 | s20 => DD x43 x28 | s21 => DD x43 x29 | s22 => DD x43 x30 | s23 => DD x43 x31 | s24 => DD x43 x32 | s25 => DD x43 x33 | s26 => DD x43 x34 | s27 => DD x43 x35 | s28 => DD x43 x36 | s29 => DD x43 x37 | s30 => DD x43 x38 | s31 => DD x43 x39 | s32 => DD x43 x40 | s33 => DD x43 x41 | s34 => DD x43 x42 | s35 => DD x43 x43 | s36 => DD x43 x44 | s37 => DD x43 x45 | s38 => DD x43 x46 | s39 => DD x43 x47 | s40 => DD x43 x48 | s41 => DD x43 x49 | s42 => DD x43 x50 | s43 => DD x43 x51 | s44 => DD x43 x52 | s45 => DD x43 x53 | s46 => DD x43 x54 | s47 => DD x43 x55 | s48 => DD x43 x56 | s49 => DD x43 x57 | s50 => DD x43 x58 | s51 => DD x43 x59 | s52 => DD x43 x60 | s53 => DD x43 x61 | s54 => DD x43 x62 | s55 => DD x43 x63 | s56 => DD x44 x0 | s57 => DD x44 x1 | s58 => DD x44 x2 | s59 => DD x44 x3 | s60 => DD x44 x4 | s61 => DD x44 x5 | s62 => DD x44 x6 | s63 => DD x44 x7 | s64 => DD x44 x8 | s65 => DD x44 x9 | s66 => DD x44 x10 | s67 => DD x44 x11 | s68 => DD x44 x12 | s69 => DD x44 x13 | s70 => DD x44 x14 | s71 => DD x44 x15 | s72 => DD x44 x16 | s73 => DD x44 x17 | s74 => DD x44 x18 | s75 => DD x44 x19 | s76 => DD x44 x20 | s77 => DD x44 x21 | s78 => DD x44 x22 | s79 => DD x44 x23 | s80 => DD x44 x24 | s81 => DD x44 x25 | s82 => DD x44 x26 | s83 => DD x44 x27 | s84 => DD x44 x28 | s85 => DD x44 x29 | s86 => DD x44 x30 | s87 => DD x44 x31 | s88 => DD x44 x32 | s89 => DD x44 x33 | s90 => DD x44 x34 | s91 => DD x44 x35 | s92 => DD x44 x36 | s93 => DD x44 x37 | s94 => DD x44 x38 | s95 => DD x44 x39 | s96 => DD x44 x40 | s97 => DD x44 x41 | s98 => DD x44 x42 | s99 => DD x44 x43 | s100 => DD x44 x44 | s101 => DD x44 x45 | s102 => DD x44 x46 | s103 => DD x44 x47 | s104 => DD x44 x48 | s105 => DD x44 x49 | s106 => DD x44 x50 | s107 => DD x44 x51 | s108 => DD x44 x52 | s109 => DD x44 x53 | s110 => DD x44 x54 | s111 => DD x44 x55 | s112 => DD x44 x56 | s113 => DD x44 x57 | s114 => DD x44 x58 | s115 => DD x44 x59 | s116 => DD x44 x60 | s117 => DD x44 x61 | s118 => DD x44 x62 | s119 => DD x44 x63 | s120 => DD x45 x0 | s121 => DD x45 x1 | s122 => DD x45 x2 | s123 => DD x45 x3 | s124 => DD x45 x4 | s125 => DD x45 x5 | s126 => DD x45 x6 end.
Definition m2772 (c : sum2) : dd := match c with s0 => DD x43 x20 | s1 => DD x43 x21 | s2 => DD x43 x22 | s3 => DD x43 x23 | s4 => DD x43 x24 | s5 => DD x43 x25 | s6 => DD x43 x26 | s7 => DD x43 x27 | s8 => DD x43 x28 | s9 => DD x43 x29 | s10 => DD x43 x30 | s11 => DD x43 x31 | s12 => DD x43 x32 | s13 => DD x43 x33 | s14 => DD x43 x34 | s15 => DD x43 x35 | s16 => DD x43 x36 | s17 => DD x43 x37 | s18 => DD x43 x38 | s19 => DD x43 x39 | s20 => DD x43 x40 | s21 => DD x43 x41 | s22 => DD x43 x42 | s23 => DD x43 x43 | s24 => DD x43 x44 | s25 => DD x43 x45 | s26 => DD x43 x46 | s27 => DD x43 x47 | s28 => DD x43 x48 | s29 => DD x43 x49 | s30 => DD x43 x50 | s31 => DD x43 x51 | s32 => DD x43 x52 | s33 => DD x43 x53 | s34 => DD x43 x54 | s35 => DD x43 x55 | s36 => DD x43 x56 | s37 => DD x43 x57 | s38 => DD x43 x58 | s39 => DD x43 x59 | s40 => DD x43 x60 | s41 => DD x43 x61 | s42 => DD x43 x62 | s43 => DD x43 x63 | s44 => DD x44 x0 | s45 => DD x44 x1 | s46 => DD x44 x2 | s47 => DD x44 x3 | s48 => DD x44 x4 | s49 => DD x44 x5 | s50 => DD x44 x6 | s51 => DD x44 x7 | s52 => DD x44 x8 | s53 => DD x44 x9 | s54 => DD x44 x10 | s55 => DD x44 x11 | s56 => DD x44 x12 | s57 => DD x44 x13 | s58 => DD x44 x14 | s59 => DD x44 x15 | s60 => DD x44 x16 | s61 => DD x44 x17 | s62 => DD x44 x18 | s63 => DD x44 x19 | s64 => DD x44 x20 | s65 => DD x44 x21 | s66 => DD x44 x22 | s67 => DD x44 x23 | s68 => DD x44 x24 | s69 => DD x44 x25 | s70 => DD x44 x26 | s71 => DD x44 x27 | s72 => DD x44 x28 | s73 => DD x44 x29 | s74 => DD x44 x30 | s75 => DD x44 x31 | s76 => DD x44 x32 | s77 => DD x44 x33 | s78 => DD x44 x34 | s79 => DD x44 x35 | s80 => DD x44 x36 | s81 => DD x44 x37 | s82 => DD x44 x38 | s83 => DD x44 x39 | s84 => DD x44 x40 | s85 => DD x44 x41 | s86 => DD x44 x42 | s87 => DD x44 x43 | s88 => DD x44 x44 | s89 => DD x44 x45 | s90 => DD x44 x46 | s91 => DD x44 x47 | s92 => DD x44 x48 | s93 => DD x44 x49 | s94 => DD x44 x50 | s95 => DD x44 x51 | s96 => DD x44 x52 | s97 => DD x44 x53 | s98 => DD x44 x54 | s99 => DD x44 x55 | s100 => DD x44 x56 | s101 => DD x44 x57 | s102 => DD x44 x58 | s103 => DD x44 x59 | s104 => DD x44 x60 | s105 => DD x44 x61 | s106 => DD x44 x62 | s107 => DD x44 x63 | s108 => DD x45 x0 | s109 => DD x45 x1 | s110 => DD x45 x2 | s111 => DD x45 x3 | s112 => DD x45 x4 | s113 => DD x45 x5 | s114 => DD x45 x6 | s115 => DD x45 x7 | s116 => DD x45 x8 | s117 => DD x45 x9 | s118 => DD x45 x10 | s119 => DD x45 x11 | s120 => DD x45 x12 | s121 => DD x45 x13 | s122 => DD x45 x14 | s123 => DD x45 x15 | s124 => DD x45 x16 | s125 => DD x45 x17 | s126 => DD x45 x18 end.
Definition m2773 (c : sum2) : dd := match c with s0 => DD x43 x21 | s1 => DD x43 x22 | s2 => DD x43 x23 | s3 => DD x43 x24 | s4 => DD x43 x25 | s5 => DD x43 x26 | s6 => DD x43 x27 | s7 => DD x43 x28 | s8 => DD x43 x29 | s9 => DD x43 x30 | s10 => DD x43 x31 | s11 => DD x43 x32 | s12 => DD x43 x33 | s13 => DD x43 x34 | s14 => DD x43 x35 | s15 => DD x43 x36 | s16 => DD x43 x37 | s17 => DD x43 x38 | s18 => DD x43 x39 | s19 => DD x43 x40 | s20 => DD x43 x41 | s21 => DD x43 x42 | s22 => DD x43 x43 | s23 => DD x43 x44 | s24 => DD x43 x45 | s25 => DD x43 x46 | s26 => DD x43 x47 | s27 => DD x43 x48 | s28 => DD x43 x49 | s29 => DD x43 x50 | s30 => DD x43 x51 | s31 => DD x43 x52 | s32 => DD x43 x53 | s33 => DD x43 x54 | s34 => DD x43 x55 | s35 => DD x43 x56 | s36 => DD x43 x57 | s37 => DD x43 x58 | s38 => DD x43 x59 | s39 => DD x43 x60 | s40 => DD x43 x61 | s41 => DD x43 x62 | s42 => DD x43 x63 | s43 => DD x44 x0 | s44 => DD x44 x1 | s45 => DD x44 x2 | s46 => DD x44 x3 | s47 => DD x44 x4 | s48 => DD x44 x5 | s49 => DD x44 x6 | s50 => DD x44 x7 | s51 => DD x44 x8 | s52 => DD x44 x9 | s53 => DD x44 x10 | s54 => DD x44 x11 | s55 => DD x44 x12 | s56 => DD x44 x13 | s57 => DD x44 x14 | s58 => DD x44 x15 | s59 => DD x44 x16 | s60 => DD x44 x17 | s61 => DD x44 x18 | s62 => DD x44 x19 | s63 => DD x44 x20 | s64 => DD x44 x21 | s65 => DD x44 x22 | s66 => DD x44 x23 | s67 => DD x44 x24 | s68 => DD x44 x25 | s69 => DD x44 x26 | s70 => DD x44 x27 | s71 => DD x44 x28 | s72 => DD x44 x29 | s73 => DD x44 x30 | s74 => DD x44 x31 | s75 => DD x44 x32 | s76 => DD x44 x33 | s77 => DD x44 x34 | s78 => DD x44 x35 | s79 => DD x44 x36 | s80 => DD x44 x37 | s81 => DD x44 x38 | s82 => DD x44 x39 | s83 => DD x44 x40 | s84 => DD x44 x41 | s85 => DD x44 x42 | s86 => DD x44 x43 | s87 => DD x44 x44 | s88 => DD x44 x45 | s89 => DD x44 x46 | s90 => DD x44 x47 | s91 => DD x44 x48 | s92 => DD x44 x49 | s93 => DD x44 x50 | s94 => DD x44 x51 | s95 => DD x44 x52 | s96 => DD x44 x53 | s97 => DD x44 x54 | s98 => DD x44 x55 | s99 => DD x44 x56 | s100 => DD x44 x57 | s101 => DD x44 x58 | s102 => DD x44 x59 | s103 => DD x44 x60 | s104 => DD x44 x61 | s105 => DD x44 x62 | s106 => DD x44 x63 | s107 => DD x45 x0 | s108 => DD x45 x1 | s109 => DD x45 x2 | s110 => DD x45 x3 | s111 => DD x45 x4 | s112 => DD x45 x5 | s113 => DD x45 x6 | s114 => DD x45 x7 | s115 => DD x45 x8 | s116 => DD x45 x9 | s117 => DD x45 x10 | s118 => DD x45 x11 | s119 => DD x45 x12 | s120 => DD x45 x13 | s121 => DD x45 x14 | s122 => DD x45 x15 | s123 => DD x45 x16 | s124 => DD x45 x17 | s125 => DD x45 x18 | s126 => DD x45 x19 end.
Definition m2784 (c : sum2) : dd := match c with s0 => DD x43 x32 | s1 => DD x43 x33 | s2 => DD x43 x34 | s3 => DD x43 x35 | s4 => DD x43 x36 | s5 => DD x43 x37 | s6 => DD x43 x38 | s7 => DD x43 x39 | s8 => DD x43 x40 | s9 => DD x43 x41 | s10 => DD x43 x42 | s11 => DD x43 x43 | s12 => DD x43 x44 | s13 => DD x43 x45 | s14 => DD x43 x46 | s15 => DD x43 x47 | s16 => DD x43 x48 | s17 => DD x43 x49 | s18 => DD x43 x50 | s19 => DD x43 x51 | s20 => DD x43 x52 | s21 => DD x43 x53 | s22 => DD x43 x54 | s23 => DD x43 x55 | s24 => DD x43 x56 | s25 => DD x43 x57 | s26 => DD x43 x58 | s27 => DD x43 x59 | s28 => DD x43 x60 | s29 => DD x43 x61 | s30 => DD x43 x62 | s31 => DD x43 x63 | s32 => DD x44 x0 | s33 => DD x44 x1 | s34 => DD x44 x2 | s35 => DD x44 x3 | s36 => DD x44 x4 | s37 => DD x44 x5 | s38 => DD x44 x6 | s39 => DD x44 x7 | s40 => DD x44 x8 | s41 => DD x44 x9 | s42 => DD x44 x10 | s43 => DD x44 x11 | s44 => DD x44 x12 | s45 => DD x44 x13 | s46 => DD x44 x14 | s47 => DD x44 x15 | s48 => DD x44 x16 | s49 => DD x44 x17 | s50 => DD x44 x18 | s51 => DD x44 x19 | s52 => DD x44 x20 | s53 => DD x44 x21 | s54 => DD x44 x22 | s55 => DD x44 x23 | s56 => DD x44 x24 | s57 => DD x44 x25 | s58 => DD x44 x26 | s59 => DD x44 x27 | s60 => DD x44 x28 | s61 => DD x44 x29 | s62 => DD x44 x30 | s63 => DD x44 x31 | s64 => DD x44 x32 | s65 => DD x44 x33 | s66 => DD x44 x34 | s67 => DD x44 x35 | s68 => DD x44 x36 | s69 => DD x44 x37 | s70 => DD x44 x38 | s71 => DD x44 x39 | s72 => DD x44 x40 | s73 => DD x44 x41 | s74 => DD x44 x42 | s75 => DD x44 x43 | s76 => DD x44 x44 | s77 => DD x44 x45 | s78 => DD x44 x46 | s79 => DD x44 x47 | s80 => DD x44 x48 | s81 => DD x44 x49 | s82 => DD x44 x50 | s83 => DD x44 x51 | s84 => DD x44 x52 | s85 => DD x44 x53 | s86 => DD x44 x54 | s87 => DD x44 x55 | s88 => DD x44 x56 | s89 => DD x44 x57 | s90 => DD x44 x58 | s91 => DD x44 x59 | s92 => DD x44 x60 | s93 => DD x44 x61 | s94 => DD x44 x62 | s95 => DD x44 x63 | s96 => DD x45 x0 | s97 => DD x45 x1 | s98 => DD x45 x2 | s99 => DD x45 x3 | s100 => DD x45 x4 | s101 => DD x45 x5 | s102 => DD x45 x6 | s103 => DD x45 x7 | s104 => DD x45 x8 | s105 => DD x45 x9 | s106 => DD x45 x10 | s107 => DD x45 x11 | s108 => DD x45 x12 | s109 => DD x45 x13 | s110 => DD x45 x14 | s111 => DD x45 x15 | s112 => DD x45 x16 | s113 => DD x45 x17 | s114 => DD x45 x18 | s115 => DD x45 x19 | s116 => DD x45 x20 | s117 => DD x45 x21 | s118 => DD x45 x22 | s119 => DD x45 x23 | s120 => DD x45 x24 | s121 => DD x45 x25 | s122 => DD x45 x26 | s123 => DD x45 x27 | s124 => DD x45 x28 | s125 => DD x45 x29 | s126 => DD x45 x30 end.
Definition m2790 (c : sum2) : dd := match c with s0 => DD x43 x38 | s1 => DD x43 x39 | s2 => DD x43 x40 | s3 => DD x43 x41 | s4 => DD x43 x42 | s5 => DD x43 x43 | s6 => DD x43 x44 | s7 => DD x43 x45 | s8 => DD x43 x46 | s9 => DD x43 x47 | s10 => DD x43 x48 | s11 => DD x43 x49 | s12 => DD x43 x50 | s13 => DD x43 x51 | s14 => DD x43 x52 | s15 => DD x43 x53 | s16 => DD x43 x54 | s17 => DD x43 x55 | s18 => DD x43 x56 | s19 => DD x43 x57 | s20 => DD x43 x58 | s21 => DD x43 x59 | s22 => DD x43 x60 | s23 => DD x43 x61 | s24 => DD x43 x62 | s25 => DD x43 x63 | s26 => DD x44 x0 | s27 => DD x44 x1 | s28 => DD x44 x2 | s29 => DD x44 x3 | s30 => DD x44 x4 | s31 => DD x44 x5 | s32 => DD x44 x6 | s33 => DD x44 x7 | s34 => DD x44 x8 | s35 => DD x44 x9 | s36 => DD x44 x10 | s37 => DD x44 x11 | s38 => DD x44 x12 | s39 => DD x44 x13 | s40 => DD x44 x14 | s41 => DD x44 x15 | s42 => DD x44 x16 | s43 => DD x44 x17 | s44 => DD x44 x18 | s45 => DD x44 x19 | s46 => DD x44 x20 | s47 => DD x44 x21 | s48 => DD x44 x22 | s49 => DD x44 x23 | s50 => DD x44 x24 | s51 => DD x44 x25 | s52 => DD x44 x26 | s53 => DD x44 x27 | s54 => DD x44 x28 | s55 => DD x44 x29 | s56 => DD x44 x30 | s57 => DD x44 x31 | s58 => DD x44 x32 | s59 => DD x44 x33 | s60 => DD x44 x34 | s61 => DD x44 x35 | s62 => DD x44 x36 | s63 => DD x44 x37 | s64 => DD x44 x38 | s65 => DD x44 x39 | s66 => DD x44 x40 | s67 => DD x44 x41 | s68 => DD x44 x42 | s69 => DD x44 x43 | s70 => DD x44 x44 | s71 => DD x44 x45 | s72 => DD x44 x46 | s73 => DD x44 x47 | s74 => DD x44 x48 | s75 => DD x44 x49 | s76 => DD x44 x50 | s77 => DD x44 x51 | s78 => DD x44 x52 | s79 => DD x44 x53 | s80 => DD x44 x54 | s81 => DD x44 x55 | s82 => DD x44 x56 | s83 => DD x44 x57 | s84 => DD x44 x58 | s85 => DD x44 x59 | s86 => DD x44 x60 | s87 => DD x44 x61 | s88 => DD x44 x62 | s89 => DD x44 x63 | s90 => DD x45 x0 | s91 => DD x45 x1 | s92 => DD x45 x2 | s93 => DD x45 x3 | s94 => DD x45 x4 | s95 => DD x45 x5 | s96 => DD x45 x6 | s97 => DD x45 x7 | s98 => DD x45 x8 | s99 => DD x45 x9 | s100 => DD x45 x10 | s101 => DD x45 x11 | s102 => DD x45 x12 | s103 => DD x45 x13 | s104 => DD x45 x14 | s105 => DD x45 x15 | s106 => DD x45 x16 | s107 => DD x45 x17 | s108 => DD x45 x18 | s109 => DD x45 x19 | s110 => DD x45 x20 | s111 => DD x45 x21 | s112 => DD x45 x22 | s113 => DD x45 x23 | s114 => DD x45 x24 | s115 => DD x45 x25 | s116 => DD x45 x26 | s117 => DD x45 x27 | s118 => DD x45 x28 | s119 => DD x45 x29 | s120 => DD x45 x30 | s121 => DD x45 x31 | s122 => DD x45 x32 | s123 => DD x45 x33 | s124 => DD x45 x34 | s125 => DD x45 x35 | s126 => DD x45 x36 end.
Definition m2793 (c : sum2) : dd := match c with s0 => DD x43 x41 | s1 => DD x43 x42 | s2 => DD x43 x43 | s3 => DD x43 x44 | s4 => DD x43 x45 | s5 => DD x43 x46 | s6 => DD x43 x47 | s7 => DD x43 x48 | s8 => DD x43 x49 | s9 => DD x43 x50 | s10 => DD x43 x51 | s11 => DD x43 x52 | s12 => DD x43 x53 | s13 => DD x43 x54 | s14 => DD x43 x55 | s15 => DD x43 x56 | s16 => DD x43 x57 | s17 => DD x43 x58 | s18 => DD x43 x59 | s19 => DD x43 x60 | s20 => DD x43 x61 | s21 => DD x43 x62 | s22 => DD x43 x63 | s23 => DD x44 x0 | s24 => DD x44 x1 | s25 => DD x44 x2 | s26 => DD x44 x3 | s27 => DD x44 x4 | s28 => DD x44 x5 | s29 => DD x44 x6 | s30 => DD x44 x7 | s31 => DD x44 x8 | s32 => DD x44 x9 | s33 => DD x44 x10 | s34 => DD x44 x11 | s35 => DD x44 x12 | s36 => DD x44 x13 | s37 => DD x44 x14 | s38 => DD x44 x15 | s39 => DD x44 x16 | s40 => DD x44 x17 | s41 => DD x44 x18 | s42 => DD x44 x19 | s43 => DD x44 x20 | s44 => DD x44 x21 | s45 => DD x44 x22 | s46 => DD x44 x23 | s47 => DD x44 x24 | s48 => DD x44 x25 | s49 => DD x44 x26 | s50 => DD x44 x27 | s51 => DD x44 x28 | s52 => DD x44 x29 | s53 => DD x44 x30 | s54 => DD x44 x31 | s55 => DD x44 x32 | s56 => DD x44 x33 | s57 => DD x44 x34 | s58 => DD x44 x35 | s59 => DD x44 x36 | s60 => DD x44 x37 | s61 => DD x44 x38 | s62 => DD x44 x39 | s63 => DD x44 x40 | s64 => DD x44 x41 | s65 => DD x44 x42 | s66 => DD x44 x43 | s67 => DD x44 x44 | s68 => DD x44 x45 | s69 => DD x44 x46 | s70 => DD x44 x47 | s71 => DD x44 x48 | s72 => DD x44 x49 | s73 => DD x44 x50 | s74 => DD x44 x51 | s75 => DD x44 x52 | s76 => DD x44 x53 | s77 => DD x44 x54 | s78 => DD x44 x55 | s79 => DD x44 x56 | s80 => DD x44 x57 | s81 => DD x44 x58 | s82 => DD x44 x59 | s83 => DD x44 x60 | s84 => DD x44 x61 | s85 => DD x44 x62 | s86 => DD x44 x63 | s87 => DD x45 x0 | s88 => DD x45 x1 | s89 => DD x45 x2 | s90 => DD x45 x3 | s91 => DD x45 x4 | s92 => DD x45 x5 | s93 => DD x45 x6 | s94 => DD x45 x7 | s95 => DD x45 x8 | s96 => DD x45 x9 | s97 => DD x45 x10 | s98 => DD x45 x11 | s99 => DD x45 x12 | s100 => DD x45 x13 | s101 => DD x45 x14 | s102 => DD x45 x15 | s103 => DD x45 x16 | s104 => DD x45 x17 | s105 => DD x45 x18 | s106 => DD x45 x19 | s107 => DD x45 x20 | s108 => DD x45 x21 | s109 => DD x45 x22 | s110 => DD x45 x23 | s111 => DD x45 x24 | s112 => DD x45 x25 | s113 => DD x45 x26 | s114 => DD x45 x27 | s115 => DD x45 x28 | s116 => DD x45 x29 | s117 => DD x45 x30 | s118 => DD x45 x31 | s119 => DD x45 x32 | s120 => DD x45 x33 | s121 => DD x45 x34 | s122 => DD x45 x35 | s123 => DD x45 x36 | s124 => DD x45 x37 | s125 => DD x45 x38 | s126 => DD x45 x39 end.
Definition m2800 (c : sum2) : dd := match c with s0 => DD x43 x48 | s1 => DD x43 x49 | s2 => DD x43 x50 | s3 => DD x43 x51 | s4 => DD x43 x52 | s5 => DD x43 x53 | s6 => DD x43 x54 | s7 => DD x43 x55 | s8 => DD x43 x56 | s9 => DD x43 x57 | s10 => DD x43 x58 | s11 => DD x43 x59 | s12 => DD x43 x60 | s13 => DD x43 x61 | s14 => DD x43 x62 | s15 => DD x43 x63 | s16 => DD x44 x0 | s17 => DD x44 x1 | s18 => DD x44 x2 | s19 => DD x44 x3 | s20 => DD x44 x4 | s21 => DD x44 x5 | s22 => DD x44 x6 | s23 => DD x44 x7 | s24 => DD x44 x8 | s25 => DD x44 x9 | s26 => DD x44 x10 | s27 => DD x44 x11 | s28 => DD x44 x12 | s29 => DD x44 x13 | s30 => DD x44 x14 | s31 => DD x44 x15 | s32 => DD x44 x16 | s33 => DD x44 x17 | s34 => DD x44 x18 | s35 => DD x44 x19 | s36 => DD x44 x20 | s37 => DD x44 x21 | s38 => DD x44 x22 | s39 => DD x44 x23 | s40 => DD x44 x24 | s41 => DD x44 x25 | s42 => DD x44 x26 | s43 => DD x44 x27 | s44 => DD x44 x28 | s45 => DD x44 x29 | s46 => DD x44 x30 | s47 => DD x44 x31 | s48 => DD x44 x32 | s49 => DD x44 x33 | s50 => DD x44 x34 | s51 => DD x44 x35 | s52 => DD x44 x36 | s53 => DD x44 x37 | s54 => DD x44 x38 | s55 => DD x44 x39 | s56 => DD x44 x40 | s57 => DD x44 x41 | s58 => DD x44 x42 | s59 => DD x44 x43 | s60 => DD x44 x44 | s61 => DD x44 x45 | s62 => DD x44 x46 | s63 => DD x44 x47 | s64 => DD x44 x48 | s65 => DD x44 x49 | s66 => DD x44 x50 | s67 => DD x44 x51 | s68 => DD x44 x52 | s69 => DD x44 x53 | s70 => DD x44 x54 | s71 => DD x44 x55 | s72 => DD x44 x56 | s73 => DD x44 x57 | s74 => DD x44 x58 | s75 => DD x44 x59 | s76 => DD x44 x60 | s77 => DD x44 x61 | s78 => DD x44 x62 | s79 => DD x44 x63 | s80 => DD x45 x0 | s81 => DD x45 x1 | s82 => DD x45 x2 | s83 => DD x45 x3 | s84 => DD x45 x4 | s85 => DD x45 x5 | s86 => DD x45 x6 | s87 => DD x45 x7 | s88 => DD x45 x8 | s89 => DD x45 x9 | s90 => DD x45 x10 | s91 => DD x45 x11 | s92 => DD x45 x12 | s93 => DD x45 x13 | s94 => DD x45 x14 | s95 => DD x45 x15 | s96 => DD x45 x16 | s97 => DD x45 x17 | s98 => DD x45 x18 | s99 => DD x45 x19 | s100 => DD x45 x20 | s101 => DD x45 x21 | s102 => DD x45 x22 | s103 => DD x45 x23 | s104 => DD x45 x24 | s105 => DD x45 x25 | s106 => DD x45 x26 | s107 => DD x45 x27 | s108 => DD x45 x28 | s109 => DD x45 x29 | s110 => DD x45 x30 | s111 => DD x45 x31 | s112 => DD x45 x32 | s113 => DD x45 x33 | s114 => DD x45 x34 | s115 => DD x45 x35 | s116 => DD x45 x36 | s117 => DD x45 x37 | s118 => DD x45 x38 | s119 => DD x45 x39 | s120 => DD x45 x40 | s121 => DD x45 x41 | s122 => DD x45 x42 | s123 => DD x45 x43 | s124 => DD x45 x44 | s125 => DD x45 x45 | s126 => DD x45 x46 end.
Definition m2805 (c : sum2) : dd := match c with s0 => DD x43 x53 | s1 => DD x43 x54 | s2 => DD x43 x55 | s3 => DD x43 x56 | s4 => DD x43 x57 | s5 => DD x43 x58 | s6 => DD x43 x59 | s7 => DD x43 x60 | s8 => DD x43 x61 | s9 => DD x43 x62 | s10 => DD x43 x63 | s11 => DD x44 x0 | s12 => DD x44 x1 | s13 => DD x44 x2 | s14 => DD x44 x3 | s15 => DD x44 x4 | s16 => DD x44 x5 | s17 => DD x44 x6 | s18 => DD x44 x7 | s19 => DD x44 x8 | s20 => DD x44 x9 | s21 => DD x44 x10 | s22 => DD x44 x11 | s23 => DD x44 x12 | s24 => DD x44 x13 | s25 => DD x44 x14 | s26 => DD x44 x15 | s27 => DD x44 x16 | s28 => DD x44 x17 | s29 => DD x44 x18 | s30 => DD x44 x19 | s31 => DD x44 x20 | s32 => DD x44 x21 | s33 => DD x44 x22 | s34 => DD x44 x23 | s35 => DD x44 x24 | s36 => DD x44 x25 | s37 => DD x44 x26 | s38 => DD x44 x27 | s39 => DD x44 x28 | s40 => DD x44 x29 | s41 => DD x44 x30 | s42 => DD x44 x31 | s43 => DD x44 x32 | s44 => DD x44 x33 | s45 => DD x44 x34 | s46 => DD x44 x35 | s47 => DD x44 x36 | s48 => DD x44 x37 | s49 => DD x44 x38 | s50 => DD x44 x39 | s51 => DD x44 x40 | s52 => DD x44 x41 | s53 => DD x44 x42 | s54 => DD x44 x43 | s55 => DD x44 x44 | s56 => DD x44 x45 | s57 => DD x44 x46 | s58 => DD x44 x47 | s59 => DD x44 x48 | s60 => DD x44 x49 | s61 => DD x44 x50 | s62 => DD x44 x51 | s63 => DD x44 x52 | s64 => DD x44 x53 | s65 => DD x44 x54 | s66 => DD x44 x55 | s67 => DD x44 x56 | s68 => DD x44 x57 | s69 => DD x44 x58 | s70 => DD x44 x59 | s71 => DD x44 x60 | s72 => DD x44 x61 | s73 => DD x44 x62 | s74 => DD x44 x63 | s75 => DD x45 x0 | s76 => DD x45 x1 | s77 => DD x45 x2 | s78 => DD x45 x3 | s79 => DD x45 x4 | s80 => DD x45 x5 | s81 => DD x45 x6 | s82 => DD x45 x7 | s83 => DD x45 x8 | s84 => DD x45 x9 | s85 => DD x45 x10 | s86 => DD x45 x11 | s87 => DD x45 x12 | s88 => DD x45 x13 | s89 => DD x45 x14 | s90 => DD x45 x15 | s91 => DD x45 x16 | s92 => DD x45 x17 | s93 => DD x45 x18 | s94 => DD x45 x19 | s95 => DD x45 x20 | s96 => DD x45 x21 | s97 => DD x45 x22 | s98 => DD x45 x23 | s99 => DD x45 x24 | s100 => DD x45 x25 | s101 => DD x45 x26 | s102 => DD x45 x27 | s103 => DD x45 x28 | s104 => DD x45 x29 | s105 => DD x45 x30 | s106 => DD x45 x31 | s107 => DD x45 x32 | s108 => DD x45 x33 | s109 => DD x45 x34 | s110 => DD x45 x35 | s111 => DD x45 x36 | s112 => DD x45 x37 | s113 => DD x45 x38 | s114 => DD x45 x39 | s115 => DD x45 x40 | s116 => DD x45 x41 | s117 => DD x45 x42 | s118 => DD x45 x43 | s119 => DD x45 x44 | s120 => DD x45 x45 | s121 => DD x45 x46 | s122 => DD x45 x47 | s123 => DD x45 x48 | s124 => DD x45 x49 | s125 => DD x45 x50 | s126 => DD x45 x51 end.
Definition m2806 (c : sum2) : dd := match c with s0 => DD x43 x54 | s1 => DD x43 x55 | s2 => DD x43 x56 | s3 => DD x43 x57 | s4 => DD x43 x58 | s5 => DD x43 x59 | s6 => DD x43 x60 | s7 => DD x43 x61 | s8 => DD x43 x62 | s9 => DD x43 x63 | s10 => DD x44 x0 | s11 => DD x44 x1 | s12 => DD x44 x2 | s13 => DD x44 x3 | s14 => DD x44 x4 | s15 => DD x44 x5 | s16 => DD x44 x6 | s17 => DD x44 x7 | s18 => DD x44 x8 | s19 => DD x44 x9 | s20 => DD x44 x10 | s21 => DD x44 x11 | s22 => DD x44 x12 | s23 => DD x44 x13 | s24 => DD x44 x14 | s25 => DD x44 x15 | s26 => DD x44 x16 | s27 => DD x44 x17 | s28 => DD x44 x18 | s29 => DD x44 x19 | s30 => DD x44 x20 | s31 => DD x44 x21 | s32 => DD x44 x22 | s33 => DD x44 x23 | s34 => DD x44 x24 | s35 => DD x44 x25 | s36 => DD x44 x26 | s37 => DD x44 x27 | s38 => DD x44 x28 | s39 => DD x44 x29 | s40 => DD x44 x30 | s41 => DD x44 x31 | s42 => DD x44 x32 | s43 => DD x44 x33 | s44 => DD x44 x34 | s45 => DD x44 x35 | s46 => DD x44 x36 | s47 => DD x44 x37 | s48 => DD x44 x38 | s49 => DD x44 x39 | s50 => DD x44 x40 | s51 => DD x44 x41 | s52 => DD x44 x42 | s53 => DD x44 x43 | s54 => DD x44 x44 | s55 => DD x44 x45 | s56 => DD x44 x46 | s57 => DD x44 x47 | s58 => DD x44 x48 | s59 => DD x44 x49 | s60 => DD x44 x50 | s61 => DD x44 x51 | s62 => DD x44 x52 | s63 => DD x44 x53 | s64 => DD x44 x54 | s65 => DD x44 x55 | s66 => DD x44 x56 | s67 => DD x44 x57 | s68 => DD x44 x58 | s69 => DD x44 x59 | s70 => DD x44 x60 | s71 => DD x44 x61 | s72 => DD x44 x62 | s73 => DD x44 x63 | s74 => DD x45 x0 | s75 => DD x45 x1 | s76 => DD x45 x2 | s77 => DD x45 x3 | s78 => DD x45 x4 | s79 => DD x45 x5 | s80 => DD x45 x6 | s81 => DD x45 x7 | s82 => DD x45 x8 | s83 => DD x45 x9 | s84 => DD x45 x10 | s85 => DD x45 x11 | s86 => DD x45 x12 | s87 => DD x45 x13 | s88 => DD x45 x14 | s89 => DD x45 x15 | s90 => DD x45 x16 | s91 => DD x45 x17 | s92 => DD x45 x18 | s93 => DD x45 x19 | s94 => DD x45 x20 | s95 => DD x45 x21 | s96 => DD x45 x22 | s97 => DD x45 x23 | s98 => DD x45 x24 | s99 => DD x45 x25 | s100 => DD x45 x26 | s101 => DD x45 x27 | s102 => DD x45 x28 | s103 => DD x45 x29 | s104 => DD x45 x30 | s105 => DD x45 x31 | s106 => DD x45 x32 | s107 => DD x45 x33 | s108 => DD x45 x34 | s109 => DD x45 x35 | s110 => DD x45 x36 | s111 => DD x45 x37 | s112 => DD x45 x38 | s113 => DD x45 x39 | s114 => DD x45 x40 | s115 => DD x45 x41 | s116 => DD x45 x42 | s117 => DD x45 x43 | s118 => DD x45 x44 | s119 => DD x45 x45 | s120 => DD x45 x46 | s121 => DD x45 x47 | s122 => DD x45 x48 | s123 => DD x45 x49 | s124 => DD x45 x50 | s125 => DD x45 x51 | s126 => DD x45 x52 end.
Definition m2808 (c : sum2) : dd := match c with s0 => DD x43 x56 | s1 => DD x43 x57 | s2 => DD x43 x58 | s3 => DD x43 x59 | s4 => DD x43 x60 | s5 => DD x43 x61 | s6 => DD x43 x62 | s7 => DD x43 x63 | s8 => DD x44 x0 | s9 => DD x44 x1 | s10 => DD x44 x2 | s11 => DD x44 x3 | s12 => DD x44 x4 | s13 => DD x44 x5 | s14 => DD x44 x6 | s15 => DD x44 x7 | s16 => DD x44 x8 | s17 => DD x44 x9 | s18 => DD x44 x10 | s19 => DD x44 x11 | s20 => DD x44 x12 | s21 => DD x44 x13 | s22 => DD x44 x14 | s23 => DD x44 x15 | s24 => DD x44 x16 | s25 => DD x44 x17 | s26 => DD x44 x18 | s27 => DD x44 x19 | s28 => DD x44 x20 | s29 => DD x44 x21 | s30 => DD x44 x22 | s31 => DD x44 x23 | s32 => DD x44 x24 | s33 => DD x44 x25 | s34 => DD x44 x26 | s35 => DD x44 x27 | s36 => DD x44 x28 | s37 => DD x44 x29 | s38 => DD x44 x30 | s39 => DD x44 x31 | s40 => DD x44 x32 | s41 => DD x44 x33 | s42 => DD x44 x34 | s43 => DD x44 x35 | s44 => DD x44 x36 | s45 => DD x44 x37 | s46 => DD x44 x38 | s47 => DD x44 x39 | s48 => DD x44 x40 | s49 => DD x44 x41 | s50 => DD x44 x42 | s51 => DD x44 x43 | s52 => DD x44 x44 | s53 => DD x44 x45 | s54 => DD x44 x46 | s55 => DD x44 x47 | s56 => DD x44 x48 | s57 => DD x44 x49 | s58 => DD x44 x50 | s59 => DD x44 x51 | s60 => DD x44 x52 | s61 => DD x44 x53 | s62 => DD x44 x54 | s63 => DD x44 x55 | s64 => DD x44 x56 | s65 => DD x44 x57 | s66 => DD x44 x58 | s67 => DD x44 x59 | s68 => DD x44 x60 | s69 => DD x44 x61 | s70 => DD x44 x62 | s71 => DD x44 x63 | s72 => DD x45 x0 | s73 => DD x45 x1 | s74 => DD x45 x2 | s75 => DD x45 x3 | s76 => DD x45 x4 | s77 => DD x45 x5 | s78 => DD x45 x6 | s79 => DD x45 x7 | s80 => DD x45 x8 | s81 => DD x45 x9 | s82 => DD x45 x10 | s83 => DD x45 x11 | s84 => DD x45 x12 | s85 => DD x45 x13 | s86 => DD x45 x14 | s87 => DD x45 x15 | s88 => DD x45 x16 | s89 => DD x45 x17 | s90 => DD x45 x18 | s91 => DD x45 x19 | s92 => DD x45 x20 | s93 => DD x45 x21 | s94 => DD x45 x22 | s95 => DD x45 x23 | s96 => DD x45 x24 | s97 => DD x45 x25 | s98 => DD x45 x26 | s99 => DD x45 x27 | s100 => DD x45 x28 | s101 => DD x45 x29 | s102 => DD x45 x30 | s103 => DD x45 x31 | s104 => DD x45 x32 | s105 => DD x45 x33 | s106 => DD x45 x34 | s107 => DD x45 x35 | s108 => DD x45 x36 | s109 => DD x45 x37 | s110 => DD x45 x38 | s111 => DD x45 x39 | s112 => DD x45 x40 | s113 => DD x45 x41 | s114 => DD x45 x42 | s115 => DD x45 x43 | s116 => DD x45 x44 | s117 => DD x45 x45 | s118 => DD x45 x46 | s119 => DD x45 x47 | s120 => DD x45 x48 | s121 => DD x45 x49 | s122 => DD x45 x50 | s123 => DD x45 x51 | s124 => DD x45 x52 | s125 => DD x45 x53 | s126 => DD x45 x54 end.
Definition m2809 (c : sum2) : dd := match c with s0 => DD x43 x57 | s1 => DD x43 x58 | s2 => DD x43 x59 | s3 => DD x43 x60 | s4 => DD x43 x61 | s5 => DD x43 x62 | s6 => DD x43 x63 | s7 => DD x44 x0 | s8 => DD x44 x1 | s9 => DD x44 x2 | s10 => DD x44 x3 | s11 => DD x44 x4 | s12 => DD x44 x5 | s13 => DD x44 x6 | s14 => DD x44 x7 | s15 => DD x44 x8 | s16 => DD x44 x9 | s17 => DD x44 x10 | s18 => DD x44 x11 | s19 => DD x44 x12 | s20 => DD x44 x13 | s21 => DD x44 x14 | s22 => DD x44 x15 | s23 => DD x44 x16 | s24 => DD x44 x17 | s25 => DD x44 x18 | s26 => DD x44 x19 | s27 => DD x44 x20 | s28 => DD x44 x21 | s29 => DD x44 x22 | s30 => DD x44 x23 | s31 => DD x44 x24 | s32 => DD x44 x25 | s33 => DD x44 x26 | s34 => DD x44 x27 | s35 => DD x44 x28 | s36 => DD x44 x29 | s37 => DD x44 x30 | s38 => DD x44 x31 | s39 => DD x44 x32 | s40 => DD x44 x33 | s41 => DD x44 x34 | s42 => DD x44 x35 | s43 => DD x44 x36 | s44 => DD x44 x37 | s45 => DD x44 x38 | s46 => DD x44 x39 | s47 => DD x44 x40 | s48 => DD x44 x41 | s49 => DD x44 x42 | s50 => DD x44 x43 | s51 => DD x44 x44 | s52 => DD x44 x45 | s53 => DD x44 x46 | s54 => DD x44 x47 | s55 => DD x44 x48 | s56 => DD x44 x49 | s57 => DD x44 x50 | s58 => DD x44 x51 | s59 => DD x44 x52 | s60 => DD x44 x53 | s61 => DD x44 x54 | s62 => DD x44 x55 | s63 => DD x44 x56 | s64 => DD x44 x57 | s65 => DD x44 x58 | s66 => DD x44 x59 | s67 => DD x44 x60 | s68 => DD x44 x61 | s69 => DD x44 x62 | s70 => DD x44 x63 | s71 => DD x45 x0 | s72 => DD x45 x1 | s73 => DD x45 x2 | s74 => DD x45 x3 | s75 => DD x45 x4 | s76 => DD x45 x5 | s77 => DD x45 x6 | s78 => DD x45 x7 | s79 => DD x45 x8 | s80 => DD x45 x9 | s81 => DD x45 x10 | s82 => DD x45 x11 | s83 => DD x45 x12 | s84 => DD x45 x13 | s85 => DD x45 x14 | s86 => DD x45 x15 | s87 => DD x45 x16 | s88 => DD x45 x17 | s89 => DD x45 x18 | s90 => DD x45 x19 | s91 => DD x45 x20 | s92 => DD x45 x21 | s93 => DD x45 x22 | s94 => DD x45 x23 | s95 => DD x45 x24 | s96 => DD x45 x25 | s97 => DD x45 x26 | s98 => DD x45 x27 | s99 => DD x45 x28 | s100 => DD x45 x29 | s101 => DD x45 x30 | s102 => DD x45 x31 | s103 => DD x45 x32 | s104 => DD x45 x33 | s105 => DD x45 x34 | s106 => DD x45 x35 | s107 => DD x45 x36 | s108 => DD x45 x37 | s109 => DD x45 x38 | s110 => DD x45 x39 | s111 => DD x45 x40 | s112 => DD x45 x41 | s113 => DD x45 x42 | s114 => DD x45 x43 | s115 => DD x45 x44 | s116 => DD x45 x45 | s117 => DD x45 x46 | s118 => DD x45 x47 | s119 => DD x45 x48 | s120 => DD x45 x49 | s121 => DD x45 x50 | s122 => DD x45 x51 | s123 => DD x45 x52 | s124 => DD x45 x53 | s125 => DD x45 x54 | s126 => DD x45 x55 end.
Definition m2820 (c : sum2) : dd := match c with s0 => DD x44 x4 | s1 => DD x44 x5 | s2 => DD x44 x6 | s3 => DD x44 x7 | s4 => DD x44 x8 | s5 => DD x44 x9 | s6 => DD x44 x10 | s7 => DD x44 x11 | s8 => DD x44 x12 | s9 => DD x44 x13 | s10 => DD x44 x14 | s11 => DD x44 x15 | s12 => DD x44 x16 | s13 => DD x44 x17 | s14 => DD x44 x18 | s15 => DD x44 x19 | s16 => DD x44 x20 | s17 => DD x44 x21 | s18 => DD x44 x22 | s19 => DD x44 x23 | s20 => DD x44 x24 | s21 => DD x44 x25 | s22 => DD x44 x26 | s23 => DD x44 x27 | s24 => DD x44 x28 | s25 => DD x44 x29 | s26 => DD x44 x30 | s27 => DD x44 x31 | s28 => DD x44 x32 | s29 => DD x44 x33 | s30 => DD x44 x34 | s31 => DD x44 x35 | s32 => DD x44 x36 | s33 => DD x44 x37 | s34 => DD x44 x38 | s35 => DD x44 x39 | s36 => DD x44 x40 | s37 => DD x44 x41 | s38 => DD x44 x42 | s39 => DD x44 x43 | s40 => DD x44 x44 | s41 => DD x44 x45 | s42 => DD x44 x46 | s43 => DD x44 x47 | s44 => DD x44 x48 | s45 => DD x44 x49 | s46 => DD x44 x50 | s47 => DD x44 x51 | s48 => DD x44 x52 | s49 => DD x44 x53 | s50 => DD x44 x54 | s51 => DD x44 x55 | s52 => DD x44 x56 | s53 => DD x44 x57 | s54 => DD x44 x58 | s55 => DD x44 x59 | s56 => DD x44 x60 | s57 => DD x44 x61 | s58 => DD x44 x62 | s59 => DD x44 x63 | s60 => DD x45 x0 | s61 => DD x45 x1 | s62 => DD x45 x2 | s63 => DD x45 x3 | s64 => DD x45 x4 | s65 => DD x45 x5 | s66 => DD x45 x6 | s67 => DD x45 x7 | s68 => DD x45 x8 | s69 => DD x45 x9 | s70 => DD x45 x10 | s71 => DD x45 x11 | s72 => DD x45 x12 | s73 => DD x45 x13 | s74 => DD x45 x14 | s75 => DD x45 x15 | s76 => DD x45 x16 | s77 => DD x45 x17 | s78 => DD x45 x18 | s79 => DD x45 x19 | s80 => DD x45 x20 | s81 => DD x45 x21 | s82 => DD x45 x22 | s83 => DD x45 x23 | s84 => DD x45 x24 | s85 => DD x45 x25 | s86 => DD x45 x26 | s87 => DD x45 x27 | s88 => DD x45 x28 | s89 => DD x45 x29 | s90 => DD x45 x30 | s91 => DD x45 x31 | s92 => DD x45 x32 | s93 => DD x45 x33 | s94 => DD x45 x34 | s95 => DD x45 x35 | s96 => DD x45 x36 | s97 => DD x45 x37 | s98 => DD x45 x38 | s99 => DD x45 x39 | s100 => DD x45 x40 | s101 => DD x45 x41 | s102 => DD x45 x42 | s103 => DD x45 x43 | s104 => DD x45 x44 | s105 => DD x45 x45 | s106 => DD x45 x46 | s107 => DD x45 x47 | s108 => DD x45 x48 | s109 => DD x45 x49 | s110 => DD x45 x50 | s111 => DD x45 x51 | s112 => DD x45 x52 | s113 => DD x45 x53 | s114 => DD x45 x54 | s115 => DD x45 x55 | s116 => DD x45 x56 | s117 => DD x45 x57 | s118 => DD x45 x58 | s119 => DD x45 x59 | s120 => DD x45 x60 | s121 => DD x45 x61 | s122 => DD x45 x62 | s123 => DD x45 x63 | s124 => DD x46 x0 | s125 => DD x46 x1 | s126 => DD x46 x2 end.
Definition m2832 (c : sum2) : dd := match c with s0 => DD x44 x16 | s1 => DD x44 x17 | s2 => DD x44 x18 | s3 => DD x44 x19 | s4 => DD x44 x20 | s5 => DD x44 x21 | s6 => DD x44 x22 | s7 => DD x44 x23 | s8 => DD x44 x24 | s9 => DD x44 x25 | s10 => DD x44 x26 | s11 => DD x44 x27 | s12 => DD x44 x28 | s13 => DD x44 x29 | s14 => DD x44 x30 | s15 => DD x44 x31 | s16 => DD x44 x32 | s17 => DD x44 x33 | s18 => DD x44 x34 | s19 => DD x44 x35 | s20 => DD x44 x36 | s21 => DD x44 x37 | s22 => DD x44 x38 | s23 => DD x44 x39 | s24 => DD x44 x40 | s25 => DD x44 x41 | s26 => DD x44 x42 | s27 => DD x44 x43 | s28 => DD x44 x44 | s29 => DD x44 x45 | s30 => DD x44 x46 | s31 => DD x44 x47 | s32 => DD x44 x48 | s33 => DD x44 x49 | s34 => DD x44 x50 | s35 => DD x44 x51 | s36 => DD x44 x52 | s37 => DD x44 x53 | s38 => DD x44 x54 | s39 => DD x44 x55 | s40 => DD x44 x56 | s41 => DD x44 x57 | s42 => DD x44 x58 | s43 => DD x44 x59 | s44 => DD x44 x60 | s45 => DD x44 x61 | s46 => DD x44 x62 | s47 => DD x44 x63 | s48 => DD x45 x0 | s49 => DD x45 x1 | s50 => DD x45 x2 | s51 => DD x45 x3 | s52 => DD x45 x4 | s53 => DD x45 x5 | s54 => DD x45 x6 | s55 => DD x45 x7 | s56 => DD x45 x8 | s57 => DD x45 x9 | s58 => DD x45 x10 | s59 => DD x45 x11 | s60 => DD x45 x12 | s61 => DD x45 x13 | s62 => DD x45 x14 | s63 => DD x45 x15 | s64 => DD x45 x16 | s65 => DD x45 x17 | s66 => DD x45 x18 | s67 => DD x45 x19 | s68 => DD x45 x20 | s69 => DD x45 x21 | s70 => DD x45 x22 | s71 => DD x45 x23 | s72 => DD x45 x24 | s73 => DD x45 x25 | s74 => DD x45 x26 | s75 => DD x45 x27 | s76 => DD x45 x28 | s77 => DD x45 x29 | s78 => DD x45 x30 | s79 => DD x45 x31 | s80 => DD x45 x32 | s81 => DD x45 x33 | s82 => DD x45 x34 | s83 => DD x45 x35 | s84 => DD x45 x36 | s85 => DD x45 x37 | s86 => DD x45 x38 | s87 => DD x45 x39 | s88 => DD x45 x40 | s89 => DD x45 x41 | s90 => DD x45 x42 | s91 => DD x45 x43 | s92 => DD x45 x44 | s93 => DD x45 x45 | s94 => DD x45 x46 | s95 => DD x45 x47 | s96 => DD x45 x48 | s97 => DD x45 x49 | s98 => DD x45 x50 | s99 => DD x45 x51 | s100 => DD x45 x52 | s101 => DD x45 x53 | s102 => DD x45 x54 | s103 => DD x45 x55 | s104 => DD x45 x56 | s105 => DD x45 x57 | s106 => DD x45 x58 | s107 => DD x45 x59 | s108 => DD x45 x60 | s109 => DD x45 x61 | s110 => DD x45 x62 | s111 => DD x45 x63 | s112 => DD x46 x0 | s113 => DD x46 x1 | s114 => DD x46 x2 | s115 => DD x46 x3 | s116 => DD x46 x4 | s117 => DD x46 x5 | s118 => DD x46 x6 | s119 => DD x46 x7 | s120 => DD x46 x8 | s121 => DD x46 x9 | s122 => DD x46 x10 | s123 => DD x46 x11 | s124 => DD x46 x12 | s125 => DD x46 x13 | s126 => DD x46 x14 end.
Definition m2835 (c : sum2) : dd := match c with s0 => DD x44 x19 | s1 => DD x44 x20 | s2 => DD x44 x21 | s3 => DD x44 x22 | s4 => DD x44 x23 | s5 => DD x44 x24 | s6 => DD x44 x25 | s7 => DD x44 x26 | s8 => DD x44 x27 | s9 => DD x44 x28 | s10 => DD x44 x29 | s11 => DD x44 x30 | s12 => DD x44 x31 | s13 => DD x44 x32 | s14 => DD x44 x33 | s15 => DD x44 x34 | s16 => DD x44 x35 | s17 => DD x44 x36 | s18 => DD x44 x37 | s19 => DD x44 x38 | s20 => DD x44 x39 | s21 => DD x44 x40 | s22 => DD x44 x41 | s23 => DD x44 x42 | s24 => DD x44 x43 | s25 => DD x44 x44 | s26 => DD x44 x45 | s27 => DD x44 x46 | s28 => DD x44 x47 | s29 => DD x44 x48 | s30 => DD x44 x49 | s31 => DD x44 x50 | s32 => DD x44 x51 | s33 => DD x44 x52 | s34 => DD x44 x53 | s35 => DD x44 x54 | s36 => DD x44 x55 | s37 => DD x44 x56 | s38 => DD x44 x57 | s39 => DD x44 x58 | s40 => DD x44 x59 | s41 => DD x44 x60 | s42 => DD x44 x61 | s43 => DD x44 x62 | s44 => DD x44 x63 | s45 => DD x45 x0 | s46 => DD x45 x1 | s47 => DD x45 x2 | s48 => DD x45 x3 | s49 => DD x45 x4 | s50 => DD x45 x5 | s51 => DD x45 x6 | s52 => DD x45 x7 | s53 => DD x45 x8 | s54 => DD x45 x9 | s55 => DD x45 x10 | s56 => DD x45 x11 | s57 => DD x45 x12 | s58 => DD x45 x13 | s59 => DD x45 x14 | s60 => DD x45 x15 | s61 => DD x45 x16 | s62 => DD x45 x17 | s63 => DD x45 x18 | s64 => DD x45 x19 | s65 => DD x45 x20 | s66 => DD x45 x21 | s67 => DD x45 x22 | s68 => DD x45 x23 | s69 => DD x45 x24 | s70 => DD x45 x25 | s71 => DD x45 x26 | s72 => DD x45 x27 | s73 => DD x45 x28 | s74 => DD x45 x29 | s75 => DD x45 x30 | s76 => DD x45 x31 | s77 => DD x45 x32 | s78 => DD x45 x33 | s79 => DD x45 x34 | s80 => DD x45 x35 | s81 => DD x45 x36 | s82 => DD x45 x37 | s83 => DD x45 x38 | s84 => DD x45 x39 | s85 => DD x45 x40 | s86 => DD x45 x41 | s87 => DD x45 x42 | s88 => DD x45 x43 | s89 => DD x45 x44 | s90 => DD x45 x45 | s91 => DD x45 x46 | s92 => DD x45 x47 | s93 => DD x45 x48 | s94 => DD x45 x49 | s95 => DD x45 x50 | s96 => DD x45 x51 | s97 => DD x45 x52 | s98 => DD x45 x53 | s99 => DD x45 x54 | s100 => DD x45 x55 | s101 => DD x45 x56 | s102 => DD x45 x57 | s103 => DD x45 x58 | s104 => DD x45 x59 | s105 => DD x45 x60 | s106 => DD x45 x61 | s107 => DD x45 x62 | s108 => DD x45 x63 | s109 => DD x46 x0 | s110 => DD x46 x1 | s111 => DD x46 x2 | s112 => DD x46 x3 | s113 => DD x46 x4 | s114 => DD x46 x5 | s115 => DD x46 x6 | s116 => DD x46 x7 | s117 => DD x46 x8 | s118 => DD x46 x9 | s119 => DD x46 x10 | s120 => DD x46 x11 | s121 => DD x46 x12 | s122 => DD x46 x13 | s123 => DD x46 x14 | s124 => DD x46 x15 | s125 => DD x46 x16 | s126 => DD x46 x17 end.
Definition m2842 (c : sum2) : dd := match c with s0 => DD x44 x26 | s1 => DD x44 x27 | s2 => DD x44 x28 | s3 => DD x44 x29 | s4 => DD x44 x30 | s5 => DD x44 x31 | s6 => DD x44 x32 | s7 => DD x44 x33 | s8 => DD x44 x34 | s9 => DD x44 x35 | s10 => DD x44 x36 | s11 => DD x44 x37 | s12 => DD x44 x38 | s13 => DD x44 x39 | s14 => DD x44 x40 | s15 => DD x44 x41 | s16 => DD x44 x42 | s17 => DD x44 x43 | s18 => DD x44 x44 | s19 => DD x44 x45 | s20 => DD x44 x46 | s21 => DD x44 x47 | s22 => DD x44 x48 | s23 => DD x44 x49 | s24 => DD x44 x50 | s25 => DD x44 x51 | s26 => DD x44 x52 | s27 => DD x44 x53 | s28 => DD x44 x54 | s29 => DD x44 x55 | s30 => DD x44 x56 | s31 => DD x44 x57 | s32 => DD x44 x58 | s33 => DD x44 x59 | s34 => DD x44 x60 | s35 => DD x44 x61 | s36 => DD x44 x62 | s37 => DD x44 x63 | s38 => DD x45 x0 | s39 => DD x45 x1 | s40 => DD x45 x2 | s41 => DD x45 x3 | s42 => DD x45 x4 | s43 => DD x45 x5 | s44 => DD x45 x6 | s45 => DD x45 x7 | s46 => DD x45 x8 | s47 => DD x45 x9 | s48 => DD x45 x10 | s49 => DD x45 x11 | s50 => DD x45 x12 | s51 => DD x45 x13 | s52 => DD x45 x14 | s53 => DD x45 x15 | s54 => DD x45 x16 | s55 => DD x45 x17 | s56 => DD x45 x18 | s57 => DD x45 x19 | s58 => DD x45 x20 | s59 => DD x45 x21 | s60 => DD x45 x22 | s61 => DD x45 x23 | s62 => DD x45 x24 | s63 => DD x45 x25 | s64 => DD x45 x26 | s65 => DD x45 x27 | s66 => DD x45 x28 | s67 => DD x45 x29 | s68 => DD x45 x30 | s69 => DD x45 x31 | s70 => DD x45 x32 | s71 => DD x45 x33 | s72 => DD x45 x34 | s73 => DD x45 x35 | s74 => DD x45 x36 | s75 => DD x45 x37 | s76 => DD x45 x38 | s77 => DD x45 x39 | s78 => DD x45 x40 | s79 => DD x45 x41 | s80 => DD x45 x42 | s81 => DD x45 x43 | s82 => DD x45 x44 | s83 => DD x45 x45 | s84 => DD x45 x46 | s85 => DD x45 x47 | s86 => DD x45 x48 | s87 => DD x45 x49 | s88 => DD x45 x50 | s89 => DD x45 x51 | s90 => DD x45 x52 | s91 => DD x45 x53 | s92 => DD x45 x54 | s93 => DD x45 x55 | s94 => DD x45 x56 | s95 => DD x45 x57 | s96 => DD x45 x58 | s97 => DD x45 x59 | s98 => DD x45 x60 | s99 => DD x45 x61 | s100 => DD x45 x62 | s101 => DD x45 x63 | s102 => DD x46 x0 | s103 => DD x46 x1 | s104 => DD x46 x2 | s105 => DD x46 x3 | s106 => DD x46 x4 | s107 => DD x46 x5 | s108 => DD x46 x6 | s109 => DD x46 x7 | s110 => DD x46 x8 | s111 => DD x46 x9 | s112 => DD x46 x10 | s113 => DD x46 x11 | s114 => DD x46 x12 | s115 => DD x46 x13 | s116 => DD x46 x14 | s117 => DD x46 x15 | s118 => DD x46 x16 | s119 => DD x46 x17 | s120 => DD x46 x18 | s121 => DD x46 x19 | s122 => DD x46 x20 | s123 => DD x46 x21 | s124 => DD x46 x22 | s125 => DD x46 x23 | s126 => DD x46 x24 end.
Definition m2850 (c : sum2) : dd := match c with s0 => DD x44 x34 | s1 => DD x44 x35 | s2 => DD x44 x36 | s3 => DD x44 x37 | s4 => DD x44 x38 | s5 => DD x44 x39 | s6 => DD x44 x40 | s7 => DD x44 x41 | s8 => DD x44 x42 | s9 => DD x44 x43 | s10 => DD x44 x44 | s11 => DD x44 x45 | s12 => DD x44 x46 | s13 => DD x44 x47 | s14 => DD x44 x48 | s15 => DD x44 x49 | s16 => DD x44 x50 | s17 => DD x44 x51 | s18 => DD x44 x52 | s19 => DD x44 x53 | s20 => DD x44 x54 | s21 => DD x44 x55 | s22 => DD x44 x56 | s23 => DD x44 x57 | s24 => DD x44 x58 | s25 => DD x44 x59 | s26 => DD x44 x60 | s27 => DD x44 x61 | s28 => DD x44 x62 | s29 => DD x44 x63 | s30 => DD x45 x0 | s31 => DD x45 x1 | s32 => DD x45 x2 | s33 => DD x45 x3 | s34 => DD x45 x4 | s35 => DD x45 x5 | s36 => DD x45 x6 | s37 => DD x45 x7 | s38 => DD x45 x8 | s39 => DD x45 x9 | s40 => DD x45 x10 | s41 => DD x45 x11 | s42 => DD x45 x12 | s43 => DD x45 x13 | s44 => DD x45 x14 | s45 => DD x45 x15 | s46 => DD x45 x16 | s47 => DD x45 x17 | s48 => DD x45 x18 | s49 => DD x45 x19 | s50 => DD x45 x20 | s51 => DD x45 x21 | s52 => DD x45 x22 | s53 => DD x45 x23 | s54 => DD x45 x24 | s55 => DD x45 x25 | s56 => DD x45 x26 | s57 => DD x45 x27 | s58 => DD x45 x28 | s59 => DD x45 x29 | s60 => DD x45 x30 | s61 => DD x45 x31 | s62 => DD x45 x32 | s63 => DD x45 x33 | s64 => DD x45 x34 | s65 => DD x45 x35 | s66 => DD x45 x36 | s67 => DD x45 x37 | s68 => DD x45 x38 | s69 => DD x45 x39 | s70 => DD x45 x40 | s71 => DD x45 x41 | s72 => DD x45 x42 | s73 => DD x45 x43 | s74 => DD x45 x44 | s75 => DD x45 x45 | s76 => DD x45 x46 | s77 => DD x45 x47 | s78 => DD x45 x48 | s79 => DD x45 x49 | s80 => DD x45 x50 | s81 => DD x45 x51 | s82 => DD x45 x52 | s83 => DD x45 x53 | s84 => DD x45 x54 | s85 => DD x45 x55 | s86 => DD x45 x56 | s87 => DD x45 x57 | s88 => DD x45 x58 | s89 => DD x45 x59 | s90 => DD x45 x60 | s91 => DD x45 x61 | s92 => DD x45 x62 | s93 => DD x45 x63 | s94 => DD x46 x0 | s95 => DD x46 x1 | s96 => DD x46 x2 | s97 => DD x46 x3 | s98 => DD x46 x4 | s99 => DD x46 x5 | s100 => DD x46 x6 | s101 => DD x46 x7 | s102 => DD x46 x8 | s103 => DD x46 x9 | s104 => DD x46 x10 | s105 => DD x46 x11 | s106 => DD x46 x12 | s107 => DD x46 x13 | s108 => DD x46 x14 | s109 => DD x46 x15 | s110 => DD x46 x16 | s111 => DD x46 x17 | s112 => DD x46 x18 | s113 => DD x46 x19 | s114 => DD x46 x20 | s115 => DD x46 x21 | s116 => DD x46 x22 | s117 => DD x46 x23 | s118 => DD x46 x24 | s119 => DD x46 x25 | s120 => DD x46 x26 | s121 => DD x46 x27 | s122 => DD x46 x28 | s123 => DD x46 x29 | s124 => DD x46 x30 | s125 => DD x46 x31 | s126 => DD x46 x32 end.
Definition m2852 (c : sum2) : dd := match c with s0 => DD x44 x36 | s1 => DD x44 x37 | s2 => DD x44 x38 | s3 => DD x44 x39 | s4 => DD x44 x40 | s5 => DD x44 x41 | s6 => DD x44 x42 | s7 => DD x44 x43 | s8 => DD x44 x44 | s9 => DD x44 x45 | s10 => DD x44 x46 | s11 => DD x44 x47 | s12 => DD x44 x48 | s13 => DD x44 x49 | s14 => DD x44 x50 | s15 => DD x44 x51 | s16 => DD x44 x52 | s17 => DD x44 x53 | s18 => DD x44 x54 | s19 => DD x44 x55 | s20 => DD x44 x56 | s21 => DD x44 x57 | s22 => DD x44 x58 | s23 => DD x44 x59 | s24 => DD x44 x60 | s25 => DD x44 x61 | s26 => DD x44 x62 | s27 => DD x44 x63 | s28 => DD x45 x0 | s29 => DD x45 x1 | s30 => DD x45 x2 | s31 => DD x45 x3 | s32 => DD x45 x4 | s33 => DD x45 x5 | s34 => DD x45 x6 | s35 => DD x45 x7 | s36 => DD x45 x8 | s37 => DD x45 x9 | s38 => DD x45 x10 | s39 => DD x45 x11 | s40 => DD x45 x12 | s41 => DD x45 x13 | s42 => DD x45 x14 | s43 => DD x45 x15 | s44 => DD x45 x16 | s45 => DD x45 x17 | s46 => DD x45 x18 | s47 => DD x45 x19 | s48 => DD x45 x20 | s49 => DD x45 x21 | s50 => DD x45 x22 | s51 => DD x45 x23 | s52 => DD x45 x24 | s53 => DD x45 x25 | s54 => DD x45 x26 | s55 => DD x45 x27 | s56 => DD x45 x28 | s57 => DD x45 x29 | s58 => DD x45 x30 | s59 => DD x45 x31 | s60 => DD x45 x32 | s61 => DD x45 x33 | s62 => DD x45 x34 | s63 => DD x45 x35 | s64 => DD x45 x36 | s65 => DD x45 x37 | s66 => DD x45 x38 | s67 => DD x45 x39 | s68 => DD x45 x40 | s69 => DD x45 x41 | s70 => DD x45 x42 | s71 => DD x45 x43 | s72 => DD x45 x44 | s73 => DD x45 x45 | s74 => DD x45 x46 | s75 => DD x45 x47 | s76 => DD x45 x48 | s77 => DD x45 x49 | s78 => DD x45 x50 | s79 => DD x45 x51 | s80 => DD x45 x52 | s81 => DD x45 x53 | s82 => DD x45 x54 | s83 => DD x45 x55 | s84 => DD x45 x56 | s85 => DD x45 x57 | s86 => DD x45 x58 | s87 => DD x45 x59 | s88 => DD x45 x60 | s89 => DD x45 x61 | s90 => DD x45 x62 | s91 => DD x45 x63 | s92 => DD x46 x0 | s93 => DD x46 x1 | s94 => DD x46 x2 | s95 => DD x46 x3 | s96 => DD x46 x4 | s97 => DD x46 x5 | s98 => DD x46 x6 | s99 => DD x46 x7 | s100 => DD x46 x8 | s101 => DD x46 x9 | s102 => DD x46 x10 | s103 => DD x46 x11 | s104 => DD x46 x12 | s105 => DD x46 x13 | s106 => DD x46 x14 | s107 => DD x46 x15 | s108 => DD x46 x16 | s109 => DD x46 x17 | s110 => DD x46 x18 | s111 => DD x46 x19 | s112 => DD x46 x20 | s113 => DD x46 x21 | s114 => DD x46 x22 | s115 => DD x46 x23 | s116 => DD x46 x24 | s117 => DD x46 x25 | s118 => DD x46 x26 | s119 => DD x46 x27 | s120 => DD x46 x28 | s121 => DD x46 x29 | s122 => DD x46 x30 | s123 => DD x46 x31 | s124 => DD x46 x32 | s125 => DD x46 x33 | s126 => DD x46 x34 end.
Definition m2856 (c : sum2) : dd := match c with s0 => DD x44 x40 | s1 => DD x44 x41 | s2 => DD x44 x42 | s3 => DD x44 x43 | s4 => DD x44 x44 | s5 => DD x44 x45 | s6 => DD x44 x46 | s7 => DD x44 x47 | s8 => DD x44 x48 | s9 => DD x44 x49 | s10 => DD x44 x50 | s11 => DD x44 x51 | s12 => DD x44 x52 | s13 => DD x44 x53 | s14 => DD x44 x54 | s15 => DD x44 x55 | s16 => DD x44 x56 | s17 => DD x44 x57 | s18 => DD x44 x58 | s19 => DD x44 x59 | s20 => DD x44 x60 | s21 => DD x44 x61 | s22 => DD x44 x62 | s23 => DD x44 x63 | s24 => DD x45 x0 | s25 => DD x45 x1 | s26 => DD x45 x2 | s27 => DD x45 x3 | s28 => DD x45 x4 | s29 => DD x45 x5 | s30 => DD x45 x6 | s31 => DD x45 x7 | s32 => DD x45 x8 | s33 => DD x45 x9 | s34 => DD x45 x10 | s35 => DD x45 x11 | s36 => DD x45 x12 | s37 => DD x45 x13 | s38 => DD x45 x14 | s39 => DD x45 x15 | s40 => DD x45 x16 | s41 => DD x45 x17 | s42 => DD x45 x18 | s43 => DD x45 x19 | s44 => DD x45 x20 | s45 => DD x45 x21 | s46 => DD x45 x22 | s47 => DD x45 x23 | s48 => DD x45 x24 | s49 => DD x45 x25 | s50 => DD x45 x26 | s51 => DD x45 x27 | s52 => DD x45 x28 | s53 => DD x45 x29 | s54 => DD x45 x30 | s55 => DD x45 x31 | s56 => DD x45 x32 | s57 => DD x45 x33 | s58 => DD x45 x34 | s59 => DD x45 x35 | s60 => DD x45 x36 | s61 => DD x45 x37 | s62 => DD x45 x38 | s63 => DD x45 x39 | s64 => DD x45 x40 | s65 => DD x45 x41 | s66 => DD x45 x42 | s67 => DD x45 x43 | s68 => DD x45 x44 | s69 => DD x45 x45 | s70 => DD x45 x46 | s71 => DD x45 x47 | s72 => DD x45 x48 | s73 => DD x45 x49 | s74 => DD x45 x50 | s75 => DD x45 x51 | s76 => DD x45 x52 | s77 => DD x45 x53 | s78 => DD x45 x54 | s79 => DD x45 x55 | s80 => DD x45 x56 | s81 => DD x45 x57 | s82 => DD x45 x58 | s83 => DD x45 x59 | s84 => DD x45 x60 | s85 => DD x45 x61 | s86 => DD x45 x62 | s87 => DD x45 x63 | s88 => DD x46 x0 | s89 => DD x46 x1 | s90 => DD x46 x2 | s91 => DD x46 x3 | s92 => DD x46 x4 | s93 => DD x46 x5 | s94 => DD x46 x6 | s95 => DD x46 x7 | s96 => DD x46 x8 | s97 => DD x46 x9 | s98 => DD x46 x10 | s99 => DD x46 x11 | s100 => DD x46 x12 | s101 => DD x46 x13 | s102 => DD x46 x14 | s103 => DD x46 x15 | s104 => DD x46 x16 | s105 => DD x46 x17 | s106 => DD x46 x18 | s107 => DD x46 x19 | s108 => DD x46 x20 | s109 => DD x46 x21 | s110 => DD x46 x22 | s111 => DD x46 x23 | s112 => DD x46 x24 | s113 => DD x46 x25 | s114 => DD x46 x26 | s115 => DD x46 x27 | s116 => DD x46 x28 | s117 => DD x46 x29 | s118 => DD x46 x30 | s119 => DD x46 x31 | s120 => DD x46 x32 | s121 => DD x46 x33 | s122 => DD x46 x34 | s123 => DD x46 x35 | s124 => DD x46 x36 | s125 => DD x46 x37 | s126 => DD x46 x38 end.
Definition m2860 (c : sum2) : dd := match c with s0 => DD x44 x44 | s1 => DD x44 x45 | s2 => DD x44 x46 | s3 => DD x44 x47 | s4 => DD x44 x48 | s5 => DD x44 x49 | s6 => DD x44 x50 | s7 => DD x44 x51 | s8 => DD x44 x52 | s9 => DD x44 x53 | s10 => DD x44 x54 | s11 => DD x44 x55 | s12 => DD x44 x56 | s13 => DD x44 x57 | s14 => DD x44 x58 | s15 => DD x44 x59 | s16 => DD x44 x60 | s17 => DD x44 x61 | s18 => DD x44 x62 | s19 => DD x44 x63 | s20 => DD x45 x0 | s21 => DD x45 x1 | s22 => DD x45 x2 | s23 => DD x45 x3 | s24 => DD x45 x4 | s25 => DD x45 x5 | s26 => DD x45 x6 | s27 => DD x45 x7 | s28 => DD x45 x8 | s29 => DD x45 x9 | s30 => DD x45 x10 | s31 => DD x45 x11 | s32 => DD x45 x12 | s33 => DD x45 x13 | s34 => DD x45 x14 | s35 => DD x45 x15 | s36 => DD x45 x16 | s37 => DD x45 x17 | s38 => DD x45 x18 | s39 => DD x45 x19 | s40 => DD x45 x20 | s41 => DD x45 x21 | s42 => DD x45 x22 | s43 => DD x45 x23 | s44 => DD x45 x24 | s45 => DD x45 x25 | s46 => DD x45 x26 | s47 => DD x45 x27 | s48 => DD x45 x28 | s49 => DD x45 x29 | s50 => DD x45 x30 | s51 => DD x45 x31 | s52 => DD x45 x32 | s53 => DD x45 x33 | s54 => DD x45 x34 | s55 => DD x45 x35 | s56 => DD x45 x36 | s57 => DD x45 x37 | s58 => DD x45 x38 | s59 => DD x45 x39 | s60 => DD x45 x40 | s61 => DD x45 x41 | s62 => DD x45 x42 | s63 => DD x45 x43 | s64 => DD x45 x44 | s65 => DD x45 x45 | s66 => DD x45 x46 | s67 => DD x45 x47 | s68 => DD x45 x48 | s69 => DD x45 x49 | s70 => DD x45 x50 | s71 => DD x45 x51 | s72 => DD x45 x52 | s73 => DD x45 x53 | s74 => DD x45 x54 | s75 => DD x45 x55 | s76 => DD x45 x56 | s77 => DD x45 x57 | s78 => DD x45 x58 | s79 => DD x45 x59 | s80 => DD x45 x60 | s81 => DD x45 x61 | s82 => DD x45 x62 | s83 => DD x45 x63 | s84 => DD x46 x0 | s85 => DD x46 x1 | s86 => DD x46 x2 | s87 => DD x46 x3 | s88 => DD x46 x4 | s89 => DD x46 x5 | s90 => DD x46 x6 | s91 => DD x46 x7 | s92 => DD x46 x8 | s93 => DD x46 x9 | s94 => DD x46 x10 | s95 => DD x46 x11 | s96 => DD x46 x12 | s97 => DD x46 x13 | s98 => DD x46 x14 | s99 => DD x46 x15 | s100 => DD x46 x16 | s101 => DD x46 x17 | s102 => DD x46 x18 | s103 => DD x46 x19 | s104 => DD x46 x20 | s105 => DD x46 x21 | s106 => DD x46 x22 | s107 => DD x46 x23 | s108 => DD x46 x24 | s109 => DD x46 x25 | s110 => DD x46 x26 | s111 => DD x46 x27 | s112 => DD x46 x28 | s113 => DD x46 x29 | s114 => DD x46 x30 | s115 => DD x46 x31 | s116 => DD x46 x32 | s117 => DD x46 x33 | s118 => DD x46 x34 | s119 => DD x46 x35 | s120 => DD x46 x36 | s121 => DD x46 x37 | s122 => DD x46 x38 | s123 => DD x46 x39 | s124 => DD x46 x40 | s125 => DD x46 x41 | s126 => DD x46 x42 end.
Definition m2862 (c : sum2) : dd := match c with s0 => DD x44 x46 | s1 => DD x44 x47 | s2 => DD x44 x48 | s3 => DD x44 x49 | s4 => DD x44 x50 | s5 => DD x44 x51 | s6 => DD x44 x52 | s7 => DD x44 x53 | s8 => DD x44 x54 | s9 => DD x44 x55 | s10 => DD x44 x56 | s11 => DD x44 x57 | s12 => DD x44 x58 | s13 => DD x44 x59 | s14 => DD x44 x60 | s15 => DD x44 x61 | s16 => DD x44 x62 | s17 => DD x44 x63 | s18 => DD x45 x0 | s19 => DD x45 x1 | s20 => DD x45 x2 | s21 => DD x45 x3 | s22 => DD x45 x4 | s23 => DD x45 x5 | s24 => DD x45 x6 | s25 => DD x45 x7 | s26 => DD x45 x8 | s27 => DD x45 x9 | s28 => DD x45 x10 | s29 => DD x45 x11 | s30 => DD x45 x12 | s31 => DD x45 x13 | s32 => DD x45 x14 | s33 => DD x45 x15 | s34 => DD x45 x16 | s35 => DD x45 x17 | s36 => DD x45 x18 | s37 => DD x45 x19 | s38 => DD x45 x20 | s39 => DD x45 x21 | s40 => DD x45 x22 | s41 => DD x45 x23 | s42 => DD x45 x24 | s43 => DD x45 x25 | s44 => DD x45 x26 | s45 => DD x45 x27 | s46 => DD x45 x28 | s47 => DD x45 x29 | s48 => DD x45 x30 | s49 => DD x45 x31 | s50 => DD x45 x32 | s51 => DD x45 x33 | s52 => DD x45 x34 | s53 => DD x45 x35 | s54 => DD x45 x36 | s55 => DD x45 x37 | s56 => DD x45 x38 | s57 => DD x45 x39 | s58 => DD x45 x40 | s59 => DD x45 x41 | s60 => DD x45 x42 | s61 => DD x45 x43 | s62 => DD x45 x44 | s63 => DD x45 x45 | s64 => DD x45 x46 | s65 => DD x45 x47 | s66 => DD x45 x48 | s67 => DD x45 x49 | s68 => DD x45 x50 | s69 => DD x45 x51 | s70 => DD x45 x52 | s71 => DD x45 x53 | s72 => DD x45 x54 | s73 => DD x45 x55 | s74 => DD x45 x56 | s75 => DD x45 x57 | s76 => DD x45 x58 | s77 => DD x45 x59 | s78 => DD x45 x60 | s79 => DD x45 x61 | s80 => DD x45 x62 | s81 => DD x45 x63 | s82 => DD x46 x0 | s83 => DD x46 x1 | s84 => DD x46 x2 | s85 => DD x46 x3 | s86 => DD x46 x4 | s87 => DD x46 x5 | s88 => DD x46 x6 | s89 => DD x46 x7 | s90 => DD x46 x8 | s91 => DD x46 x9 | s92 => DD x46 x10 | s93 => DD x46 x11 | s94 => DD x46 x12 | s95 => DD x46 x13 | s96 => DD x46 x14 | s97 => DD x46 x15 | s98 => DD x46 x16 | s99 => DD x46 x17 | s100 => DD x46 x18 | s101 => DD x46 x19 | s102 => DD x46 x20 | s103 => DD x46 x21 | s104 => DD x46 x22 | s105 => DD x46 x23 | s106 => DD x46 x24 | s107 => DD x46 x25 | s108 => DD x46 x26 | s109 => DD x46 x27 | s110 => DD x46 x28 | s111 => DD x46 x29 | s112 => DD x46 x30 | s113 => DD x46 x31 | s114 => DD x46 x32 | s115 => DD x46 x33 | s116 => DD x46 x34 | s117 => DD x46 x35 | s118 => DD x46 x36 | s119 => DD x46 x37 | s120 => DD x46 x38 | s121 => DD x46 x39 | s122 => DD x46 x40 | s123 => DD x46 x41 | s124 => DD x46 x42 | s125 => DD x46 x43 | s126 => DD x46 x44 end.
Definition m2867 (c : sum2) : dd := match c with s0 => DD x44 x51 | s1 => DD x44 x52 | s2 => DD x44 x53 | s3 => DD x44 x54 | s4 => DD x44 x55 | s5 => DD x44 x56 | s6 => DD x44 x57 | s7 => DD x44 x58 | s8 => DD x44 x59 | s9 => DD x44 x60 | s10 => DD x44 x61 | s11 => DD x44 x62 | s12 => DD x44 x63 | s13 => DD x45 x0 | s14 => DD x45 x1 | s15 => DD x45 x2 | s16 => DD x45 x3 | s17 => DD x45 x4 | s18 => DD x45 x5 | s19 => DD x45 x6 | s20 => DD x45 x7 | s21 => DD x45 x8 | s22 => DD x45 x9 | s23 => DD x45 x10 | s24 => DD x45 x11 | s25 => DD x45 x12 | s26 => DD x45 x13 | s27 => DD x45 x14 | s28 => DD x45 x15 | s29 => DD x45 x16 | s30 => DD x45 x17 | s31 => DD x45 x18 | s32 => DD x45 x19 | s33 => DD x45 x20 | s34 => DD x45 x21 | s35 => DD x45 x22 | s36 => DD x45 x23 | s37 => DD x45 x24 | s38 => DD x45 x25 | s39 => DD x45 x26 | s40 => DD x45 x27 | s41 => DD x45 x28 | s42 => DD x45 x29 | s43 => DD x45 x30 | s44 => DD x45 x31 | s45 => DD x45 x32 | s46 => DD x45 x33 | s47 => DD x45 x34 | s48 => DD x45 x35 | s49 => DD x45 x36 | s50 => DD x45 x37 | s51 => DD x45 x38 | s52 => DD x45 x39 | s53 => DD x45 x40 | s54 => DD x45 x41 | s55 => DD x45 x42 | s56 => DD x45 x43 | s57 => DD x45 x44 | s58 => DD x45 x45 | s59 => DD x45 x46 | s60 => DD x45 x47 | s61 => DD x45 x48 | s62 => DD x45 x49 | s63 => DD x45 x50 | s64 => DD x45 x51 | s65 => DD x45 x52 | s66 => DD x45 x53 | s67 => DD x45 x54 | s68 => DD x45 x55 | s69 => DD x45 x56 | s70 => DD x45 x57 | s71 => DD x45 x58 | s72 => DD x45 x59 | s73 => DD x45 x60 | s74 => DD x45 x61 | s75 => DD x45 x62 | s76 => DD x45 x63 | s77 => DD x46 x0 | s78 => DD x46 x1 | s79 => DD x46 x2 | s80 => DD x46 x3 | s81 => DD x46 x4 | s82 => DD x46 x5 | s83 => DD x46 x6 | s84 => DD x46 x7 | s85 => DD x46 x8 | s86 => DD x46 x9 | s87 => DD x46 x10 | s88 => DD x46 x11 | s89 => DD x46 x12 | s90 => DD x46 x13 | s91 => DD x46 x14 | s92 => DD x46 x15 | s93 => DD x46 x16 | s94 => DD x46 x17 | s95 => DD x46 x18 | s96 => DD x46 x19 | s97 => DD x46 x20 | s98 => DD x46 x21 | s99 => DD x46 x22 | s100 => DD x46 x23 | s101 => DD x46 x24 | s102 => DD x46 x25 | s103 => DD x46 x26 | s104 => DD x46 x27 | s105 => DD x46 x28 | s106 => DD x46 x29 | s107 => DD x46 x30 | s108 => DD x46 x31 | s109 => DD x46 x32 | s110 => DD x46 x33 | s111 => DD x46 x34 | s112 => DD x46 x35 | s113 => DD x46 x36 | s114 => DD x46 x37 | s115 => DD x46 x38 | s116 => DD x46 x39 | s117 => DD x46 x40 | s118 => DD x46 x41 | s119 => DD x46 x42 | s120 => DD x46 x43 | s121 => DD x46 x44 | s122 => DD x46 x45 | s123 => DD x46 x46 | s124 => DD x46 x47 | s125 => DD x46 x48 | s126 => DD x46 x49 end.
Definition m2880 (c : sum2) : dd := match c with s0 => DD x45 x0 | s1 => DD x45 x1 | s2 => DD x45 x2 | s3 => DD x45 x3 | s4 => DD x45 x4 | s5 => DD x45 x5 | s6 => DD x45 x6 | s7 => DD x45 x7 | s8 => DD x45 x8 | s9 => DD x45 x9 | s10 => DD x45 x10 | s11 => DD x45 x11 | s12 => DD x45 x12 | s13 => DD x45 x13 | s14 => DD x45 x14 | s15 => DD x45 x15 | s16 => DD x45 x16 | s17 => DD x45 x17 | s18 => DD x45 x18 | s19 => DD x45 x19 | s20 => DD x45 x20 | s21 => DD x45 x21 | s22 => DD x45 x22 | s23 => DD x45 x23 | s24 => DD x45 x24 | s25 => DD x45 x25 | s26 => DD x45 x26 | s27 => DD x45 x27 | s28 => DD x45 x28 | s29 => DD x45 x29 | s30 => DD x45 x30 | s31 => DD x45 x31 | s32 => DD x45 x32 | s33 => DD x45 x33 | s34 => DD x45 x34 | s35 => DD x45 x35 | s36 => DD x45 x36 | s37 => DD x45 x37 | s38 => DD x45 x38 | s39 => DD x45 x39 | s40 => DD x45 x40 | s41 => DD x45 x41 | s42 => DD x45 x42 | s43 => DD x45 x43 | s44 => DD x45 x44 | s45 => DD x45 x45 | s46 => DD x45 x46 | s47 => DD x45 x47 | s48 => DD x45 x48 | s49 => DD x45 x49 | s50 => DD x45 x50 | s51 => DD x45 x51 | s52 => DD x45 x52 | s53 => DD x45 x53 | s54 => DD x45 x54 | s55 => DD x45 x55 | s56 => DD x45 x56 | s57 => DD x45 x57 | s58 => DD x45 x58 | s59 => DD x45 x59 | s60 => DD x45 x60 | s61 => DD x45 x61 | s62 => DD x45 x62 | s63 => DD x45 x63 | s64 => DD x46 x0 | s65 => DD x46 x1 | s66 => DD x46 x2 | s67 => DD x46 x3 | s68 => DD x46 x4 | s69 => DD x46 x5 | s70 => DD x46 x6 | s71 => DD x46 x7 | s72 => DD x46 x8 | s73 => DD x46 x9 | s74 => DD x46 x10 | s75 => DD x46 x11 | s76 => DD x46 x12 | s77 => DD x46 x13 | s78 => DD x46 x14 | s79 => DD x46 x15 | s80 => DD x46 x16 | s81 => DD x46 x17 | s82 => DD x46 x18 | s83 => DD x46 x19 | s84 => DD x46 x20 | s85 => DD x46 x21 | s86 => DD x46 x22 | s87 => DD x46 x23 | s88 => DD x46 x24 | s89 => DD x46 x25 | s90 => DD x46 x26 | s91 => DD x46 x27 | s92 => DD x46 x28 | s93 => DD x46 x29 | s94 => DD x46 x30 | s95 => DD x46 x31 | s96 => DD x46 x32 | s97 => DD x46 x33 | s98 => DD x46 x34 | s99 => DD x46 x35 | s100 => DD x46 x36 | s101 => DD x46 x37 | s102 => DD x46 x38 | s103 => DD x46 x39 | s104 => DD x46 x40 | s105 => DD x46 x41 | s106 => DD x46 x42 | s107 => DD x46 x43 | s108 => DD x46 x44 | s109 => DD x46 x45 | s110 => DD x46 x46 | s111 => DD x46 x47 | s112 => DD x46 x48 | s113 => DD x46 x49 | s114 => DD x46 x50 | s115 => DD x46 x51 | s116 => DD x46 x52 | s117 => DD x46 x53 | s118 => DD x46 x54 | s119 => DD x46 x55 | s120 => DD x46 x56 | s121 => DD x46 x57 | s122 => DD x46 x58 | s123 => DD x46 x59 | s124 => DD x46 x60 | s125 => DD x46 x61 | s126 => DD x46 x62 end.
Definition m2891 (c : sum2) : dd := match c with s0 => DD x45 x11 | s1 => DD x45 x12 | s2 => DD x45 x13 | s3 => DD x45 x14 | s4 => DD x45 x15 | s5 => DD x45 x16 | s6 => DD x45 x17 | s7 => DD x45 x18 | s8 => DD x45 x19 | s9 => DD x45 x20 | s10 => DD x45 x21 | s11 => DD x45 x22 | s12 => DD x45 x23 | s13 => DD x45 x24 | s14 => DD x45 x25 | s15 => DD x45 x26 | s16 => DD x45 x27 | s17 => DD x45 x28 | s18 => DD x45 x29 | s19 => DD x45 x30 | s20 => DD x45 x31 | s21 => DD x45 x32 | s22 => DD x45 x33 | s23 => DD x45 x34 | s24 => DD x45 x35 | s25 => DD x45 x36 | s26 => DD x45 x37 | s27 => DD x45 x38 | s28 => DD x45 x39 | s29 => DD x45 x40 | s30 => DD x45 x41 | s31 => DD x45 x42 | s32 => DD x45 x43 | s33 => DD x45 x44 | s34 => DD x45 x45 | s35 => DD x45 x46 | s36 => DD x45 x47 | s37 => DD x45 x48 | s38 => DD x45 x49 | s39 => DD x45 x50 | s40 => DD x45 x51 | s41 => DD x45 x52 | s42 => DD x45 x53 | s43 => DD x45 x54 | s44 => DD x45 x55 | s45 => DD x45 x56 | s46 => DD x45 x57 | s47 => DD x45 x58 | s48 => DD x45 x59 | s49 => DD x45 x60 | s50 => DD x45 x61 | s51 => DD x45 x62 | s52 => DD x45 x63 | s53 => DD x46 x0 | s54 => DD x46 x1 | s55 => DD x46 x2 | s56 => DD x46 x3 | s57 => DD x46 x4 | s58 => DD x46 x5 | s59 => DD x46 x6 | s60 => DD x46 x7 | s61 => DD x46 x8 | s62 => DD x46 x9 | s63 => DD x46 x10 | s64 => DD x46 x11 | s65 => DD x46 x12 | s66 => DD x46 x13 | s67 => DD x46 x14 | s68 => DD x46 x15 | s69 => DD x46 x16 | s70 => DD x46 x17 | s71 => DD x46 x18 | s72 => DD x46 x19 | s73 => DD x46 x20 | s74 => DD x46 x21 | s75 => DD x46 x22 | s76 => DD x46 x23 | s77 => DD x46 x24 | s78 => DD x46 x25 | s79 => DD x46 x26 | s80 => DD x46 x27 | s81 => DD x46 x28 | s82 => DD x46 x29 | s83 => DD x46 x30 | s84 => DD x46 x31 | s85 => DD x46 x32 | s86 => DD x46 x33 | s87 => DD x46 x34 | s88 => DD x46 x35 | s89 => DD x46 x36 | s90 => DD x46 x37 | s91 => DD x46 x38 | s92 => DD x46 x39 | s93 => DD x46 x40 | s94 => DD x46 x41 | s95 => DD x46 x42 | s96 => DD x46 x43 | s97 => DD x46 x44 | s98 => DD x46 x45 | s99 => DD x46 x46 | s100 => DD x46 x47 | s101 => DD x46 x48 | s102 => DD x46 x49 | s103 => DD x46 x50 | s104 => DD x46 x51 | s105 => DD x46 x52 | s106 => DD x46 x53 | s107 => DD x46 x54 | s108 => DD x46 x55 | s109 => DD x46 x56 | s110 => DD x46 x57 | s111 => DD x46 x58 | s112 => DD x46 x59 | s113 => DD x46 x60 | s114 => DD x46 x61 | s115 => DD x46 x62 | s116 => DD x46 x63 | s117 => DD x47 x0 | s118 => DD x47 x1 | s119 => DD x47 x2 | s120 => DD x47 x3 | s121 => DD x47 x4 | s122 => DD x47 x5 | s123 => DD x47 x6 | s124 => DD x47 x7 | s125 => DD x47 x8 | s126 => DD x47 x9 end.
Definition m2898 (c : sum2) : dd := match c with s0 => DD x45 x18 | s1 => DD x45 x19 | s2 => DD x45 x20 | s3 => DD x45 x21 | s4 => DD x45 x22 | s5 => DD x45 x23 | s6 => DD x45 x24 | s7 => DD x45 x25 | s8 => DD x45 x26 | s9 => DD x45 x27 | s10 => DD x45 x28 | s11 => DD x45 x29 | s12 => DD x45 x30 | s13 => DD x45 x31 | s14 => DD x45 x32 | s15 => DD x45 x33 | s16 => DD x45 x34 | s17 => DD x45 x35 | s18 => DD x45 x36 | s19 => DD x45 x37 | s20 => DD x45 x38 | s21 => DD x45 x39 | s22 => DD x45 x40 | s23 => DD x45 x41 | s24 => DD x45 x42 | s25 => DD x45 x43 | s26 => DD x45 x44 | s27 => DD x45 x45 | s28 => DD x45 x46 | s29 => DD x45 x47 | s30 => DD x45 x48 | s31 => DD x45 x49 | s32 => DD x45 x50 | s33 => DD x45 x51 | s34 => DD x45 x52 | s35 => DD x45 x53 | s36 => DD x45 x54 | s37 => DD x45 x55 | s38 => DD x45 x56 | s39 => DD x45 x57 | s40 => DD x45 x58 | s41 => DD x45 x59 | s42 => DD x45 x60 | s43 => DD x45 x61 | s44 => DD x45 x62 | s45 => DD x45 x63 | s46 => DD x46 x0 | s47 => DD x46 x1 | s48 => DD x46 x2 | s49 => DD x46 x3 | s50 => DD x46 x4 | s51 => DD x46 x5 | s52 => DD x46 x6 | s53 => DD x46 x7 | s54 => DD x46 x8 | s55 => DD x46 x9 | s56 => DD x46 x10 | s57 => DD x46 x11 | s58 => DD x46 x12 | s59 => DD x46 x13 | s60 => DD x46 x14 | s61 => DD x46 x15 | s62 => DD x46 x16 | s63 => DD x46 x17 | s64 => DD x46 x18 | s65 => DD x46 x19 | s66 => DD x46 x20 | s67 => DD x46 x21 | s68 => DD x46 x22 | s69 => DD x46 x23 | s70 => DD x46 x24 | s71 => DD x46 x25 | s72 => DD x46 x26 | s73 => DD x46 x27 | s74 => DD x46 x28 | s75 => DD x46 x29 | s76 => DD x46 x30 | s77 => DD x46 x31 | s78 => DD x46 x32 | s79 => DD x46 x33 | s80 => DD x46 x34 | s81 => DD x46 x35 | s82 => DD x46 x36 | s83 => DD x46 x37 | s84 => DD x46 x38 | s85 => DD x46 x39 | s86 => DD x46 x40 | s87 => DD x46 x41 | s88 => DD x46 x42 | s89 => DD x46 x43 | s90 => DD x46 x44 | s91 => DD x46 x45 | s92 => DD x46 x46 | s93 => DD x46 x47 | s94 => DD x46 x48 | s95 => DD x46 x49 | s96 => DD x46 x50 | s97 => DD x46 x51 | s98 => DD x46 x52 | s99 => DD x46 x53 | s100 => DD x46 x54 | s101 => DD x46 x55 | s102 => DD x46 x56 | s103 => DD x46 x57 | s104 => DD x46 x58 | s105 => DD x46 x59 | s106 => DD x46 x60 | s107 => DD x46 x61 | s108 => DD x46 x62 | s109 => DD x46 x63 | s110 => DD x47 x0 | s111 => DD x47 x1 | s112 => DD x47 x2 | s113 => DD x47 x3 | s114 => DD x47 x4 | s115 => DD x47 x5 | s116 => DD x47 x6 | s117 => DD x47 x7 | s118 => DD x47 x8 | s119 => DD x47 x9 | s120 => DD x47 x10 | s121 => DD x47 x11 | s122 => DD x47 x12 | s123 => DD x47 x13 | s124 => DD x47 x14 | s125 => DD x47 x15 | s126 => DD x47 x16 end.
Definition m2900 (c : sum2) : dd := match c with s0 => DD x45 x20 | s1 => DD x45 x21 | s2 => DD x45 x22 | s3 => DD x45 x23 | s4 => DD x45 x24 | s5 => DD x45 x25 | s6 => DD x45 x26 | s7 => DD x45 x27 | s8 => DD x45 x28 | s9 => DD x45 x29 | s10 => DD x45 x30 | s11 => DD x45 x31 | s12 => DD x45 x32 | s13 => DD x45 x33 | s14 => DD x45 x34 | s15 => DD x45 x35 | s16 => DD x45 x36 | s17 => DD x45 x37 | s18 => DD x45 x38 | s19 => DD x45 x39 | s20 => DD x45 x40 | s21 => DD x45 x41 | s22 => DD x45 x42 | s23 => DD x45 x43 | s24 => DD x45 x44 | s25 => DD x45 x45 | s26 => DD x45 x46 | s27 => DD x45 x47 | s28 => DD x45 x48 | s29 => DD x45 x49 | s30 => DD x45 x50 | s31 => DD x45 x51 | s32 => DD x45 x52 | s33 => DD x45 x53 | s34 => DD x45 x54 | s35 => DD x45 x55 | s36 => DD x45 x56 | s37 => DD x45 x57 | s38 => DD x45 x58 | s39 => DD x45 x59 | s40 => DD x45 x60 | s41 => DD x45 x61 | s42 => DD x45 x62 | s43 => DD x45 x63 | s44 => DD x46 x0 | s45 => DD x46 x1 | s46 => DD x46 x2 | s47 => DD x46 x3 | s48 => DD x46 x4 | s49 => DD x46 x5 | s50 => DD x46 x6 | s51 => DD x46 x7 | s52 => DD x46 x8 | s53 => DD x46 x9 | s54 => DD x46 x10 | s55 => DD x46 x11 | s56 => DD x46 x12 | s57 => DD x46 x13 | s58 => DD x46 x14 | s59 => DD x46 x15 | s60 => DD x46 x16 | s61 => DD x46 x17 | s62 => DD x46 x18 | s63 => DD x46 x19 | s64 => DD x46 x20 | s65 => DD x46 x21 | s66 => DD x46 x22 | s67 => DD x46 x23 | s68 => DD x46 x24 | s69 => DD x46 x25 | s70 => DD x46 x26 | s71 => DD x46 x27 | s72 => DD x46 x28 | s73 => DD x46 x29 | s74 => DD x46 x30 | s75 => DD x46 x31 | s76 => DD x46 x32 | s77 => DD x46 x33 | s78 => DD x46 x34 | s79 => DD x46 x35 | s80 => DD x46 x36 | s81 => DD x46 x37 | s82 => DD x46 x38 | s83 => DD x46 x39 | s84 => DD x46 x40 | s85 => DD x46 x41 | s86 => DD x46 x42 | s87 => DD x46 x43 | s88 => DD x46 x44 | s89 => DD x46 x45 | s90 => DD x46 x46 | s91 => DD x46 x47 | s92 => DD x46 x48 | s93 => DD x46 x49 | s94 => DD x46 x50 | s95 => DD x46 x51 | s96 => DD x46 x52 | s97 => DD x46 x53 | s98 => DD x46 x54 | s99 => DD x46 x55 | s100 => DD x46 x56 | s101 => DD x46 x57 | s102 => DD x46 x58 | s103 => DD x46 x59 | s104 => DD x46 x60 | s105 => DD x46 x61 | s106 => DD x46 x62 | s107 => DD x46 x63 | s108 => DD x47 x0 | s109 => DD x47 x1 | s110 => DD x47 x2 | s111 => DD x47 x3 | s112 => DD x47 x4 | s113 => DD x47 x5 | s114 => DD x47 x6 | s115 => DD x47 x7 | s116 => DD x47 x8 | s117 => DD x47 x9 | s118 => DD x47 x10 | s119 => DD x47 x11 | s120 => DD x47 x12 | s121 => DD x47 x13 | s122 => DD x47 x14 | s123 => DD x47 x15 | s124 => DD x47 x16 | s125 => DD x47 x17 | s126 => DD x47 x18 end.
Definition m2907 (c : sum2) : dd := match c with s0 => DD x45 x27 | s1 => DD x45 x28 | s2 => DD x45 x29 | s3 => DD x45 x30 | s4 => DD x45 x31 | s5 => DD x45 x32 | s6 => DD x45 x33 | s7 => DD x45 x34 | s8 => DD x45 x35 | s9 => DD x45 x36 | s10 => DD x45 x37 | s11 => DD x45 x38 | s12 => DD x45 x39 | s13 => DD x45 x40 | s14 => DD x45 x41 | s15 => DD x45 x42 | s16 => DD x45 x43 | s17 => DD x45 x44 | s18 => DD x45 x45 | s19 => DD x45 x46 | s20 => DD x45 x47 | s21 => DD x45 x48 | s22 => DD x45 x49 | s23 => DD x45 x50 | s24 => DD x45 x51 | s25 => DD x45 x52 | s26 => DD x45 x53 | s27 => DD x45 x54 | s28 => DD x45 x55 | s29 => DD x45 x56 | s30 => DD x45 x57 | s31 => DD x45 x58 | s32 => DD x45 x59 | s33 => DD x45 x60 | s34 => DD x45 x61 | s35 => DD x45 x62 | s36 => DD x45 x63 | s37 => DD x46 x0 | s38 => DD x46 x1 | s39 => DD x46 x2 | s40 => DD x46 x3 | s41 => DD x46 x4 | s42 => DD x46 x5 | s43 => DD x46 x6 | s44 => DD x46 x7 | s45 => DD x46 x8 | s46 => DD x46 x9 | s47 => DD x46 x10 | s48 => DD x46 x11 | s49 => DD x46 x12 | s50 => DD x46 x13 | s51 => DD x46 x14 | s52 => DD x46 x15 | s53 => DD x46 x16 | s54 => DD x46 x17 | s55 => DD x46 x18 | s56 => DD x46 x19 | s57 => DD x46 x20 | s58 => DD x46 x21 | s59 => DD x46 x22 | s60 => DD x46 x23 | s61 => DD x46 x24 | s62 => DD x46 x25 | s63 => DD x46 x26 | s64 => DD x46 x27 | s65 => DD x46 x28 | s66 => DD x46 x29 | s67 => DD x46 x30 | s68 => DD x46 x31 | s69 => DD x46 x32 | s70 => DD x46 x33 | s71 => DD x46 x34 | s72 => DD x46 x35 | s73 => DD x46 x36 | s74 => DD x46 x37 | s75 => DD x46 x38 | s76 => DD x46 x39 | s77 => DD x46 x40 | s78 => DD x46 x41 | s79 => DD x46 x42 | s80 => DD x46 x43 | s81 => DD x46 x44 | s82 => DD x46 x45 | s83 => DD x46 x46 | s84 => DD x46 x47 | s85 => DD x46 x48 | s86 => DD x46 x49 | s87 => DD x46 x50 | s88 => DD x46 x51 | s89 => DD x46 x52 | s90 => DD x46 x53 | s91 => DD x46 x54 | s92 => DD x46 x55 | s93 => DD x46 x56 | s94 => DD x46 x57 | s95 => DD x46 x58 | s96 => DD x46 x59 | s97 => DD x46 x60 | s98 => DD x46 x61 | s99 => DD x46 x62 | s100 => DD x46 x63 | s101 => DD x47 x0 | s102 => DD x47 x1 | s103 => DD x47 x2 | s104 => DD x47 x3 | s105 => DD x47 x4 | s106 => DD x47 x5 | s107 => DD x47 x6 | s108 => DD x47 x7 | s109 => DD x47 x8 | s110 => DD x47 x9 | s111 => DD x47 x10 | s112 => DD x47 x11 | s113 => DD x47 x12 | s114 => DD x47 x13 | s115 => DD x47 x14 | s116 => DD x47 x15 | s117 => DD x47 x16 | s118 => DD x47 x17 | s119 => DD x47 x18 | s120 => DD x47 x19 | s121 => DD x47 x20 | s122 => DD x47 x21 | s123 => DD x47 x22 | s124 => DD x47 x23 | s125 => DD x47 x24 | s126 => DD x47 x25 end.
Definition m2912 (c : sum2) : dd := match c with s0 => DD x45 x32 | s1 => DD x45 x33 | s2 => DD x45 x34 | s3 => DD x45 x35 | s4 => DD x45 x36 | s5 => DD x45 x37 | s6 => DD x45 x38 | s7 => DD x45 x39 | s8 => DD x45 x40 | s9 => DD x45 x41 | s10 => DD x45 x42 | s11 => DD x45 x43 | s12 => DD x45 x44 | s13 => DD x45 x45 | s14 => DD x45 x46 | s15 => DD x45 x47 | s16 => DD x45 x48 | s17 => DD x45 x49 | s18 => DD x45 x50 | s19 => DD x45 x51 | s20 => DD x45 x52 | s21 => DD x45 x53 | s22 => DD x45 x54 | s23 => DD x45 x55 | s24 => DD x45 x56 | s25 => DD x45 x57 | s26 => DD x45 x58 | s27 => DD x45 x59 | s28 => DD x45 x60 | s29 => DD x45 x61 | s30 => DD x45 x62 | s31 => DD x45 x63 | s32 => DD x46 x0 | s33 => DD x46 x1 | s34 => DD x46 x2 | s35 => DD x46 x3 | s36 => DD x46 x4 | s37 => DD x46 x5 | s38 => DD x46 x6 | s39 => DD x46 x7 | s40 => DD x46 x8 | s41 => DD x46 x9 | s42 => DD x46 x10 | s43 => DD x46 x11 | s44 => DD x46 x12 | s45 => DD x46 x13 | s46 => DD x46 x14 | s47 => DD x46 x15 | s48 => DD x46 x16 | s49 => DD x46 x17 | s50 => DD x46 x18 | s51 => DD x46 x19 | s52 => DD x46 x20 | s53 => DD x46 x21 | s54 => DD x46 x22 | s55 => DD x46 x23 | s56 => DD x46 x24 | s57 => DD x46 x25 | s58 => DD x46 x26 | s59 => DD x46 x27 | s60 => DD x46 x28 | s61 => DD x46 x29 | s62 => DD x46 x30 | s63 => DD x46 x31 | s64 => DD x46 x32 | s65 => DD x46 x33 | s66 => DD x46 x34 | s67 => DD x46 x35 | s68 => DD x46 x36 | s69 => DD x46 x37 | s70 => DD x46 x38 | s71 => DD x46 x39 | s72 => DD x46 x40 | s73 => DD x46 x41 | s74 => DD x46 x42 | s75 => DD x46 x43 | s76 => DD x46 x44 | s77 => DD x46 x45 | s78 => DD x46 x46 | s79 => DD x46 x47 | s80 => DD x46 x48 | s81 => DD x46 x49 | s82 => DD x46 x50 | s83 => DD x46 x51 | s84 => DD x46 x52 | s85 => DD x46 x53 | s86 => DD x46 x54 | s87 => DD x46 x55 | s88 => DD x46 x56 | s89 => DD x46 x57 | s90 => DD x46 x58 | s91 => DD x46 x59 | s92 => DD x46 x60 | s93 => DD x46 x61 | s94 => DD x46 x62 | s95 => DD x46 x63 | s96 => DD x47 x0 | s97 => DD x47 x1 | s98 => DD x47 x2 | s99 => DD x47 x3 | s100 => DD x47 x4 | s101 => DD x47 x5 | s102 => DD x47 x6 | s103 => DD x47 x7 | s104 => DD x47 x8 | s105 => DD x47 x9 | s106 => DD x47 x10 | s107 => DD x47 x11 | s108 => DD x47 x12 | s109 => DD x47 x13 | s110 => DD x47 x14 | s111 => DD x47 x15 | s112 => DD x47 x16 | s113 => DD x47 x17 | s114 => DD x47 x18 | s115 => DD x47 x19 | s116 => DD x47 x20 | s117 => DD x47 x21 | s118 => DD x47 x22 | s119 => DD x47 x23 | s120 => DD x47 x24 | s121 => DD x47 x25 | s122 => DD x47 x26 | s123 => DD x47 x27 | s124 => DD x47 x28 | s125 => DD x47 x29 | s126 => DD x47 x30 end.
Definition m2914 (c : sum2) : dd := match c with s0 => DD x45 x34 | s1 => DD x45 x35 | s2 => DD x45 x36 | s3 => DD x45 x37 | s4 => DD x45 x38 | s5 => DD x45 x39 | s6 => DD x45 x40 | s7 => DD x45 x41 | s8 => DD x45 x42 | s9 => DD x45 x43 | s10 => DD x45 x44 | s11 => DD x45 x45 | s12 => DD x45 x46 | s13 => DD x45 x47 | s14 => DD x45 x48 | s15 => DD x45 x49 | s16 => DD x45 x50 | s17 => DD x45 x51 | s18 => DD x45 x52 | s19 => DD x45 x53 | s20 => DD x45 x54 | s21 => DD x45 x55 | s22 => DD x45 x56 | s23 => DD x45 x57 | s24 => DD x45 x58 | s25 => DD x45 x59 | s26 => DD x45 x60 | s27 => DD x45 x61 | s28 => DD x45 x62 | s29 => DD x45 x63 | s30 => DD x46 x0 | s31 => DD x46 x1 | s32 => DD x46 x2 | s33 => DD x46 x3 | s34 => DD x46 x4 | s35 => DD x46 x5 | s36 => DD x46 x6 | s37 => DD x46 x7 | s38 => DD x46 x8 | s39 => DD x46 x9 | s40 => DD x46 x10 | s41 => DD x46 x11 | s42 => DD x46 x12 | s43 => DD x46 x13 | s44 => DD x46 x14 | s45 => DD x46 x15 | s46 => DD x46 x16 | s47 => DD x46 x17 | s48 => DD x46 x18 | s49 => DD x46 x19 | s50 => DD x46 x20 | s51 => DD x46 x21 | s52 => DD x46 x22 | s53 => DD x46 x23 | s54 => DD x46 x24 | s55 => DD x46 x25 | s56 => DD x46 x26 | s57 => DD x46 x27 | s58 => DD x46 x28 | s59 => DD x46 x29 | s60 => DD x46 x30 | s61 => DD x46 x31 | s62 => DD x46 x32 | s63 => DD x46 x33 | s64 => DD x46 x34 | s65 => DD x46 x35 | s66 => DD x46 x36 | s67 => DD x46 x37 | s68 => DD x46 x38 | s69 => DD x46 x39 | s70 => DD x46 x40 | s71 => DD x46 x41 | s72 => DD x46 x42 | s73 => DD x46 x43 | s74 => DD x46 x44 | s75 => DD x46 x45 | s76 => DD x46 x46 | s77 => DD x46 x47 | s78 => DD x46 x48 | s79 => DD x46 x49 | s80 => DD x46 x50 | s81 => DD x46 x51 | s82 => DD x46 x52 | s83 => DD x46 x53 | s84 => DD x46 x54 | s85 => DD x46 x55 | s86 => DD x46 x56 | s87 => DD x46 x57 | s88 => DD x46 x58 | s89 => DD x46 x59 | s90 => DD x46 x60 | s91 => DD x46 x61 | s92 => DD x46 x62 | s93 => DD x46 x63 | s94 => DD x47 x0 | s95 => DD x47 x1 | s96 => DD x47 x2 | s97 => DD x47 x3 | s98 => DD x47 x4 | s99 => DD x47 x5 | s100 => DD x47 x6 | s101 => DD x47 x7 | s102 => DD x47 x8 | s103 => DD x47 x9 | s104 => DD x47 x10 | s105 => DD x47 x11 | s106 => DD x47 x12 | s107 => DD x47 x13 | s108 => DD x47 x14 | s109 => DD x47 x15 | s110 => DD x47 x16 | s111 => DD x47 x17 | s112 => DD x47 x18 | s113 => DD x47 x19 | s114 => DD x47 x20 | s115 => DD x47 x21 | s116 => DD x47 x22 | s117 => DD x47 x23 | s118 => DD x47 x24 | s119 => DD x47 x25 | s120 => DD x47 x26 | s121 => DD x47 x27 | s122 => DD x47 x28 | s123 => DD x47 x29 | s124 => DD x47 x30 | s125 => DD x47 x31 | s126 => DD x47 x32 end.
Definition m2915 (c : sum2) : dd := match c with s0 => DD x45 x35 | s1 => DD x45 x36 | s2 => DD x45 x37 | s3 => DD x45 x38 | s4 => DD x45 x39 | s5 => DD x45 x40 | s6 => DD x45 x41 | s7 => DD x45 x42 | s8 => DD x45 x43 | s9 => DD x45 x44 | s10 => DD x45 x45 | s11 => DD x45 x46 | s12 => DD x45 x47 | s13 => DD x45 x48 | s14 => DD x45 x49 | s15 => DD x45 x50 | s16 => DD x45 x51 | s17 => DD x45 x52 | s18 => DD x45 x53 | s19 => DD x45 x54 | s20 => DD x45 x55 | s21 => DD x45 x56 | s22 => DD x45 x57 | s23 => DD x45 x58 | s24 => DD x45 x59 | s25 => DD x45 x60 | s26 => DD x45 x61 | s27 => DD x45 x62 | s28 => DD x45 x63 | s29 => DD x46 x0 | s30 => DD x46 x1 | s31 => DD x46 x2 | s32 => DD x46 x3 | s33 => DD x46 x4 | s34 => DD x46 x5 | s35 => DD x46 x6 | s36 => DD x46 x7 | s37 => DD x46 x8 | s38 => DD x46 x9 | s39 => DD x46 x10 | s40 => DD x46 x11 | s41 => DD x46 x12 | s42 => DD x46 x13 | s43 => DD x46 x14 | s44 => DD x46 x15 | s45 => DD x46 x16 | s46 => DD x46 x17 | s47 => DD x46 x18 | s48 => DD x46 x19 | s49 => DD x46 x20 | s50 => DD x46 x21 | s51 => DD x46 x22 | s52 => DD x46 x23 | s53 => DD x46 x24 | s54 => DD x46 x25 | s55 => DD x46 x26 | s56 => DD x46 x27 | s57 => DD x46 x28 | s58 => DD x46 x29 | s59 => DD x46 x30 | s60 => DD x46 x31 | s61 => DD x46 x32 | s62 => DD x46 x33 | s63 => DD x46 x34 | s64 => DD x46 x35 | s65 => DD x46 x36 | s66 => DD x46 x37 | s67 => DD x46 x38 | s68 => DD x46 x39 | s69 => DD x46 x40 | s70 => DD x46 x41 | s71 => DD x46 x42 | s72 => DD x46 x43 | s73 => DD x46 x44 | s74 => DD x46 x45 | s75 => DD x46 x46 | s76 => DD x46 x47 | s77 => DD x46 x48 | s78 => DD x46 x49 | s79 => DD x46 x50 | s80 => DD x46 x51 | s81 => DD x46 x52 | s82 => DD x46 x53 | s83 => DD x46 x54 | s84 => DD x46 x55 | s85 => DD x46 x56 | s86 => DD x46 x57 | s87 => DD x46 x58 | s88 => DD x46 x59 | s89 => DD x46 x60 | s90 => DD x46 x61 | s91 => DD x46 x62 | s92 => DD x46 x63 | s93 => DD x47 x0 | s94 => DD x47 x1 | s95 => DD x47 x2 | s96 => DD x47 x3 | s97 => DD x47 x4 | s98 => DD x47 x5 | s99 => DD x47 x6 | s100 => DD x47 x7 | s101 => DD x47 x8 | s102 => DD x47 x9 | s103 => DD x47 x10 | s104 => DD x47 x11 | s105 => DD x47 x12 | s106 => DD x47 x13 | s107 => DD x47 x14 | s108 => DD x47 x15 | s109 => DD x47 x16 | s110 => DD x47 x17 | s111 => DD x47 x18 | s112 => DD x47 x19 | s113 => DD x47 x20 | s114 => DD x47 x21 | s115 => DD x47 x22 | s116 => DD x47 x23 | s117 => DD x47 x24 | s118 => DD x47 x25 | s119 => DD x47 x26 | s120 => DD x47 x27 | s121 => DD x47 x28 | s122 => DD x47 x29 | s123 => DD x47 x30 | s124 => DD x47 x31 | s125 => DD x47 x32 | s126 => DD x47 x33 end.
Definition m2916 (c : sum2) : dd := match c with s0 => DD x45 x36 | s1 => DD x45 x37 | s2 => DD x45 x38 | s3 => DD x45 x39 | s4 => DD x45 x40 | s5 => DD x45 x41 | s6 => DD x45 x42 | s7 => DD x45 x43 | s8 => DD x45 x44 | s9 => DD x45 x45 | s10 => DD x45 x46 | s11 => DD x45 x47 | s12 => DD x45 x48 | s13 => DD x45 x49 | s14 => DD x45 x50 | s15 => DD x45 x51 | s16 => DD x45 x52 | s17 => DD x45 x53 | s18 => DD x45 x54 | s19 => DD x45 x55 | s20 => DD x45 x56 | s21 => DD x45 x57 | s22 => DD x45 x58 | s23 => DD x45 x59 | s24 => DD x45 x60 | s25 => DD x45 x61 | s26 => DD x45 x62 | s27 => DD x45 x63 | s28 => DD x46 x0 | s29 => DD x46 x1 | s30 => DD x46 x2 | s31 => DD x46 x3 | s32 => DD x46 x4 | s33 => DD x46 x5 | s34 => DD x46 x6 | s35 => DD x46 x7 | s36 => DD x46 x8 | s37 => DD x46 x9 | s38 => DD x46 x10 | s39 => DD x46 x11 | s40 => DD x46 x12 | s41 => DD x46 x13 | s42 => DD x46 x14 | s43 => DD x46 x15 | s44 => DD x46 x16 | s45 => DD x46 x17 | s46 => DD x46 x18 | s47 => DD x46 x19 | s48 => DD x46 x20 | s49 => DD x46 x21 | s50 => DD x46 x22 | s51 => DD x46 x23 | s52 => DD x46 x24 | s53 => DD x46 x25 | s54 => DD x46 x26 | s55 => DD x46 x27 | s56 => DD x46 x28 | s57 => DD x46 x29 | s58 => DD x46 x30 | s59 => DD x46 x31 | s60 => DD x46 x32 | s61 => DD x46 x33 | s62 => DD x46 x34 | s63 => DD x46 x35 | s64 => DD x46 x36 | s65 => DD x46 x37 | s66 => DD x46 x38 | s67 => DD x46 x39 | s68 => DD x46 x40 | s69 => DD x46 x41 | s70 => DD x46 x42 | s71 => DD x46 x43 | s72 => DD x46 x44 | s73 => DD x46 x45 | s74 => DD x46 x46 | s75 => DD x46 x47 | s76 => DD x46 x48 | s77 => DD x46 x49 | s78 => DD x46 x50 | s79 => DD x46 x51 | s80 => DD x46 x52 | s81 => DD x46 x53 | s82 => DD x46 x54 | s83 => DD x46 x55 | s84 => DD x46 x56 | s85 => DD x46 x57 | s86 => DD x46 x58 | s87 => DD x46 x59 | s88 => DD x46 x60 | s89 => DD x46 x61 | s90 => DD x46 x62 | s91 => DD x46 x63 | s92 => DD x47 x0 | s93 => DD x47 x1 | s94 => DD x47 x2 | s95 => DD x47 x3 | s96 => DD x47 x4 | s97 => DD x47 x5 | s98 => DD x47 x6 | s99 => DD x47 x7 | s100 => DD x47 x8 | s101 => DD x47 x9 | s102 => DD x47 x10 | s103 => DD x47 x11 | s104 => DD x47 x12 | s105 => DD x47 x13 | s106 => DD x47 x14 | s107 => DD x47 x15 | s108 => DD x47 x16 | s109 => DD x47 x17 | s110 => DD x47 x18 | s111 => DD x47 x19 | s112 => DD x47 x20 | s113 => DD x47 x21 | s114 => DD x47 x22 | s115 => DD x47 x23 | s116 => DD x47 x24 | s117 => DD x47 x25 | s118 => DD x47 x26 | s119 => DD x47 x27 | s120 => DD x47 x28 | s121 => DD x47 x29 | s122 => DD x47 x30 | s123 => DD x47 x31 | s124 => DD x47 x32 | s125 => DD x47 x33 | s126 => DD x47 x34 end.
Definition m2928 (c : sum2) : dd := match c with s0 => DD x45 x48 | s1 => DD x45 x49 | s2 => DD x45 x50 | s3 => DD x45 x51 | s4 => DD x45 x52 | s5 => DD x45 x53 | s6 => DD x45 x54 | s7 => DD x45 x55 | s8 => DD x45 x56 | s9 => DD x45 x57 | s10 => DD x45 x58 | s11 => DD x45 x59 | s12 => DD x45 x60 | s13 => DD x45 x61 | s14 => DD x45 x62 | s15 => DD x45 x63 | s16 => DD x46 x0 | s17 => DD x46 x1 | s18 => DD x46 x2 | s19 => DD x46 x3 | s20 => DD x46 x4 | s21 => DD x46 x5 | s22 => DD x46 x6 | s23 => DD x46 x7 | s24 => DD x46 x8 | s25 => DD x46 x9 | s26 => DD x46 x10 | s27 => DD x46 x11 | s28 => DD x46 x12 | s29 => DD x46 x13 | s30 => DD x46 x14 | s31 => DD x46 x15 | s32 => DD x46 x16 | s33 => DD x46 x17 | s34 => DD x46 x18 | s35 => DD x46 x19 | s36 => DD x46 x20 | s37 => DD x46 x21 | s38 => DD x46 x22 | s39 => DD x46 x23 | s40 => DD x46 x24 | s41 => DD x46 x25 | s42 => DD x46 x26 | s43 => DD x46 x27 | s44 => DD x46 x28 | s45 => DD x46 x29 | s46 => DD x46 x30 | s47 => DD x46 x31 | s48 => DD x46 x32 | s49 => DD x46 x33 | s50 => DD x46 x34 | s51 => DD x46 x35 | s52 => DD x46 x36 | s53 => DD x46 x37 | s54 => DD x46 x38 | s55 => DD x46 x39 | s56 => DD x46 x40 | s57 => DD x46 x41 | s58 => DD x46 x42 | s59 => DD x46 x43 | s60 => DD x46 x44 | s61 => DD x46 x45 | s62 => DD x46 x46 | s63 => DD x46 x47 | s64 => DD x46 x48 | s65 => DD x46 x49 | s66 => DD x46 x50 | s67 => DD x46 x51 | s68 => DD x46 x52 | s69 => DD x46 x53 | s70 => DD x46 x54 | s71 => DD x46 x55 | s72 => DD x46 x56 | s73 => DD x46 x57 | s74 => DD x46 x58 | s75 => DD x46 x59 | s76 => DD x46 x60 | s77 => DD x46 x61 | s78 => DD x46 x62 | s79 => DD x46 x63 | s80 => DD x47 x0 | s81 => DD x47 x1 | s82 => DD x47 x2 | s83 => DD x47 x3 | s84 => DD x47 x4 | s85 => DD x47 x5 | s86 => DD x47 x6 | s87 => DD x47 x7 | s88 => DD x47 x8 | s89 => DD x47 x9 | s90 => DD x47 x10 | s91 => DD x47 x11 | s92 => DD x47 x12 | s93 => DD x47 x13 | s94 => DD x47 x14 | s95 => DD x47 x15 | s96 => DD x47 x16 | s97 => DD x47 x17 | s98 => DD x47 x18 | s99 => DD x47 x19 | s100 => DD x47 x20 | s101 => DD x47 x21 | s102 => DD x47 x22 | s103 => DD x47 x23 | s104 => DD x47 x24 | s105 => DD x47 x25 | s106 => DD x47 x26 | s107 => DD x47 x27 | s108 => DD x47 x28 | s109 => DD x47 x29 | s110 => DD x47 x30 | s111 => DD x47 x31 | s112 => DD x47 x32 | s113 => DD x47 x33 | s114 => DD x47 x34 | s115 => DD x47 x35 | s116 => DD x47 x36 | s117 => DD x47 x37 | s118 => DD x47 x38 | s119 => DD x47 x39 | s120 => DD x47 x40 | s121 => DD x47 x41 | s122 => DD x47 x42 | s123 => DD x47 x43 | s124 => DD x47 x44 | s125 => DD x47 x45 | s126 => DD x47 x46 end.
Definition m2940 (c : sum2) : dd := match c with s0 => DD x45 x60 | s1 => DD x45 x61 | s2 => DD x45 x62 | s3 => DD x45 x63 | s4 => DD x46 x0 | s5 => DD x46 x1 | s6 => DD x46 x2 | s7 => DD x46 x3 | s8 => DD x46 x4 | s9 => DD x46 x5 | s10 => DD x46 x6 | s11 => DD x46 x7 | s12 => DD x46 x8 | s13 => DD x46 x9 | s14 => DD x46 x10 | s15 => DD x46 x11 | s16 => DD x46 x12 | s17 => DD x46 x13 | s18 => DD x46 x14 | s19 => DD x46 x15 | s20 => DD x46 x16 | s21 => DD x46 x17 | s22 => DD x46 x18 | s23 => DD x46 x19 | s24 => DD x46 x20 | s25 => DD x46 x21 | s26 => DD x46 x22 | s27 => DD x46 x23 | s28 => DD x46 x24 | s29 => DD x46 x25 | s30 => DD x46 x26 | s31 => DD x46 x27 | s32 => DD x46 x28 | s33 => DD x46 x29 | s34 => DD x46 x30 | s35 => DD x46 x31 | s36 => DD x46 x32 | s37 => DD x46 x33 | s38 => DD x46 x34 | s39 => DD x46 x35 | s40 => DD x46 x36 | s41 => DD x46 x37 | s42 => DD x46 x38 | s43 => DD x46 x39 | s44 => DD x46 x40 | s45 => DD x46 x41 | s46 => DD x46 x42 | s47 => DD x46 x43 | s48 => DD x46 x44 | s49 => DD x46 x45 | s50 => DD x46 x46 | s51 => DD x46 x47 | s52 => DD x46 x48 | s53 => DD x46 x49 | s54 => DD x46 x50 | s55 => DD x46 x51 | s56 => DD x46 x52 | s57 => DD x46 x53 | s58 => DD x46 x54 | s59 => DD x46 x55 | s60 => DD x46 x56 | s61 => DD x46 x57 | s62 => DD x46 x58 | s63 => DD x46 x59 | s64 => DD x46 x60 | s65 => DD x46 x61 | s66 => DD x46 x62 | s67 => DD x46 x63 | s68 => DD x47 x0 | s69 => DD x47 x1 | s70 => DD x47 x2 | s71 => DD x47 x3 | s72 => DD x47 x4 | s73 => DD x47 x5 | s74 => DD x47 x6 | s75 => DD x47 x7 | s76 => DD x47 x8 | s77 => DD x47 x9 | s78 => DD x47 x10 | s79 => DD x47 x11 | s80 => DD x47 x12 | s81 => DD x47 x13 | s82 => DD x47 x14 | s83 => DD x47 x15 | s84 => DD x47 x16 | s85 => DD x47 x17 | s86 => DD x47 x18 | s87 => DD x47 x19 | s88 => DD x47 x20 | s89 => DD x47 x21 | s90 => DD x47 x22 | s91 => DD x47 x23 | s92 => DD x47 x24 | s93 => DD x47 x25 | s94 => DD x47 x26 | s95 => DD x47 x27 | s96 => DD x47 x28 | s97 => DD x47 x29 | s98 => DD x47 x30 | s99 => DD x47 x31 | s100 => DD x47 x32 | s101 => DD x47 x33 | s102 => DD x47 x34 | s103 => DD x47 x35 | s104 => DD x47 x36 | s105 => DD x47 x37 | s106 => DD x47 x38 | s107 => DD x47 x39 | s108 => DD x47 x40 | s109 => DD x47 x41 | s110 => DD x47 x42 | s111 => DD x47 x43 | s112 => DD x47 x44 | s113 => DD x47 x45 | s114 => DD x47 x46 | s115 => DD x47 x47 | s116 => DD x47 x48 | s117 => DD x47 x49 | s118 => DD x47 x50 | s119 => DD x47 x51 | s120 => DD x47 x52 | s121 => DD x47 x53 | s122 => DD x47 x54 | s123 => DD x47 x55 | s124 => DD x47 x56 | s125 => DD x47 x57 | s126 => DD x47 x58 end.
Definition m2950 (c : sum2) : dd := match c with s0 => DD x46 x6 | s1 => DD x46 x7 | s2 => DD x46 x8 | s3 => DD x46 x9 | s4 => DD x46 x10 | s5 => DD x46 x11 | s6 => DD x46 x12 | s7 => DD x46 x13 | s8 => DD x46 x14 | s9 => DD x46 x15 | s10 => DD x46 x16 | s11 => DD x46 x17 | s12 => DD x46 x18 | s13 => DD x46 x19 | s14 => DD x46 x20 | s15 => DD x46 x21 | s16 => DD x46 x22 | s17 => DD x46 x23 | s18 => DD x46 x24 | s19 => DD x46 x25 | s20 => DD x46 x26 | s21 => DD x46 x27 | s22 => DD x46 x28 | s23 => DD x46 x29 | s24 => DD x46 x30 | s25 => DD x46 x31 | s26 => DD x46 x32 | s27 => DD x46 x33 | s28 => DD x46 x34 | s29 => DD x46 x35 | s30 => DD x46 x36 | s31 => DD x46 x37 | s32 => DD x46 x38 | s33 => DD x46 x39 | s34 => DD x46 x40 | s35 => DD x46 x41 | s36 => DD x46 x42 | s37 => DD x46 x43 | s38 => DD x46 x44 | s39 => DD x46 x45 | s40 => DD x46 x46 | s41 => DD x46 x47 | s42 => DD x46 x48 | s43 => DD x46 x49 | s44 => DD x46 x50 | s45 => DD x46 x51 | s46 => DD x46 x52 | s47 => DD x46 x53 | s48 => DD x46 x54 | s49 => DD x46 x55 | s50 => DD x46 x56 | s51 => DD x46 x57 | s52 => DD x46 x58 | s53 => DD x46 x59 | s54 => DD x46 x60 | s55 => DD x46 x61 | s56 => DD x46 x62 | s57 => DD x46 x63 | s58 => DD x47 x0 | s59 => DD x47 x1 | s60 => DD x47 x2 | s61 => DD x47 x3 | s62 => DD x47 x4 | s63 => DD x47 x5 | s64 => DD x47 x6 | s65 => DD x47 x7 | s66 => DD x47 x8 | s67 => DD x47 x9 | s68 => DD x47 x10 | s69 => DD x47 x11 | s70 => DD x47 x12 | s71 => DD x47 x13 | s72 => DD x47 x14 | s73 => DD x47 x15 | s74 => DD x47 x16 | s75 => DD x47 x17 | s76 => DD x47 x18 | s77 => DD x47 x19 | s78 => DD x47 x20 | s79 => DD x47 x21 | s80 => DD x47 x22 | s81 => DD x47 x23 | s82 => DD x47 x24 | s83 => DD x47 x25 | s84 => DD x47 x26 | s85 => DD x47 x27 | s86 => DD x47 x28 | s87 => DD x47 x29 | s88 => DD x47 x30 | s89 => DD x47 x31 | s90 => DD x47 x32 | s91 => DD x47 x33 | s92 => DD x47 x34 | s93 => DD x47 x35 | s94 => DD x47 x36 | s95 => DD x47 x37 | s96 => DD x47 x38 | s97 => DD x47 x39 | s98 => DD x47 x40 | s99 => DD x47 x41 | s100 => DD x47 x42 | s101 => DD x47 x43 | s102 => DD x47 x44 | s103 => DD x47 x45 | s104 => DD x47 x46 | s105 => DD x47 x47 | s106 => DD x47 x48 | s107 => DD x47 x49 | s108 => DD x47 x50 | s109 => DD x47 x51 | s110 => DD x47 x52 | s111 => DD x47 x53 | s112 => DD x47 x54 | s113 => DD x47 x55 | s114 => DD x47 x56 | s115 => DD x47 x57 | s116 => DD x47 x58 | s117 => DD x47 x59 | s118 => DD x47 x60 | s119 => DD x47 x61 | s120 => DD x47 x62 | s121 => DD x47 x63 | s122 => DD x48 x0 | s123 => DD x48 x1 | s124 => DD x48 x2 | s125 => DD x48 x3 | s126 => DD x48 x4 end.
Definition m2958 (c : sum2) : dd := match c with s0 => DD x46 x14 | s1 => DD x46 x15 | s2 => DD x46 x16 | s3 => DD x46 x17 | s4 => DD x46 x18 | s5 => DD x46 x19 | s6 => DD x46 x20 | s7 => DD x46 x21 | s8 => DD x46 x22 | s9 => DD x46 x23 | s10 => DD x46 x24 | s11 => DD x46 x25 | s12 => DD x46 x26 | s13 => DD x46 x27 | s14 => DD x46 x28 | s15 => DD x46 x29 | s16 => DD x46 x30 | s17 => DD x46 x31 | s18 => DD x46 x32 | s19 => DD x46 x33 | s20 => DD x46 x34 | s21 => DD x46 x35 | s22 => DD x46 x36 | s23 => DD x46 x37 | s24 => DD x46 x38 | s25 => DD x46 x39 | s26 => DD x46 x40 | s27 => DD x46 x41 | s28 => DD x46 x42 | s29 => DD x46 x43 | s30 => DD x46 x44 | s31 => DD x46 x45 | s32 => DD x46 x46 | s33 => DD x46 x47 | s34 => DD x46 x48 | s35 => DD x46 x49 | s36 => DD x46 x50 | s37 => DD x46 x51 | s38 => DD x46 x52 | s39 => DD x46 x53 | s40 => DD x46 x54 | s41 => DD x46 x55 | s42 => DD x46 x56 | s43 => DD x46 x57 | s44 => DD x46 x58 | s45 => DD x46 x59 | s46 => DD x46 x60 | s47 => DD x46 x61 | s48 => DD x46 x62 | s49 => DD x46 x63 | s50 => DD x47 x0 | s51 => DD x47 x1 | s52 => DD x47 x2 | s53 => DD x47 x3 | s54 => DD x47 x4 | s55 => DD x47 x5 | s56 => DD x47 x6 | s57 => DD x47 x7 | s58 => DD x47 x8 | s59 => DD x47 x9 | s60 => DD x47 x10 | s61 => DD x47 x11 | s62 => DD x47 x12 | s63 => DD x47 x13 | s64 => DD x47 x14 | s65 => DD x47 x15 | s66 => DD x47 x16 | s67 => DD x47 x17 | s68 => DD x47 x18 | s69 => DD x47 x19 | s70 => DD x47 x20 | s71 => DD x47 x21 | s72 => DD x47 x22 | s73 => DD x47 x23 | s74 => DD x47 x24 | s75 => DD x47 x25 | s76 => DD x47 x26 | s77 => DD x47 x27 | s78 => DD x47 x28 | s79 => DD x47 x29 | s80 => DD x47 x30 | s81 => DD x47 x31 | s82 => DD x47 x32 | s83 => DD x47 x33 | s84 => DD x47 x34 | s85 => DD x47 x35 | s86 => DD x47 x36 | s87 => DD x47 x37 | s88 => DD x47 x38 | s89 => DD x47 x39 | s90 => DD x47 x40 | s91 => DD x47 x41 | s92 => DD x47 x42 | s93 => DD x47 x43 | s94 => DD x47 x44 | s95 => DD x47 x45 | s96 => DD x47 x46 | s97 => DD x47 x47 | s98 => DD x47 x48 | s99 => DD x47 x49 | s100 => DD x47 x50 | s101 => DD x47 x51 | s102 => DD x47 x52 | s103 => DD x47 x53 | s104 => DD x47 x54 | s105 => DD x47 x55 | s106 => DD x47 x56 | s107 => DD x47 x57 | s108 => DD x47 x58 | s109 => DD x47 x59 | s110 => DD x47 x60 | s111 => DD x47 x61 | s112 => DD x47 x62 | s113 => DD x47 x63 | s114 => DD x48 x0 | s115 => DD x48 x1 | s116 => DD x48 x2 | s117 => DD x48 x3 | s118 => DD x48 x4 | s119 => DD x48 x5 | s120 => DD x48 x6 | s121 => DD x48 x7 | s122 => DD x48 x8 | s123 => DD x48 x9 | s124 => DD x48 x10 | s125 => DD x48 x11 | s126 => DD x48 x12 end.
Definition m2961 (c : sum2) : dd := match c with s0 => DD x46 x17 | s1 => DD x46 x18 | s2 => DD x46 x19 | s3 => DD x46 x20 | s4 => DD x46 x21 | s5 => DD x46 x22 | s6 => DD x46 x23 | s7 => DD x46 x24 | s8 => DD x46 x25 | s9 => DD x46 x26 | s10 => DD x46 x27 | s11 => DD x46 x28 | s12 => DD x46 x29 | s13 => DD x46 x30 | s14 => DD x46 x31 | s15 => DD x46 x32 | s16 => DD x46 x33 | s17 => DD x46 x34 | s18 => DD x46 x35 | s19 => DD x46 x36 | s20 => DD x46 x37 | s21 => DD x46 x38 | s22 => DD x46 x39 | s23 => DD x46 x40 | s24 => DD x46 x41 | s25 => DD x46 x42 | s26 => DD x46 x43 | s27 => DD x46 x44 | s28 => DD x46 x45 | s29 => DD x46 x46 | s30 => DD x46 x47 | s31 => DD x46 x48 | s32 => DD x46 x49 | s33 => DD x46 x50 | s34 => DD x46 x51 | s35 => DD x46 x52 | s36 => DD x46 x53 | s37 => DD x46 x54 | s38 => DD x46 x55 | s39 => DD x46 x56 | s40 => DD x46 x57 | s41 => DD x46 x58 | s42 => DD x46 x59 | s43 => DD x46 x60 | s44 => DD x46 x61 | s45 => DD x46 x62 | s46 => DD x46 x63 | s47 => DD x47 x0 | s48 => DD x47 x1 | s49 => DD x47 x2 | s50 => DD x47 x3 | s51 => DD x47 x4 | s52 => DD x47 x5 | s53 => DD x47 x6 | s54 => DD x47 x7 | s55 => DD x47 x8 | s56 => DD x47 x9 | s57 => DD x47 x10 | s58 => DD x47 x11 | s59 => DD x47 x12 | s60 => DD x47 x13 | s61 => DD x47 x14 | s62 => DD x47 x15 | s63 => DD x47 x16 | s64 => DD x47 x17 | s65 => DD x47 x18 | s66 => DD x47 x19 | s67 => DD x47 x20 | s68 => DD x47 x21 | s69 => DD x47 x22 | s70 => DD x47 x23 | s71 => DD x47 x24 | s72 => DD x47 x25 | s73 => DD x47 x26 | s74 => DD x47 x27 | s75 => DD x47 x28 | s76 => DD x47 x29 | s77 => DD x47 x30 | s78 => DD x47 x31 | s79 => DD x47 x32 | s80 => DD x47 x33 | s81 => DD x47 x34 | s82 => DD x47 x35 | s83 => DD x47 x36 | s84 => DD x47 x37 | s85 => DD x47 x38 | s86 => DD x47 x39 | s87 => DD x47 x40 | s88 => DD x47 x41 | s89 => DD x47 x42 | s90 => DD x47 x43 | s91 => DD x47 x44 | s92 => DD x47 x45 | s93 => DD x47 x46 | s94 => DD x47 x47 | s95 => DD x47 x48 | s96 => DD x47 x49 | s97 => DD x47 x50 | s98 => DD x47 x51 | s99 => DD x47 x52 | s100 => DD x47 x53 | s101 => DD x47 x54 | s102 => DD x47 x55 | s103 => DD x47 x56 | s104 => DD x47 x57 | s105 => DD x47 x58 | s106 => DD x47 x59 | s107 => DD x47 x60 | s108 => DD x47 x61 | s109 => DD x47 x62 | s110 => DD x47 x63 | s111 => DD x48 x0 | s112 => DD x48 x1 | s113 => DD x48 x2 | s114 => DD x48 x3 | s115 => DD x48 x4 | s116 => DD x48 x5 | s117 => DD x48 x6 | s118 => DD x48 x7 | s119 => DD x48 x8 | s120 => DD x48 x9 | s121 => DD x48 x10 | s122 => DD x48 x11 | s123 => DD x48 x12 | s124 => DD x48 x13 | s125 => DD x48 x14 | s126 => DD x48 x15 end.
Definition m2964 (c : sum2) : dd := match c with s0 => DD x46 x20 | s1 => DD x46 x21 | s2 => DD x46 x22 | s3 => DD x46 x23 | s4 => DD x46 x24 | s5 => DD x46 x25 | s6 => DD x46 x26 | s7 => DD x46 x27 | s8 => DD x46 x28 | s9 => DD x46 x29 | s10 => DD x46 x30 | s11 => DD x46 x31 | s12 => DD x46 x32 | s13 => DD x46 x33 | s14 => DD x46 x34 | s15 => DD x46 x35 | s16 => DD x46 x36 | s17 => DD x46 x37 | s18 => DD x46 x38 | s19 => DD x46 x39 | s20 => DD x46 x40 | s21 => DD x46 x41 | s22 => DD x46 x42 | s23 => DD x46 x43 | s24 => DD x46 x44 | s25 => DD x46 x45 | s26 => DD x46 x46 | s27 => DD x46 x47 | s28 => DD x46 x48 | s29 => DD x46 x49 | s30 => DD x46 x50 | s31 => DD x46 x51 | s32 => DD x46 x52 | s33 => DD x46 x53 | s34 => DD x46 x54 | s35 => DD x46 x55 | s36 => DD x46 x56 | s37 => DD x46 x57 | s38 => DD x46 x58 | s39 => DD x46 x59 | s40 => DD x46 x60 | s41 => DD x46 x61 | s42 => DD x46 x62 | s43 => DD x46 x63 | s44 => DD x47 x0 | s45 => DD x47 x1 | s46 => DD x47 x2 | s47 => DD x47 x3 | s48 => DD x47 x4 | s49 => DD x47 x5 | s50 => DD x47 x6 | s51 => DD x47 x7 | s52 => DD x47 x8 | s53 => DD x47 x9 | s54 => DD x47 x10 | s55 => DD x47 x11 | s56 => DD x47 x12 | s57 => DD x47 x13 | s58 => DD x47 x14 | s59 => DD x47 x15 | s60 => DD x47 x16 | s61 => DD x47 x17 | s62 => DD x47 x18 | s63 => DD x47 x19 | s64 => DD x47 x20 | s65 => DD x47 x21 | s66 => DD x47 x22 | s67 => DD x47 x23 | s68 => DD x47 x24 | s69 => DD x47 x25 | s70 => DD x47 x26 | s71 => DD x47 x27 | s72 => DD x47 x28 | s73 => DD x47 x29 | s74 => DD x47 x30 | s75 => DD x47 x31 | s76 => DD x47 x32 | s77 => DD x47 x33 | s78 => DD x47 x34 | s79 => DD x47 x35 | s80 => DD x47 x36 | s81 => DD x47 x37 | s82 => DD x47 x38 | s83 => DD x47 x39 | s84 => DD x47 x40 | s85 => DD x47 x41 | s86 => DD x47 x42 | s87 => DD x47 x43 | s88 => DD x47 x44 | s89 => DD x47 x45 | s90 => DD x47 x46 | s91 => DD x47 x47 | s92 => DD x47 x48 | s93 => DD x47 x49 | s94 => DD x47 x50 | s95 => DD x47 x51 | s96 => DD x47 x52 | s97 => DD x47 x53 | s98 => DD x47 x54 | s99 => DD x47 x55 | s100 => DD x47 x56 | s101 => DD x47 x57 | s102 => DD x47 x58 | s103 => DD x47 x59 | s104 => DD x47 x60 | s105 => DD x47 x61 | s106 => DD x47 x62 | s107 => DD x47 x63 | s108 => DD x48 x0 | s109 => DD x48 x1 | s110 => DD x48 x2 | s111 => DD x48 x3 | s112 => DD x48 x4 | s113 => DD x48 x5 | s114 => DD x48 x6 | s115 => DD x48 x7 | s116 => DD x48 x8 | s117 => DD x48 x9 | s118 => DD x48 x10 | s119 => DD x48 x11 | s120 => DD x48 x12 | s121 => DD x48 x13 | s122 => DD x48 x14 | s123 => DD x48 x15 | s124 => DD x48 x16 | s125 => DD x48 x17 | s126 => DD x48 x18 end.
Definition m2968 (c : sum2) : dd := match c with s0 => DD x46 x24 | s1 => DD x46 x25 | s2 => DD x46 x26 | s3 => DD x46 x27 | s4 => DD x46 x28 | s5 => DD x46 x29 | s6 => DD x46 x30 | s7 => DD x46 x31 | s8 => DD x46 x32 | s9 => DD x46 x33 | s10 => DD x46 x34 | s11 => DD x46 x35 | s12 => DD x46 x36 | s13 => DD x46 x37 | s14 => DD x46 x38 | s15 => DD x46 x39 | s16 => DD x46 x40 | s17 => DD x46 x41 | s18 => DD x46 x42 | s19 => DD x46 x43 | s20 => DD x46 x44 | s21 => DD x46 x45 | s22 => DD x46 x46 | s23 => DD x46 x47 | s24 => DD x46 x48 | s25 => DD x46 x49 | s26 => DD x46 x50 | s27 => DD x46 x51 | s28 => DD x46 x52 | s29 => DD x46 x53 | s30 => DD x46 x54 | s31 => DD x46 x55 | s32 => DD x46 x56 | s33 => DD x46 x57 | s34 => DD x46 x58 | s35 => DD x46 x59 | s36 => DD x46 x60 | s37 => DD x46 x61 | s38 => DD x46 x62 | s39 => DD x46 x63 | s40 => DD x47 x0 | s41 => DD x47 x1 | s42 => DD x47 x2 | s43 => DD x47 x3 | s44 => DD x47 x4 | s45 => DD x47 x5 | s46 => DD x47 x6 | s47 => DD x47 x7 | s48 => DD x47 x8 | s49 => DD x47 x9 | s50 => DD x47 x10 | s51 => DD x47 x11 | s52 => DD x47 x12 | s53 => DD x47 x13 | s54 => DD x47 x14 | s55 => DD x47 x15 | s56 => DD x47 x16 | s57 => DD x47 x17 | s58 => DD x47 x18 | s59 => DD x47 x19 | s60 => DD x47 x20 | s61 => DD x47 x21 | s62 => DD x47 x22 | s63 => DD x47 x23 | s64 => DD x47 x24 | s65 => DD x47 x25 | s66 => DD x47 x26 | s67 => DD x47 x27 | s68 => DD x47 x28 | s69 => DD x47 x29 | s70 => DD x47 x30 | s71 => DD x47 x31 | s72 => DD x47 x32 | s73 => DD x47 x33 | s74 => DD x47 x34 | s75 => DD x47 x35 | s76 => DD x47 x36 | s77 => DD x47 x37 | s78 => DD x47 x38 | s79 => DD x47 x39 | s80 => DD x47 x40 | s81 => DD x47 x41 | s82 => DD x47 x42 | s83 => DD x47 x43 | s84 => DD x47 x44 | s85 => DD x47 x45 | s86 => DD x47 x46 | s87 => DD x47 x47 | s88 => DD x47 x48 | s89 => DD x47 x49 | s90 => DD x47 x50 | s91 => DD x47 x51 | s92 => DD x47 x52 | s93 => DD x47 x53 | s94 => DD x47 x54 | s95 => DD x47 x55 | s96 => DD x47 x56 | s97 => DD x47 x57 | s98 => DD x47 x58 | s99 => DD x47 x59 | s100 => DD x47 x60 | s101 => DD x47 x61 | s102 => DD x47 x62 | s103 => DD x47 x63 | s104 => DD x48 x0 | s105 => DD x48 x1 | s106 => DD x48 x2 | s107 => DD x48 x3 | s108 => DD x48 x4 | s109 => DD x48 x5 | s110 => DD x48 x6 | s111 => DD x48 x7 | s112 => DD x48 x8 | s113 => DD x48 x9 | s114 => DD x48 x10 | s115 => DD x48 x11 | s116 => DD x48 x12 | s117 => DD x48 x13 | s118 => DD x48 x14 | s119 => DD x48 x15 | s120 => DD x48 x16 | s121 => DD x48 x17 | s122 => DD x48 x18 | s123 => DD x48 x19 | s124 => DD x48 x20 | s125 => DD x48 x21 | s126 => DD x48 x22 end.
Definition m2970 (c : sum2) : dd := match c with s0 => DD x46 x26 | s1 => DD x46 x27 | s2 => DD x46 x28 | s3 => DD x46 x29 | s4 => DD x46 x30 | s5 => DD x46 x31 | s6 => DD x46 x32 | s7 => DD x46 x33 | s8 => DD x46 x34 | s9 => DD x46 x35 | s10 => DD x46 x36 | s11 => DD x46 x37 | s12 => DD x46 x38 | s13 => DD x46 x39 | s14 => DD x46 x40 | s15 => DD x46 x41 | s16 => DD x46 x42 | s17 => DD x46 x43 | s18 => DD x46 x44 | s19 => DD x46 x45 | s20 => DD x46 x46 | s21 => DD x46 x47 | s22 => DD x46 x48 | s23 => DD x46 x49 | s24 => DD x46 x50 | s25 => DD x46 x51 | s26 => DD x46 x52 | s27 => DD x46 x53 | s28 => DD x46 x54 | s29 => DD x46 x55 | s30 => DD x46 x56 | s31 => DD x46 x57 | s32 => DD x46 x58 | s33 => DD x46 x59 | s34 => DD x46 x60 | s35 => DD x46 x61 | s36 => DD x46 x62 | s37 => DD x46 x63 | s38 => DD x47 x0 | s39 => DD x47 x1 | s40 => DD x47 x2 | s41 => DD x47 x3 | s42 => DD x47 x4 | s43 => DD x47 x5 | s44 => DD x47 x6 | s45 => DD x47 x7 | s46 => DD x47 x8 | s47 => DD x47 x9 | s48 => DD x47 x10 | s49 => DD x47 x11 | s50 => DD x47 x12 | s51 => DD x47 x13 | s52 => DD x47 x14 | s53 => DD x47 x15 | s54 => DD x47 x16 | s55 => DD x47 x17 | s56 => DD x47 x18 | s57 => DD x47 x19 | s58 => DD x47 x20 | s59 => DD x47 x21 | s60 => DD x47 x22 | s61 => DD x47 x23 | s62 => DD x47 x24 | s63 => DD x47 x25 | s64 => DD x47 x26 | s65 => DD x47 x27 | s66 => DD x47 x28 | s67 => DD x47 x29 | s68 => DD x47 x30 | s69 => DD x47 x31 | s70 => DD x47 x32 | s71 => DD x47 x33 | s72 => DD x47 x34 | s73 => DD x47 x35 | s74 => DD x47 x36 | s75 => DD x47 x37 | s76 => DD x47 x38 | s77 => DD x47 x39 | s78 => DD x47 x40 | s79 => DD x47 x41 | s80 => DD x47 x42 | s81 => DD x47 x43 | s82 => DD x47 x44 | s83 => DD x47 x45 | s84 => DD x47 x46 | s85 => DD x47 x47 | s86 => DD x47 x48 | s87 => DD x47 x49 | s88 => DD x47 x50 | s89 => DD x47 x51 | s90 => DD x47 x52 | s91 => DD x47 x53 | s92 => DD x47 x54 | s93 => DD x47 x55 | s94 => DD x47 x56 | s95 => DD x47 x57 | s96 => DD x47 x58 | s97 => DD x47 x59 | s98 => DD x47 x60 | s99 => DD x47 x61 | s100 => DD x47 x62 | s101 => DD x47 x63 | s102 => DD x48 x0 | s103 => DD x48 x1 | s104 => DD x48 x2 | s105 => DD x48 x3 | s106 => DD x48 x4 | s107 => DD x48 x5 | s108 => DD x48 x6 | s109 => DD x48 x7 | s110 => DD x48 x8 | s111 => DD x48 x9 | s112 => DD x48 x10 | s113 => DD x48 x11 | s114 => DD x48 x12 | s115 => DD x48 x13 | s116 => DD x48 x14 | s117 => DD x48 x15 | s118 => DD x48 x16 | s119 => DD x48 x17 | s120 => DD x48 x18 | s121 => DD x48 x19 | s122 => DD x48 x20 | s123 => DD x48 x21 | s124 => DD x48 x22 | s125 => DD x48 x23 | s126 => DD x48 x24 end.
Definition m2976 (c : sum2) : dd := match c with s0 => DD x46 x32 | s1 => DD x46 x33 | s2 => DD x46 x34 | s3 => DD x46 x35 | s4 => DD x46 x36 | s5 => DD x46 x37 | s6 => DD x46 x38 | s7 => DD x46 x39 | s8 => DD x46 x40 | s9 => DD x46 x41 | s10 => DD x46 x42 | s11 => DD x46 x43 | s12 => DD x46 x44 | s13 => DD x46 x45 | s14 => DD x46 x46 | s15 => DD x46 x47 | s16 => DD x46 x48 | s17 => DD x46 x49 | s18 => DD x46 x50 | s19 => DD x46 x51 | s20 => DD x46 x52 | s21 => DD x46 x53 | s22 => DD x46 x54 | s23 => DD x46 x55 | s24 => DD x46 x56 | s25 => DD x46 x57 | s26 => DD x46 x58 | s27 => DD x46 x59 | s28 => DD x46 x60 | s29 => DD x46 x61 | s30 => DD x46 x62 | s31 => DD x46 x63 | s32 => DD x47 x0 | s33 => DD x47 x1 | s34 => DD x47 x2 | s35 => DD x47 x3 | s36 => DD x47 x4 | s37 => DD x47 x5 | s38 => DD x47 x6 | s39 => DD x47 x7 | s40 => DD x47 x8 | s41 => DD x47 x9 | s42 => DD x47 x10 | s43 => DD x47 x11 | s44 => DD x47 x12 | s45 => DD x47 x13 | s46 => DD x47 x14 | s47 => DD x47 x15 | s48 => DD x47 x16 | s49 => DD x47 x17 | s50 => DD x47 x18 | s51 => DD x47 x19 | s52 => DD x47 x20 | s53 => DD x47 x21 | s54 => DD x47 x22 | s55 => DD x47 x23 | s56 => DD x47 x24 | s57 => DD x47 x25 | s58 => DD x47 x26 | s59 => DD x47 x27 | s60 => DD x47 x28 | s61 => DD x47 x29 | s62 => DD x47 x30 | s63 => DD x47 x31 | s64 => DD x47 x32 | s65 => DD x47 x33 | s66 => DD x47 x34 | s67 => DD x47 x35 | s68 => DD x47 x36 | s69 => DD x47 x37 | s70 => DD x47 x38 | s71 => DD x47 x39 | s72 => DD x47 x40 | s73 => DD x47 x41 | s74 => DD x47 x42 | s75 => DD x47 x43 | s76 => DD x47 x44 | s77 => DD x47 x45 | s78 => DD x47 x46 | s79 => DD x47 x47 | s80 => DD x47 x48 | s81 => DD x47 x49 | s82 => DD x47 x50 | s83 => DD x47 x51 | s84 => DD x47 x52 | s85 => DD x47 x53 | s86 => DD x47 x54 | s87 => DD x47 x55 | s88 => DD x47 x56 | s89 => DD x47 x57 | s90 => DD x47 x58 | s91 => DD x47 x59 | s92 => DD x47 x60 | s93 => DD x47 x61 | s94 => DD x47 x62 | s95 => DD x47 x63 | s96 => DD x48 x0 | s97 => DD x48 x1 | s98 => DD x48 x2 | s99 => DD x48 x3 | s100 => DD x48 x4 | s101 => DD x48 x5 | s102 => DD x48 x6 | s103 => DD x48 x7 | s104 => DD x48 x8 | s105 => DD x48 x9 | s106 => DD x48 x10 | s107 => DD x48 x11 | s108 => DD x48 x12 | s109 => DD x48 x13 | s110 => DD x48 x14 | s111 => DD x48 x15 | s112 => DD x48 x16 | s113 => DD x48 x17 | s114 => DD x48 x18 | s115 => DD x48 x19 | s116 => DD x48 x20 | s117 => DD x48 x21 | s118 => DD x48 x22 | s119 => DD x48 x23 | s120 => DD x48 x24 | s121 => DD x48 x25 | s122 => DD x48 x26 | s123 => DD x48 x27 | s124 => DD x48 x28 | s125 => DD x48 x29 | s126 => DD x48 x30 end.
Definition m2989 (c : sum2) : dd := match c with s0 => DD x46 x45 | s1 => DD x46 x46 | s2 => DD x46 x47 | s3 => DD x46 x48 | s4 => DD x46 x49 | s5 => DD x46 x50 | s6 => DD x46 x51 | s7 => DD x46 x52 | s8 => DD x46 x53 | s9 => DD x46 x54 | s10 => DD x46 x55 | s11 => DD x46 x56 | s12 => DD x46 x57 | s13 => DD x46 x58 | s14 => DD x46 x59 | s15 => DD x46 x60 | s16 => DD x46 x61 | s17 => DD x46 x62 | s18 => DD x46 x63 | s19 => DD x47 x0 | s20 => DD x47 x1 | s21 => DD x47 x2 | s22 => DD x47 x3 | s23 => DD x47 x4 | s24 => DD x47 x5 | s25 => DD x47 x6 | s26 => DD x47 x7 | s27 => DD x47 x8 | s28 => DD x47 x9 | s29 => DD x47 x10 | s30 => DD x47 x11 | s31 => DD x47 x12 | s32 => DD x47 x13 | s33 => DD x47 x14 | s34 => DD x47 x15 | s35 => DD x47 x16 | s36 => DD x47 x17 | s37 => DD x47 x18 | s38 => DD x47 x19 | s39 => DD x47 x20 | s40 => DD x47 x21 | s41 => DD x47 x22 | s42 => DD x47 x23 | s43 => DD x47 x24 | s44 => DD x47 x25 | s45 => DD x47 x26 | s46 => DD x47 x27 | s47 => DD x47 x28 | s48 => DD x47 x29 | s49 => DD x47 x30 | s50 => DD x47 x31 | s51 => DD x47 x32 | s52 => DD x47 x33 | s53 => DD x47 x34 | s54 => DD x47 x35 | s55 => DD x47 x36 | s56 => DD x47 x37 | s57 => DD x47 x38 | s58 => DD x47 x39 | s59 => DD x47 x40 | s60 => DD x47 x41 | s61 => DD x47 x42 | s62 => DD x47 x43 | s63 => DD x47 x44 | s64 => DD x47 x45 | s65 => DD x47 x46 | s66 => DD x47 x47 | s67 => DD x47 x48 | s68 => DD x47 x49 | s69 => DD x47 x50 | s70 => DD x47 x51 | s71 => DD x47 x52 | s72 => DD x47 x53 | s73 => DD x47 x54 | s74 => DD x47 x55 | s75 => DD x47 x56 | s76 => DD x47 x57 | s77 => DD x47 x58 | s78 => DD x47 x59 | s79 => DD x47 x60 | s80 => DD x47 x61 | s81 => DD x47 x62 | s82 => DD x47 x63 | s83 => DD x48 x0 | s84 => DD x48 x1 | s85 => DD x48 x2 | s86 => DD x48 x3 | s87 => DD x48 x4 | s88 => DD x48 x5 | s89 => DD x48 x6 | s90 => DD x48 x7 | s91 => DD x48 x8 | s92 => DD x48 x9 | s93 => DD x48 x10 | s94 => DD x48 x11 | s95 => DD x48 x12 | s96 => DD x48 x13 | s97 => DD x48 x14 | s98 => DD x48 x15 | s99 => DD x48 x16 | s100 => DD x48 x17 | s101 => DD x48 x18 | s102 => DD x48 x19 | s103 => DD x48 x20 | s104 => DD x48 x21 | s105 => DD x48 x22 | s106 => DD x48 x23 | s107 => DD x48 x24 | s108 => DD x48 x25 | s109 => DD x48 x26 | s110 => DD x48 x27 | s111 => DD x48 x28 | s112 => DD x48 x29 | s113 => DD x48 x30 | s114 => DD x48 x31 | s115 => DD x48 x32 | s116 => DD x48 x33 | s117 => DD x48 x34 | s118 => DD x48 x35 | s119 => DD x48 x36 | s120 => DD x48 x37 | s121 => DD x48 x38 | s122 => DD x48 x39 | s123 => DD x48 x40 | s124 => DD x48 x41 | s125 => DD x48 x42 | s126 => DD x48 x43 end.
Definition m3000 (c : sum2) : dd := match c with s0 => DD x46 x56 | s1 => DD x46 x57 | s2 => DD x46 x58 | s3 => DD x46 x59 | s4 => DD x46 x60 | s5 => DD x46 x61 | s6 => DD x46 x62 | s7 => DD x46 x63 | s8 => DD x47 x0 | s9 => DD x47 x1 | s10 => DD x47 x2 | s11 => DD x47 x3 | s12 => DD x47 x4 | s13 => DD x47 x5 | s14 => DD x47 x6 | s15 => DD x47 x7 | s16 => DD x47 x8 | s17 => DD x47 x9 | s18 => DD x47 x10 | s19 => DD x47 x11 | s20 => DD x47 x12 | s21 => DD x47 x13 | s22 => DD x47 x14 | s23 => DD x47 x15 | s24 => DD x47 x16 | s25 => DD x47 x17 | s26 => DD x47 x18 | s27 => DD x47 x19 | s28 => DD x47 x20 | s29 => DD x47 x21 | s30 => DD x47 x22 | s31 => DD x47 x23 | s32 => DD x47 x24 | s33 => DD x47 x25 | s34 => DD x47 x26 | s35 => DD x47 x27 | s36 => DD x47 x28 | s37 => DD x47 x29 | s38 => DD x47 x30 | s39 => DD x47 x31 | s40 => DD x47 x32 | s41 => DD x47 x33 | s42 => DD x47 x34 | s43 => DD x47 x35 | s44 => DD x47 x36 | s45 => DD x47 x37 | s46 => DD x47 x38 | s47 => DD x47 x39 | s48 => DD x47 x40 | s49 => DD x47 x41 | s50 => DD x47 x42 | s51 => DD x47 x43 | s52 => DD x47 x44 | s53 => DD x47 x45 | s54 => DD x47 x46 | s55 => DD x47 x47 | s56 => DD x47 x48 | s57 => DD x47 x49 | s58 => DD x47 x50 | s59 => DD x47 x51 | s60 => DD x47 x52 | s61 => DD x47 x53 | s62 => DD x47 x54 | s63 => DD x47 x55 | s64 => DD x47 x56 | s65 => DD x47 x57 | s66 => DD x47 x58 | s67 => DD x47 x59 | s68 => DD x47 x60 | s69 => DD x47 x61 | s70 => DD x47 x62 | s71 => DD x47 x63 | s72 => DD x48 x0 | s73 => DD x48 x1 | s74 => DD x48 x2 | s75 => DD x48 x3 | s76 => DD x48 x4 | s77 => DD x48 x5 | s78 => DD x48 x6 | s79 => DD x48 x7 | s80 => DD x48 x8 | s81 => DD x48 x9 | s82 => DD x48 x10 | s83 => DD x48 x11 | s84 => DD x48 x12 | s85 => DD x48 x13 | s86 => DD x48 x14 | s87 => DD x48 x15 | s88 => DD x48 x16 | s89 => DD x48 x17 | s90 => DD x48 x18 | s91 => DD x48 x19 | s92 => DD x48 x20 | s93 => DD x48 x21 | s94 => DD x48 x22 | s95 => DD x48 x23 | s96 => DD x48 x24 | s97 => DD x48 x25 | s98 => DD x48 x26 | s99 => DD x48 x27 | s100 => DD x48 x28 | s101 => DD x48 x29 | s102 => DD x48 x30 | s103 => DD x48 x31 | s104 => DD x48 x32 | s105 => DD x48 x33 | s106 => DD x48 x34 | s107 => DD x48 x35 | s108 => DD x48 x36 | s109 => DD x48 x37 | s110 => DD x48 x38 | s111 => DD x48 x39 | s112 => DD x48 x40 | s113 => DD x48 x41 | s114 => DD x48 x42 | s115 => DD x48 x43 | s116 => DD x48 x44 | s117 => DD x48 x45 | s118 => DD x48 x46 | s119 => DD x48 x47 | s120 => DD x48 x48 | s121 => DD x48 x49 | s122 => DD x48 x50 | s123 => DD x48 x51 | s124 => DD x48 x52 | s125 => DD x48 x53 | s126 => DD x48 x54 end.
Definition m3009 (c : sum2) : dd := match c with s0 => DD x47 x1 | s1 => DD x47 x2 | s2 => DD x47 x3 | s3 => DD x47 x4 | s4 => DD x47 x5 | s5 => DD x47 x6 | s6 => DD x47 x7 | s7 => DD x47 x8 | s8 => DD x47 x9 | s9 => DD x47 x10 | s10 => DD x47 x11 | s11 => DD x47 x12 | s12 => DD x47 x13 | s13 => DD x47 x14 | s14 => DD x47 x15 | s15 => DD x47 x16 | s16 => DD x47 x17 | s17 => DD x47 x18 | s18 => DD x47 x19 | s19 => DD x47 x20 | s20 => DD x47 x21 | s21 => DD x47 x22 | s22 => DD x47 x23 | s23 => DD x47 x24 | s24 => DD x47 x25 | s25 => DD x47 x26 | s26 => DD x47 x27 | s27 => DD x47 x28 | s28 => DD x47 x29 | s29 => DD x47 x30 | s30 => DD x47 x31 | s31 => DD x47 x32 | s32 => DD x47 x33 | s33 => DD x47 x34 | s34 => DD x47 x35 | s35 => DD x47 x36 | s36 => DD x47 x37 | s37 => DD x47 x38 | s38 => DD x47 x39 | s39 => DD x47 x40 | s40 => DD x47 x41 | s41 => DD x47 x42 | s42 => DD x47 x43 | s43 => DD x47 x44 | s44 => DD x47 x45 | s45 => DD x47 x46 | s46 => DD x47 x47 | s47 => DD x47 x48 | s48 => DD x47 x49 | s49 => DD x47 x50 | s50 => DD x47 x51 | s51 => DD x47 x52 | s52 => DD x47 x53 | s53 => DD x47 x54 | s54 => DD x47 x55 | s55 => DD x47 x56 | s56 => DD x47 x57 | s57 => DD x47 x58 | s58 => DD x47 x59 | s59 => DD x47 x60 | s60 => DD x47 x61 | s61 => DD x47 x62 | s62 => DD x47 x63 | s63 => DD x48 x0 | s64 => DD x48 x1 | s65 => DD x48 x2 | s66 => DD x48 x3 | s67 => DD x48 x4 | s68 => DD x48 x5 | s69 => DD x48 x6 | s70 => DD x48 x7 | s71 => DD x48 x8 | s72 => DD x48 x9 | s73 => DD x48 x10 | s74 => DD x48 x11 | s75 => DD x48 x12 | s76 => DD x48 x13 | s77 => DD x48 x14 | s78 => DD x48 x15 | s79 => DD x48 x16 | s80 => DD x48 x17 | s81 => DD x48 x18 | s82 => DD x48 x19 | s83 => DD x48 x20 | s84 => DD x48 x21 | s85 => DD x48 x22 | s86 => DD x48 x23 | s87 => DD x48 x24 | s88 => DD x48 x25 | s89 => DD x48 x26 | s90 => DD x48 x27 | s91 => DD x48 x28 | s92 => DD x48 x29 | s93 => DD x48 x30 | s94 => DD x48 x31 | s95 => DD x48 x32 | s96 => DD x48 x33 | s97 => DD x48 x34 | s98 => DD x48 x35 | s99 => DD x48 x36 | s100 => DD x48 x37 | s101 => DD x48 x38 | s102 => DD x48 x39 | s103 => DD x48 x40 | s104 => DD x48 x41 | s105 => DD x48 x42 | s106 => DD x48 x43 | s107 => DD x48 x44 | s108 => DD x48 x45 | s109 => DD x48 x46 | s110 => DD x48 x47 | s111 => DD x48 x48 | s112 => DD x48 x49 | s113 => DD x48 x50 | s114 => DD x48 x51 | s115 => DD x48 x52 | s116 => DD x48 x53 | s117 => DD x48 x54 | s118 => DD x48 x55 | s119 => DD x48 x56 | s120 => DD x48 x57 | s121 => DD x48 x58 | s122 => DD x48 x59 | s123 => DD x48 x60 | s124 => DD x48 x61 | s125 => DD x48 x62 | s126 => DD x48 x63 end.
Definition m3016 (c : sum2) : dd := match c with s0 => DD x47 x8 | s1 => DD x47 x9 | s2 => DD x47 x10 | s3 => DD x47 x11 | s4 => DD x47 x12 | s5 => DD x47 x13 | s6 => DD x47 x14 | s7 => DD x47 x15 | s8 => DD x47 x16 | s9 => DD x47 x17 | s10 => DD x47 x18 | s11 => DD x47 x19 | s12 => DD x47 x20 | s13 => DD x47 x21 | s14 => DD x47 x22 | s15 => DD x47 x23 | s16 => DD x47 x24 | s17 => DD x47 x25 | s18 => DD x47 x26 | s19 => DD x47 x27 | s20 => DD x47 x28 | s21 => DD x47 x29 | s22 => DD x47 x30 | s23 => DD x47 x31 | s24 => DD x47 x32 | s25 => DD x47 x33 | s26 => DD x47 x34 | s27 => DD x47 x35 | s28 => DD x47 x36 | s29 => DD x47 x37 | s30 => DD x47 x38 | s31 => DD x47 x39 | s32 => DD x47 x40 | s33 => DD x47 x41 | s34 => DD x47 x42 | s35 => DD x47 x43 | s36 => DD x47 x44 | s37 => DD x47 x45 | s38 => DD x47 x46 | s39 => DD x47 x47 | s40 => DD x47 x48 | s41 => DD x47 x49 | s42 => DD x47 x50 | s43 => DD x47 x51 | s44 => DD x47 x52 | s45 => DD x47 x53 | s46 => DD x47 x54 | s47 => DD x47 x55 | s48 => DD x47 x56 | s49 => DD x47 x57 | s50 => DD x47 x58 | s51 => DD x47 x59 | s52 => DD x47 x60 | s53 => DD x47 x61 | s54 => DD x47 x62 | s55 => DD x47 x63 | s56 => DD x48 x0 | s57 => DD x48 x1 | s58 => DD x48 x2 | s59 => DD x48 x3 | s60 => DD x48 x4 | s61 => DD x48 x5 | s62 => DD x48 x6 | s63 => DD x48 x7 | s64 => DD x48 x8 | s65 => DD x48 x9 | s66 => DD x48 x10 | s67 => DD x48 x11 | s68 => DD x48 x12 | s69 => DD x48 x13 | s70 => DD x48 x14 | s71 => DD x48 x15 | s72 => DD x48 x16 | s73 => DD x48 x17 | s74 => DD x48 x18 | s75 => DD x48 x19 | s76 => DD x48 x20 | s77 => DD x48 x21 | s78 => DD x48 x22 | s79 => DD x48 x23 | s80 => DD x48 x24 | s81 => DD x48 x25 | s82 => DD x48 x26 | s83 => DD x48 x27 | s84 => DD x48 x28 | s85 => DD x48 x29 | s86 => DD x48 x30 | s87 => DD x48 x31 | s88 => DD x48 x32 | s89 => DD x48 x33 | s90 => DD x48 x34 | s91 => DD x48 x35 | s92 => DD x48 x36 | s93 => DD x48 x37 | s94 => DD x48 x38 | s95 => DD x48 x39 | s96 => DD x48 x40 | s97 => DD x48 x41 | s98 => DD x48 x42 | s99 => DD x48 x43 | s100 => DD x48 x44 | s101 => DD x48 x45 | s102 => DD x48 x46 | s103 => DD x48 x47 | s104 => DD x48 x48 | s105 => DD x48 x49 | s106 => DD x48 x50 | s107 => DD x48 x51 | s108 => DD x48 x52 | s109 => DD x48 x53 | s110 => DD x48 x54 | s111 => DD x48 x55 | s112 => DD x48 x56 | s113 => DD x48 x57 | s114 => DD x48 x58 | s115 => DD x48 x59 | s116 => DD x48 x60 | s117 => DD x48 x61 | s118 => DD x48 x62 | s119 => DD x48 x63 | s120 => DD x49 x0 | s121 => DD x49 x1 | s122 => DD x49 x2 | s123 => DD x49 x3 | s124 => DD x49 x4 | s125 => DD x49 x5 | s126 => DD x49 x6 end.
Definition m3021 (c : sum2) : dd := match c with s0 => DD x47 x13 | s1 => DD x47 x14 | s2 => DD x47 x15 | s3 => DD x47 x16 | s4 => DD x47 x17 | s5 => DD x47 x18 | s6 => DD x47 x19 | s7 => DD x47 x20 | s8 => DD x47 x21 | s9 => DD x47 x22 | s10 => DD x47 x23 | s11 => DD x47 x24 | s12 => DD x47 x25 | s13 => DD x47 x26 | s14 => DD x47 x27 | s15 => DD x47 x28 | s16 => DD x47 x29 | s17 => DD x47 x30 | s18 => DD x47 x31 | s19 => DD x47 x32 | s20 => DD x47 x33 | s21 => DD x47 x34 | s22 => DD x47 x35 | s23 => DD x47 x36 | s24 => DD x47 x37 | s25 => DD x47 x38 | s26 => DD x47 x39 | s27 => DD x47 x40 | s28 => DD x47 x41 | s29 => DD x47 x42 | s30 => DD x47 x43 | s31 => DD x47 x44 | s32 => DD x47 x45 | s33 => DD x47 x46 | s34 => DD x47 x47 | s35 => DD x47 x48 | s36 => DD x47 x49 | s37 => DD x47 x50 | s38 => DD x47 x51 | s39 => DD x47 x52 | s40 => DD x47 x53 | s41 => DD x47 x54 | s42 => DD x47 x55 | s43 => DD x47 x56 | s44 => DD x47 x57 | s45 => DD x47 x58 | s46 => DD x47 x59 | s47 => DD x47 x60 | s48 => DD x47 x61 | s49 => DD x47 x62 | s50 => DD x47 x63 | s51 => DD x48 x0 | s52 => DD x48 x1 | s53 => DD x48 x2 | s54 => DD x48 x3 | s55 => DD x48 x4 | s56 => DD x48 x5 | s57 => DD x48 x6 | s58 => DD x48 x7 | s59 => DD x48 x8 | s60 => DD x48 x9 | s61 => DD x48 x10 | s62 => DD x48 x11 | s63 => DD x48 x12 | s64 => DD x48 x13 | s65 => DD x48 x14 | s66 => DD x48 x15 | s67 => DD x48 x16 | s68 => DD x48 x17 | s69 => DD x48 x18 | s70 => DD x48 x19 | s71 => DD x48 x20 | s72 => DD x48 x21 | s73 => DD x48 x22 | s74 => DD x48 x23 | s75 => DD x48 x24 | s76 => DD x48 x25 | s77 => DD x48 x26 | s78 => DD x48 x27 | s79 => DD x48 x28 | s80 => DD x48 x29 | s81 => DD x48 x30 | s82 => DD x48 x31 | s83 => DD x48 x32 | s84 => DD x48 x33 | s85 => DD x48 x34 | s86 => DD x48 x35 | s87 => DD x48 x36 | s88 => DD x48 x37 | s89 => DD x48 x38 | s90 => DD x48 x39 | s91 => DD x48 x40 | s92 => DD x48 x41 | s93 => DD x48 x42 | s94 => DD x48 x43 | s95 => DD x48 x44 | s96 => DD x48 x45 | s97 => DD x48 x46 | s98 => DD x48 x47 | s99 => DD x48 x48 | s100 => DD x48 x49 | s101 => DD x48 x50 | s102 => DD x48 x51 | s103 => DD x48 x52 | s104 => DD x48 x53 | s105 => DD x48 x54 | s106 => DD x48 x55 | s107 => DD x48 x56 | s108 => DD x48 x57 | s109 => DD x48 x58 | s110 => DD x48 x59 | s111 => DD x48 x60 | s112 => DD x48 x61 | s113 => DD x48 x62 | s114 => DD x48 x63 | s115 => DD x49 x0 | s116 => DD x49 x1 | s117 => DD x49 x2 | s118 => DD x49 x3 | s119 => DD x49 x4 | s120 => DD x49 x5 | s121 => DD x49 x6 | s122 => DD x49 x7 | s123 => DD x49 x8 | s124 => DD x49 x9 | s125 => DD x49 x10 | s126 => DD x49 x11 end.
Definition m3024 (c : sum2) : dd := match c with s0 => DD x47 x16 | s1 => DD x47 x17 | s2 => DD x47 x18 | s3 => DD x47 x19 | s4 => DD x47 x20 | s5 => DD x47 x21 | s6 => DD x47 x22 | s7 => DD x47 x23 | s8 => DD x47 x24 | s9 => DD x47 x25 | s10 => DD x47 x26 | s11 => DD x47 x27 | s12 => DD x47 x28 | s13 => DD x47 x29 | s14 => DD x47 x30 | s15 => DD x47 x31 | s16 => DD x47 x32 | s17 => DD x47 x33 | s18 => DD x47 x34 | s19 => DD x47 x35 | s20 => DD x47 x36 | s21 => DD x47 x37 | s22 => DD x47 x38 | s23 => DD x47 x39 | s24 => DD x47 x40 | s25 => DD x47 x41 | s26 => DD x47 x42 | s27 => DD x47 x43 | s28 => DD x47 x44 | s29 => DD x47 x45 | s30 => DD x47 x46 | s31 => DD x47 x47 | s32 => DD x47 x48 | s33 => DD x47 x49 | s34 => DD x47 x50 | s35 => DD x47 x51 | s36 => DD x47 x52 | s37 => DD x47 x53 | s38 => DD x47 x54 | s39 => DD x47 x55 | s40 => DD x47 x56 | s41 => DD x47 x57 | s42 => DD x47 x58 | s43 => DD x47 x59 | s44 => DD x47 x60 | s45 => DD x47 x61 | s46 => DD x47 x62 | s47 => DD x47 x63 | s48 => DD x48 x0 | s49 => DD x48 x1 | s50 => DD x48 x2 | s51 => DD x48 x3 | s52 => DD x48 x4 | s53 => DD x48 x5 | s54 => DD x48 x6 | s55 => DD x48 x7 | s56 => DD x48 x8 | s57 => DD x48 x9 | s58 => DD x48 x10 | s59 => DD x48 x11 | s60 => DD x48 x12 | s61 => DD x48 x13 | s62 => DD x48 x14 | s63 => DD x48 x15 | s64 => DD x48 x16 | s65 => DD x48 x17 | s66 => DD x48 x18 | s67 => DD x48 x19 | s68 => DD x48 x20 | s69 => DD x48 x21 | s70 => DD x48 x22 | s71 => DD x48 x23 | s72 => DD x48 x24 | s73 => DD x48 x25 | s74 => DD x48 x26 | s75 => DD x48 x27 | s76 => DD x48 x28 | s77 => DD x48 x29 | s78 => DD x48 x30 | s79 => DD x48 x31 | s80 => DD x48 x32 | s81 => DD x48 x33 | s82 => DD x48 x34 | s83 => DD x48 x35 | s84 => DD x48 x36 | s85 => DD x48 x37 | s86 => DD x48 x38 | s87 => DD x48 x39 | s88 => DD x48 x40 | s89 => DD x48 x41 | s90 => DD x48 x42 | s91 => DD x48 x43 | s92 => DD x48 x44 | s93 => DD x48 x45 | s94 => DD x48 x46 | s95 => DD x48 x47 | s96 => DD x48 x48 | s97 => DD x48 x49 | s98 => DD x48 x50 | s99 => DD x48 x51 | s100 => DD x48 x52 | s101 => DD x48 x53 | s102 => DD x48 x54 | s103 => DD x48 x55 | s104 => DD x48 x56 | s105 => DD x48 x57 | s106 => DD x48 x58 | s107 => DD x48 x59 | s108 => DD x48 x60 | s109 => DD x48 x61 | s110 => DD x48 x62 | s111 => DD x48 x63 | s112 => DD x49 x0 | s113 => DD x49 x1 | s114 => DD x49 x2 | s115 => DD x49 x3 | s116 => DD x49 x4 | s117 => DD x49 x5 | s118 => DD x49 x6 | s119 => DD x49 x7 | s120 => DD x49 x8 | s121 => DD x49 x9 | s122 => DD x49 x10 | s123 => DD x49 x11 | s124 => DD x49 x12 | s125 => DD x49 x13 | s126 => DD x49 x14 end.
Definition m3025 (c : sum2) : dd := match c with s0 => DD x47 x17 | s1 => DD x47 x18 | s2 => DD x47 x19 | s3 => DD x47 x20 | s4 => DD x47 x21 | s5 => DD x47 x22 | s6 => DD x47 x23 | s7 => DD x47 x24 | s8 => DD x47 x25 | s9 => DD x47 x26 | s10 => DD x47 x27 | s11 => DD x47 x28 | s12 => DD x47 x29 | s13 => DD x47 x30 | s14 => DD x47 x31 | s15 => DD x47 x32 | s16 => DD x47 x33 | s17 => DD x47 x34 | s18 => DD x47 x35 | s19 => DD x47 x36 | s20 => DD x47 x37 | s21 => DD x47 x38 | s22 => DD x47 x39 | s23 => DD x47 x40 | s24 => DD x47 x41 | s25 => DD x47 x42 | s26 => DD x47 x43 | s27 => DD x47 x44 | s28 => DD x47 x45 | s29 => DD x47 x46 | s30 => DD x47 x47 | s31 => DD x47 x48 | s32 => DD x47 x49 | s33 => DD x47 x50 | s34 => DD x47 x51 | s35 => DD x47 x52 | s36 => DD x47 x53 | s37 => DD x47 x54 | s38 => DD x47 x55 | s39 => DD x47 x56 | s40 => DD x47 x57 | s41 => DD x47 x58 | s42 => DD x47 x59 | s43 => DD x47 x60 | s44 => DD x47 x61 | s45 => DD x47 x62 | s46 => DD x47 x63 | s47 => DD x48 x0 | s48 => DD x48 x1 | s49 => DD x48 x2 | s50 => DD x48 x3 | s51 => DD x48 x4 | s52 => DD x48 x5 | s53 => DD x48 x6 | s54 => DD x48 x7 | s55 => DD x48 x8 | s56 => DD x48 x9 | s57 => DD x48 x10 | s58 => DD x48 x11 | s59 => DD x48 x12 | s60 => DD x48 x13 | s61 => DD x48 x14 | s62 => DD x48 x15 | s63 => DD x48 x16 | s64 => DD x48 x17 | s65 => DD x48 x18 | s66 => DD x48 x19 | s67 => DD x48 x20 | s68 => DD x48 x21 | s69 => DD x48 x22 | s70 => DD x48 x23 | s71 => DD x48 x24 | s72 => DD x48 x25 | s73 => DD x48 x26 | s74 => DD x48 x27 | s75 => DD x48 x28 | s76 => DD x48 x29 | s77 => DD x48 x30 | s78 => DD x48 x31 | s79 => DD x48 x32 | s80 => DD x48 x33 | s81 => DD x48 x34 | s82 => DD x48 x35 | s83 => DD x48 x36 | s84 => DD x48 x37 | s85 => DD x48 x38 | s86 => DD x48 x39 | s87 => DD x48 x40 | s88 => DD x48 x41 | s89 => DD x48 x42 | s90 => DD x48 x43 | s91 => DD x48 x44 | s92 => DD x48 x45 | s93 => DD x48 x46 | s94 => DD x48 x47 | s95 => DD x48 x48 | s96 => DD x48 x49 | s97 => DD x48 x50 | s98 => DD x48 x51 | s99 => DD x48 x52 | s100 => DD x48 x53 | s101 => DD x48 x54 | s102 => DD x48 x55 | s103 => DD x48 x56 | s104 => DD x48 x57 | s105 => DD x48 x58 | s106 => DD x48 x59 | s107 => DD x48 x60 | s108 => DD x48 x61 | s109 => DD x48 x62 | s110 => DD x48 x63 | s111 => DD x49 x0 | s112 => DD x49 x1 | s113 => DD x49 x2 | s114 => DD x49 x3 | s115 => DD x49 x4 | s116 => DD x49 x5 | s117 => DD x49 x6 | s118 => DD x49 x7 | s119 => DD x49 x8 | s120 => DD x49 x9 | s121 => DD x49 x10 | s122 => DD x49 x11 | s123 => DD x49 x12 | s124 => DD x49 x13 | s125 => DD x49 x14 | s126 => DD x49 x15 end.
Definition m3038 (c : sum2) : dd := match c with s0 => DD x47 x30 | s1 => DD x47 x31 | s2 => DD x47 x32 | s3 => DD x47 x33 | s4 => DD x47 x34 | s5 => DD x47 x35 | s6 => DD x47 x36 | s7 => DD x47 x37 | s8 => DD x47 x38 | s9 => DD x47 x39 | s10 => DD x47 x40 | s11 => DD x47 x41 | s12 => DD x47 x42 | s13 => DD x47 x43 | s14 => DD x47 x44 | s15 => DD x47 x45 | s16 => DD x47 x46 | s17 => DD x47 x47 | s18 => DD x47 x48 | s19 => DD x47 x49 | s20 => DD x47 x50 | s21 => DD x47 x51 | s22 => DD x47 x52 | s23 => DD x47 x53 | s24 => DD x47 x54 | s25 => DD x47 x55 | s26 => DD x47 x56 | s27 => DD x47 x57 | s28 => DD x47 x58 | s29 => DD x47 x59 | s30 => DD x47 x60 | s31 => DD x47 x61 | s32 => DD x47 x62 | s33 => DD x47 x63 | s34 => DD x48 x0 | s35 => DD x48 x1 | s36 => DD x48 x2 | s37 => DD x48 x3 | s38 => DD x48 x4 | s39 => DD x48 x5 | s40 => DD x48 x6 | s41 => DD x48 x7 | s42 => DD x48 x8 | s43 => DD x48 x9 | s44 => DD x48 x10 | s45 => DD x48 x11 | s46 => DD x48 x12 | s47 => DD x48 x13 | s48 => DD x48 x14 | s49 => DD x48 x15 | s50 => DD x48 x16 | s51 => DD x48 x17 | s52 => DD x48 x18 | s53 => DD x48 x19 | s54 => DD x48 x20 | s55 => DD x48 x21 | s56 => DD x48 x22 | s57 => DD x48 x23 | s58 => DD x48 x24 | s59 => DD x48 x25 | s60 => DD x48 x26 | s61 => DD x48 x27 | s62 => DD x48 x28 | s63 => DD x48 x29 | s64 => DD x48 x30 | s65 => DD x48 x31 | s66 => DD x48 x32 | s67 => DD x48 x33 | s68 => DD x48 x34 | s69 => DD x48 x35 | s70 => DD x48 x36 | s71 => DD x48 x37 | s72 => DD x48 x38 | s73 => DD x48 x39 | s74 => DD x48 x40 | s75 => DD x48 x41 | s76 => DD x48 x42 | s77 => DD x48 x43 | s78 => DD x48 x44 | s79 => DD x48 x45 | s80 => DD x48 x46 | s81 => DD x48 x47 | s82 => DD x48 x48 | s83 => DD x48 x49 | s84 => DD x48 x50 | s85 => DD x48 x51 | s86 => DD x48 x52 | s87 => DD x48 x53 | s88 => DD x48 x54 | s89 => DD x48 x55 | s90 => DD x48 x56 | s91 => DD x48 x57 | s92 => DD x48 x58 | s93 => DD x48 x59 | s94 => DD x48 x60 | s95 => DD x48 x61 | s96 => DD x48 x62 | s97 => DD x48 x63 | s98 => DD x49 x0 | s99 => DD x49 x1 | s100 => DD x49 x2 | s101 => DD x49 x3 | s102 => DD x49 x4 | s103 => DD x49 x5 | s104 => DD x49 x6 | s105 => DD x49 x7 | s106 => DD x49 x8 | s107 => DD x49 x9 | s108 => DD x49 x10 | s109 => DD x49 x11 | s110 => DD x49 x12 | s111 => DD x49 x13 | s112 => DD x49 x14 | s113 => DD x49 x15 | s114 => DD x49 x16 | s115 => DD x49 x17 | s116 => DD x49 x18 | s117 => DD x49 x19 | s118 => DD x49 x20 | s119 => DD x49 x21 | s120 => DD x49 x22 | s121 => DD x49 x23 | s122 => DD x49 x24 | s123 => DD x49 x25 | s124 => DD x49 x26 | s125 => DD x49 x27 | s126 => DD x49 x28 end.
Definition m3050 (c : sum2) : dd := match c with s0 => DD x47 x42 | s1 => DD x47 x43 | s2 => DD x47 x44 | s3 => DD x47 x45 | s4 => DD x47 x46 | s5 => DD x47 x47 | s6 => DD x47 x48 | s7 => DD x47 x49 | s8 => DD x47 x50 | s9 => DD x47 x51 | s10 => DD x47 x52 | s11 => DD x47 x53 | s12 => DD x47 x54 | s13 => DD x47 x55 | s14 => DD x47 x56 | s15 => DD x47 x57 | s16 => DD x47 x58 | s17 => DD x47 x59 | s18 => DD x47 x60 | s19 => DD x47 x61 | s20 => DD x47 x62 | s21 => DD x47 x63 | s22 => DD x48 x0 | s23 => DD x48 x1 | s24 => DD x48 x2 | s25 => DD x48 x3 | s26 => DD x48 x4 | s27 => DD x48 x5 | s28 => DD x48 x6 | s29 => DD x48 x7 | s30 => DD x48 x8 | s31 => DD x48 x9 | s32 => DD x48 x10 | s33 => DD x48 x11 | s34 => DD x48 x12 | s35 => DD x48 x13 | s36 => DD x48 x14 | s37 => DD x48 x15 | s38 => DD x48 x16 | s39 => DD x48 x17 | s40 => DD x48 x18 | s41 => DD x48 x19 | s42 => DD x48 x20 | s43 => DD x48 x21 | s44 => DD x48 x22 | s45 => DD x48 x23 | s46 => DD x48 x24 | s47 => DD x48 x25 | s48 => DD x48 x26 | s49 => DD x48 x27 | s50 => DD x48 x28 | s51 => DD x48 x29 | s52 => DD x48 x30 | s53 => DD x48 x31 | s54 => DD x48 x32 | s55 => DD x48 x33 | s56 => DD x48 x34 | s57 => DD x48 x35 | s58 => DD x48 x36 | s59 => DD x48 x37 | s60 => DD x48 x38 | s61 => DD x48 x39 | s62 => DD x48 x40 | s63 => DD x48 x41 | s64 => DD x48 x42 | s65 => DD x48 x43 | s66 => DD x48 x44 | s67 => DD x48 x45 | s68 => DD x48 x46 | s69 => DD x48 x47 | s70 => DD x48 x48 | s71 => DD x48 x49 | s72 => DD x48 x50 | s73 => DD x48 x51 | s74 => DD x48 x52 | s75 => DD x48 x53 | s76 => DD x48 x54 | s77 => DD x48 x55 | s78 => DD x48 x56 | s79 => DD x48 x57 | s80 => DD x48 x58 | s81 => DD x48 x59 | s82 => DD x48 x60 | s83 => DD x48 x61 | s84 => DD x48 x62 | s85 => DD x48 x63 | s86 => DD x49 x0 | s87 => DD x49 x1 | s88 => DD x49 x2 | s89 => DD x49 x3 | s90 => DD x49 x4 | s91 => DD x49 x5 | s92 => DD x49 x6 | s93 => DD x49 x7 | s94 => DD x49 x8 | s95 => DD x49 x9 | s96 => DD x49 x10 | s97 => DD x49 x11 | s98 => DD x49 x12 | s99 => DD x49 x13 | s100 => DD x49 x14 | s101 => DD x49 x15 | s102 => DD x49 x16 | s103 => DD x49 x17 | s104 => DD x49 x18 | s105 => DD x49 x19 | s106 => DD x49 x20 | s107 => DD x49 x21 | s108 => DD x49 x22 | s109 => DD x49 x23 | s110 => DD x49 x24 | s111 => DD x49 x25 | s112 => DD x49 x26 | s113 => DD x49 x27 | s114 => DD x49 x28 | s115 => DD x49 x29 | s116 => DD x49 x30 | s117 => DD x49 x31 | s118 => DD x49 x32 | s119 => DD x49 x33 | s120 => DD x49 x34 | s121 => DD x49 x35 | s122 => DD x49 x36 | s123 => DD x49 x37 | s124 => DD x49 x38 | s125 => DD x49 x39 | s126 => DD x49 x40 end.
Definition m3060 (c : sum2) : dd := match c with s0 => DD x47 x52 | s1 => DD x47 x53 | s2 => DD x47 x54 | s3 => DD x47 x55 | s4 => DD x47 x56 | s5 => DD x47 x57 | s6 => DD x47 x58 | s7 => DD x47 x59 | s8 => DD x47 x60 | s9 => DD x47 x61 | s10 => DD x47 x62 | s11 => DD x47 x63 | s12 => DD x48 x0 | s13 => DD x48 x1 | s14 => DD x48 x2 | s15 => DD x48 x3 | s16 => DD x48 x4 | s17 => DD x48 x5 | s18 => DD x48 x6 | s19 => DD x48 x7 | s20 => DD x48 x8 | s21 => DD x48 x9 | s22 => DD x48 x10 | s23 => DD x48 x11 | s24 => DD x48 x12 | s25 => DD x48 x13 | s26 => DD x48 x14 | s27 => DD x48 x15 | s28 => DD x48 x16 | s29 => DD x48 x17 | s30 => DD x48 x18 | s31 => DD x48 x19 | s32 => DD x48 x20 | s33 => DD x48 x21 | s34 => DD x48 x22 | s35 => DD x48 x23 | s36 => DD x48 x24 | s37 => DD x48 x25 | s38 => DD x48 x26 | s39 => DD x48 x27 | s40 => DD x48 x28 | s41 => DD x48 x29 | s42 => DD x48 x30 | s43 => DD x48 x31 | s44 => DD x48 x32 | s45 => DD x48 x33 | s46 => DD x48 x34 | s47 => DD x48 x35 | s48 => DD x48 x36 | s49 => DD x48 x37 | s50 => DD x48 x38 | s51 => DD x48 x39 | s52 => DD x48 x40 | s53 => DD x48 x41 | s54 => DD x48 x42 | s55 => DD x48 x43 | s56 => DD x48 x44 | s57 => DD x48 x45 | s58 => DD x48 x46 | s59 => DD x48 x47 | s60 => DD x48 x48 | s61 => DD x48 x49 | s62 => DD x48 x50 | s63 => DD x48 x51 | s64 => DD x48 x52 | s65 => DD x48 x53 | s66 => DD x48 x54 | s67 => DD x48 x55 | s68 => DD x48 x56 | s69 => DD x48 x57 | s70 => DD x48 x58 | s71 => DD x48 x59 | s72 => DD x48 x60 | s73 => DD x48 x61 | s74 => DD x48 x62 | s75 => DD x48 x63 | s76 => DD x49 x0 | s77 => DD x49 x1 | s78 => DD x49 x2 | s79 => DD x49 x3 | s80 => DD x49 x4 | s81 => DD x49 x5 | s82 => DD x49 x6 | s83 => DD x49 x7 | s84 => DD x49 x8 | s85 => DD x49 x9 | s86 => DD x49 x10 | s87 => DD x49 x11 | s88 => DD x49 x12 | s89 => DD x49 x13 | s90 => DD x49 x14 | s91 => DD x49 x15 | s92 => DD x49 x16 | s93 => DD x49 x17 | s94 => DD x49 x18 | s95 => DD x49 x19 | s96 => DD x49 x20 | s97 => DD x49 x21 | s98 => DD x49 x22 | s99 => DD x49 x23 | s100 => DD x49 x24 | s101 => DD x49 x25 | s102 => DD x49 x26 | s103 => DD x49 x27 | s104 => DD x49 x28 | s105 => DD x49 x29 | s106 => DD x49 x30 | s107 => DD x49 x31 | s108 => DD x49 x32 | s109 => DD x49 x33 | s110 => DD x49 x34 | s111 => DD x49 x35 | s112 => DD x49 x36 | s113 => DD x49 x37 | s114 => DD x49 x38 | s115 => DD x49 x39 | s116 => DD x49 x40 | s117 => DD x49 x41 | s118 => DD x49 x42 | s119 => DD x49 x43 | s120 => DD x49 x44 | s121 => DD x49 x45 | s122 => DD x49 x46 | s123 => DD x49 x47 | s124 => DD x49 x48 | s125 => DD x49 x49 | s126 => DD x49 x50 end.
Definition m3068 (c : sum2) : dd := match c with s0 => DD x47 x60 | s1 => DD x47 x61 | s2 => DD x47 x62 | s3 => DD x47 x63 | s4 => DD x48 x0 | s5 => DD x48 x1 | s6 => DD x48 x2 | s7 => DD x48 x3 | s8 => DD x48 x4 | s9 => DD x48 x5 | s10 => DD x48 x6 | s11 => DD x48 x7 | s12 => DD x48 x8 | s13 => DD x48 x9 | s14 => DD x48 x10 | s15 => DD x48 x11 | s16 => DD x48 x12 | s17 => DD x48 x13 | s18 => DD x48 x14 | s19 => DD x48 x15 | s20 => DD x48 x16 | s21 => DD x48 x17 | s22 => DD x48 x18 | s23 => DD x48 x19 | s24 => DD x48 x20 | s25 => DD x48 x21 | s26 => DD x48 x22 | s27 => DD x48 x23 | s28 => DD x48 x24 | s29 => DD x48 x25 | s30 => DD x48 x26 | s31 => DD x48 x27 | s32 => DD x48 x28 | s33 => DD x48 x29 | s34 => DD x48 x30 | s35 => DD x48 x31 | s36 => DD x48 x32 | s37 => DD x48 x33 | s38 => DD x48 x34 | s39 => DD x48 x35 | s40 => DD x48 x36 | s41 => DD x48 x37 | s42 => DD x48 x38 | s43 => DD x48 x39 | s44 => DD x48 x40 | s45 => DD x48 x41 | s46 => DD x48 x42 | s47 => DD x48 x43 | s48 => DD x48 x44 | s49 => DD x48 x45 | s50 => DD x48 x46 | s51 => DD x48 x47 | s52 => DD x48 x48 | s53 => DD x48 x49 | s54 => DD x48 x50 | s55 => DD x48 x51 | s56 => DD x48 x52 | s57 => DD x48 x53 | s58 => DD x48 x54 | s59 => DD x48 x55 | s60 => DD x48 x56 | s61 => DD x48 x57 | s62 => DD x48 x58 | s63 => DD x48 x59 | s64 => DD x48 x60 | s65 => DD x48 x61 | s66 => DD x48 x62 | s67 => DD x48 x63 | s68 => DD x49 x0 | s69 => DD x49 x1 | s70 => DD x49 x2 | s71 => DD x49 x3 | s72 => DD x49 x4 | s73 => DD x49 x5 | s74 => DD x49 x6 | s75 => DD x49 x7 | s76 => DD x49 x8 | s77 => DD x49 x9 | s78 => DD x49 x10 | s79 => DD x49 x11 | s80 => DD x49 x12 | s81 => DD x49 x13 | s82 => DD x49 x14 | s83 => DD x49 x15 | s84 => DD x49 x16 | s85 => DD x49 x17 | s86 => DD x49 x18 | s87 => DD x49 x19 | s88 => DD x49 x20 | s89 => DD x49 x21 | s90 => DD x49 x22 | s91 => DD x49 x23 | s92 => DD x49 x24 | s93 => DD x49 x25 | s94 => DD x49 x26 | s95 => DD x49 x27 | s96 => DD x49 x28 | s97 => DD x49 x29 | s98 => DD x49 x30 | s99 => DD x49 x31 | s100 => DD x49 x32 | s101 => DD x49 x33 | s102 => DD x49 x34 | s103 => DD x49 x35 | s104 => DD x49 x36 | s105 => DD x49 x37 | s106 => DD x49 x38 | s107 => DD x49 x39 | s108 => DD x49 x40 | s109 => DD x49 x41 | s110 => DD x49 x42 | s111 => DD x49 x43 | s112 => DD x49 x44 | s113 => DD x49 x45 | s114 => DD x49 x46 | s115 => DD x49 x47 | s116 => DD x49 x48 | s117 => DD x49 x49 | s118 => DD x49 x50 | s119 => DD x49 x51 | s120 => DD x49 x52 | s121 => DD x49 x53 | s122 => DD x49 x54 | s123 => DD x49 x55 | s124 => DD x49 x56 | s125 => DD x49 x57 | s126 => DD x49 x58 end.
Definition m3074 (c : sum2) : dd := match c with s0 => DD x48 x2 | s1 => DD x48 x3 | s2 => DD x48 x4 | s3 => DD x48 x5 | s4 => DD x48 x6 | s5 => DD x48 x7 | s6 => DD x48 x8 | s7 => DD x48 x9 | s8 => DD x48 x10 | s9 => DD x48 x11 | s10 => DD x48 x12 | s11 => DD x48 x13 | s12 => DD x48 x14 | s13 => DD x48 x15 | s14 => DD x48 x16 | s15 => DD x48 x17 | s16 => DD x48 x18 | s17 => DD x48 x19 | s18 => DD x48 x20 | s19 => DD x48 x21 | s20 => DD x48 x22 | s21 => DD x48 x23 | s22 => DD x48 x24 | s23 => DD x48 x25 | s24 => DD x48 x26 | s25 => DD x48 x27 | s26 => DD x48 x28 | s27 => DD x48 x29 | s28 => DD x48 x30 | s29 => DD x48 x31 | s30 => DD x48 x32 | s31 => DD x48 x33 | s32 => DD x48 x34 | s33 => DD x48 x35 | s34 => DD x48 x36 | s35 => DD x48 x37 | s36 => DD x48 x38 | s37 => DD x48 x39 | s38 => DD x48 x40 | s39 => DD x48 x41 | s40 => DD x48 x42 | s41 => DD x48 x43 | s42 => DD x48 x44 | s43 => DD x48 x45 | s44 => DD x48 x46 | s45 => DD x48 x47 | s46 => DD x48 x48 | s47 => DD x48 x49 | s48 => DD x48 x50 | s49 => DD x48 x51 | s50 => DD x48 x52 | s51 => DD x48 x53 | s52 => DD x48 x54 | s53 => DD x48 x55 | s54 => DD x48 x56 | s55 => DD x48 x57 | s56 => DD x48 x58 | s57 => DD x48 x59 | s58 => DD x48 x60 | s59 => DD x48 x61 | s60 => DD x48 x62 | s61 => DD x48 x63 | s62 => DD x49 x0 | s63 => DD x49 x1 | s64 => DD x49 x2 | s65 => DD x49 x3 | s66 => DD x49 x4 | s67 => DD x49 x5 | s68 => DD x49 x6 | s69 => DD x49 x7 | s70 => DD x49 x8 | s71 => DD x49 x9 | s72 => DD x49 x10 | s73 => DD x49 x11 | s74 => DD x49 x12 | s75 => DD x49 x13 | s76 => DD x49 x14 | s77 => DD x49 x15 | s78 => DD x49 x16 | s79 => DD x49 x17 | s80 => DD x49 x18 | s81 => DD x49 x19 | s82 => DD x49 x20 | s83 => DD x49 x21 | s84 => DD x49 x22 | s85 => DD x49 x23 | s86 => DD x49 x24 | s87 => DD x49 x25 | s88 => DD x49 x26 | s89 => DD x49 x27 | s90 => DD x49 x28 | s91 => DD x49 x29 | s92 => DD x49 x30 | s93 => DD x49 x31 | s94 => DD x49 x32 | s95 => DD x49 x33 | s96 => DD x49 x34 | s97 => DD x49 x35 | s98 => DD x49 x36 | s99 => DD x49 x37 | s100 => DD x49 x38 | s101 => DD x49 x39 | s102 => DD x49 x40 | s103 => DD x49 x41 | s104 => DD x49 x42 | s105 => DD x49 x43 | s106 => DD x49 x44 | s107 => DD x49 x45 | s108 => DD x49 x46 | s109 => DD x49 x47 | s110 => DD x49 x48 | s111 => DD x49 x49 | s112 => DD x49 x50 | s113 => DD x49 x51 | s114 => DD x49 x52 | s115 => DD x49 x53 | s116 => DD x49 x54 | s117 => DD x49 x55 | s118 => DD x49 x56 | s119 => DD x49 x57 | s120 => DD x49 x58 | s121 => DD x49 x59 | s122 => DD x49 x60 | s123 => DD x49 x61 | s124 => DD x49 x62 | s125 => DD x49 x63 | s126 => DD x50 x0 end.
Definition m3078 (c : sum2) : dd := match c with s0 => DD x48 x6 | s1 => DD x48 x7 | s2 => DD x48 x8 | s3 => DD x48 x9 | s4 => DD x48 x10 | s5 => DD x48 x11 | s6 => DD x48 x12 | s7 => DD x48 x13 | s8 => DD x48 x14 | s9 => DD x48 x15 | s10 => DD x48 x16 | s11 => DD x48 x17 | s12 => DD x48 x18 | s13 => DD x48 x19 | s14 => DD x48 x20 | s15 => DD x48 x21 | s16 => DD x48 x22 | s17 => DD x48 x23 | s18 => DD x48 x24 | s19 => DD x48 x25 | s20 => DD x48 x26 | s21 => DD x48 x27 | s22 => DD x48 x28 | s23 => DD x48 x29 | s24 => DD x48 x30 | s25 => DD x48 x31 | s26 => DD x48 x32 | s27 => DD x48 x33 | s28 => DD x48 x34 | s29 => DD x48 x35 | s30 => DD x48 x36 | s31 => DD x48 x37 | s32 => DD x48 x38 | s33 => DD x48 x39 | s34 => DD x48 x40 | s35 => DD x48 x41 | s36 => DD x48 x42 | s37 => DD x48 x43 | s38 => DD x48 x44 | s39 => DD x48 x45 | s40 => DD x48 x46 | s41 => DD x48 x47 | s42 => DD x48 x48 | s43 => DD x48 x49 | s44 => DD x48 x50 | s45 => DD x48 x51 | s46 => DD x48 x52 | s47 => DD x48 x53 | s48 => DD x48 x54 | s49 => DD x48 x55 | s50 => DD x48 x56 | s51 => DD x48 x57 | s52 => DD x48 x58 | s53 => DD x48 x59 | s54 => DD x48 x60 | s55 => DD x48 x61 | s56 => DD x48 x62 | s57 => DD x48 x63 | s58 => DD x49 x0 | s59 => DD x49 x1 | s60 => DD x49 x2 | s61 => DD x49 x3 | s62 => DD x49 x4 | s63 => DD x49 x5 | s64 => DD x49 x6 | s65 => DD x49 x7 | s66 => DD x49 x8 | s67 => DD x49 x9 | s68 => DD x49 x10 | s69 => DD x49 x11 | s70 => DD x49 x12 | s71 => DD x49 x13 | s72 => DD x49 x14 | s73 => DD x49 x15 | s74 => DD x49 x16 | s75 => DD x49 x17 | s76 => DD x49 x18 | s77 => DD x49 x19 | s78 => DD x49 x20 | s79 => DD x49 x21 | s80 => DD x49 x22 | s81 => DD x49 x23 | s82 => DD x49 x24 | s83 => DD x49 x25 | s84 => DD x49 x26 | s85 => DD x49 x27 | s86 => DD x49 x28 | s87 => DD x49 x29 | s88 => DD x49 x30 | s89 => DD x49 x31 | s90 => DD x49 x32 | s91 => DD x49 x33 | s92 => DD x49 x34 | s93 => DD x49 x35 | s94 => DD x49 x36 | s95 => DD x49 x37 | s96 => DD x49 x38 | s97 => DD x49 x39 | s98 => DD x49 x40 | s99 => DD x49 x41 | s100 => DD x49 x42 | s101 => DD x49 x43 | s102 => DD x49 x44 | s103 => DD x49 x45 | s104 => DD x49 x46 | s105 => DD x49 x47 | s106 => DD x49 x48 | s107 => DD x49 x49 | s108 => DD x49 x50 | s109 => DD x49 x51 | s110 => DD x49 x52 | s111 => DD x49 x53 | s112 => DD x49 x54 | s113 => DD x49 x55 | s114 => DD x49 x56 | s115 => DD x49 x57 | s116 => DD x49 x58 | s117 => DD x49 x59 | s118 => DD x49 x60 | s119 => DD x49 x61 | s120 => DD x49 x62 | s121 => DD x49 x63 | s122 => DD x50 x0 | s123 => DD x50 x1 | s124 => DD x50 x2 | s125 => DD x50 x3 | s126 => DD x50 x4 end.
Definition m3080 (c : sum2) : dd := match c with s0 => DD x48 x8 | s1 => DD x48 x9 | s2 => DD x48 x10 | s3 => DD x48 x11 | s4 => DD x48 x12 | s5 => DD x48 x13 | s6 => DD x48 x14 | s7 => DD x48 x15 | s8 => DD x48 x16 | s9 => DD x48 x17 | s10 => DD x48 x18 | s11 => DD x48 x19 | s12 => DD x48 x20 | s13 => DD x48 x21 | s14 => DD x48 x22 | s15 => DD x48 x23 | s16 => DD x48 x24 | s17 => DD x48 x25 | s18 => DD x48 x26 | s19 => DD x48 x27 | s20 => DD x48 x28 | s21 => DD x48 x29 | s22 => DD x48 x30 | s23 => DD x48 x31 | s24 => DD x48 x32 | s25 => DD x48 x33 | s26 => DD x48 x34 | s27 => DD x48 x35 | s28 => DD x48 x36 | s29 => DD x48 x37 | s30 => DD x48 x38 | s31 => DD x48 x39 | s32 => DD x48 x40 | s33 => DD x48 x41 | s34 => DD x48 x42 | s35 => DD x48 x43 | s36 => DD x48 x44 | s37 => DD x48 x45 | s38 => DD x48 x46 | s39 => DD x48 x47 | s40 => DD x48 x48 | s41 => DD x48 x49 | s42 => DD x48 x50 | s43 => DD x48 x51 | s44 => DD x48 x52 | s45 => DD x48 x53 | s46 => DD x48 x54 | s47 => DD x48 x55 | s48 => DD x48 x56 | s49 => DD x48 x57 | s50 => DD x48 x58 | s51 => DD x48 x59 | s52 => DD x48 x60 | s53 => DD x48 x61 | s54 => DD x48 x62 | s55 => DD x48 x63 | s56 => DD x49 x0 | s57 => DD x49 x1 | s58 => DD x49 x2 | s59 => DD x49 x3 | s60 => DD x49 x4 | s61 => DD x49 x5 | s62 => DD x49 x6 | s63 => DD x49 x7 | s64 => DD x49 x8 | s65 => DD x49 x9 | s66 => DD x49 x10 | s67 => DD x49 x11 | s68 => DD x49 x12 | s69 => DD x49 x13 | s70 => DD x49 x14 | s71 => DD x49 x15 | s72 => DD x49 x16 | s73 => DD x49 x17 | s74 => DD x49 x18 | s75 => DD x49 x19 | s76 => DD x49 x20 | s77 => DD x49 x21 | s78 => DD x49 x22 | s79 => DD x49 x23 | s80 => DD x49 x24 | s81 => DD x49 x25 | s82 => DD x49 x26 | s83 => DD x49 x27 | s84 => DD x49 x28 | s85 => DD x49 x29 | s86 => DD x49 x30 | s87 => DD x49 x31 | s88 => DD x49 x32 | s89 => DD x49 x33 | s90 => DD x49 x34 | s91 => DD x49 x35 | s92 => DD x49 x36 | s93 => DD x49 x37 | s94 => DD x49 x38 | s95 => DD x49 x39 | s96 => DD x49 x40 | s97 => DD x49 x41 | s98 => DD x49 x42 | s99 => DD x49 x43 | s100 => DD x49 x44 | s101 => DD x49 x45 | s102 => DD x49 x46 | s103 => DD x49 x47 | s104 => DD x49 x48 | s105 => DD x49 x49 | s106 => DD x49 x50 | s107 => DD x49 x51 | s108 => DD x49 x52 | s109 => DD x49 x53 | s110 => DD x49 x54 | s111 => DD x49 x55 | s112 => DD x49 x56 | s113 => DD x49 x57 | s114 => DD x49 x58 | s115 => DD x49 x59 | s116 => DD x49 x60 | s117 => DD x49 x61 | s118 => DD x49 x62 | s119 => DD x49 x63 | s120 => DD x50 x0 | s121 => DD x50 x1 | s122 => DD x50 x2 | s123 => DD x50 x3 | s124 => DD x50 x4 | s125 => DD x50 x5 | s126 => DD x50 x6 end.
Definition m3087 (c : sum2) : dd := match c with s0 => DD x48 x15 | s1 => DD x48 x16 | s2 => DD x48 x17 | s3 => DD x48 x18 | s4 => DD x48 x19 | s5 => DD x48 x20 | s6 => DD x48 x21 | s7 => DD x48 x22 | s8 => DD x48 x23 | s9 => DD x48 x24 | s10 => DD x48 x25 | s11 => DD x48 x26 | s12 => DD x48 x27 | s13 => DD x48 x28 | s14 => DD x48 x29 | s15 => DD x48 x30 | s16 => DD x48 x31 | s17 => DD x48 x32 | s18 => DD x48 x33 | s19 => DD x48 x34 | s20 => DD x48 x35 | s21 => DD x48 x36 | s22 => DD x48 x37 | s23 => DD x48 x38 | s24 => DD x48 x39 | s25 => DD x48 x40 | s26 => DD x48 x41 | s27 => DD x48 x42 | s28 => DD x48 x43 | s29 => DD x48 x44 | s30 => DD x48 x45 | s31 => DD x48 x46 | s32 => DD x48 x47 | s33 => DD x48 x48 | s34 => DD x48 x49 | s35 => DD x48 x50 | s36 => DD x48 x51 | s37 => DD x48 x52 | s38 => DD x48 x53 | s39 => DD x48 x54 | s40 => DD x48 x55 | s41 => DD x48 x56 | s42 => DD x48 x57 | s43 => DD x48 x58 | s44 => DD x48 x59 | s45 => DD x48 x60 | s46 => DD x48 x61 | s47 => DD x48 x62 | s48 => DD x48 x63 | s49 => DD x49 x0 | s50 => DD x49 x1 | s51 => DD x49 x2 | s52 => DD x49 x3 | s53 => DD x49 x4 | s54 => DD x49 x5 | s55 => DD x49 x6 | s56 => DD x49 x7 | s57 => DD x49 x8 | s58 => DD x49 x9 | s59 => DD x49 x10 | s60 => DD x49 x11 | s61 => DD x49 x12 | s62 => DD x49 x13 | s63 => DD x49 x14 | s64 => DD x49 x15 | s65 => DD x49 x16 | s66 => DD x49 x17 | s67 => DD x49 x18 | s68 => DD x49 x19 | s69 => DD x49 x20 | s70 => DD x49 x21 | s71 => DD x49 x22 | s72 => DD x49 x23 | s73 => DD x49 x24 | s74 => DD x49 x25 | s75 => DD x49 x26 | s76 => DD x49 x27 | s77 => DD x49 x28 | s78 => DD x49 x29 | s79 => DD x49 x30 | s80 => DD x49 x31 | s81 => DD x49 x32 | s82 => DD x49 x33 | s83 => DD x49 x34 | s84 => DD x49 x35 | s85 => DD x49 x36 | s86 => DD x49 x37 | s87 => DD x49 x38 | s88 => DD x49 x39 | s89 => DD x49 x40 | s90 => DD x49 x41 | s91 => DD x49 x42 | s92 => DD x49 x43 | s93 => DD x49 x44 | s94 => DD x49 x45 | s95 => DD x49 x46 | s96 => DD x49 x47 | s97 => DD x49 x48 | s98 => DD x49 x49 | s99 => DD x49 x50 | s100 => DD x49 x51 | s101 => DD x49 x52 | s102 => DD x49 x53 | s103 => DD x49 x54 | s104 => DD x49 x55 | s105 => DD x49 x56 | s106 => DD x49 x57 | s107 => DD x49 x58 | s108 => DD x49 x59 | s109 => DD x49 x60 | s110 => DD x49 x61 | s111 => DD x49 x62 | s112 => DD x49 x63 | s113 => DD x50 x0 | s114 => DD x50 x1 | s115 => DD x50 x2 | s116 => DD x50 x3 | s117 => DD x50 x4 | s118 => DD x50 x5 | s119 => DD x50 x6 | s120 => DD x50 x7 | s121 => DD x50 x8 | s122 => DD x50 x9 | s123 => DD x50 x10 | s124 => DD x50 x11 | s125 => DD x50 x12 | s126 => DD x50 x13 end.
Definition m3100 (c : sum2) : dd := match c with s0 => DD x48 x28 | s1 => DD x48 x29 | s2 => DD x48 x30 | s3 => DD x48 x31 | s4 => DD x48 x32 | s5 => DD x48 x33 | s6 => DD x48 x34 | s7 => DD x48 x35 | s8 => DD x48 x36 | s9 => DD x48 x37 | s10 => DD x48 x38 | s11 => DD x48 x39 | s12 => DD x48 x40 | s13 => DD x48 x41 | s14 => DD x48 x42 | s15 => DD x48 x43 | s16 => DD x48 x44 | s17 => DD x48 x45 | s18 => DD x48 x46 | s19 => DD x48 x47 | s20 => DD x48 x48 | s21 => DD x48 x49 | s22 => DD x48 x50 | s23 => DD x48 x51 | s24 => DD x48 x52 | s25 => DD x48 x53 | s26 => DD x48 x54 | s27 => DD x48 x55 | s28 => DD x48 x56 | s29 => DD x48 x57 | s30 => DD x48 x58 | s31 => DD x48 x59 | s32 => DD x48 x60 | s33 => DD x48 x61 | s34 => DD x48 x62 | s35 => DD x48 x63 | s36 => DD x49 x0 | s37 => DD x49 x1 | s38 => DD x49 x2 | s39 => DD x49 x3 | s40 => DD x49 x4 | s41 => DD x49 x5 | s42 => DD x49 x6 | s43 => DD x49 x7 | s44 => DD x49 x8 | s45 => DD x49 x9 | s46 => DD x49 x10 | s47 => DD x49 x11 | s48 => DD x49 x12 | s49 => DD x49 x13 | s50 => DD x49 x14 | s51 => DD x49 x15 | s52 => DD x49 x16 | s53 => DD x49 x17 | s54 => DD x49 x18 | s55 => DD x49 x19 | s56 => DD x49 x20 | s57 => DD x49 x21 | s58 => DD x49 x22 | s59 => DD x49 x23 | s60 => DD x49 x24 | s61 => DD x49 x25 | s62 => DD x49 x26 | s63 => DD x49 x27 | s64 => DD x49 x28 | s65 => DD x49 x29 | s66 => DD x49 x30 | s67 => DD x49 x31 | s68 => DD x49 x32 | s69 => DD x49 x33 | s70 => DD x49 x34 | s71 => DD x49 x35 | s72 => DD x49 x36 | s73 => DD x49 x37 | s74 => DD x49 x38 | s75 => DD x49 x39 | s76 => DD x49 x40 | s77 => DD x49 x41 | s78 => DD x49 x42 | s79 => DD x49 x43 | s80 => DD x49 x44 | s81 => DD x49 x45 | s82 => DD x49 x46 | s83 => DD x49 x47 | s84 => DD x49 x48 | s85 => DD x49 x49 | s86 => DD x49 x50 | s87 => DD x49 x51 | s88 => DD x49 x52 | s89 => DD x49 x53 | s90 => DD x49 x54 | s91 => DD x49 x55 | s92 => DD x49 x56 | s93 => DD x49 x57 | s94 => DD x49 x58 | s95 => DD x49 x59 | s96 => DD x49 x60 | s97 => DD x49 x61 | s98 => DD x49 x62 | s99 => DD x49 x63 | s100 => DD x50 x0 | s101 => DD x50 x1 | s102 => DD x50 x2 | s103 => DD x50 x3 | s104 => DD x50 x4 | s105 => DD x50 x5 | s106 => DD x50 x6 | s107 => DD x50 x7 | s108 => DD x50 x8 | s109 => DD x50 x9 | s110 => DD x50 x10 | s111 => DD x50 x11 | s112 => DD x50 x12 | s113 => DD x50 x13 | s114 => DD x50 x14 | s115 => DD x50 x15 | s116 => DD x50 x16 | s117 => DD x50 x17 | s118 => DD x50 x18 | s119 => DD x50 x19 | s120 => DD x50 x20 | s121 => DD x50 x21 | s122 => DD x50 x22 | s123 => DD x50 x23 | s124 => DD x50 x24 | s125 => DD x50 x25 | s126 => DD x50 x26 end.
Definition m3111 (c : sum2) : dd := match c with s0 => DD x48 x39 | s1 => DD x48 x40 | s2 => DD x48 x41 | s3 => DD x48 x42 | s4 => DD x48 x43 | s5 => DD x48 x44 | s6 => DD x48 x45 | s7 => DD x48 x46 | s8 => DD x48 x47 | s9 => DD x48 x48 | s10 => DD x48 x49 | s11 => DD x48 x50 | s12 => DD x48 x51 | s13 => DD x48 x52 | s14 => DD x48 x53 | s15 => DD x48 x54 | s16 => DD x48 x55 | s17 => DD x48 x56 | s18 => DD x48 x57 | s19 => DD x48 x58 | s20 => DD x48 x59 | s21 => DD x48 x60 | s22 => DD x48 x61 | s23 => DD x48 x62 | s24 => DD x48 x63 | s25 => DD x49 x0 | s26 => DD x49 x1 | s27 => DD x49 x2 | s28 => DD x49 x3 | s29 => DD x49 x4 | s30 => DD x49 x5 | s31 => DD x49 x6 | s32 => DD x49 x7 | s33 => DD x49 x8 | s34 => DD x49 x9 | s35 => DD x49 x10 | s36 => DD x49 x11 | s37 => DD x49 x12 | s38 => DD x49 x13 | s39 => DD x49 x14 | s40 => DD x49 x15 | s41 => DD x49 x16 | s42 => DD x49 x17 | s43 => DD x49 x18 | s44 => DD x49 x19 | s45 => DD x49 x20 | s46 => DD x49 x21 | s47 => DD x49 x22 | s48 => DD x49 x23 | s49 => DD x49 x24 | s50 => DD x49 x25 | s51 => DD x49 x26 | s52 => DD x49 x27 | s53 => DD x49 x28 | s54 => DD x49 x29 | s55 => DD x49 x30 | s56 => DD x49 x31 | s57 => DD x49 x32 | s58 => DD x49 x33 | s59 => DD x49 x34 | s60 => DD x49 x35 | s61 => DD x49 x36 | s62 => DD x49 x37 | s63 => DD x49 x38 | s64 => DD x49 x39 | s65 => DD x49 x40 | s66 => DD x49 x41 | s67 => DD x49 x42 | s68 => DD x49 x43 | s69 => DD x49 x44 | s70 => DD x49 x45 | s71 => DD x49 x46 | s72 => DD x49 x47 | s73 => DD x49 x48 | s74 => DD x49 x49 | s75 => DD x49 x50 | s76 => DD x49 x51 | s77 => DD x49 x52 | s78 => DD x49 x53 | s79 => DD x49 x54 | s80 => DD x49 x55 | s81 => DD x49 x56 | s82 => DD x49 x57 | s83 => DD x49 x58 | s84 => DD x49 x59 | s85 => DD x49 x60 | s86 => DD x49 x61 | s87 => DD x49 x62 | s88 => DD x49 x63 | s89 => DD x50 x0 | s90 => DD x50 x1 | s91 => DD x50 x2 | s92 => DD x50 x3 | s93 => DD x50 x4 | s94 => DD x50 x5 | s95 => DD x50 x6 | s96 => DD x50 x7 | s97 => DD x50 x8 | s98 => DD x50 x9 | s99 => DD x50 x10 | s100 => DD x50 x11 | s101 => DD x50 x12 | s102 => DD x50 x13 | s103 => DD x50 x14 | s104 => DD x50 x15 | s105 => DD x50 x16 | s106 => DD x50 x17 | s107 => DD x50 x18 | s108 => DD x50 x19 | s109 => DD x50 x20 | s110 => DD x50 x21 | s111 => DD x50 x22 | s112 => DD x50 x23 | s113 => DD x50 x24 | s114 => DD x50 x25 | s115 => DD x50 x26 | s116 => DD x50 x27 | s117 => DD x50 x28 | s118 => DD x50 x29 | s119 => DD x50 x30 | s120 => DD x50 x31 | s121 => DD x50 x32 | s122 => DD x50 x33 | s123 => DD x50 x34 | s124 => DD x50 x35 | s125 => DD x50 x36 | s126 => DD x50 x37 end.
Definition m3120 (c : sum2) : dd := match c with s0 => DD x48 x48 | s1 => DD x48 x49 | s2 => DD x48 x50 | s3 => DD x48 x51 | s4 => DD x48 x52 | s5 => DD x48 x53 | s6 => DD x48 x54 | s7 => DD x48 x55 | s8 => DD x48 x56 | s9 => DD x48 x57 | s10 => DD x48 x58 | s11 => DD x48 x59 | s12 => DD x48 x60 | s13 => DD x48 x61 | s14 => DD x48 x62 | s15 => DD x48 x63 | s16 => DD x49 x0 | s17 => DD x49 x1 | s18 => DD x49 x2 | s19 => DD x49 x3 | s20 => DD x49 x4 | s21 => DD x49 x5 | s22 => DD x49 x6 | s23 => DD x49 x7 | s24 => DD x49 x8 | s25 => DD x49 x9 | s26 => DD x49 x10 | s27 => DD x49 x11 | s28 => DD x49 x12 | s29 => DD x49 x13 | s30 => DD x49 x14 | s31 => DD x49 x15 | s32 => DD x49 x16 | s33 => DD x49 x17 | s34 => DD x49 x18 | s35 => DD x49 x19 | s36 => DD x49 x20 | s37 => DD x49 x21 | s38 => DD x49 x22 | s39 => DD x49 x23 | s40 => DD x49 x24 | s41 => DD x49 x25 | s42 => DD x49 x26 | s43 => DD x49 x27 | s44 => DD x49 x28 | s45 => DD x49 x29 | s46 => DD x49 x30 | s47 => DD x49 x31 | s48 => DD x49 x32 | s49 => DD x49 x33 | s50 => DD x49 x34 | s51 => DD x49 x35 | s52 => DD x49 x36 | s53 => DD x49 x37 | s54 => DD x49 x38 | s55 => DD x49 x39 | s56 => DD x49 x40 | s57 => DD x49 x41 | s58 => DD x49 x42 | s59 => DD x49 x43 | s60 => DD x49 x44 | s61 => DD x49 x45 | s62 => DD x49 x46 | s63 => DD x49 x47 | s64 => DD x49 x48 | s65 => DD x49 x49 | s66 => DD x49 x50 | s67 => DD x49 x51 | s68 => DD x49 x52 | s69 => DD x49 x53 | s70 => DD x49 x54 | s71 => DD x49 x55 | s72 => DD x49 x56 | s73 => DD x49 x57 | s74 => DD x49 x58 | s75 => DD x49 x59 | s76 => DD x49 x60 | s77 => DD x49 x61 | s78 => DD x49 x62 | s79 => DD x49 x63 | s80 => DD x50 x0 | s81 => DD x50 x1 | s82 => DD x50 x2 | s83 => DD x50 x3 | s84 => DD x50 x4 | s85 => DD x50 x5 | s86 => DD x50 x6 | s87 => DD x50 x7 | s88 => DD x50 x8 | s89 => DD x50 x9 | s90 => DD x50 x10 | s91 => DD x50 x11 | s92 => DD x50 x12 | s93 => DD x50 x13 | s94 => DD x50 x14 | s95 => DD x50 x15 | s96 => DD x50 x16 | s97 => DD x50 x17 | s98 => DD x50 x18 | s99 => DD x50 x19 | s100 => DD x50 x20 | s101 => DD x50 x21 | s102 => DD x50 x22 | s103 => DD x50 x23 | s104 => DD x50 x24 | s105 => DD x50 x25 | s106 => DD x50 x26 | s107 => DD x50 x27 | s108 => DD x50 x28 | s109 => DD x50 x29 | s110 => DD x50 x30 | s111 => DD x50 x31 | s112 => DD x50 x32 | s113 => DD x50 x33 | s114 => DD x50 x34 | s115 => DD x50 x35 | s116 => DD x50 x36 | s117 => DD x50 x37 | s118 => DD x50 x38 | s119 => DD x50 x39 | s120 => DD x50 x40 | s121 => DD x50 x41 | s122 => DD x50 x42 | s123 => DD x50 x43 | s124 => DD x50 x44 | s125 => DD x50 x45 | s126 => DD x50 x46 end.
Definition m3127 (c : sum2) : dd := match c with s0 => DD x48 x55 | s1 => DD x48 x56 | s2 => DD x48 x57 | s3 => DD x48 x58 | s4 => DD x48 x59 | s5 => DD x48 x60 | s6 => DD x48 x61 | s7 => DD x48 x62 | s8 => DD x48 x63 | s9 => DD x49 x0 | s10 => DD x49 x1 | s11 => DD x49 x2 | s12 => DD x49 x3 | s13 => DD x49 x4 | s14 => DD x49 x5 | s15 => DD x49 x6 | s16 => DD x49 x7 | s17 => DD x49 x8 | s18 => DD x49 x9 | s19 => DD x49 x10 | s20 => DD x49 x11 | s21 => DD x49 x12 | s22 => DD x49 x13 | s23 => DD x49 x14 | s24 => DD x49 x15 | s25 => DD x49 x16 | s26 => DD x49 x17 | s27 => DD x49 x18 | s28 => DD x49 x19 | s29 => DD x49 x20 | s30 => DD x49 x21 | s31 => DD x49 x22 | s32 => DD x49 x23 | s33 => DD x49 x24 | s34 => DD x49 x25 | s35 => DD x49 x26 | s36 => DD x49 x27 | s37 => DD x49 x28 | s38 => DD x49 x29 | s39 => DD x49 x30 | s40 => DD x49 x31 | s41 => DD x49 x32 | s42 => DD x49 x33 | s43 => DD x49 x34 | s44 => DD x49 x35 | s45 => DD x49 x36 | s46 => DD x49 x37 | s47 => DD x49 x38 | s48 => DD x49 x39 | s49 => DD x49 x40 | s50 => DD x49 x41 | s51 => DD x49 x42 | s52 => DD x49 x43 | s53 => DD x49 x44 | s54 => DD x49 x45 | s55 => DD x49 x46 | s56 => DD x49 x47 | s57 => DD x49 x48 | s58 => DD x49 x49 | s59 => DD x49 x50 | s60 => DD x49 x51 | s61 => DD x49 x52 | s62 => DD x49 x53 | s63 => DD x49 x54 | s64 => DD x49 x55 | s65 => DD x49 x56 | s66 => DD x49 x57 | s67 => DD x49 x58 | s68 => DD x49 x59 | s69 => DD x49 x60 | s70 => DD x49 x61 | s71 => DD x49 x62 | s72 => DD x49 x63 | s73 => DD x50 x0 | s74 => DD x50 x1 | s75 => DD x50 x2 | s76 => DD x50 x3 | s77 => DD x50 x4 | s78 => DD x50 x5 | s79 => DD x50 x6 | s80 => DD x50 x7 | s81 => DD x50 x8 | s82 => DD x50 x9 | s83 => DD x50 x10 | s84 => DD x50 x11 | s85 => DD x50 x12 | s86 => DD x50 x13 | s87 => DD x50 x14 | s88 => DD x50 x15 | s89 => DD x50 x16 | s90 => DD x50 x17 | s91 => DD x50 x18 | s92 => DD x50 x19 | s93 => DD x50 x20 | s94 => DD x50 x21 | s95 => DD x50 x22 | s96 => DD x50 x23 | s97 => DD x50 x24 | s98 => DD x50 x25 | s99 => DD x50 x26 | s100 => DD x50 x27 | s101 => DD x50 x28 | s102 => DD x50 x29 | s103 => DD x50 x30 | s104 => DD x50 x31 | s105 => DD x50 x32 | s106 => DD x50 x33 | s107 => DD x50 x34 | s108 => DD x50 x35 | s109 => DD x50 x36 | s110 => DD x50 x37 | s111 => DD x50 x38 | s112 => DD x50 x39 | s113 => DD x50 x40 | s114 => DD x50 x41 | s115 => DD x50 x42 | s116 => DD x50 x43 | s117 => DD x50 x44 | s118 => DD x50 x45 | s119 => DD x50 x46 | s120 => DD x50 x47 | s121 => DD x50 x48 | s122 => DD x50 x49 | s123 => DD x50 x50 | s124 => DD x50 x51 | s125 => DD x50 x52 | s126 => DD x50 x53 end.
Definition m3132 (c : sum2) : dd := match c with s0 => DD x48 x60 | s1 => DD x48 x61 | s2 => DD x48 x62 | s3 => DD x48 x63 | s4 => DD x49 x0 | s5 => DD x49 x1 | s6 => DD x49 x2 | s7 => DD x49 x3 | s8 => DD x49 x4 | s9 => DD x49 x5 | s10 => DD x49 x6 | s11 => DD x49 x7 | s12 => DD x49 x8 | s13 => DD x49 x9 | s14 => DD x49 x10 | s15 => DD x49 x11 | s16 => DD x49 x12 | s17 => DD x49 x13 | s18 => DD x49 x14 | s19 => DD x49 x15 | s20 => DD x49 x16 | s21 => DD x49 x17 | s22 => DD x49 x18 | s23 => DD x49 x19 | s24 => DD x49 x20 | s25 => DD x49 x21 | s26 => DD x49 x22 | s27 => DD x49 x23 | s28 => DD x49 x24 | s29 => DD x49 x25 | s30 => DD x49 x26 | s31 => DD x49 x27 | s32 => DD x49 x28 | s33 => DD x49 x29 | s34 => DD x49 x30 | s35 => DD x49 x31 | s36 => DD x49 x32 | s37 => DD x49 x33 | s38 => DD x49 x34 | s39 => DD x49 x35 | s40 => DD x49 x36 | s41 => DD x49 x37 | s42 => DD x49 x38 | s43 => DD x49 x39 | s44 => DD x49 x40 | s45 => DD x49 x41 | s46 => DD x49 x42 | s47 => DD x49 x43 | s48 => DD x49 x44 | s49 => DD x49 x45 | s50 => DD x49 x46 | s51 => DD x49 x47 | s52 => DD x49 x48 | s53 => DD x49 x49 | s54 => DD x49 x50 | s55 => DD x49 x51 | s56 => DD x49 x52 | s57 => DD x49 x53 | s58 => DD x49 x54 | s59 => DD x49 x55 | s60 => DD x49 x56 | s61 => DD x49 x57 | s62 => DD x49 x58 | s63 => DD x49 x59 | s64 => DD x49 x60 | s65 => DD x49 x61 | s66 => DD x49 x62 | s67 => DD x49 x63 | s68 => DD x50 x0 | s69 => DD x50 x1 | s70 => DD x50 x2 | s71 => DD x50 x3 | s72 => DD x50 x4 | s73 => DD x50 x5 | s74 => DD x50 x6 | s75 => DD x50 x7 | s76 => DD x50 x8 | s77 => DD x50 x9 | s78 => DD x50 x10 | s79 => DD x50 x11 | s80 => DD x50 x12 | s81 => DD x50 x13 | s82 => DD x50 x14 | s83 => DD x50 x15 | s84 => DD x50 x16 | s85 => DD x50 x17 | s86 => DD x50 x18 | s87 => DD x50 x19 | s88 => DD x50 x20 | s89 => DD x50 x21 | s90 => DD x50 x22 | s91 => DD x50 x23 | s92 => DD x50 x24 | s93 => DD x50 x25 | s94 => DD x50 x26 | s95 => DD x50 x27 | s96 => DD x50 x28 | s97 => DD x50 x29 | s98 => DD x50 x30 | s99 => DD x50 x31 | s100 => DD x50 x32 | s101 => DD x50 x33 | s102 => DD x50 x34 | s103 => DD x50 x35 | s104 => DD x50 x36 | s105 => DD x50 x37 | s106 => DD x50 x38 | s107 => DD x50 x39 | s108 => DD x50 x40 | s109 => DD x50 x41 | s110 => DD x50 x42 | s111 => DD x50 x43 | s112 => DD x50 x44 | s113 => DD x50 x45 | s114 => DD x50 x46 | s115 => DD x50 x47 | s116 => DD x50 x48 | s117 => DD x50 x49 | s118 => DD x50 x50 | s119 => DD x50 x51 | s120 => DD x50 x52 | s121 => DD x50 x53 | s122 => DD x50 x54 | s123 => DD x50 x55 | s124 => DD x50 x56 | s125 => DD x50 x57 | s126 => DD x50 x58 end.
Definition m3135 (c : sum2) : dd := match c with s0 => DD x48 x63 | s1 => DD x49 x0 | s2 => DD x49 x1 | s3 => DD x49 x2 | s4 => DD x49 x3 | s5 => DD x49 x4 | s6 => DD x49 x5 | s7 => DD x49 x6 | s8 => DD x49 x7 | s9 => DD x49 x8 | s10 => DD x49 x9 | s11 => DD x49 x10 | s12 => DD x49 x11 | s13 => DD x49 x12 | s14 => DD x49 x13 | s15 => DD x49 x14 | s16 => DD x49 x15 | s17 => DD x49 x16 | s18 => DD x49 x17 | s19 => DD x49 x18 | s20 => DD x49 x19 | s21 => DD x49 x20 | s22 => DD x49 x21 | s23 => DD x49 x22 | s24 => DD x49 x23 | s25 => DD x49 x24 | s26 => DD x49 x25 | s27 => DD x49 x26 | s28 => DD x49 x27 | s29 => DD x49 x28 | s30 => DD x49 x29 | s31 => DD x49 x30 | s32 => DD x49 x31 | s33 => DD x49 x32 | s34 => DD x49 x33 | s35 => DD x49 x34 | s36 => DD x49 x35 | s37 => DD x49 x36 | s38 => DD x49 x37 | s39 => DD x49 x38 | s40 => DD x49 x39 | s41 => DD x49 x40 | s42 => DD x49 x41 | s43 => DD x49 x42 | s44 => DD x49 x43 | s45 => DD x49 x44 | s46 => DD x49 x45 | s47 => DD x49 x46 | s48 => DD x49 x47 | s49 => DD x49 x48 | s50 => DD x49 x49 | s51 => DD x49 x50 | s52 => DD x49 x51 | s53 => DD x49 x52 | s54 => DD x49 x53 | s55 => DD x49 x54 | s56 => DD x49 x55 | s57 => DD x49 x56 | s58 => DD x49 x57 | s59 => DD x49 x58 | s60 => DD x49 x59 | s61 => DD x49 x60 | s62 => DD x49 x61 | s63 => DD x49 x62 | s64 => DD x49 x63 | s65 => DD x50 x0 | s66 => DD x50 x1 | s67 => DD x50 x2 | s68 => DD x50 x3 | s69 => DD x50 x4 | s70 => DD x50 x5 | s71 => DD x50 x6 | s72 => DD x50 x7 | s73 => DD x50 x8 | s74 => DD x50 x9 | s75 => DD x50 x10 | s76 => DD x50 x11 | s77 => DD x50 x12 | s78 => DD x50 x13 | s79 => DD x50 x14 | s80 => DD x50 x15 | s81 => DD x50 x16 | s82 => DD x50 x17 | s83 => DD x50 x18 | s84 => DD x50 x19 | s85 => DD x50 x20 | s86 => DD x50 x21 | s87 => DD x50 x22 | s88 => DD x50 x23 | s89 => DD x50 x24 | s90 => DD x50 x25 | s91 => DD x50 x26 | s92 => DD x50 x27 | s93 => DD x50 x28 | s94 => DD x50 x29 | s95 => DD x50 x30 | s96 => DD x50 x31 | s97 => DD x50 x32 | s98 => DD x50 x33 | s99 => DD x50 x34 | s100 => DD x50 x35 | s101 => DD x50 x36 | s102 => DD x50 x37 | s103 => DD x50 x38 | s104 => DD x50 x39 | s105 => DD x50 x40 | s106 => DD x50 x41 | s107 => DD x50 x42 | s108 => DD x50 x43 | s109 => DD x50 x44 | s110 => DD x50 x45 | s111 => DD x50 x46 | s112 => DD x50 x47 | s113 => DD x50 x48 | s114 => DD x50 x49 | s115 => DD x50 x50 | s116 => DD x50 x51 | s117 => DD x50 x52 | s118 => DD x50 x53 | s119 => DD x50 x54 | s120 => DD x50 x55 | s121 => DD x50 x56 | s122 => DD x50 x57 | s123 => DD x50 x58 | s124 => DD x50 x59 | s125 => DD x50 x60 | s126 => DD x50 x61 end.
Definition m3136 (c : sum2) : dd := match c with s0 => DD x49 x0 | s1 => DD x49 x1 | s2 => DD x49 x2 | s3 => DD x49 x3 | s4 => DD x49 x4 | s5 => DD x49 x5 | s6 => DD x49 x6 | s7 => DD x49 x7 | s8 => DD x49 x8 | s9 => DD x49 x9 | s10 => DD x49 x10 | s11 => DD x49 x11 | s12 => DD x49 x12 | s13 => DD x49 x13 | s14 => DD x49 x14 | s15 => DD x49 x15 | s16 => DD x49 x16 | s17 => DD x49 x17 | s18 => DD x49 x18 | s19 => DD x49 x19 | s20 => DD x49 x20 | s21 => DD x49 x21 | s22 => DD x49 x22 | s23 => DD x49 x23 | s24 => DD x49 x24 | s25 => DD x49 x25 | s26 => DD x49 x26 | s27 => DD x49 x27 | s28 => DD x49 x28 | s29 => DD x49 x29 | s30 => DD x49 x30 | s31 => DD x49 x31 | s32 => DD x49 x32 | s33 => DD x49 x33 | s34 => DD x49 x34 | s35 => DD x49 x35 | s36 => DD x49 x36 | s37 => DD x49 x37 | s38 => DD x49 x38 | s39 => DD x49 x39 | s40 => DD x49 x40 | s41 => DD x49 x41 | s42 => DD x49 x42 | s43 => DD x49 x43 | s44 => DD x49 x44 | s45 => DD x49 x45 | s46 => DD x49 x46 | s47 => DD x49 x47 | s48 => DD x49 x48 | s49 => DD x49 x49 | s50 => DD x49 x50 | s51 => DD x49 x51 | s52 => DD x49 x52 | s53 => DD x49 x53 | s54 => DD x49 x54 | s55 => DD x49 x55 | s56 => DD x49 x56 | s57 => DD x49 x57 | s58 => DD x49 x58 | s59 => DD x49 x59 | s60 => DD x49 x60 | s61 => DD x49 x61 | s62 => DD x49 x62 | s63 => DD x49 x63 | s64 => DD x50 x0 | s65 => DD x50 x1 | s66 => DD x50 x2 | s67 => DD x50 x3 | s68 => DD x50 x4 | s69 => DD x50 x5 | s70 => DD x50 x6 | s71 => DD x50 x7 | s72 => DD x50 x8 | s73 => DD x50 x9 | s74 => DD x50 x10 | s75 => DD x50 x11 | s76 => DD x50 x12 | s77 => DD x50 x13 | s78 => DD x50 x14 | s79 => DD x50 x15 | s80 => DD x50 x16 | s81 => DD x50 x17 | s82 => DD x50 x18 | s83 => DD x50 x19 | s84 => DD x50 x20 | s85 => DD x50 x21 | s86 => DD x50 x22 | s87 => DD x50 x23 | s88 => DD x50 x24 | s89 => DD x50 x25 | s90 => DD x50 x26 | s91 => DD x50 x27 | s92 => DD x50 x28 | s93 => DD x50 x29 | s94 => DD x50 x30 | s95 => DD x50 x31 | s96 => DD x50 x32 | s97 => DD x50 x33 | s98 => DD x50 x34 | s99 => DD x50 x35 | s100 => DD x50 x36 | s101 => DD x50 x37 | s102 => DD x50 x38 | s103 => DD x50 x39 | s104 => DD x50 x40 | s105 => DD x50 x41 | s106 => DD x50 x42 | s107 => DD x50 x43 | s108 => DD x50 x44 | s109 => DD x50 x45 | s110 => DD x50 x46 | s111 => DD x50 x47 | s112 => DD x50 x48 | s113 => DD x50 x49 | s114 => DD x50 x50 | s115 => DD x50 x51 | s116 => DD x50 x52 | s117 => DD x50 x53 | s118 => DD x50 x54 | s119 => DD x50 x55 | s120 => DD x50 x56 | s121 => DD x50 x57 | s122 => DD x50 x58 | s123 => DD x50 x59 | s124 => DD x50 x60 | s125 => DD x50 x61 | s126 => DD x50 x62 end.
Definition m3150 (c : sum2) : dd := match c with s0 => DD x49 x14 | s1 => DD x49 x15 | s2 => DD x49 x16 | s3 => DD x49 x17 | s4 => DD x49 x18 | s5 => DD x49 x19 | s6 => DD x49 x20 | s7 => DD x49 x21 | s8 => DD x49 x22 | s9 => DD x49 x23 | s10 => DD x49 x24 | s11 => DD x49 x25 | s12 => DD x49 x26 | s13 => DD x49 x27 | s14 => DD x49 x28 | s15 => DD x49 x29 | s16 => DD x49 x30 | s17 => DD x49 x31 | s18 => DD x49 x32 | s19 => DD x49 x33 | s20 => DD x49 x34 | s21 => DD x49 x35 | s22 => DD x49 x36 | s23 => DD x49 x37 | s24 => DD x49 x38 | s25 => DD x49 x39 | s26 => DD x49 x40 | s27 => DD x49 x41 | s28 => DD x49 x42 | s29 => DD x49 x43 | s30 => DD x49 x44 | s31 => DD x49 x45 | s32 => DD x49 x46 | s33 => DD x49 x47 | s34 => DD x49 x48 | s35 => DD x49 x49 | s36 => DD x49 x50 | s37 => DD x49 x51 | s38 => DD x49 x52 | s39 => DD x49 x53 | s40 => DD x49 x54 | s41 => DD x49 x55 | s42 => DD x49 x56 | s43 => DD x49 x57 | s44 => DD x49 x58 | s45 => DD x49 x59 | s46 => DD x49 x60 | s47 => DD x49 x61 | s48 => DD x49 x62 | s49 => DD x49 x63 | s50 => DD x50 x0 | s51 => DD x50 x1 | s52 => DD x50 x2 | s53 => DD x50 x3 | s54 => DD x50 x4 | s55 => DD x50 x5 | s56 => DD x50 x6 | s57 => DD x50 x7 | s58 => DD x50 x8 | s59 => DD x50 x9 | s60 => DD x50 x10 | s61 => DD x50 x11 | s62 => DD x50 x12 | s63 => DD x50 x13 | s64 => DD x50 x14 | s65 => DD x50 x15 | s66 => DD x50 x16 | s67 => DD x50 x17 | s68 => DD x50 x18 | s69 => DD x50 x19 | s70 => DD x50 x20 | s71 => DD x50 x21 | s72 => DD x50 x22 | s73 => DD x50 x23 | s74 => DD x50 x24 | s75 => DD x50 x25 | s76 => DD x50 x26 | s77 => DD x50 x27 | s78 => DD x50 x28 | s79 => DD x50 x29 | s80 => DD x50 x30 | s81 => DD x50 x31 | s82 => DD x50 x32 | s83 => DD x50 x33 | s84 => DD x50 x34 | s85 => DD x50 x35 | s86 => DD x50 x36 | s87 => DD x50 x37 | s88 => DD x50 x38 | s89 => DD x50 x39 | s90 => DD x50 x40 | s91 => DD x50 x41 | s92 => DD x50 x42 | s93 => DD x50 x43 | s94 => DD x50 x44 | s95 => DD x50 x45 | s96 => DD x50 x46 | s97 => DD x50 x47 | s98 => DD x50 x48 | s99 => DD x50 x49 | s100 => DD x50 x50 | s101 => DD x50 x51 | s102 => DD x50 x52 | s103 => DD x50 x53 | s104 => DD x50 x54 | s105 => DD x50 x55 | s106 => DD x50 x56 | s107 => DD x50 x57 | s108 => DD x50 x58 | s109 => DD x50 x59 | s110 => DD x50 x60 | s111 => DD x50 x61 | s112 => DD x50 x62 | s113 => DD x50 x63 | s114 => DD x51 x0 | s115 => DD x51 x1 | s116 => DD x51 x2 | s117 => DD x51 x3 | s118 => DD x51 x4 | s119 => DD x51 x5 | s120 => DD x51 x6 | s121 => DD x51 x7 | s122 => DD x51 x8 | s123 => DD x51 x9 | s124 => DD x51 x10 | s125 => DD x51 x11 | s126 => DD x51 x12 end.
Definition m3162 (c : sum2) : dd := match c with s0 => DD x49 x26 | s1 => DD x49 x27 | s2 => DD x49 x28 | s3 => DD x49 x29 | s4 => DD x49 x30 | s5 => DD x49 x31 | s6 => DD x49 x32 | s7 => DD x49 x33 | s8 => DD x49 x34 | s9 => DD x49 x35 | s10 => DD x49 x36 | s11 => DD x49 x37 | s12 => DD x49 x38 | s13 => DD x49 x39 | s14 => DD x49 x40 | s15 => DD x49 x41 | s16 => DD x49 x42 | s17 => DD x49 x43 | s18 => DD x49 x44 | s19 => DD x49 x45 | s20 => DD x49 x46 | s21 => DD x49 x47 | s22 => DD x49 x48 | s23 => DD x49 x49 | s24 => DD x49 x50 | s25 => DD x49 x51 | s26 => DD x49 x52 | s27 => DD x49 x53 | s28 => DD x49 x54 | s29 => DD x49 x55 | s30 => DD x49 x56 | s31 => DD x49 x57 | s32 => DD x49 x58 | s33 => DD x49 x59 | s34 => DD x49 x60 | s35 => DD x49 x61 | s36 => DD x49 x62 | s37 => DD x49 x63 | s38 => DD x50 x0 | s39 => DD x50 x1 | s40 => DD x50 x2 | s41 => DD x50 x3 | s42 => DD x50 x4 | s43 => DD x50 x5 | s44 => DD x50 x6 | s45 => DD x50 x7 | s46 => DD x50 x8 | s47 => DD x50 x9 | s48 => DD x50 x10 | s49 => DD x50 x11 | s50 => DD x50 x12 | s51 => DD x50 x13 | s52 => DD x50 x14 | s53 => DD x50 x15 | s54 => DD x50 x16 | s55 => DD x50 x17 | s56 => DD x50 x18 | s57 => DD x50 x19 | s58 => DD x50 x20 | s59 => DD x50 x21 | s60 => DD x50 x22 | s61 => DD x50 x23 | s62 => DD x50 x24 | s63 => DD x50 x25 | s64 => DD x50 x26 | s65 => DD x50 x27 | s66 => DD x50 x28 | s67 => DD x50 x29 | s68 => DD x50 x30 | s69 => DD x50 x31 | s70 => DD x50 x32 | s71 => DD x50 x33 | s72 => DD x50 x34 | s73 => DD x50 x35 | s74 => DD x50 x36 | s75 => DD x50 x37 | s76 => DD x50 x38 | s77 => DD x50 x39 | s78 => DD x50 x40 | s79 => DD x50 x41 | s80 => DD x50 x42 | s81 => DD x50 x43 | s82 => DD x50 x44 | s83 => DD x50 x45 | s84 => DD x50 x46 | s85 => DD x50 x47 | s86 => DD x50 x48 | s87 => DD x50 x49 | s88 => DD x50 x50 | s89 => DD x50 x51 | s90 => DD x50 x52 | s91 => DD x50 x53 | s92 => DD x50 x54 | s93 => DD x50 x55 | s94 => DD x50 x56 | s95 => DD x50 x57 | s96 => DD x50 x58 | s97 => DD x50 x59 | s98 => DD x50 x60 | s99 => DD x50 x61 | s100 => DD x50 x62 | s101 => DD x50 x63 | s102 => DD x51 x0 | s103 => DD x51 x1 | s104 => DD x51 x2 | s105 => DD x51 x3 | s106 => DD x51 x4 | s107 => DD x51 x5 | s108 => DD x51 x6 | s109 => DD x51 x7 | s110 => DD x51 x8 | s111 => DD x51 x9 | s112 => DD x51 x10 | s113 => DD x51 x11 | s114 => DD x51 x12 | s115 => DD x51 x13 | s116 => DD x51 x14 | s117 => DD x51 x15 | s118 => DD x51 x16 | s119 => DD x51 x17 | s120 => DD x51 x18 | s121 => DD x51 x19 | s122 => DD x51 x20 | s123 => DD x51 x21 | s124 => DD x51 x22 | s125 => DD x51 x23 | s126 => DD x51 x24 end.
Definition m3172 (c : sum2) : dd := match c with s0 => DD x49 x36 | s1 => DD x49 x37 | s2 => DD x49 x38 | s3 => DD x49 x39 | s4 => DD x49 x40 | s5 => DD x49 x41 | s6 => DD x49 x42 | s7 => DD x49 x43 | s8 => DD x49 x44 | s9 => DD x49 x45 | s10 => DD x49 x46 | s11 => DD x49 x47 | s12 => DD x49 x48 | s13 => DD x49 x49 | s14 => DD x49 x50 | s15 => DD x49 x51 | s16 => DD x49 x52 | s17 => DD x49 x53 | s18 => DD x49 x54 | s19 => DD x49 x55 | s20 => DD x49 x56 | s21 => DD x49 x57 | s22 => DD x49 x58 | s23 => DD x49 x59 | s24 => DD x49 x60 | s25 => DD x49 x61 | s26 => DD x49 x62 | s27 => DD x49 x63 | s28 => DD x50 x0 | s29 => DD x50 x1 | s30 => DD x50 x2 | s31 => DD x50 x3 | s32 => DD x50 x4 | s33 => DD x50 x5 | s34 => DD x50 x6 | s35 => DD x50 x7 | s36 => DD x50 x8 | s37 => DD x50 x9 | s38 => DD x50 x10 | s39 => DD x50 x11 | s40 => DD x50 x12 | s41 => DD x50 x13 | s42 => DD x50 x14 | s43 => DD x50 x15 | s44 => DD x50 x16 | s45 => DD x50 x17 | s46 => DD x50 x18 | s47 => DD x50 x19 | s48 => DD x50 x20 | s49 => DD x50 x21 | s50 => DD x50 x22 | s51 => DD x50 x23 | s52 => DD x50 x24 | s53 => DD x50 x25 | s54 => DD x50 x26 | s55 => DD x50 x27 | s56 => DD x50 x28 | s57 => DD x50 x29 | s58 => DD x50 x30 | s59 => DD x50 x31 | s60 => DD x50 x32 | s61 => DD x50 x33 | s62 => DD x50 x34 | s63 => DD x50 x35 | s64 => DD x50 x36 | s65 => DD x50 x37 | s66 => DD x50 x38 | s67 => DD x50 x39 | s68 => DD x50 x40 | s69 => DD x50 x41 | s70 => DD x50 x42 | s71 => DD x50 x43 | s72 => DD x50 x44 | s73 => DD x50 x45 | s74 => DD x50 x46 | s75 => DD x50 x47 | s76 => DD x50 x48 | s77 => DD x50 x49 | s78 => DD x50 x50 | s79 => DD x50 x51 | s80 => DD x50 x52 | s81 => DD x50 x53 | s82 => DD x50 x54 | s83 => DD x50 x55 | s84 => DD x50 x56 | s85 => DD x50 x57 | s86 => DD x50 x58 | s87 => DD x50 x59 | s88 => DD x50 x60 | s89 => DD x50 x61 | s90 => DD x50 x62 | s91 => DD x50 x63 | s92 => DD x51 x0 | s93 => DD x51 x1 | s94 => DD x51 x2 | s95 => DD x51 x3 | s96 => DD x51 x4 | s97 => DD x51 x5 | s98 => DD x51 x6 | s99 => DD x51 x7 | s100 => DD x51 x8 | s101 => DD x51 x9 | s102 => DD x51 x10 | s103 => DD x51 x11 | s104 => DD x51 x12 | s105 => DD x51 x13 | s106 => DD x51 x14 | s107 => DD x51 x15 | s108 => DD x51 x16 | s109 => DD x51 x17 | s110 => DD x51 x18 | s111 => DD x51 x19 | s112 => DD x51 x20 | s113 => DD x51 x21 | s114 => DD x51 x22 | s115 => DD x51 x23 | s116 => DD x51 x24 | s117 => DD x51 x25 | s118 => DD x51 x26 | s119 => DD x51 x27 | s120 => DD x51 x28 | s121 => DD x51 x29 | s122 => DD x51 x30 | s123 => DD x51 x31 | s124 => DD x51 x32 | s125 => DD x51 x33 | s126 => DD x51 x34 end.
Definition m3180 (c : sum2) : dd := match c with s0 => DD x49 x44 | s1 => DD x49 x45 | s2 => DD x49 x46 | s3 => DD x49 x47 | s4 => DD x49 x48 | s5 => DD x49 x49 | s6 => DD x49 x50 | s7 => DD x49 x51 | s8 => DD x49 x52 | s9 => DD x49 x53 | s10 => DD x49 x54 | s11 => DD x49 x55 | s12 => DD x49 x56 | s13 => DD x49 x57 | s14 => DD x49 x58 | s15 => DD x49 x59 | s16 => DD x49 x60 | s17 => DD x49 x61 | s18 => DD x49 x62 | s19 => DD x49 x63 | s20 => DD x50 x0 | s21 => DD x50 x1 | s22 => DD x50 x2 | s23 => DD x50 x3 | s24 => DD x50 x4 | s25 => DD x50 x5 | s26 => DD x50 x6 | s27 => DD x50 x7 | s28 => DD x50 x8 | s29 => DD x50 x9 | s30 => DD x50 x10 | s31 => DD x50 x11 | s32 => DD x50 x12 | s33 => DD x50 x13 | s34 => DD x50 x14 | s35 => DD x50 x15 | s36 => DD x50 x16 | s37 => DD x50 x17 | s38 => DD x50 x18 | s39 => DD x50 x19 | s40 => DD x50 x20 | s41 => DD x50 x21 | s42 => DD x50 x22 | s43 => DD x50 x23 | s44 => DD x50 x24 | s45 => DD x50 x25 | s46 => DD x50 x26 | s47 => DD x50 x27 | s48 => DD x50 x28 | s49 => DD x50 x29 | s50 => DD x50 x30 | s51 => DD x50 x31 | s52 => DD x50 x32 | s53 => DD x50 x33 | s54 => DD x50 x34 | s55 => DD x50 x35 | s56 => DD x50 x36 | s57 => DD x50 x37 | s58 => DD x50 x38 | s59 => DD x50 x39 | s60 => DD x50 x40 | s61 => DD x50 x41 | s62 => DD x50 x42 | s63 => DD x50 x43 | s64 => DD x50 x44 | s65 => DD x50 x45 | s66 => DD x50 x46 | s67 => DD x50 x47 | s68 => DD x50 x48 | s69 => DD x50 x49 | s70 => DD x50 x50 | s71 => DD x50 x51 | s72 => DD x50 x52 | s73 => DD x50 x53 | s74 => DD x50 x54 | s75 => DD x50 x55 | s76 => DD x50 x56 | s77 => DD x50 x57 | s78 => DD x50 x58 | s79 => DD x50 x59 | s80 => DD x50 x60 | s81 => DD x50 x61 | s82 => DD x50 x62 | s83 => DD x50 x63 | s84 => DD x51 x0 | s85 => DD x51 x1 | s86 => DD x51 x2 | s87 => DD x51 x3 | s88 => DD x51 x4 | s89 => DD x51 x5 | s90 => DD x51 x6 | s91 => DD x51 x7 | s92 => DD x51 x8 | s93 => DD x51 x9 | s94 => DD x51 x10 | s95 => DD x51 x11 | s96 => DD x51 x12 | s97 => DD x51 x13 | s98 => DD x51 x14 | s99 => DD x51 x15 | s100 => DD x51 x16 | s101 => DD x51 x17 | s102 => DD x51 x18 | s103 => DD x51 x19 | s104 => DD x51 x20 | s105 => DD x51 x21 | s106 => DD x51 x22 | s107 => DD x51 x23 | s108 => DD x51 x24 | s109 => DD x51 x25 | s110 => DD x51 x26 | s111 => DD x51 x27 | s112 => DD x51 x28 | s113 => DD x51 x29 | s114 => DD x51 x30 | s115 => DD x51 x31 | s116 => DD x51 x32 | s117 => DD x51 x33 | s118 => DD x51 x34 | s119 => DD x51 x35 | s120 => DD x51 x36 | s121 => DD x51 x37 | s122 => DD x51 x38 | s123 => DD x51 x39 | s124 => DD x51 x40 | s125 => DD x51 x41 | s126 => DD x51 x42 end.
Definition m3186 (c : sum2) : dd := match c with s0 => DD x49 x50 | s1 => DD x49 x51 | s2 => DD x49 x52 | s3 => DD x49 x53 | s4 => DD x49 x54 | s5 => DD x49 x55 | s6 => DD x49 x56 | s7 => DD x49 x57 | s8 => DD x49 x58 | s9 => DD x49 x59 | s10 => DD x49 x60 | s11 => DD x49 x61 | s12 => DD x49 x62 | s13 => DD x49 x63 | s14 => DD x50 x0 | s15 => DD x50 x1 | s16 => DD x50 x2 | s17 => DD x50 x3 | s18 => DD x50 x4 | s19 => DD x50 x5 | s20 => DD x50 x6 | s21 => DD x50 x7 | s22 => DD x50 x8 | s23 => DD x50 x9 | s24 => DD x50 x10 | s25 => DD x50 x11 | s26 => DD x50 x12 | s27 => DD x50 x13 | s28 => DD x50 x14 | s29 => DD x50 x15 | s30 => DD x50 x16 | s31 => DD x50 x17 | s32 => DD x50 x18 | s33 => DD x50 x19 | s34 => DD x50 x20 | s35 => DD x50 x21 | s36 => DD x50 x22 | s37 => DD x50 x23 | s38 => DD x50 x24 | s39 => DD x50 x25 | s40 => DD x50 x26 | s41 => DD x50 x27 | s42 => DD x50 x28 | s43 => DD x50 x29 | s44 => DD x50 x30 | s45 => DD x50 x31 | s46 => DD x50 x32 | s47 => DD x50 x33 | s48 => DD x50 x34 | s49 => DD x50 x35 | s50 => DD x50 x36 | s51 => DD x50 x37 | s52 => DD x50 x38 | s53 => DD x50 x39 | s54 => DD x50 x40 | s55 => DD x50 x41 | s56 => DD x50 x42 | s57 => DD x50 x43 | s58 => DD x50 x44 | s59 => DD x50 x45 | s60 => DD x50 x46 | s61 => DD x50 x47 | s62 => DD x50 x48 | s63 => DD x50 x49 | s64 => DD x50 x50 | s65 => DD x50 x51 | s66 => DD x50 x52 | s67 => DD x50 x53 | s68 => DD x50 x54 | s69 => DD x50 x55 | s70 => DD x50 x56 | s71 => DD x50 x57 | s72 => DD x50 x58 | s73 => DD x50 x59 | s74 => DD x50 x60 | s75 => DD x50 x61 | s76 => DD x50 x62 | s77 => DD x50 x63 | s78 => DD x51 x0 | s79 => DD x51 x1 | s80 => DD x51 x2 | s81 => DD x51 x3 | s82 => DD x51 x4 | s83 => DD x51 x5 | s84 => DD x51 x6 | s85 => DD x51 x7 | s86 => DD x51 x8 | s87 => DD x51 x9 | s88 => DD x51 x10 | s89 => DD x51 x11 | s90 => DD x51 x12 | s91 => DD x51 x13 | s92 => DD x51 x14 | s93 => DD x51 x15 | s94 => DD x51 x16 | s95 => DD x51 x17 | s96 => DD x51 x18 | s97 => DD x51 x19 | s98 => DD x51 x20 | s99 => DD x51 x21 | s100 => DD x51 x22 | s101 => DD x51 x23 | s102 => DD x51 x24 | s103 => DD x51 x25 | s104 => DD x51 x26 | s105 => DD x51 x27 | s106 => DD x51 x28 | s107 => DD x51 x29 | s108 => DD x51 x30 | s109 => DD x51 x31 | s110 => DD x51 x32 | s111 => DD x51 x33 | s112 => DD x51 x34 | s113 => DD x51 x35 | s114 => DD x51 x36 | s115 => DD x51 x37 | s116 => DD x51 x38 | s117 => DD x51 x39 | s118 => DD x51 x40 | s119 => DD x51 x41 | s120 => DD x51 x42 | s121 => DD x51 x43 | s122 => DD x51 x44 | s123 => DD x51 x45 | s124 => DD x51 x46 | s125 => DD x51 x47 | s126 => DD x51 x48 end.
Definition m3190 (c : sum2) : dd := match c with s0 => DD x49 x54 | s1 => DD x49 x55 | s2 => DD x49 x56 | s3 => DD x49 x57 | s4 => DD x49 x58 | s5 => DD x49 x59 | s6 => DD x49 x60 | s7 => DD x49 x61 | s8 => DD x49 x62 | s9 => DD x49 x63 | s10 => DD x50 x0 | s11 => DD x50 x1 | s12 => DD x50 x2 | s13 => DD x50 x3 | s14 => DD x50 x4 | s15 => DD x50 x5 | s16 => DD x50 x6 | s17 => DD x50 x7 | s18 => DD x50 x8 | s19 => DD x50 x9 | s20 => DD x50 x10 | s21 => DD x50 x11 | s22 => DD x50 x12 | s23 => DD x50 x13 | s24 => DD x50 x14 | s25 => DD x50 x15 | s26 => DD x50 x16 | s27 => DD x50 x17 | s28 => DD x50 x18 | s29 => DD x50 x19 | s30 => DD x50 x20 | s31 => DD x50 x21 | s32 => DD x50 x22 | s33 => DD x50 x23 | s34 => DD x50 x24 | s35 => DD x50 x25 | s36 => DD x50 x26 | s37 => DD x50 x27 | s38 => DD x50 x28 | s39 => DD x50 x29 | s40 => DD x50 x30 | s41 => DD x50 x31 | s42 => DD x50 x32 | s43 => DD x50 x33 | s44 => DD x50 x34 | s45 => DD x50 x35 | s46 => DD x50 x36 | s47 => DD x50 x37 | s48 => DD x50 x38 | s49 => DD x50 x39 | s50 => DD x50 x40 | s51 => DD x50 x41 | s52 => DD x50 x42 | s53 => DD x50 x43 | s54 => DD x50 x44 | s55 => DD x50 x45 | s56 => DD x50 x46 | s57 => DD x50 x47 | s58 => DD x50 x48 | s59 => DD x50 x49 | s60 => DD x50 x50 | s61 => DD x50 x51 | s62 => DD x50 x52 | s63 => DD x50 x53 | s64 => DD x50 x54 | s65 => DD x50 x55 | s66 => DD x50 x56 | s67 => DD x50 x57 | s68 => DD x50 x58 | s69 => DD x50 x59 | s70 => DD x50 x60 | s71 => DD x50 x61 | s72 => DD x50 x62 | s73 => DD x50 x63 | s74 => DD x51 x0 | s75 => DD x51 x1 | s76 => DD x51 x2 | s77 => DD x51 x3 | s78 => DD x51 x4 | s79 => DD x51 x5 | s80 => DD x51 x6 | s81 => DD x51 x7 | s82 => DD x51 x8 | s83 => DD x51 x9 | s84 => DD x51 x10 | s85 => DD x51 x11 | s86 => DD x51 x12 | s87 => DD x51 x13 | s88 => DD x51 x14 | s89 => DD x51 x15 | s90 => DD x51 x16 | s91 => DD x51 x17 | s92 => DD x51 x18 | s93 => DD x51 x19 | s94 => DD x51 x20 | s95 => DD x51 x21 | s96 => DD x51 x22 | s97 => DD x51 x23 | s98 => DD x51 x24 | s99 => DD x51 x25 | s100 => DD x51 x26 | s101 => DD x51 x27 | s102 => DD x51 x28 | s103 => DD x51 x29 | s104 => DD x51 x30 | s105 => DD x51 x31 | s106 => DD x51 x32 | s107 => DD x51 x33 | s108 => DD x51 x34 | s109 => DD x51 x35 | s110 => DD x51 x36 | s111 => DD x51 x37 | s112 => DD x51 x38 | s113 => DD x51 x39 | s114 => DD x51 x40 | s115 => DD x51 x41 | s116 => DD x51 x42 | s117 => DD x51 x43 | s118 => DD x51 x44 | s119 => DD x51 x45 | s120 => DD x51 x46 | s121 => DD x51 x47 | s122 => DD x51 x48 | s123 => DD x51 x49 | s124 => DD x51 x50 | s125 => DD x51 x51 | s126 => DD x51 x52 end.
Definition m3192 (c : sum2) : dd := match c with s0 => DD x49 x56 | s1 => DD x49 x57 | s2 => DD x49 x58 | s3 => DD x49 x59 | s4 => DD x49 x60 | s5 => DD x49 x61 | s6 => DD x49 x62 | s7 => DD x49 x63 | s8 => DD x50 x0 | s9 => DD x50 x1 | s10 => DD x50 x2 | s11 => DD x50 x3 | s12 => DD x50 x4 | s13 => DD x50 x5 | s14 => DD x50 x6 | s15 => DD x50 x7 | s16 => DD x50 x8 | s17 => DD x50 x9 | s18 => DD x50 x10 | s19 => DD x50 x11 | s20 => DD x50 x12 | s21 => DD x50 x13 | s22 => DD x50 x14 | s23 => DD x50 x15 | s24 => DD x50 x16 | s25 => DD x50 x17 | s26 => DD x50 x18 | s27 => DD x50 x19 | s28 => DD x50 x20 | s29 => DD x50 x21 | s30 => DD x50 x22 | s31 => DD x50 x23 | s32 => DD x50 x24 | s33 => DD x50 x25 | s34 => DD x50 x26 | s35 => DD x50 x27 | s36 => DD x50 x28 | s37 => DD x50 x29 | s38 => DD x50 x30 | s39 => DD x50 x31 | s40 => DD x50 x32 | s41 => DD x50 x33 | s42 => DD x50 x34 | s43 => DD x50 x35 | s44 => DD x50 x36 | s45 => DD x50 x37 | s46 => DD x50 x38 | s47 => DD x50 x39 | s48 => DD x50 x40 | s49 => DD x50 x41 | s50 => DD x50 x42 | s51 => DD x50 x43 | s52 => DD x50 x44 | s53 => DD x50 x45 | s54 => DD x50 x46 | s55 => DD x50 x47 | s56 => DD x50 x48 | s57 => DD x50 x49 | s58 => DD x50 x50 | s59 => DD x50 x51 | s60 => DD x50 x52 | s61 => DD x50 x53 | s62 => DD x50 x54 | s63 => DD x50 x55 | s64 => DD x50 x56 | s65 => DD x50 x57 | s66 => DD x50 x58 | s67 => DD x50 x59 | s68 => DD x50 x60 | s69 => DD x50 x61 | s70 => DD x50 x62 | s71 => DD x50 x63 | s72 => DD x51 x0 | s73 => DD x51 x1 | s74 => DD x51 x2 | s75 => DD x51 x3 | s76 => DD x51 x4 | s77 => DD x51 x5 | s78 => DD x51 x6 | s79 => DD x51 x7 | s80 => DD x51 x8 | s81 => DD x51 x9 | s82 => DD x51 x10 | s83 => DD x51 x11 | s84 => DD x51 x12 | s85 => DD x51 x13 | s86 => DD x51 x14 | s87 => DD x51 x15 | s88 => DD x51 x16 | s89 => DD x51 x17 | s90 => DD x51 x18 | s91 => DD x51 x19 | s92 => DD x51 x20 | s93 => DD x51 x21 | s94 => DD x51 x22 | s95 => DD x51 x23 | s96 => DD x51 x24 | s97 => DD x51 x25 | s98 => DD x51 x26 | s99 => DD x51 x27 | s100 => DD x51 x28 | s101 => DD x51 x29 | s102 => DD x51 x30 | s103 => DD x51 x31 | s104 => DD x51 x32 | s105 => DD x51 x33 | s106 => DD x51 x34 | s107 => DD x51 x35 | s108 => DD x51 x36 | s109 => DD x51 x37 | s110 => DD x51 x38 | s111 => DD x51 x39 | s112 => DD x51 x40 | s113 => DD x51 x41 | s114 => DD x51 x42 | s115 => DD x51 x43 | s116 => DD x51 x44 | s117 => DD x51 x45 | s118 => DD x51 x46 | s119 => DD x51 x47 | s120 => DD x51 x48 | s121 => DD x51 x49 | s122 => DD x51 x50 | s123 => DD x51 x51 | s124 => DD x51 x52 | s125 => DD x51 x53 | s126 => DD x51 x54 end.
Definition m3213 (c : sum2) : dd := match c with s0 => DD x50 x13 | s1 => DD x50 x14 | s2 => DD x50 x15 | s3 => DD x50 x16 | s4 => DD x50 x17 | s5 => DD x50 x18 | s6 => DD x50 x19 | s7 => DD x50 x20 | s8 => DD x50 x21 | s9 => DD x50 x22 | s10 => DD x50 x23 | s11 => DD x50 x24 | s12 => DD x50 x25 | s13 => DD x50 x26 | s14 => DD x50 x27 | s15 => DD x50 x28 | s16 => DD x50 x29 | s17 => DD x50 x30 | s18 => DD x50 x31 | s19 => DD x50 x32 | s20 => DD x50 x33 | s21 => DD x50 x34 | s22 => DD x50 x35 | s23 => DD x50 x36 | s24 => DD x50 x37 | s25 => DD x50 x38 | s26 => DD x50 x39 | s27 => DD x50 x40 | s28 => DD x50 x41 | s29 => DD x50 x42 | s30 => DD x50 x43 | s31 => DD x50 x44 | s32 => DD x50 x45 | s33 => DD x50 x46 | s34 => DD x50 x47 | s35 => DD x50 x48 | s36 => DD x50 x49 | s37 => DD x50 x50 | s38 => DD x50 x51 | s39 => DD x50 x52 | s40 => DD x50 x53 | s41 => DD x50 x54 | s42 => DD x50 x55 | s43 => DD x50 x56 | s44 => DD x50 x57 | s45 => DD x50 x58 | s46 => DD x50 x59 | s47 => DD x50 x60 | s48 => DD x50 x61 | s49 => DD x50 x62 | s50 => DD x50 x63 | s51 => DD x51 x0 | s52 => DD x51 x1 | s53 => DD x51 x2 | s54 => DD x51 x3 | s55 => DD x51 x4 | s56 => DD x51 x5 | s57 => DD x51 x6 | s58 => DD x51 x7 | s59 => DD x51 x8 | s60 => DD x51 x9 | s61 => DD x51 x10 | s62 => DD x51 x11 | s63 => DD x51 x12 | s64 => DD x51 x13 | s65 => DD x51 x14 | s66 => DD x51 x15 | s67 => DD x51 x16 | s68 => DD x51 x17 | s69 => DD x51 x18 | s70 => DD x51 x19 | s71 => DD x51 x20 | s72 => DD x51 x21 | s73 => DD x51 x22 | s74 => DD x51 x23 | s75 => DD x51 x24 | s76 => DD x51 x25 | s77 => DD x51 x26 | s78 => DD x51 x27 | s79 => DD x51 x28 | s80 => DD x51 x29 | s81 => DD x51 x30 | s82 => DD x51 x31 | s83 => DD x51 x32 | s84 => DD x51 x33 | s85 => DD x51 x34 | s86 => DD x51 x35 | s87 => DD x51 x36 | s88 => DD x51 x37 | s89 => DD x51 x38 | s90 => DD x51 x39 | s91 => DD x51 x40 | s92 => DD x51 x41 | s93 => DD x51 x42 | s94 => DD x51 x43 | s95 => DD x51 x44 | s96 => DD x51 x45 | s97 => DD x51 x46 | s98 => DD x51 x47 | s99 => DD x51 x48 | s100 => DD x51 x49 | s101 => DD x51 x50 | s102 => DD x51 x51 | s103 => DD x51 x52 | s104 => DD x51 x53 | s105 => DD x51 x54 | s106 => DD x51 x55 | s107 => DD x51 x56 | s108 => DD x51 x57 | s109 => DD x51 x58 | s110 => DD x51 x59 | s111 => DD x51 x60 | s112 => DD x51 x61 | s113 => DD x51 x62 | s114 => DD x51 x63 | s115 => DD x52 x0 | s116 => DD x52 x1 | s117 => DD x52 x2 | s118 => DD x52 x3 | s119 => DD x52 x4 | s120 => DD x52 x5 | s121 => DD x52 x6 | s122 => DD x52 x7 | s123 => DD x52 x8 | s124 => DD x52 x9 | s125 => DD x52 x10 | s126 => DD x52 x11 end.
Definition m3224 (c : sum2) : dd := match c with s0 => DD x50 x24 | s1 => DD x50 x25 | s2 => DD x50 x26 | s3 => DD x50 x27 | s4 => DD x50 x28 | s5 => DD x50 x29 | s6 => DD x50 x30 | s7 => DD x50 x31 | s8 => DD x50 x32 | s9 => DD x50 x33 | s10 => DD x50 x34 | s11 => DD x50 x35 | s12 => DD x50 x36 | s13 => DD x50 x37 | s14 => DD x50 x38 | s15 => DD x50 x39 | s16 => DD x50 x40 | s17 => DD x50 x41 | s18 => DD x50 x42 | s19 => DD x50 x43 | s20 => DD x50 x44 | s21 => DD x50 x45 | s22 => DD x50 x46 | s23 => DD x50 x47 | s24 => DD x50 x48 | s25 => DD x50 x49 | s26 => DD x50 x50 | s27 => DD x50 x51 | s28 => DD x50 x52 | s29 => DD x50 x53 | s30 => DD x50 x54 | s31 => DD x50 x55 | s32 => DD x50 x56 | s33 => DD x50 x57 | s34 => DD x50 x58 | s35 => DD x50 x59 | s36 => DD x50 x60 | s37 => DD x50 x61 | s38 => DD x50 x62 | s39 => DD x50 x63 | s40 => DD x51 x0 | s41 => DD x51 x1 | s42 => DD x51 x2 | s43 => DD x51 x3 | s44 => DD x51 x4 | s45 => DD x51 x5 | s46 => DD x51 x6 | s47 => DD x51 x7 | s48 => DD x51 x8 | s49 => DD x51 x9 | s50 => DD x51 x10 | s51 => DD x51 x11 | s52 => DD x51 x12 | s53 => DD x51 x13 | s54 => DD x51 x14 | s55 => DD x51 x15 | s56 => DD x51 x16 | s57 => DD x51 x17 | s58 => DD x51 x18 | s59 => DD x51 x19 | s60 => DD x51 x20 | s61 => DD x51 x21 | s62 => DD x51 x22 | s63 => DD x51 x23 | s64 => DD x51 x24 | s65 => DD x51 x25 | s66 => DD x51 x26 | s67 => DD x51 x27 | s68 => DD x51 x28 | s69 => DD x51 x29 | s70 => DD x51 x30 | s71 => DD x51 x31 | s72 => DD x51 x32 | s73 => DD x51 x33 | s74 => DD x51 x34 | s75 => DD x51 x35 | s76 => DD x51 x36 | s77 => DD x51 x37 | s78 => DD x51 x38 | s79 => DD x51 x39 | s80 => DD x51 x40 | s81 => DD x51 x41 | s82 => DD x51 x42 | s83 => DD x51 x43 | s84 => DD x51 x44 | s85 => DD x51 x45 | s86 => DD x51 x46 | s87 => DD x51 x47 | s88 => DD x51 x48 | s89 => DD x51 x49 | s90 => DD x51 x50 | s91 => DD x51 x51 | s92 => DD x51 x52 | s93 => DD x51 x53 | s94 => DD x51 x54 | s95 => DD x51 x55 | s96 => DD x51 x56 | s97 => DD x51 x57 | s98 => DD x51 x58 | s99 => DD x51 x59 | s100 => DD x51 x60 | s101 => DD x51 x61 | s102 => DD x51 x62 | s103 => DD x51 x63 | s104 => DD x52 x0 | s105 => DD x52 x1 | s106 => DD x52 x2 | s107 => DD x52 x3 | s108 => DD x52 x4 | s109 => DD x52 x5 | s110 => DD x52 x6 | s111 => DD x52 x7 | s112 => DD x52 x8 | s113 => DD x52 x9 | s114 => DD x52 x10 | s115 => DD x52 x11 | s116 => DD x52 x12 | s117 => DD x52 x13 | s118 => DD x52 x14 | s119 => DD x52 x15 | s120 => DD x52 x16 | s121 => DD x52 x17 | s122 => DD x52 x18 | s123 => DD x52 x19 | s124 => DD x52 x20 | s125 => DD x52 x21 | s126 => DD x52 x22 end.
Definition m3233 (c : sum2) : dd := match c with s0 => DD x50 x33 | s1 => DD x50 x34 | s2 => DD x50 x35 | s3 => DD x50 x36 | s4 => DD x50 x37 | s5 => DD x50 x38 | s6 => DD x50 x39 | s7 => DD x50 x40 | s8 => DD x50 x41 | s9 => DD x50 x42 | s10 => DD x50 x43 | s11 => DD x50 x44 | s12 => DD x50 x45 | s13 => DD x50 x46 | s14 => DD x50 x47 | s15 => DD x50 x48 | s16 => DD x50 x49 | s17 => DD x50 x50 | s18 => DD x50 x51 | s19 => DD x50 x52 | s20 => DD x50 x53 | s21 => DD x50 x54 | s22 => DD x50 x55 | s23 => DD x50 x56 | s24 => DD x50 x57 | s25 => DD x50 x58 | s26 => DD x50 x59 | s27 => DD x50 x60 | s28 => DD x50 x61 | s29 => DD x50 x62 | s30 => DD x50 x63 | s31 => DD x51 x0 | s32 => DD x51 x1 | s33 => DD x51 x2 | s34 => DD x51 x3 | s35 => DD x51 x4 | s36 => DD x51 x5 | s37 => DD x51 x6 | s38 => DD x51 x7 | s39 => DD x51 x8 | s40 => DD x51 x9 | s41 => DD x51 x10 | s42 => DD x51 x11 | s43 => DD x51 x12 | s44 => DD x51 x13 | s45 => DD x51 x14 | s46 => DD x51 x15 | s47 => DD x51 x16 | s48 => DD x51 x17 | s49 => DD x51 x18 | s50 => DD x51 x19 | s51 => DD x51 x20 | s52 => DD x51 x21 | s53 => DD x51 x22 | s54 => DD x51 x23 | s55 => DD x51 x24 | s56 => DD x51 x25 | s57 => DD x51 x26 | s58 => DD x51 x27 | s59 => DD x51 x28 | s60 => DD x51 x29 | s61 => DD x51 x30 | s62 => DD x51 x31 | s63 => DD x51 x32 | s64 => DD x51 x33 | s65 => DD x51 x34 | s66 => DD x51 x35 | s67 => DD x51 x36 | s68 => DD x51 x37 | s69 => DD x51 x38 | s70 => DD x51 x39 | s71 => DD x51 x40 | s72 => DD x51 x41 | s73 => DD x51 x42 | s74 => DD x51 x43 | s75 => DD x51 x44 | s76 => DD x51 x45 | s77 => DD x51 x46 | s78 => DD x51 x47 | s79 => DD x51 x48 | s80 => DD x51 x49 | s81 => DD x51 x50 | s82 => DD x51 x51 | s83 => DD x51 x52 | s84 => DD x51 x53 | s85 => DD x51 x54 | s86 => DD x51 x55 | s87 => DD x51 x56 | s88 => DD x51 x57 | s89 => DD x51 x58 | s90 => DD x51 x59 | s91 => DD x51 x60 | s92 => DD x51 x61 | s93 => DD x51 x62 | s94 => DD x51 x63 | s95 => DD x52 x0 | s96 => DD x52 x1 | s97 => DD x52 x2 | s98 => DD x52 x3 | s99 => DD x52 x4 | s100 => DD x52 x5 | s101 => DD x52 x6 | s102 => DD x52 x7 | s103 => DD x52 x8 | s104 => DD x52 x9 | s105 => DD x52 x10 | s106 => DD x52 x11 | s107 => DD x52 x12 | s108 => DD x52 x13 | s109 => DD x52 x14 | s110 => DD x52 x15 | s111 => DD x52 x16 | s112 => DD x52 x17 | s113 => DD x52 x18 | s114 => DD x52 x19 | s115 => DD x52 x20 | s116 => DD x52 x21 | s117 => DD x52 x22 | s118 => DD x52 x23 | s119 => DD x52 x24 | s120 => DD x52 x25 | s121 => DD x52 x26 | s122 => DD x52 x27 | s123 => DD x52 x28 | s124 => DD x52 x29 | s125 => DD x52 x30 | s126 => DD x52 x31 end.
Definition m3240 (c : sum2) : dd := match c with s0 => DD x50 x40 | s1 => DD x50 x41 | s2 => DD x50 x42 | s3 => DD x50 x43 | s4 => DD x50 x44 | s5 => DD x50 x45 | s6 => DD x50 x46 | s7 => DD x50 x47 | s8 => DD x50 x48 | s9 => DD x50 x49 | s10 => DD x50 x50 | s11 => DD x50 x51 | s12 => DD x50 x52 | s13 => DD x50 x53 | s14 => DD x50 x54 | s15 => DD x50 x55 | s16 => DD x50 x56 | s17 => DD x50 x57 | s18 => DD x50 x58 | s19 => DD x50 x59 | s20 => DD x50 x60 | s21 => DD x50 x61 | s22 => DD x50 x62 | s23 => DD x50 x63 | s24 => DD x51 x0 | s25 => DD x51 x1 | s26 => DD x51 x2 | s27 => DD x51 x3 | s28 => DD x51 x4 | s29 => DD x51 x5 | s30 => DD x51 x6 | s31 => DD x51 x7 | s32 => DD x51 x8 | s33 => DD x51 x9 | s34 => DD x51 x10 | s35 => DD x51 x11 | s36 => DD x51 x12 | s37 => DD x51 x13 | s38 => DD x51 x14 | s39 => DD x51 x15 | s40 => DD x51 x16 | s41 => DD x51 x17 | s42 => DD x51 x18 | s43 => DD x51 x19 | s44 => DD x51 x20 | s45 => DD x51 x21 | s46 => DD x51 x22 | s47 => DD x51 x23 | s48 => DD x51 x24 | s49 => DD x51 x25 | s50 => DD x51 x26 | s51 => DD x51 x27 | s52 => DD x51 x28 | s53 => DD x51 x29 | s54 => DD x51 x30 | s55 => DD x51 x31 | s56 => DD x51 x32 | s57 => DD x51 x33 | s58 => DD x51 x34 | s59 => DD x51 x35 | s60 => DD x51 x36 | s61 => DD x51 x37 | s62 => DD x51 x38 | s63 => DD x51 x39 | s64 => DD x51 x40 | s65 => DD x51 x41 | s66 => DD x51 x42 | s67 => DD x51 x43 | s68 => DD x51 x44 | s69 => DD x51 x45 | s70 => DD x51 x46 | s71 => DD x51 x47 | s72 => DD x51 x48 | s73 => DD x51 x49 | s74 => DD x51 x50 | s75 => DD x51 x51 | s76 => DD x51 x52 | s77 => DD x51 x53 | s78 => DD x51 x54 | s79 => DD x51 x55 | s80 => DD x51 x56 | s81 => DD x51 x57 | s82 => DD x51 x58 | s83 => DD x51 x59 | s84 => DD x51 x60 | s85 => DD x51 x61 | s86 => DD x51 x62 | s87 => DD x51 x63 | s88 => DD x52 x0 | s89 => DD x52 x1 | s90 => DD x52 x2 | s91 => DD x52 x3 | s92 => DD x52 x4 | s93 => DD x52 x5 | s94 => DD x52 x6 | s95 => DD x52 x7 | s96 => DD x52 x8 | s97 => DD x52 x9 | s98 => DD x52 x10 | s99 => DD x52 x11 | s100 => DD x52 x12 | s101 => DD x52 x13 | s102 => DD x52 x14 | s103 => DD x52 x15 | s104 => DD x52 x16 | s105 => DD x52 x17 | s106 => DD x52 x18 | s107 => DD x52 x19 | s108 => DD x52 x20 | s109 => DD x52 x21 | s110 => DD x52 x22 | s111 => DD x52 x23 | s112 => DD x52 x24 | s113 => DD x52 x25 | s114 => DD x52 x26 | s115 => DD x52 x27 | s116 => DD x52 x28 | s117 => DD x52 x29 | s118 => DD x52 x30 | s119 => DD x52 x31 | s120 => DD x52 x32 | s121 => DD x52 x33 | s122 => DD x52 x34 | s123 => DD x52 x35 | s124 => DD x52 x36 | s125 => DD x52 x37 | s126 => DD x52 x38 end.
Definition m3245 (c : sum2) : dd := match c with s0 => DD x50 x45 | s1 => DD x50 x46 | s2 => DD x50 x47 | s3 => DD x50 x48 | s4 => DD x50 x49 | s5 => DD x50 x50 | s6 => DD x50 x51 | s7 => DD x50 x52 | s8 => DD x50 x53 | s9 => DD x50 x54 | s10 => DD x50 x55 | s11 => DD x50 x56 | s12 => DD x50 x57 | s13 => DD x50 x58 | s14 => DD x50 x59 | s15 => DD x50 x60 | s16 => DD x50 x61 | s17 => DD x50 x62 | s18 => DD x50 x63 | s19 => DD x51 x0 | s20 => DD x51 x1 | s21 => DD x51 x2 | s22 => DD x51 x3 | s23 => DD x51 x4 | s24 => DD x51 x5 | s25 => DD x51 x6 | s26 => DD x51 x7 | s27 => DD x51 x8 | s28 => DD x51 x9 | s29 => DD x51 x10 | s30 => DD x51 x11 | s31 => DD x51 x12 | s32 => DD x51 x13 | s33 => DD x51 x14 | s34 => DD x51 x15 | s35 => DD x51 x16 | s36 => DD x51 x17 | s37 => DD x51 x18 | s38 => DD x51 x19 | s39 => DD x51 x20 | s40 => DD x51 x21 | s41 => DD x51 x22 | s42 => DD x51 x23 | s43 => DD x51 x24 | s44 => DD x51 x25 | s45 => DD x51 x26 | s46 => DD x51 x27 | s47 => DD x51 x28 | s48 => DD x51 x29 | s49 => DD x51 x30 | s50 => DD x51 x31 | s51 => DD x51 x32 | s52 => DD x51 x33 | s53 => DD x51 x34 | s54 => DD x51 x35 | s55 => DD x51 x36 | s56 => DD x51 x37 | s57 => DD x51 x38 | s58 => DD x51 x39 | s59 => DD x51 x40 | s60 => DD x51 x41 | s61 => DD x51 x42 | s62 => DD x51 x43 | s63 => DD x51 x44 | s64 => DD x51 x45 | s65 => DD x51 x46 | s66 => DD x51 x47 | s67 => DD x51 x48 | s68 => DD x51 x49 | s69 => DD x51 x50 | s70 => DD x51 x51 | s71 => DD x51 x52 | s72 => DD x51 x53 | s73 => DD x51 x54 | s74 => DD x51 x55 | s75 => DD x51 x56 | s76 => DD x51 x57 | s77 => DD x51 x58 | s78 => DD x51 x59 | s79 => DD x51 x60 | s80 => DD x51 x61 | s81 => DD x51 x62 | s82 => DD x51 x63 | s83 => DD x52 x0 | s84 => DD x52 x1 | s85 => DD x52 x2 | s86 => DD x52 x3 | s87 => DD x52 x4 | s88 => DD x52 x5 | s89 => DD x52 x6 | s90 => DD x52 x7 | s91 => DD x52 x8 | s92 => DD x52 x9 | s93 => DD x52 x10 | s94 => DD x52 x11 | s95 => DD x52 x12 | s96 => DD x52 x13 | s97 => DD x52 x14 | s98 => DD x52 x15 | s99 => DD x52 x16 | s100 => DD x52 x17 | s101 => DD x52 x18 | s102 => DD x52 x19 | s103 => DD x52 x20 | s104 => DD x52 x21 | s105 => DD x52 x22 | s106 => DD x52 x23 | s107 => DD x52 x24 | s108 => DD x52 x25 | s109 => DD x52 x26 | s110 => DD x52 x27 | s111 => DD x52 x28 | s112 => DD x52 x29 | s113 => DD x52 x30 | s114 => DD x52 x31 | s115 => DD x52 x32 | s116 => DD x52 x33 | s117 => DD x52 x34 | s118 => DD x52 x35 | s119 => DD x52 x36 | s120 => DD x52 x37 | s121 => DD x52 x38 | s122 => DD x52 x39 | s123 => DD x52 x40 | s124 => DD x52 x41 | s125 => DD x52 x42 | s126 => DD x52 x43 end.
Definition m3248 (c : sum2) : dd := match c with s0 => DD x50 x48 | s1 => DD x50 x49 | s2 => DD x50 x50 | s3 => DD x50 x51 | s4 => DD x50 x52 | s5 => DD x50 x53 | s6 => DD x50 x54 | s7 => DD x50 x55 | s8 => DD x50 x56 | s9 => DD x50 x57 | s10 => DD x50 x58 | s11 => DD x50 x59 | s12 => DD x50 x60 | s13 => DD x50 x61 | s14 => DD x50 x62 | s15 => DD x50 x63 | s16 => DD x51 x0 | s17 => DD x51 x1 | s18 => DD x51 x2 | s19 => DD x51 x3 | s20 => DD x51 x4 | s21 => DD x51 x5 | s22 => DD x51 x6 | s23 => DD x51 x7 | s24 => DD x51 x8 | s25 => DD x51 x9 | s26 => DD x51 x10 | s27 => DD x51 x11 | s28 => DD x51 x12 | s29 => DD x51 x13 | s30 => DD x51 x14 | s31 => DD x51 x15 | s32 => DD x51 x16 | s33 => DD x51 x17 | s34 => DD x51 x18 | s35 => DD x51 x19 | s36 => DD x51 x20 | s37 => DD x51 x21 | s38 => DD x51 x22 | s39 => DD x51 x23 | s40 => DD x51 x24 | s41 => DD x51 x25 | s42 => DD x51 x26 | s43 => DD x51 x27 | s44 => DD x51 x28 | s45 => DD x51 x29 | s46 => DD x51 x30 | s47 => DD x51 x31 | s48 => DD x51 x32 | s49 => DD x51 x33 | s50 => DD x51 x34 | s51 => DD x51 x35 | s52 => DD x51 x36 | s53 => DD x51 x37 | s54 => DD x51 x38 | s55 => DD x51 x39 | s56 => DD x51 x40 | s57 => DD x51 x41 | s58 => DD x51 x42 | s59 => DD x51 x43 | s60 => DD x51 x44 | s61 => DD x51 x45 | s62 => DD x51 x46 | s63 => DD x51 x47 | s64 => DD x51 x48 | s65 => DD x51 x49 | s66 => DD x51 x50 | s67 => DD x51 x51 | s68 => DD x51 x52 | s69 => DD x51 x53 | s70 => DD x51 x54 | s71 => DD x51 x55 | s72 => DD x51 x56 | s73 => DD x51 x57 | s74 => DD x51 x58 | s75 => DD x51 x59 | s76 => DD x51 x60 | s77 => DD x51 x61 | s78 => DD x51 x62 | s79 => DD x51 x63 | s80 => DD x52 x0 | s81 => DD x52 x1 | s82 => DD x52 x2 | s83 => DD x52 x3 | s84 => DD x52 x4 | s85 => DD x52 x5 | s86 => DD x52 x6 | s87 => DD x52 x7 | s88 => DD x52 x8 | s89 => DD x52 x9 | s90 => DD x52 x10 | s91 => DD x52 x11 | s92 => DD x52 x12 | s93 => DD x52 x13 | s94 => DD x52 x14 | s95 => DD x52 x15 | s96 => DD x52 x16 | s97 => DD x52 x17 | s98 => DD x52 x18 | s99 => DD x52 x19 | s100 => DD x52 x20 | s101 => DD x52 x21 | s102 => DD x52 x22 | s103 => DD x52 x23 | s104 => DD x52 x24 | s105 => DD x52 x25 | s106 => DD x52 x26 | s107 => DD x52 x27 | s108 => DD x52 x28 | s109 => DD x52 x29 | s110 => DD x52 x30 | s111 => DD x52 x31 | s112 => DD x52 x32 | s113 => DD x52 x33 | s114 => DD x52 x34 | s115 => DD x52 x35 | s116 => DD x52 x36 | s117 => DD x52 x37 | s118 => DD x52 x38 | s119 => DD x52 x39 | s120 => DD x52 x40 | s121 => DD x52 x41 | s122 => DD x52 x42 | s123 => DD x52 x43 | s124 => DD x52 x44 | s125 => DD x52 x45 | s126 => DD x52 x46 end.
Definition m3249 (c : sum2) : dd := match c with s0 => DD x50 x49 | s1 => DD x50 x50 | s2 => DD x50 x51 | s3 => DD x50 x52 | s4 => DD x50 x53 | s5 => DD x50 x54 | s6 => DD x50 x55 | s7 => DD x50 x56 | s8 => DD x50 x57 | s9 => DD x50 x58 | s10 => DD x50 x59 | s11 => DD x50 x60 | s12 => DD x50 x61 | s13 => DD x50 x62 | s14 => DD x50 x63 | s15 => DD x51 x0 | s16 => DD x51 x1 | s17 => DD x51 x2 | s18 => DD x51 x3 | s19 => DD x51 x4 | s20 => DD x51 x5 | s21 => DD x51 x6 | s22 => DD x51 x7 | s23 => DD x51 x8 | s24 => DD x51 x9 | s25 => DD x51 x10 | s26 => DD x51 x11 | s27 => DD x51 x12 | s28 => DD x51 x13 | s29 => DD x51 x14 | s30 => DD x51 x15 | s31 => DD x51 x16 | s32 => DD x51 x17 | s33 => DD x51 x18 | s34 => DD x51 x19 | s35 => DD x51 x20 | s36 => DD x51 x21 | s37 => DD x51 x22 | s38 => DD x51 x23 | s39 => DD x51 x24 | s40 => DD x51 x25 | s41 => DD x51 x26 | s42 => DD x51 x27 | s43 => DD x51 x28 | s44 => DD x51 x29 | s45 => DD x51 x30 | s46 => DD x51 x31 | s47 => DD x51 x32 | s48 => DD x51 x33 | s49 => DD x51 x34 | s50 => DD x51 x35 | s51 => DD x51 x36 | s52 => DD x51 x37 | s53 => DD x51 x38 | s54 => DD x51 x39 | s55 => DD x51 x40 | s56 => DD x51 x41 | s57 => DD x51 x42 | s58 => DD x51 x43 | s59 => DD x51 x44 | s60 => DD x51 x45 | s61 => DD x51 x46 | s62 => DD x51 x47 | s63 => DD x51 x48 | s64 => DD x51 x49 | s65 => DD x51 x50 | s66 => DD x51 x51 | s67 => DD x51 x52 | s68 => DD x51 x53 | s69 => DD x51 x54 | s70 => DD x51 x55 | s71 => DD x51 x56 | s72 => DD x51 x57 | s73 => DD x51 x58 | s74 => DD x51 x59 | s75 => DD x51 x60 | s76 => DD x51 x61 | s77 => DD x51 x62 | s78 => DD x51 x63 | s79 => DD x52 x0 | s80 => DD x52 x1 | s81 => DD x52 x2 | s82 => DD x52 x3 | s83 => DD x52 x4 | s84 => DD x52 x5 | s85 => DD x52 x6 | s86 => DD x52 x7 | s87 => DD x52 x8 | s88 => DD x52 x9 | s89 => DD x52 x10 | s90 => DD x52 x11 | s91 => DD x52 x12 | s92 => DD x52 x13 | s93 => DD x52 x14 | s94 => DD x52 x15 | s95 => DD x52 x16 | s96 => DD x52 x17 | s97 => DD x52 x18 | s98 => DD x52 x19 | s99 => DD x52 x20 | s100 => DD x52 x21 | s101 => DD x52 x22 | s102 => DD x52 x23 | s103 => DD x52 x24 | s104 => DD x52 x25 | s105 => DD x52 x26 | s106 => DD x52 x27 | s107 => DD x52 x28 | s108 => DD x52 x29 | s109 => DD x52 x30 | s110 => DD x52 x31 | s111 => DD x52 x32 | s112 => DD x52 x33 | s113 => DD x52 x34 | s114 => DD x52 x35 | s115 => DD x52 x36 | s116 => DD x52 x37 | s117 => DD x52 x38 | s118 => DD x52 x39 | s119 => DD x52 x40 | s120 => DD x52 x41 | s121 => DD x52 x42 | s122 => DD x52 x43 | s123 => DD x52 x44 | s124 => DD x52 x45 | s125 => DD x52 x46 | s126 => DD x52 x47 end.
Definition m3276 (c : sum2) : dd := match c with s0 => DD x51 x12 | s1 => DD x51 x13 | s2 => DD x51 x14 | s3 => DD x51 x15 | s4 => DD x51 x16 | s5 => DD x51 x17 | s6 => DD x51 x18 | s7 => DD x51 x19 | s8 => DD x51 x20 | s9 => DD x51 x21 | s10 => DD x51 x22 | s11 => DD x51 x23 | s12 => DD x51 x24 | s13 => DD x51 x25 | s14 => DD x51 x26 | s15 => DD x51 x27 | s16 => DD x51 x28 | s17 => DD x51 x29 | s18 => DD x51 x30 | s19 => DD x51 x31 | s20 => DD x51 x32 | s21 => DD x51 x33 | s22 => DD x51 x34 | s23 => DD x51 x35 | s24 => DD x51 x36 | s25 => DD x51 x37 | s26 => DD x51 x38 | s27 => DD x51 x39 | s28 => DD x51 x40 | s29 => DD x51 x41 | s30 => DD x51 x42 | s31 => DD x51 x43 | s32 => DD x51 x44 | s33 => DD x51 x45 | s34 => DD x51 x46 | s35 => DD x51 x47 | s36 => DD x51 x48 | s37 => DD x51 x49 | s38 => DD x51 x50 | s39 => DD x51 x51 | s40 => DD x51 x52 | s41 => DD x51 x53 | s42 => DD x51 x54 | s43 => DD x51 x55 | s44 => DD x51 x56 | s45 => DD x51 x57 | s46 => DD x51 x58 | s47 => DD x51 x59 | s48 => DD x51 x60 | s49 => DD x51 x61 | s50 => DD x51 x62 | s51 => DD x51 x63 | s52 => DD x52 x0 | s53 => DD x52 x1 | s54 => DD x52 x2 | s55 => DD x52 x3 | s56 => DD x52 x4 | s57 => DD x52 x5 | s58 => DD x52 x6 | s59 => DD x52 x7 | s60 => DD x52 x8 | s61 => DD x52 x9 | s62 => DD x52 x10 | s63 => DD x52 x11 | s64 => DD x52 x12 | s65 => DD x52 x13 | s66 => DD x52 x14 | s67 => DD x52 x15 | s68 => DD x52 x16 | s69 => DD x52 x17 | s70 => DD x52 x18 | s71 => DD x52 x19 | s72 => DD x52 x20 | s73 => DD x52 x21 | s74 => DD x52 x22 | s75 => DD x52 x23 | s76 => DD x52 x24 | s77 => DD x52 x25 | s78 => DD x52 x26 | s79 => DD x52 x27 | s80 => DD x52 x28 | s81 => DD x52 x29 | s82 => DD x52 x30 | s83 => DD x52 x31 | s84 => DD x52 x32 | s85 => DD x52 x33 | s86 => DD x52 x34 | s87 => DD x52 x35 | s88 => DD x52 x36 | s89 => DD x52 x37 | s90 => DD x52 x38 | s91 => DD x52 x39 | s92 => DD x52 x40 | s93 => DD x52 x41 | s94 => DD x52 x42 | s95 => DD x52 x43 | s96 => DD x52 x44 | s97 => DD x52 x45 | s98 => DD x52 x46 | s99 => DD x52 x47 | s100 => DD x52 x48 | s101 => DD x52 x49 | s102 => DD x52 x50 | s103 => DD x52 x51 | s104 => DD x52 x52 | s105 => DD x52 x53 | s106 => DD x52 x54 | s107 => DD x52 x55 | s108 => DD x52 x56 | s109 => DD x52 x57 | s110 => DD x52 x58 | s111 => DD x52 x59 | s112 => DD x52 x60 | s113 => DD x52 x61 | s114 => DD x52 x62 | s115 => DD x52 x63 | s116 => DD x53 x0 | s117 => DD x53 x1 | s118 => DD x53 x2 | s119 => DD x53 x3 | s120 => DD x53 x4 | s121 => DD x53 x5 | s122 => DD x53 x6 | s123 => DD x53 x7 | s124 => DD x53 x8 | s125 => DD x53 x9 | s126 => DD x53 x10 end.
Definition m3286 (c : sum2) : dd := match c with s0 => DD x51 x22 | s1 => DD x51 x23 | s2 => DD x51 x24 | s3 => DD x51 x25 | s4 => DD x51 x26 | s5 => DD x51 x27 | s6 => DD x51 x28 | s7 => DD x51 x29 | s8 => DD x51 x30 | s9 => DD x51 x31 | s10 => DD x51 x32 | s11 => DD x51 x33 | s12 => DD x51 x34 | s13 => DD x51 x35 | s14 => DD x51 x36 | s15 => DD x51 x37 | s16 => DD x51 x38 | s17 => DD x51 x39 | s18 => DD x51 x40 | s19 => DD x51 x41 | s20 => DD x51 x42 | s21 => DD x51 x43 | s22 => DD x51 x44 | s23 => DD x51 x45 | s24 => DD x51 x46 | s25 => DD x51 x47 | s26 => DD x51 x48 | s27 => DD x51 x49 | s28 => DD x51 x50 | s29 => DD x51 x51 | s30 => DD x51 x52 | s31 => DD x51 x53 | s32 => DD x51 x54 | s33 => DD x51 x55 | s34 => DD x51 x56 | s35 => DD x51 x57 | s36 => DD x51 x58 | s37 => DD x51 x59 | s38 => DD x51 x60 | s39 => DD x51 x61 | s40 => DD x51 x62 | s41 => DD x51 x63 | s42 => DD x52 x0 | s43 => DD x52 x1 | s44 => DD x52 x2 | s45 => DD x52 x3 | s46 => DD x52 x4 | s47 => DD x52 x5 | s48 => DD x52 x6 | s49 => DD x52 x7 | s50 => DD x52 x8 | s51 => DD x52 x9 | s52 => DD x52 x10 | s53 => DD x52 x11 | s54 => DD x52 x12 | s55 => DD x52 x13 | s56 => DD x52 x14 | s57 => DD x52 x15 | s58 => DD x52 x16 | s59 => DD x52 x17 | s60 => DD x52 x18 | s61 => DD x52 x19 | s62 => DD x52 x20 | s63 => DD x52 x21 | s64 => DD x52 x22 | s65 => DD x52 x23 | s66 => DD x52 x24 | s67 => DD x52 x25 | s68 => DD x52 x26 | s69 => DD x52 x27 | s70 => DD x52 x28 | s71 => DD x52 x29 | s72 => DD x52 x30 | s73 => DD x52 x31 | s74 => DD x52 x32 | s75 => DD x52 x33 | s76 => DD x52 x34 | s77 => DD x52 x35 | s78 => DD x52 x36 | s79 => DD x52 x37 | s80 => DD x52 x38 | s81 => DD x52 x39 | s82 => DD x52 x40 | s83 => DD x52 x41 | s84 => DD x52 x42 | s85 => DD x52 x43 | s86 => DD x52 x44 | s87 => DD x52 x45 | s88 => DD x52 x46 | s89 => DD x52 x47 | s90 => DD x52 x48 | s91 => DD x52 x49 | s92 => DD x52 x50 | s93 => DD x52 x51 | s94 => DD x52 x52 | s95 => DD x52 x53 | s96 => DD x52 x54 | s97 => DD x52 x55 | s98 => DD x52 x56 | s99 => DD x52 x57 | s100 => DD x52 x58 | s101 => DD x52 x59 | s102 => DD x52 x60 | s103 => DD x52 x61 | s104 => DD x52 x62 | s105 => DD x52 x63 | s106 => DD x53 x0 | s107 => DD x53 x1 | s108 => DD x53 x2 | s109 => DD x53 x3 | s110 => DD x53 x4 | s111 => DD x53 x5 | s112 => DD x53 x6 | s113 => DD x53 x7 | s114 => DD x53 x8 | s115 => DD x53 x9 | s116 => DD x53 x10 | s117 => DD x53 x11 | s118 => DD x53 x12 | s119 => DD x53 x13 | s120 => DD x53 x14 | s121 => DD x53 x15 | s122 => DD x53 x16 | s123 => DD x53 x17 | s124 => DD x53 x18 | s125 => DD x53 x19 | s126 => DD x53 x20 end.
Definition m3294 (c : sum2) : dd := match c with s0 => DD x51 x30 | s1 => DD x51 x31 | s2 => DD x51 x32 | s3 => DD x51 x33 | s4 => DD x51 x34 | s5 => DD x51 x35 | s6 => DD x51 x36 | s7 => DD x51 x37 | s8 => DD x51 x38 | s9 => DD x51 x39 | s10 => DD x51 x40 | s11 => DD x51 x41 | s12 => DD x51 x42 | s13 => DD x51 x43 | s14 => DD x51 x44 | s15 => DD x51 x45 | s16 => DD x51 x46 | s17 => DD x51 x47 | s18 => DD x51 x48 | s19 => DD x51 x49 | s20 => DD x51 x50 | s21 => DD x51 x51 | s22 => DD x51 x52 | s23 => DD x51 x53 | s24 => DD x51 x54 | s25 => DD x51 x55 | s26 => DD x51 x56 | s27 => DD x51 x57 | s28 => DD x51 x58 | s29 => DD x51 x59 | s30 => DD x51 x60 | s31 => DD x51 x61 | s32 => DD x51 x62 | s33 => DD x51 x63 | s34 => DD x52 x0 | s35 => DD x52 x1 | s36 => DD x52 x2 | s37 => DD x52 x3 | s38 => DD x52 x4 | s39 => DD x52 x5 | s40 => DD x52 x6 | s41 => DD x52 x7 | s42 => DD x52 x8 | s43 => DD x52 x9 | s44 => DD x52 x10 | s45 => DD x52 x11 | s46 => DD x52 x12 | s47 => DD x52 x13 | s48 => DD x52 x14 | s49 => DD x52 x15 | s50 => DD x52 x16 | s51 => DD x52 x17 | s52 => DD x52 x18 | s53 => DD x52 x19 | s54 => DD x52 x20 | s55 => DD x52 x21 | s56 => DD x52 x22 | s57 => DD x52 x23 | s58 => DD x52 x24 | s59 => DD x52 x25 | s60 => DD x52 x26 | s61 => DD x52 x27 | s62 => DD x52 x28 | s63 => DD x52 x29 | s64 => DD x52 x30 | s65 => DD x52 x31 | s66 => DD x52 x32 | s67 => DD x52 x33 | s68 => DD x52 x34 | s69 => DD x52 x35 | s70 => DD x52 x36 | s71 => DD x52 x37 | s72 => DD x52 x38 | s73 => DD x52 x39 | s74 => DD x52 x40 | s75 => DD x52 x41 | s76 => DD x52 x42 | s77 => DD x52 x43 | s78 => DD x52 x44 | s79 => DD x52 x45 | s80 => DD x52 x46 | s81 => DD x52 x47 | s82 => DD x52 x48 | s83 => DD x52 x49 | s84 => DD x52 x50 | s85 => DD x52 x51 | s86 => DD x52 x52 | s87 => DD x52 x53 | s88 => DD x52 x54 | s89 => DD x52 x55 | s90 => DD x52 x56 | s91 => DD x52 x57 | s92 => DD x52 x58 | s93 => DD x52 x59 | s94 => DD x52 x60 | s95 => DD x52 x61 | s96 => DD x52 x62 | s97 => DD x52 x63 | s98 => DD x53 x0 | s99 => DD x53 x1 | s100 => DD x53 x2 | s101 => DD x53 x3 | s102 => DD x53 x4 | s103 => DD x53 x5 | s104 => DD x53 x6 | s105 => DD x53 x7 | s106 => DD x53 x8 | s107 => DD x53 x9 | s108 => DD x53 x10 | s109 => DD x53 x11 | s110 => DD x53 x12 | s111 => DD x53 x13 | s112 => DD x53 x14 | s113 => DD x53 x15 | s114 => DD x53 x16 | s115 => DD x53 x17 | s116 => DD x53 x18 | s117 => DD x53 x19 | s118 => DD x53 x20 | s119 => DD x53 x21 | s120 => DD x53 x22 | s121 => DD x53 x23 | s122 => DD x53 x24 | s123 => DD x53 x25 | s124 => DD x53 x26 | s125 => DD x53 x27 | s126 => DD x53 x28 end.
Definition m3300 (c : sum2) : dd := match c with s0 => DD x51 x36 | s1 => DD x51 x37 | s2 => DD x51 x38 | s3 => DD x51 x39 | s4 => DD x51 x40 | s5 => DD x51 x41 | s6 => DD x51 x42 | s7 => DD x51 x43 | s8 => DD x51 x44 | s9 => DD x51 x45 | s10 => DD x51 x46 | s11 => DD x51 x47 | s12 => DD x51 x48 | s13 => DD x51 x49 | s14 => DD x51 x50 | s15 => DD x51 x51 | s16 => DD x51 x52 | s17 => DD x51 x53 | s18 => DD x51 x54 | s19 => DD x51 x55 | s20 => DD x51 x56 | s21 => DD x51 x57 | s22 => DD x51 x58 | s23 => DD x51 x59 | s24 => DD x51 x60 | s25 => DD x51 x61 | s26 => DD x51 x62 | s27 => DD x51 x63 | s28 => DD x52 x0 | s29 => DD x52 x1 | s30 => DD x52 x2 | s31 => DD x52 x3 | s32 => DD x52 x4 | s33 => DD x52 x5 | s34 => DD x52 x6 | s35 => DD x52 x7 | s36 => DD x52 x8 | s37 => DD x52 x9 | s38 => DD x52 x10 | s39 => DD x52 x11 | s40 => DD x52 x12 | s41 => DD x52 x13 | s42 => DD x52 x14 | s43 => DD x52 x15 | s44 => DD x52 x16 | s45 => DD x52 x17 | s46 => DD x52 x18 | s47 => DD x52 x19 | s48 => DD x52 x20 | s49 => DD x52 x21 | s50 => DD x52 x22 | s51 => DD x52 x23 | s52 => DD x52 x24 | s53 => DD x52 x25 | s54 => DD x52 x26 | s55 => DD x52 x27 | s56 => DD x52 x28 | s57 => DD x52 x29 | s58 => DD x52 x30 | s59 => DD x52 x31 | s60 => DD x52 x32 | s61 => DD x52 x33 | s62 => DD x52 x34 | s63 => DD x52 x35 | s64 => DD x52 x36 | s65 => DD x52 x37 | s66 => DD x52 x38 | s67 => DD x52 x39 | s68 => DD x52 x40 | s69 => DD x52 x41 | s70 => DD x52 x42 | s71 => DD x52 x43 | s72 => DD x52 x44 | s73 => DD x52 x45 | s74 => DD x52 x46 | s75 => DD x52 x47 | s76 => DD x52 x48 | s77 => DD x52 x49 | s78 => DD x52 x50 | s79 => DD x52 x51 | s80 => DD x52 x52 | s81 => DD x52 x53 | s82 => DD x52 x54 | s83 => DD x52 x55 | s84 => DD x52 x56 | s85 => DD x52 x57 | s86 => DD x52 x58 | s87 => DD x52 x59 | s88 => DD x52 x60 | s89 => DD x52 x61 | s90 => DD x52 x62 | s91 => DD x52 x63 | s92 => DD x53 x0 | s93 => DD x53 x1 | s94 => DD x53 x2 | s95 => DD x53 x3 | s96 => DD x53 x4 | s97 => DD x53 x5 | s98 => DD x53 x6 | s99 => DD x53 x7 | s100 => DD x53 x8 | s101 => DD x53 x9 | s102 => DD x53 x10 | s103 => DD x53 x11 | s104 => DD x53 x12 | s105 => DD x53 x13 | s106 => DD x53 x14 | s107 => DD x53 x15 | s108 => DD x53 x16 | s109 => DD x53 x17 | s110 => DD x53 x18 | s111 => DD x53 x19 | s112 => DD x53 x20 | s113 => DD x53 x21 | s114 => DD x53 x22 | s115 => DD x53 x23 | s116 => DD x53 x24 | s117 => DD x53 x25 | s118 => DD x53 x26 | s119 => DD x53 x27 | s120 => DD x53 x28 | s121 => DD x53 x29 | s122 => DD x53 x30 | s123 => DD x53 x31 | s124 => DD x53 x32 | s125 => DD x53 x33 | s126 => DD x53 x34 end.
Definition m3304 (c : sum2) : dd := match c with s0 => DD x51 x40 | s1 => DD x51 x41 | s2 => DD x51 x42 | s3 => DD x51 x43 | s4 => DD x51 x44 | s5 => DD x51 x45 | s6 => DD x51 x46 | s7 => DD x51 x47 | s8 => DD x51 x48 | s9 => DD x51 x49 | s10 => DD x51 x50 | s11 => DD x51 x51 | s12 => DD x51 x52 | s13 => DD x51 x53 | s14 => DD x51 x54 | s15 => DD x51 x55 | s16 => DD x51 x56 | s17 => DD x51 x57 | s18 => DD x51 x58 | s19 => DD x51 x59 | s20 => DD x51 x60 | s21 => DD x51 x61 | s22 => DD x51 x62 | s23 => DD x51 x63 | s24 => DD x52 x0 | s25 => DD x52 x1 | s26 => DD x52 x2 | s27 => DD x52 x3 | s28 => DD x52 x4 | s29 => DD x52 x5 | s30 => DD x52 x6 | s31 => DD x52 x7 | s32 => DD x52 x8 | s33 => DD x52 x9 | s34 => DD x52 x10 | s35 => DD x52 x11 | s36 => DD x52 x12 | s37 => DD x52 x13 | s38 => DD x52 x14 | s39 => DD x52 x15 | s40 => DD x52 x16 | s41 => DD x52 x17 | s42 => DD x52 x18 | s43 => DD x52 x19 | s44 => DD x52 x20 | s45 => DD x52 x21 | s46 => DD x52 x22 | s47 => DD x52 x23 | s48 => DD x52 x24 | s49 => DD x52 x25 | s50 => DD x52 x26 | s51 => DD x52 x27 | s52 => DD x52 x28 | s53 => DD x52 x29 | s54 => DD x52 x30 | s55 => DD x52 x31 | s56 => DD x52 x32 | s57 => DD x52 x33 | s58 => DD x52 x34 | s59 => DD x52 x35 | s60 => DD x52 x36 | s61 => DD x52 x37 | s62 => DD x52 x38 | s63 => DD x52 x39 | s64 => DD x52 x40 | s65 => DD x52 x41 | s66 => DD x52 x42 | s67 => DD x52 x43 | s68 => DD x52 x44 | s69 => DD x52 x45 | s70 => DD x52 x46 | s71 => DD x52 x47 | s72 => DD x52 x48 | s73 => DD x52 x49 | s74 => DD x52 x50 | s75 => DD x52 x51 | s76 => DD x52 x52 | s77 => DD x52 x53 | s78 => DD x52 x54 | s79 => DD x52 x55 | s80 => DD x52 x56 | s81 => DD x52 x57 | s82 => DD x52 x58 | s83 => DD x52 x59 | s84 => DD x52 x60 | s85 => DD x52 x61 | s86 => DD x52 x62 | s87 => DD x52 x63 | s88 => DD x53 x0 | s89 => DD x53 x1 | s90 => DD x53 x2 | s91 => DD x53 x3 | s92 => DD x53 x4 | s93 => DD x53 x5 | s94 => DD x53 x6 | s95 => DD x53 x7 | s96 => DD x53 x8 | s97 => DD x53 x9 | s98 => DD x53 x10 | s99 => DD x53 x11 | s100 => DD x53 x12 | s101 => DD x53 x13 | s102 => DD x53 x14 | s103 => DD x53 x15 | s104 => DD x53 x16 | s105 => DD x53 x17 | s106 => DD x53 x18 | s107 => DD x53 x19 | s108 => DD x53 x20 | s109 => DD x53 x21 | s110 => DD x53 x22 | s111 => DD x53 x23 | s112 => DD x53 x24 | s113 => DD x53 x25 | s114 => DD x53 x26 | s115 => DD x53 x27 | s116 => DD x53 x28 | s117 => DD x53 x29 | s118 => DD x53 x30 | s119 => DD x53 x31 | s120 => DD x53 x32 | s121 => DD x53 x33 | s122 => DD x53 x34 | s123 => DD x53 x35 | s124 => DD x53 x36 | s125 => DD x53 x37 | s126 => DD x53 x38 end.
Definition m3306 (c : sum2) : dd := match c with s0 => DD x51 x42 | s1 => DD x51 x43 | s2 => DD x51 x44 | s3 => DD x51 x45 | s4 => DD x51 x46 | s5 => DD x51 x47 | s6 => DD x51 x48 | s7 => DD x51 x49 | s8 => DD x51 x50 | s9 => DD x51 x51 | s10 => DD x51 x52 | s11 => DD x51 x53 | s12 => DD x51 x54 | s13 => DD x51 x55 | s14 => DD x51 x56 | s15 => DD x51 x57 | s16 => DD x51 x58 | s17 => DD x51 x59 | s18 => DD x51 x60 | s19 => DD x51 x61 | s20 => DD x51 x62 | s21 => DD x51 x63 | s22 => DD x52 x0 | s23 => DD x52 x1 | s24 => DD x52 x2 | s25 => DD x52 x3 | s26 => DD x52 x4 | s27 => DD x52 x5 | s28 => DD x52 x6 | s29 => DD x52 x7 | s30 => DD x52 x8 | s31 => DD x52 x9 | s32 => DD x52 x10 | s33 => DD x52 x11 | s34 => DD x52 x12 | s35 => DD x52 x13 | s36 => DD x52 x14 | s37 => DD x52 x15 | s38 => DD x52 x16 | s39 => DD x52 x17 | s40 => DD x52 x18 | s41 => DD x52 x19 | s42 => DD x52 x20 | s43 => DD x52 x21 | s44 => DD x52 x22 | s45 => DD x52 x23 | s46 => DD x52 x24 | s47 => DD x52 x25 | s48 => DD x52 x26 | s49 => DD x52 x27 | s50 => DD x52 x28 | s51 => DD x52 x29 | s52 => DD x52 x30 | s53 => DD x52 x31 | s54 => DD x52 x32 | s55 => DD x52 x33 | s56 => DD x52 x34 | s57 => DD x52 x35 | s58 => DD x52 x36 | s59 => DD x52 x37 | s60 => DD x52 x38 | s61 => DD x52 x39 | s62 => DD x52 x40 | s63 => DD x52 x41 | s64 => DD x52 x42 | s65 => DD x52 x43 | s66 => DD x52 x44 | s67 => DD x52 x45 | s68 => DD x52 x46 | s69 => DD x52 x47 | s70 => DD x52 x48 | s71 => DD x52 x49 | s72 => DD x52 x50 | s73 => DD x52 x51 | s74 => DD x52 x52 | s75 => DD x52 x53 | s76 => DD x52 x54 | s77 => DD x52 x55 | s78 => DD x52 x56 | s79 => DD x52 x57 | s80 => DD x52 x58 | s81 => DD x52 x59 | s82 => DD x52 x60 | s83 => DD x52 x61 | s84 => DD x52 x62 | s85 => DD x52 x63 | s86 => DD x53 x0 | s87 => DD x53 x1 | s88 => DD x53 x2 | s89 => DD x53 x3 | s90 => DD x53 x4 | s91 => DD x53 x5 | s92 => DD x53 x6 | s93 => DD x53 x7 | s94 => DD x53 x8 | s95 => DD x53 x9 | s96 => DD x53 x10 | s97 => DD x53 x11 | s98 => DD x53 x12 | s99 => DD x53 x13 | s100 => DD x53 x14 | s101 => DD x53 x15 | s102 => DD x53 x16 | s103 => DD x53 x17 | s104 => DD x53 x18 | s105 => DD x53 x19 | s106 => DD x53 x20 | s107 => DD x53 x21 | s108 => DD x53 x22 | s109 => DD x53 x23 | s110 => DD x53 x24 | s111 => DD x53 x25 | s112 => DD x53 x26 | s113 => DD x53 x27 | s114 => DD x53 x28 | s115 => DD x53 x29 | s116 => DD x53 x30 | s117 => DD x53 x31 | s118 => DD x53 x32 | s119 => DD x53 x33 | s120 => DD x53 x34 | s121 => DD x53 x35 | s122 => DD x53 x36 | s123 => DD x53 x37 | s124 => DD x53 x38 | s125 => DD x53 x39 | s126 => DD x53 x40 end.
Definition m3339 (c : sum2) : dd := match c with s0 => DD x52 x11 | s1 => DD x52 x12 | s2 => DD x52 x13 | s3 => DD x52 x14 | s4 => DD x52 x15 | s5 => DD x52 x16 | s6 => DD x52 x17 | s7 => DD x52 x18 | s8 => DD x52 x19 | s9 => DD x52 x20 | s10 => DD x52 x21 | s11 => DD x52 x22 | s12 => DD x52 x23 | s13 => DD x52 x24 | s14 => DD x52 x25 | s15 => DD x52 x26 | s16 => DD x52 x27 | s17 => DD x52 x28 | s18 => DD x52 x29 | s19 => DD x52 x30 | s20 => DD x52 x31 | s21 => DD x52 x32 | s22 => DD x52 x33 | s23 => DD x52 x34 | s24 => DD x52 x35 | s25 => DD x52 x36 | s26 => DD x52 x37 | s27 => DD x52 x38 | s28 => DD x52 x39 | s29 => DD x52 x40 | s30 => DD x52 x41 | s31 => DD x52 x42 | s32 => DD x52 x43 | s33 => DD x52 x44 | s34 => DD x52 x45 | s35 => DD x52 x46 | s36 => DD x52 x47 | s37 => DD x52 x48 | s38 => DD x52 x49 | s39 => DD x52 x50 | s40 => DD x52 x51 | s41 => DD x52 x52 | s42 => DD x52 x53 | s43 => DD x52 x54 | s44 => DD x52 x55 | s45 => DD x52 x56 | s46 => DD x52 x57 | s47 => DD x52 x58 | s48 => DD x52 x59 | s49 => DD x52 x60 | s50 => DD x52 x61 | s51 => DD x52 x62 | s52 => DD x52 x63 | s53 => DD x53 x0 | s54 => DD x53 x1 | s55 => DD x53 x2 | s56 => DD x53 x3 | s57 => DD x53 x4 | s58 => DD x53 x5 | s59 => DD x53 x6 | s60 => DD x53 x7 | s61 => DD x53 x8 | s62 => DD x53 x9 | s63 => DD x53 x10 | s64 => DD x53 x11 | s65 => DD x53 x12 | s66 => DD x53 x13 | s67 => DD x53 x14 | s68 => DD x53 x15 | s69 => DD x53 x16 | s70 => DD x53 x17 | s71 => DD x53 x18 | s72 => DD x53 x19 | s73 => DD x53 x20 | s74 => DD x53 x21 | s75 => DD x53 x22 | s76 => DD x53 x23 | s77 => DD x53 x24 | s78 => DD x53 x25 | s79 => DD x53 x26 | s80 => DD x53 x27 | s81 => DD x53 x28 | s82 => DD x53 x29 | s83 => DD x53 x30 | s84 => DD x53 x31 | s85 => DD x53 x32 | s86 => DD x53 x33 | s87 => DD x53 x34 | s88 => DD x53 x35 | s89 => DD x53 x36 | s90 => DD x53 x37 | s91 => DD x53 x38 | s92 => DD x53 x39 | s93 => DD x53 x40 | s94 => DD x53 x41 | s95 => DD x53 x42 | s96 => DD x53 x43 | s97 => DD x53 x44 | s98 => DD x53 x45 | s99 => DD x53 x46 | s100 => DD x53 x47 | s101 => DD x53 x48 | s102 => DD x53 x49 | s103 => DD x53 x50 | s104 => DD x53 x51 | s105 => DD x53 x52 | s106 => DD x53 x53 | s107 => DD x53 x54 | s108 => DD x53 x55 | s109 => DD x53 x56 | s110 => DD x53 x57 | s111 => DD x53 x58 | s112 => DD x53 x59 | s113 => DD x53 x60 | s114 => DD x53 x61 | s115 => DD x53 x62 | s116 => DD x53 x63 | s117 => DD x54 x0 | s118 => DD x54 x1 | s119 => DD x54 x2 | s120 => DD x54 x3 | s121 => DD x54 x4 | s122 => DD x54 x5 | s123 => DD x54 x6 | s124 => DD x54 x7 | s125 => DD x54 x8 | s126 => DD x54 x9 end.
Definition m3348 (c : sum2) : dd := match c with s0 => DD x52 x20 | s1 => DD x52 x21 | s2 => DD x52 x22 | s3 => DD x52 x23 | s4 => DD x52 x24 | s5 => DD x52 x25 | s6 => DD x52 x26 | s7 => DD x52 x27 | s8 => DD x52 x28 | s9 => DD x52 x29 | s10 => DD x52 x30 | s11 => DD x52 x31 | s12 => DD x52 x32 | s13 => DD x52 x33 | s14 => DD x52 x34 | s15 => DD x52 x35 | s16 => DD x52 x36 | s17 => DD x52 x37 | s18 => DD x52 x38 | s19 => DD x52 x39 | s20 => DD x52 x40 | s21 => DD x52 x41 | s22 => DD x52 x42 | s23 => DD x52 x43 | s24 => DD x52 x44 | s25 => DD x52 x45 | s26 => DD x52 x46 | s27 => DD x52 x47 | s28 => DD x52 x48 | s29 => DD x52 x49 | s30 => DD x52 x50 | s31 => DD x52 x51 | s32 => DD x52 x52 | s33 => DD x52 x53 | s34 => DD x52 x54 | s35 => DD x52 x55 | s36 => DD x52 x56 | s37 => DD x52 x57 | s38 => DD x52 x58 | s39 => DD x52 x59 | s40 => DD x52 x60 | s41 => DD x52 x61 | s42 => DD x52 x62 | s43 => DD x52 x63 | s44 => DD x53 x0 | s45 => DD x53 x1 | s46 => DD x53 x2 | s47 => DD x53 x3 | s48 => DD x53 x4 | s49 => DD x53 x5 | s50 => DD x53 x6 | s51 => DD x53 x7 | s52 => DD x53 x8 | s53 => DD x53 x9 | s54 => DD x53 x10 | s55 => DD x53 x11 | s56 => DD x53 x12 | s57 => DD x53 x13 | s58 => DD x53 x14 | s59 => DD x53 x15 | s60 => DD x53 x16 | s61 => DD x53 x17 | s62 => DD x53 x18 | s63 => DD x53 x19 | s64 => DD x53 x20 | s65 => DD x53 x21 | s66 => DD x53 x22 | s67 => DD x53 x23 | s68 => DD x53 x24 | s69 => DD x53 x25 | s70 => DD x53 x26 | s71 => DD x53 x27 | s72 => DD x53 x28 | s73 => DD x53 x29 | s74 => DD x53 x30 | s75 => DD x53 x31 | s76 => DD x53 x32 | s77 => DD x53 x33 | s78 => DD x53 x34 | s79 => DD x53 x35 | s80 => DD x53 x36 | s81 => DD x53 x37 | s82 => DD x53 x38 | s83 => DD x53 x39 | s84 => DD x53 x40 | s85 => DD x53 x41 | s86 => DD x53 x42 | s87 => DD x53 x43 | s88 => DD x53 x44 | s89 => DD x53 x45 | s90 => DD x53 x46 | s91 => DD x53 x47 | s92 => DD x53 x48 | s93 => DD x53 x49 | s94 => DD x53 x50 | s95 => DD x53 x51 | s96 => DD x53 x52 | s97 => DD x53 x53 | s98 => DD x53 x54 | s99 => DD x53 x55 | s100 => DD x53 x56 | s101 => DD x53 x57 | s102 => DD x53 x58 | s103 => DD x53 x59 | s104 => DD x53 x60 | s105 => DD x53 x61 | s106 => DD x53 x62 | s107 => DD x53 x63 | s108 => DD x54 x0 | s109 => DD x54 x1 | s110 => DD x54 x2 | s111 => DD x54 x3 | s112 => DD x54 x4 | s113 => DD x54 x5 | s114 => DD x54 x6 | s115 => DD x54 x7 | s116 => DD x54 x8 | s117 => DD x54 x9 | s118 => DD x54 x10 | s119 => DD x54 x11 | s120 => DD x54 x12 | s121 => DD x54 x13 | s122 => DD x54 x14 | s123 => DD x54 x15 | s124 => DD x54 x16 | s125 => DD x54 x17 | s126 => DD x54 x18 end.
Definition m3355 (c : sum2) : dd := match c with s0 => DD x52 x27 | s1 => DD x52 x28 | s2 => DD x52 x29 | s3 => DD x52 x30 | s4 => DD x52 x31 | s5 => DD x52 x32 | s6 => DD x52 x33 | s7 => DD x52 x34 | s8 => DD x52 x35 | s9 => DD x52 x36 | s10 => DD x52 x37 | s11 => DD x52 x38 | s12 => DD x52 x39 | s13 => DD x52 x40 | s14 => DD x52 x41 | s15 => DD x52 x42 | s16 => DD x52 x43 | s17 => DD x52 x44 | s18 => DD x52 x45 | s19 => DD x52 x46 | s20 => DD x52 x47 | s21 => DD x52 x48 | s22 => DD x52 x49 | s23 => DD x52 x50 | s24 => DD x52 x51 | s25 => DD x52 x52 | s26 => DD x52 x53 | s27 => DD x52 x54 | s28 => DD x52 x55 | s29 => DD x52 x56 | s30 => DD x52 x57 | s31 => DD x52 x58 | s32 => DD x52 x59 | s33 => DD x52 x60 | s34 => DD x52 x61 | s35 => DD x52 x62 | s36 => DD x52 x63 | s37 => DD x53 x0 | s38 => DD x53 x1 | s39 => DD x53 x2 | s40 => DD x53 x3 | s41 => DD x53 x4 | s42 => DD x53 x5 | s43 => DD x53 x6 | s44 => DD x53 x7 | s45 => DD x53 x8 | s46 => DD x53 x9 | s47 => DD x53 x10 | s48 => DD x53 x11 | s49 => DD x53 x12 | s50 => DD x53 x13 | s51 => DD x53 x14 | s52 => DD x53 x15 | s53 => DD x53 x16 | s54 => DD x53 x17 | s55 => DD x53 x18 | s56 => DD x53 x19 | s57 => DD x53 x20 | s58 => DD x53 x21 | s59 => DD x53 x22 | s60 => DD x53 x23 | s61 => DD x53 x24 | s62 => DD x53 x25 | s63 => DD x53 x26 | s64 => DD x53 x27 | s65 => DD x53 x28 | s66 => DD x53 x29 | s67 => DD x53 x30 | s68 => DD x53 x31 | s69 => DD x53 x32 | s70 => DD x53 x33 | s71 => DD x53 x34 | s72 => DD x53 x35 | s73 => DD x53 x36 | s74 => DD x53 x37 | s75 => DD x53 x38 | s76 => DD x53 x39 | s77 => DD x53 x40 | s78 => DD x53 x41 | s79 => DD x53 x42 | s80 => DD x53 x43 | s81 => DD x53 x44 | s82 => DD x53 x45 | s83 => DD x53 x46 | s84 => DD x53 x47 | s85 => DD x53 x48 | s86 => DD x53 x49 | s87 => DD x53 x50 | s88 => DD x53 x51 | s89 => DD x53 x52 | s90 => DD x53 x53 | s91 => DD x53 x54 | s92 => DD x53 x55 | s93 => DD x53 x56 | s94 => DD x53 x57 | s95 => DD x53 x58 | s96 => DD x53 x59 | s97 => DD x53 x60 | s98 => DD x53 x61 | s99 => DD x53 x62 | s100 => DD x53 x63 | s101 => DD x54 x0 | s102 => DD x54 x1 | s103 => DD x54 x2 | s104 => DD x54 x3 | s105 => DD x54 x4 | s106 => DD x54 x5 | s107 => DD x54 x6 | s108 => DD x54 x7 | s109 => DD x54 x8 | s110 => DD x54 x9 | s111 => DD x54 x10 | s112 => DD x54 x11 | s113 => DD x54 x12 | s114 => DD x54 x13 | s115 => DD x54 x14 | s116 => DD x54 x15 | s117 => DD x54 x16 | s118 => DD x54 x17 | s119 => DD x54 x18 | s120 => DD x54 x19 | s121 => DD x54 x20 | s122 => DD x54 x21 | s123 => DD x54 x22 | s124 => DD x54 x23 | s125 => DD x54 x24 | s126 => DD x54 x25 end.
Definition m3360 (c : sum2) : dd := match c with s0 => DD x52 x32 | s1 => DD x52 x33 | s2 => DD x52 x34 | s3 => DD x52 x35 | s4 => DD x52 x36 | s5 => DD x52 x37 | s6 => DD x52 x38 | s7 => DD x52 x39 | s8 => DD x52 x40 | s9 => DD x52 x41 | s10 => DD x52 x42 | s11 => DD x52 x43 | s12 => DD x52 x44 | s13 => DD x52 x45 | s14 => DD x52 x46 | s15 => DD x52 x47 | s16 => DD x52 x48 | s17 => DD x52 x49 | s18 => DD x52 x50 | s19 => DD x52 x51 | s20 => DD x52 x52 | s21 => DD x52 x53 | s22 => DD x52 x54 | s23 => DD x52 x55 | s24 => DD x52 x56 | s25 => DD x52 x57 | s26 => DD x52 x58 | s27 => DD x52 x59 | s28 => DD x52 x60 | s29 => DD x52 x61 | s30 => DD x52 x62 | s31 => DD x52 x63 | s32 => DD x53 x0 | s33 => DD x53 x1 | s34 => DD x53 x2 | s35 => DD x53 x3 | s36 => DD x53 x4 | s37 => DD x53 x5 | s38 => DD x53 x6 | s39 => DD x53 x7 | s40 => DD x53 x8 | s41 => DD x53 x9 | s42 => DD x53 x10 | s43 => DD x53 x11 | s44 => DD x53 x12 | s45 => DD x53 x13 | s46 => DD x53 x14 | s47 => DD x53 x15 | s48 => DD x53 x16 | s49 => DD x53 x17 | s50 => DD x53 x18 | s51 => DD x53 x19 | s52 => DD x53 x20 | s53 => DD x53 x21 | s54 => DD x53 x22 | s55 => DD x53 x23 | s56 => DD x53 x24 | s57 => DD x53 x25 | s58 => DD x53 x26 | s59 => DD x53 x27 | s60 => DD x53 x28 | s61 => DD x53 x29 | s62 => DD x53 x30 | s63 => DD x53 x31 | s64 => DD x53 x32 | s65 => DD x53 x33 | s66 => DD x53 x34 | s67 => DD x53 x35 | s68 => DD x53 x36 | s69 => DD x53 x37 | s70 => DD x53 x38 | s71 => DD x53 x39 | s72 => DD x53 x40 | s73 => DD x53 x41 | s74 => DD x53 x42 | s75 => DD x53 x43 | s76 => DD x53 x44 | s77 => DD x53 x45 | s78 => DD x53 x46 | s79 => DD x53 x47 | s80 => DD x53 x48 | s81 => DD x53 x49 | s82 => DD x53 x50 | s83 => DD x53 x51 | s84 => DD x53 x52 | s85 => DD x53 x53 | s86 => DD x53 x54 | s87 => DD x53 x55 | s88 => DD x53 x56 | s89 => DD x53 x57 | s90 => DD x53 x58 | s91 => DD x53 x59 | s92 => DD x53 x60 | s93 => DD x53 x61 | s94 => DD x53 x62 | s95 => DD x53 x63 | s96 => DD x54 x0 | s97 => DD x54 x1 | s98 => DD x54 x2 | s99 => DD x54 x3 | s100 => DD x54 x4 | s101 => DD x54 x5 | s102 => DD x54 x6 | s103 => DD x54 x7 | s104 => DD x54 x8 | s105 => DD x54 x9 | s106 => DD x54 x10 | s107 => DD x54 x11 | s108 => DD x54 x12 | s109 => DD x54 x13 | s110 => DD x54 x14 | s111 => DD x54 x15 | s112 => DD x54 x16 | s113 => DD x54 x17 | s114 => DD x54 x18 | s115 => DD x54 x19 | s116 => DD x54 x20 | s117 => DD x54 x21 | s118 => DD x54 x22 | s119 => DD x54 x23 | s120 => DD x54 x24 | s121 => DD x54 x25 | s122 => DD x54 x26 | s123 => DD x54 x27 | s124 => DD x54 x28 | s125 => DD x54 x29 | s126 => DD x54 x30 end.
Definition m3363 (c : sum2) : dd := match c with s0 => DD x52 x35 | s1 => DD x52 x36 | s2 => DD x52 x37 | s3 => DD x52 x38 | s4 => DD x52 x39 | s5 => DD x52 x40 | s6 => DD x52 x41 | s7 => DD x52 x42 | s8 => DD x52 x43 | s9 => DD x52 x44 | s10 => DD x52 x45 | s11 => DD x52 x46 | s12 => DD x52 x47 | s13 => DD x52 x48 | s14 => DD x52 x49 | s15 => DD x52 x50 | s16 => DD x52 x51 | s17 => DD x52 x52 | s18 => DD x52 x53 | s19 => DD x52 x54 | s20 => DD x52 x55 | s21 => DD x52 x56 | s22 => DD x52 x57 | s23 => DD x52 x58 | s24 => DD x52 x59 | s25 => DD x52 x60 | s26 => DD x52 x61 | s27 => DD x52 x62 | s28 => DD x52 x63 | s29 => DD x53 x0 | s30 => DD x53 x1 | s31 => DD x53 x2 | s32 => DD x53 x3 | s33 => DD x53 x4 | s34 => DD x53 x5 | s35 => DD x53 x6 | s36 => DD x53 x7 | s37 => DD x53 x8 | s38 => DD x53 x9 | s39 => DD x53 x10 | s40 => DD x53 x11 | s41 => DD x53 x12 | s42 => DD x53 x13 | s43 => DD x53 x14 | s44 => DD x53 x15 | s45 => DD x53 x16 | s46 => DD x53 x17 | s47 => DD x53 x18 | s48 => DD x53 x19 | s49 => DD x53 x20 | s50 => DD x53 x21 | s51 => DD x53 x22 | s52 => DD x53 x23 | s53 => DD x53 x24 | s54 => DD x53 x25 | s55 => DD x53 x26 | s56 => DD x53 x27 | s57 => DD x53 x28 | s58 => DD x53 x29 | s59 => DD x53 x30 | s60 => DD x53 x31 | s61 => DD x53 x32 | s62 => DD x53 x33 | s63 => DD x53 x34 | s64 => DD x53 x35 | s65 => DD x53 x36 | s66 => DD x53 x37 | s67 => DD x53 x38 | s68 => DD x53 x39 | s69 => DD x53 x40 | s70 => DD x53 x41 | s71 => DD x53 x42 | s72 => DD x53 x43 | s73 => DD x53 x44 | s74 => DD x53 x45 | s75 => DD x53 x46 | s76 => DD x53 x47 | s77 => DD x53 x48 | s78 => DD x53 x49 | s79 => DD x53 x50 | s80 => DD x53 x51 | s81 => DD x53 x52 | s82 => DD x53 x53 | s83 => DD x53 x54 | s84 => DD x53 x55 | s85 => DD x53 x56 | s86 => DD x53 x57 | s87 => DD x53 x58 | s88 => DD x53 x59 | s89 => DD x53 x60 | s90 => DD x53 x61 | s91 => DD x53 x62 | s92 => DD x53 x63 | s93 => DD x54 x0 | s94 => DD x54 x1 | s95 => DD x54 x2 | s96 => DD x54 x3 | s97 => DD x54 x4 | s98 => DD x54 x5 | s99 => DD x54 x6 | s100 => DD x54 x7 | s101 => DD x54 x8 | s102 => DD x54 x9 | s103 => DD x54 x10 | s104 => DD x54 x11 | s105 => DD x54 x12 | s106 => DD x54 x13 | s107 => DD x54 x14 | s108 => DD x54 x15 | s109 => DD x54 x16 | s110 => DD x54 x17 | s111 => DD x54 x18 | s112 => DD x54 x19 | s113 => DD x54 x20 | s114 => DD x54 x21 | s115 => DD x54 x22 | s116 => DD x54 x23 | s117 => DD x54 x24 | s118 => DD x54 x25 | s119 => DD x54 x26 | s120 => DD x54 x27 | s121 => DD x54 x28 | s122 => DD x54 x29 | s123 => DD x54 x30 | s124 => DD x54 x31 | s125 => DD x54 x32 | s126 => DD x54 x33 end.
Definition m3364 (c : sum2) : dd := match c with s0 => DD x52 x36 | s1 => DD x52 x37 | s2 => DD x52 x38 | s3 => DD x52 x39 | s4 => DD x52 x40 | s5 => DD x52 x41 | s6 => DD x52 x42 | s7 => DD x52 x43 | s8 => DD x52 x44 | s9 => DD x52 x45 | s10 => DD x52 x46 | s11 => DD x52 x47 | s12 => DD x52 x48 | s13 => DD x52 x49 | s14 => DD x52 x50 | s15 => DD x52 x51 | s16 => DD x52 x52 | s17 => DD x52 x53 | s18 => DD x52 x54 | s19 => DD x52 x55 | s20 => DD x52 x56 | s21 => DD x52 x57 | s22 => DD x52 x58 | s23 => DD x52 x59 | s24 => DD x52 x60 | s25 => DD x52 x61 | s26 => DD x52 x62 | s27 => DD x52 x63 | s28 => DD x53 x0 | s29 => DD x53 x1 | s30 => DD x53 x2 | s31 => DD x53 x3 | s32 => DD x53 x4 | s33 => DD x53 x5 | s34 => DD x53 x6 | s35 => DD x53 x7 | s36 => DD x53 x8 | s37 => DD x53 x9 | s38 => DD x53 x10 | s39 => DD x53 x11 | s40 => DD x53 x12 | s41 => DD x53 x13 | s42 => DD x53 x14 | s43 => DD x53 x15 | s44 => DD x53 x16 | s45 => DD x53 x17 | s46 => DD x53 x18 | s47 => DD x53 x19 | s48 => DD x53 x20 | s49 => DD x53 x21 | s50 => DD x53 x22 | s51 => DD x53 x23 | s52 => DD x53 x24 | s53 => DD x53 x25 | s54 => DD x53 x26 | s55 => DD x53 x27 | s56 => DD x53 x28 | s57 => DD x53 x29 | s58 => DD x53 x30 | s59 => DD x53 x31 | s60 => DD x53 x32 | s61 => DD x53 x33 | s62 => DD x53 x34 | s63 => DD x53 x35 | s64 => DD x53 x36 | s65 => DD x53 x37 | s66 => DD x53 x38 | s67 => DD x53 x39 | s68 => DD x53 x40 | s69 => DD x53 x41 | s70 => DD x53 x42 | s71 => DD x53 x43 | s72 => DD x53 x44 | s73 => DD x53 x45 | s74 => DD x53 x46 | s75 => DD x53 x47 | s76 => DD x53 x48 | s77 => DD x53 x49 | s78 => DD x53 x50 | s79 => DD x53 x51 | s80 => DD x53 x52 | s81 => DD x53 x53 | s82 => DD x53 x54 | s83 => DD x53 x55 | s84 => DD x53 x56 | s85 => DD x53 x57 | s86 => DD x53 x58 | s87 => DD x53 x59 | s88 => DD x53 x60 | s89 => DD x53 x61 | s90 => DD x53 x62 | s91 => DD x53 x63 | s92 => DD x54 x0 | s93 => DD x54 x1 | s94 => DD x54 x2 | s95 => DD x54 x3 | s96 => DD x54 x4 | s97 => DD x54 x5 | s98 => DD x54 x6 | s99 => DD x54 x7 | s100 => DD x54 x8 | s101 => DD x54 x9 | s102 => DD x54 x10 | s103 => DD x54 x11 | s104 => DD x54 x12 | s105 => DD x54 x13 | s106 => DD x54 x14 | s107 => DD x54 x15 | s108 => DD x54 x16 | s109 => DD x54 x17 | s110 => DD x54 x18 | s111 => DD x54 x19 | s112 => DD x54 x20 | s113 => DD x54 x21 | s114 => DD x54 x22 | s115 => DD x54 x23 | s116 => DD x54 x24 | s117 => DD x54 x25 | s118 => DD x54 x26 | s119 => DD x54 x27 | s120 => DD x54 x28 | s121 => DD x54 x29 | s122 => DD x54 x30 | s123 => DD x54 x31 | s124 => DD x54 x32 | s125 => DD x54 x33 | s126 => DD x54 x34 end.
Definition m3402 (c : sum2) : dd := match c with s0 => DD x53 x10 | s1 => DD x53 x11 | s2 => DD x53 x12 | s3 => DD x53 x13 | s4 => DD x53 x14 | s5 => DD x53 x15 | s6 => DD x53 x16 | s7 => DD x53 x17 | s8 => DD x53 x18 | s9 => DD x53 x19 | s10 => DD x53 x20 | s11 => DD x53 x21 | s12 => DD x53 x22 | s13 => DD x53 x23 | s14 => DD x53 x24 | s15 => DD x53 x25 | s16 => DD x53 x26 | s17 => DD x53 x27 | s18 => DD x53 x28 | s19 => DD x53 x29 | s20 => DD x53 x30 | s21 => DD x53 x31 | s22 => DD x53 x32 | s23 => DD x53 x33 | s24 => DD x53 x34 | s25 => DD x53 x35 | s26 => DD x53 x36 | s27 => DD x53 x37 | s28 => DD x53 x38 | s29 => DD x53 x39 | s30 => DD x53 x40 | s31 => DD x53 x41 | s32 => DD x53 x42 | s33 => DD x53 x43 | s34 => DD x53 x44 | s35 => DD x53 x45 | s36 => DD x53 x46 | s37 => DD x53 x47 | s38 => DD x53 x48 | s39 => DD x53 x49 | s40 => DD x53 x50 | s41 => DD x53 x51 | s42 => DD x53 x52 | s43 => DD x53 x53 | s44 => DD x53 x54 | s45 => DD x53 x55 | s46 => DD x53 x56 | s47 => DD x53 x57 | s48 => DD x53 x58 | s49 => DD x53 x59 | s50 => DD x53 x60 | s51 => DD x53 x61 | s52 => DD x53 x62 | s53 => DD x53 x63 | s54 => DD x54 x0 | s55 => DD x54 x1 | s56 => DD x54 x2 | s57 => DD x54 x3 | s58 => DD x54 x4 | s59 => DD x54 x5 | s60 => DD x54 x6 | s61 => DD x54 x7 | s62 => DD x54 x8 | s63 => DD x54 x9 | s64 => DD x54 x10 | s65 => DD x54 x11 | s66 => DD x54 x12 | s67 => DD x54 x13 | s68 => DD x54 x14 | s69 => DD x54 x15 | s70 => DD x54 x16 | s71 => DD x54 x17 | s72 => DD x54 x18 | s73 => DD x54 x19 | s74 => DD x54 x20 | s75 => DD x54 x21 | s76 => DD x54 x22 | s77 => DD x54 x23 | s78 => DD x54 x24 | s79 => DD x54 x25 | s80 => DD x54 x26 | s81 => DD x54 x27 | s82 => DD x54 x28 | s83 => DD x54 x29 | s84 => DD x54 x30 | s85 => DD x54 x31 | s86 => DD x54 x32 | s87 => DD x54 x33 | s88 => DD x54 x34 | s89 => DD x54 x35 | s90 => DD x54 x36 | s91 => DD x54 x37 | s92 => DD x54 x38 | s93 => DD x54 x39 | s94 => DD x54 x40 | s95 => DD x54 x41 | s96 => DD x54 x42 | s97 => DD x54 x43 | s98 => DD x54 x44 | s99 => DD x54 x45 | s100 => DD x54 x46 | s101 => DD x54 x47 | s102 => DD x54 x48 | s103 => DD x54 x49 | s104 => DD x54 x50 | s105 => DD x54 x51 | s106 => DD x54 x52 | s107 => DD x54 x53 | s108 => DD x54 x54 | s109 => DD x54 x55 | s110 => DD x54 x56 | s111 => DD x54 x57 | s112 => DD x54 x58 | s113 => DD x54 x59 | s114 => DD x54 x60 | s115 => DD x54 x61 | s116 => DD x54 x62 | s117 => DD x54 x63 | s118 => DD x55 x0 | s119 => DD x55 x1 | s120 => DD x55 x2 | s121 => DD x55 x3 | s122 => DD x55 x4 | s123 => DD x55 x5 | s124 => DD x55 x6 | s125 => DD x55 x7 | s126 => DD x55 x8 end.
Definition m3410 (c : sum2) : dd := match c with s0 => DD x53 x18 | s1 => DD x53 x19 | s2 => DD x53 x20 | s3 => DD x53 x21 | s4 => DD x53 x22 | s5 => DD x53 x23 | s6 => DD x53 x24 | s7 => DD x53 x25 | s8 => DD x53 x26 | s9 => DD x53 x27 | s10 => DD x53 x28 | s11 => DD x53 x29 | s12 => DD x53 x30 | s13 => DD x53 x31 | s14 => DD x53 x32 | s15 => DD x53 x33 | s16 => DD x53 x34 | s17 => DD x53 x35 | s18 => DD x53 x36 | s19 => DD x53 x37 | s20 => DD x53 x38 | s21 => DD x53 x39 | s22 => DD x53 x40 | s23 => DD x53 x41 | s24 => DD x53 x42 | s25 => DD x53 x43 | s26 => DD x53 x44 | s27 => DD x53 x45 | s28 => DD x53 x46 | s29 => DD x53 x47 | s30 => DD x53 x48 | s31 => DD x53 x49 | s32 => DD x53 x50 | s33 => DD x53 x51 | s34 => DD x53 x52 | s35 => DD x53 x53 | s36 => DD x53 x54 | s37 => DD x53 x55 | s38 => DD x53 x56 | s39 => DD x53 x57 | s40 => DD x53 x58 | s41 => DD x53 x59 | s42 => DD x53 x60 | s43 => DD x53 x61 | s44 => DD x53 x62 | s45 => DD x53 x63 | s46 => DD x54 x0 | s47 => DD x54 x1 | s48 => DD x54 x2 | s49 => DD x54 x3 | s50 => DD x54 x4 | s51 => DD x54 x5 | s52 => DD x54 x6 | s53 => DD x54 x7 | s54 => DD x54 x8 | s55 => DD x54 x9 | s56 => DD x54 x10 | s57 => DD x54 x11 | s58 => DD x54 x12 | s59 => DD x54 x13 | s60 => DD x54 x14 | s61 => DD x54 x15 | s62 => DD x54 x16 | s63 => DD x54 x17 | s64 => DD x54 x18 | s65 => DD x54 x19 | s66 => DD x54 x20 | s67 => DD x54 x21 | s68 => DD x54 x22 | s69 => DD x54 x23 | s70 => DD x54 x24 | s71 => DD x54 x25 | s72 => DD x54 x26 | s73 => DD x54 x27 | s74 => DD x54 x28 | s75 => DD x54 x29 | s76 => DD x54 x30 | s77 => DD x54 x31 | s78 => DD x54 x32 | s79 => DD x54 x33 | s80 => DD x54 x34 | s81 => DD x54 x35 | s82 => DD x54 x36 | s83 => DD x54 x37 | s84 => DD x54 x38 | s85 => DD x54 x39 | s86 => DD x54 x40 | s87 => DD x54 x41 | s88 => DD x54 x42 | s89 => DD x54 x43 | s90 => DD x54 x44 | s91 => DD x54 x45 | s92 => DD x54 x46 | s93 => DD x54 x47 | s94 => DD x54 x48 | s95 => DD x54 x49 | s96 => DD x54 x50 | s97 => DD x54 x51 | s98 => DD x54 x52 | s99 => DD x54 x53 | s100 => DD x54 x54 | s101 => DD x54 x55 | s102 => DD x54 x56 | s103 => DD x54 x57 | s104 => DD x54 x58 | s105 => DD x54 x59 | s106 => DD x54 x60 | s107 => DD x54 x61 | s108 => DD x54 x62 | s109 => DD x54 x63 | s110 => DD x55 x0 | s111 => DD x55 x1 | s112 => DD x55 x2 | s113 => DD x55 x3 | s114 => DD x55 x4 | s115 => DD x55 x5 | s116 => DD x55 x6 | s117 => DD x55 x7 | s118 => DD x55 x8 | s119 => DD x55 x9 | s120 => DD x55 x10 | s121 => DD x55 x11 | s122 => DD x55 x12 | s123 => DD x55 x13 | s124 => DD x55 x14 | s125 => DD x55 x15 | s126 => DD x55 x16 end.
Definition m3416 (c : sum2) : dd := match c with s0 => DD x53 x24 | s1 => DD x53 x25 | s2 => DD x53 x26 | s3 => DD x53 x27 | s4 => DD x53 x28 | s5 => DD x53 x29 | s6 => DD x53 x30 | s7 => DD x53 x31 | s8 => DD x53 x32 | s9 => DD x53 x33 | s10 => DD x53 x34 | s11 => DD x53 x35 | s12 => DD x53 x36 | s13 => DD x53 x37 | s14 => DD x53 x38 | s15 => DD x53 x39 | s16 => DD x53 x40 | s17 => DD x53 x41 | s18 => DD x53 x42 | s19 => DD x53 x43 | s20 => DD x53 x44 | s21 => DD x53 x45 | s22 => DD x53 x46 | s23 => DD x53 x47 | s24 => DD x53 x48 | s25 => DD x53 x49 | s26 => DD x53 x50 | s27 => DD x53 x51 | s28 => DD x53 x52 | s29 => DD x53 x53 | s30 => DD x53 x54 | s31 => DD x53 x55 | s32 => DD x53 x56 | s33 => DD x53 x57 | s34 => DD x53 x58 | s35 => DD x53 x59 | s36 => DD x53 x60 | s37 => DD x53 x61 | s38 => DD x53 x62 | s39 => DD x53 x63 | s40 => DD x54 x0 | s41 => DD x54 x1 | s42 => DD x54 x2 | s43 => DD x54 x3 | s44 => DD x54 x4 | s45 => DD x54 x5 | s46 => DD x54 x6 | s47 => DD x54 x7 | s48 => DD x54 x8 | s49 => DD x54 x9 | s50 => DD x54 x10 | s51 => DD x54 x11 | s52 => DD x54 x12 | s53 => DD x54 x13 | s54 => DD x54 x14 | s55 => DD x54 x15 | s56 => DD x54 x16 | s57 => DD x54 x17 | s58 => DD x54 x18 | s59 => DD x54 x19 | s60 => DD x54 x20 | s61 => DD x54 x21 | s62 => DD x54 x22 | s63 => DD x54 x23 | s64 => DD x54 x24 | s65 => DD x54 x25 | s66 => DD x54 x26 | s67 => DD x54 x27 | s68 => DD x54 x28 | s69 => DD x54 x29 | s70 => DD x54 x30 | s71 => DD x54 x31 | s72 => DD x54 x32 | s73 => DD x54 x33 | s74 => DD x54 x34 | s75 => DD x54 x35 | s76 => DD x54 x36 | s77 => DD x54 x37 | s78 => DD x54 x38 | s79 => DD x54 x39 | s80 => DD x54 x40 | s81 => DD x54 x41 | s82 => DD x54 x42 | s83 => DD x54 x43 | s84 => DD x54 x44 | s85 => DD x54 x45 | s86 => DD x54 x46 | s87 => DD x54 x47 | s88 => DD x54 x48 | s89 => DD x54 x49 | s90 => DD x54 x50 | s91 => DD x54 x51 | s92 => DD x54 x52 | s93 => DD x54 x53 | s94 => DD x54 x54 | s95 => DD x54 x55 | s96 => DD x54 x56 | s97 => DD x54 x57 | s98 => DD x54 x58 | s99 => DD x54 x59 | s100 => DD x54 x60 | s101 => DD x54 x61 | s102 => DD x54 x62 | s103 => DD x54 x63 | s104 => DD x55 x0 | s105 => DD x55 x1 | s106 => DD x55 x2 | s107 => DD x55 x3 | s108 => DD x55 x4 | s109 => DD x55 x5 | s110 => DD x55 x6 | s111 => DD x55 x7 | s112 => DD x55 x8 | s113 => DD x55 x9 | s114 => DD x55 x10 | s115 => DD x55 x11 | s116 => DD x55 x12 | s117 => DD x55 x13 | s118 => DD x55 x14 | s119 => DD x55 x15 | s120 => DD x55 x16 | s121 => DD x55 x17 | s122 => DD x55 x18 | s123 => DD x55 x19 | s124 => DD x55 x20 | s125 => DD x55 x21 | s126 => DD x55 x22 end.
Definition m3420 (c : sum2) : dd := match c with s0 => DD x53 x28 | s1 => DD x53 x29 | s2 => DD x53 x30 | s3 => DD x53 x31 | s4 => DD x53 x32 | s5 => DD x53 x33 | s6 => DD x53 x34 | s7 => DD x53 x35 | s8 => DD x53 x36 | s9 => DD x53 x37 | s10 => DD x53 x38 | s11 => DD x53 x39 | s12 => DD x53 x40 | s13 => DD x53 x41 | s14 => DD x53 x42 | s15 => DD x53 x43 | s16 => DD x53 x44 | s17 => DD x53 x45 | s18 => DD x53 x46 | s19 => DD x53 x47 | s20 => DD x53 x48 | s21 => DD x53 x49 | s22 => DD x53 x50 | s23 => DD x53 x51 | s24 => DD x53 x52 | s25 => DD x53 x53 | s26 => DD x53 x54 | s27 => DD x53 x55 | s28 => DD x53 x56 | s29 => DD x53 x57 | s30 => DD x53 x58 | s31 => DD x53 x59 | s32 => DD x53 x60 | s33 => DD x53 x61 | s34 => DD x53 x62 | s35 => DD x53 x63 | s36 => DD x54 x0 | s37 => DD x54 x1 | s38 => DD x54 x2 | s39 => DD x54 x3 | s40 => DD x54 x4 | s41 => DD x54 x5 | s42 => DD x54 x6 | s43 => DD x54 x7 | s44 => DD x54 x8 | s45 => DD x54 x9 | s46 => DD x54 x10 | s47 => DD x54 x11 | s48 => DD x54 x12 | s49 => DD x54 x13 | s50 => DD x54 x14 | s51 => DD x54 x15 | s52 => DD x54 x16 | s53 => DD x54 x17 | s54 => DD x54 x18 | s55 => DD x54 x19 | s56 => DD x54 x20 | s57 => DD x54 x21 | s58 => DD x54 x22 | s59 => DD x54 x23 | s60 => DD x54 x24 | s61 => DD x54 x25 | s62 => DD x54 x26 | s63 => DD x54 x27 | s64 => DD x54 x28 | s65 => DD x54 x29 | s66 => DD x54 x30 | s67 => DD x54 x31 | s68 => DD x54 x32 | s69 => DD x54 x33 | s70 => DD x54 x34 | s71 => DD x54 x35 | s72 => DD x54 x36 | s73 => DD x54 x37 | s74 => DD x54 x38 | s75 => DD x54 x39 | s76 => DD x54 x40 | s77 => DD x54 x41 | s78 => DD x54 x42 | s79 => DD x54 x43 | s80 => DD x54 x44 | s81 => DD x54 x45 | s82 => DD x54 x46 | s83 => DD x54 x47 | s84 => DD x54 x48 | s85 => DD x54 x49 | s86 => DD x54 x50 | s87 => DD x54 x51 | s88 => DD x54 x52 | s89 => DD x54 x53 | s90 => DD x54 x54 | s91 => DD x54 x55 | s92 => DD x54 x56 | s93 => DD x54 x57 | s94 => DD x54 x58 | s95 => DD x54 x59 | s96 => DD x54 x60 | s97 => DD x54 x61 | s98 => DD x54 x62 | s99 => DD x54 x63 | s100 => DD x55 x0 | s101 => DD x55 x1 | s102 => DD x55 x2 | s103 => DD x55 x3 | s104 => DD x55 x4 | s105 => DD x55 x5 | s106 => DD x55 x6 | s107 => DD x55 x7 | s108 => DD x55 x8 | s109 => DD x55 x9 | s110 => DD x55 x10 | s111 => DD x55 x11 | s112 => DD x55 x12 | s113 => DD x55 x13 | s114 => DD x55 x14 | s115 => DD x55 x15 | s116 => DD x55 x16 | s117 => DD x55 x17 | s118 => DD x55 x18 | s119 => DD x55 x19 | s120 => DD x55 x20 | s121 => DD x55 x21 | s122 => DD x55 x22 | s123 => DD x55 x23 | s124 => DD x55 x24 | s125 => DD x55 x25 | s126 => DD x55 x26 end.
Definition m3422 (c : sum2) : dd := match c with s0 => DD x53 x30 | s1 => DD x53 x31 | s2 => DD x53 x32 | s3 => DD x53 x33 | s4 => DD x53 x34 | s5 => DD x53 x35 | s6 => DD x53 x36 | s7 => DD x53 x37 | s8 => DD x53 x38 | s9 => DD x53 x39 | s10 => DD x53 x40 | s11 => DD x53 x41 | s12 => DD x53 x42 | s13 => DD x53 x43 | s14 => DD x53 x44 | s15 => DD x53 x45 | s16 => DD x53 x46 | s17 => DD x53 x47 | s18 => DD x53 x48 | s19 => DD x53 x49 | s20 => DD x53 x50 | s21 => DD x53 x51 | s22 => DD x53 x52 | s23 => DD x53 x53 | s24 => DD x53 x54 | s25 => DD x53 x55 | s26 => DD x53 x56 | s27 => DD x53 x57 | s28 => DD x53 x58 | s29 => DD x53 x59 | s30 => DD x53 x60 | s31 => DD x53 x61 | s32 => DD x53 x62 | s33 => DD x53 x63 | s34 => DD x54 x0 | s35 => DD x54 x1 | s36 => DD x54 x2 | s37 => DD x54 x3 | s38 => DD x54 x4 | s39 => DD x54 x5 | s40 => DD x54 x6 | s41 => DD x54 x7 | s42 => DD x54 x8 | s43 => DD x54 x9 | s44 => DD x54 x10 | s45 => DD x54 x11 | s46 => DD x54 x12 | s47 => DD x54 x13 | s48 => DD x54 x14 | s49 => DD x54 x15 | s50 => DD x54 x16 | s51 => DD x54 x17 | s52 => DD x54 x18 | s53 => DD x54 x19 | s54 => DD x54 x20 | s55 => DD x54 x21 | s56 => DD x54 x22 | s57 => DD x54 x23 | s58 => DD x54 x24 | s59 => DD x54 x25 | s60 => DD x54 x26 | s61 => DD x54 x27 | s62 => DD x54 x28 | s63 => DD x54 x29 | s64 => DD x54 x30 | s65 => DD x54 x31 | s66 => DD x54 x32 | s67 => DD x54 x33 | s68 => DD x54 x34 | s69 => DD x54 x35 | s70 => DD x54 x36 | s71 => DD x54 x37 | s72 => DD x54 x38 | s73 => DD x54 x39 | s74 => DD x54 x40 | s75 => DD x54 x41 | s76 => DD x54 x42 | s77 => DD x54 x43 | s78 => DD x54 x44 | s79 => DD x54 x45 | s80 => DD x54 x46 | s81 => DD x54 x47 | s82 => DD x54 x48 | s83 => DD x54 x49 | s84 => DD x54 x50 | s85 => DD x54 x51 | s86 => DD x54 x52 | s87 => DD x54 x53 | s88 => DD x54 x54 | s89 => DD x54 x55 | s90 => DD x54 x56 | s91 => DD x54 x57 | s92 => DD x54 x58 | s93 => DD x54 x59 | s94 => DD x54 x60 | s95 => DD x54 x61 | s96 => DD x54 x62 | s97 => DD x54 x63 | s98 => DD x55 x0 | s99 => DD x55 x1 | s100 => DD x55 x2 | s101 => DD x55 x3 | s102 => DD x55 x4 | s103 => DD x55 x5 | s104 => DD x55 x6 | s105 => DD x55 x7 | s106 => DD x55 x8 | s107 => DD x55 x9 | s108 => DD x55 x10 | s109 => DD x55 x11 | s110 => DD x55 x12 | s111 => DD x55 x13 | s112 => DD x55 x14 | s113 => DD x55 x15 | s114 => DD x55 x16 | s115 => DD x55 x17 | s116 => DD x55 x18 | s117 => DD x55 x19 | s118 => DD x55 x20 | s119 => DD x55 x21 | s120 => DD x55 x22 | s121 => DD x55 x23 | s122 => DD x55 x24 | s123 => DD x55 x25 | s124 => DD x55 x26 | s125 => DD x55 x27 | s126 => DD x55 x28 end.
Definition m3465 (c : sum2) : dd := match c with s0 => DD x54 x9 | s1 => DD x54 x10 | s2 => DD x54 x11 | s3 => DD x54 x12 | s4 => DD x54 x13 | s5 => DD x54 x14 | s6 => DD x54 x15 | s7 => DD x54 x16 | s8 => DD x54 x17 | s9 => DD x54 x18 | s10 => DD x54 x19 | s11 => DD x54 x20 | s12 => DD x54 x21 | s13 => DD x54 x22 | s14 => DD x54 x23 | s15 => DD x54 x24 | s16 => DD x54 x25 | s17 => DD x54 x26 | s18 => DD x54 x27 | s19 => DD x54 x28 | s20 => DD x54 x29 | s21 => DD x54 x30 | s22 => DD x54 x31 | s23 => DD x54 x32 | s24 => DD x54 x33 | s25 => DD x54 x34 | s26 => DD x54 x35 | s27 => DD x54 x36 | s28 => DD x54 x37 | s29 => DD x54 x38 | s30 => DD x54 x39 | s31 => DD x54 x40 | s32 => DD x54 x41 | s33 => DD x54 x42 | s34 => DD x54 x43 | s35 => DD x54 x44 | s36 => DD x54 x45 | s37 => DD x54 x46 | s38 => DD x54 x47 | s39 => DD x54 x48 | s40 => DD x54 x49 | s41 => DD x54 x50 | s42 => DD x54 x51 | s43 => DD x54 x52 | s44 => DD x54 x53 | s45 => DD x54 x54 | s46 => DD x54 x55 | s47 => DD x54 x56 | s48 => DD x54 x57 | s49 => DD x54 x58 | s50 => DD x54 x59 | s51 => DD x54 x60 | s52 => DD x54 x61 | s53 => DD x54 x62 | s54 => DD x54 x63 | s55 => DD x55 x0 | s56 => DD x55 x1 | s57 => DD x55 x2 | s58 => DD x55 x3 | s59 => DD x55 x4 | s60 => DD x55 x5 | s61 => DD x55 x6 | s62 => DD x55 x7 | s63 => DD x55 x8 | s64 => DD x55 x9 | s65 => DD x55 x10 | s66 => DD x55 x11 | s67 => DD x55 x12 | s68 => DD x55 x13 | s69 => DD x55 x14 | s70 => DD x55 x15 | s71 => DD x55 x16 | s72 => DD x55 x17 | s73 => DD x55 x18 | s74 => DD x55 x19 | s75 => DD x55 x20 | s76 => DD x55 x21 | s77 => DD x55 x22 | s78 => DD x55 x23 | s79 => DD x55 x24 | s80 => DD x55 x25 | s81 => DD x55 x26 | s82 => DD x55 x27 | s83 => DD x55 x28 | s84 => DD x55 x29 | s85 => DD x55 x30 | s86 => DD x55 x31 | s87 => DD x55 x32 | s88 => DD x55 x33 | s89 => DD x55 x34 | s90 => DD x55 x35 | s91 => DD x55 x36 | s92 => DD x55 x37 | s93 => DD x55 x38 | s94 => DD x55 x39 | s95 => DD x55 x40 | s96 => DD x55 x41 | s97 => DD x55 x42 | s98 => DD x55 x43 | s99 => DD x55 x44 | s100 => DD x55 x45 | s101 => DD x55 x46 | s102 => DD x55 x47 | s103 => DD x55 x48 | s104 => DD x55 x49 | s105 => DD x55 x50 | s106 => DD x55 x51 | s107 => DD x55 x52 | s108 => DD x55 x53 | s109 => DD x55 x54 | s110 => DD x55 x55 | s111 => DD x55 x56 | s112 => DD x55 x57 | s113 => DD x55 x58 | s114 => DD x55 x59 | s115 => DD x55 x60 | s116 => DD x55 x61 | s117 => DD x55 x62 | s118 => DD x55 x63 | s119 => DD x56 x0 | s120 => DD x56 x1 | s121 => DD x56 x2 | s122 => DD x56 x3 | s123 => DD x56 x4 | s124 => DD x56 x5 | s125 => DD x56 x6 | s126 => DD x56 x7 end.
Definition m3472 (c : sum2) : dd := match c with s0 => DD x54 x16 | s1 => DD x54 x17 | s2 => DD x54 x18 | s3 => DD x54 x19 | s4 => DD x54 x20 | s5 => DD x54 x21 | s6 => DD x54 x22 | s7 => DD x54 x23 | s8 => DD x54 x24 | s9 => DD x54 x25 | s10 => DD x54 x26 | s11 => DD x54 x27 | s12 => DD x54 x28 | s13 => DD x54 x29 | s14 => DD x54 x30 | s15 => DD x54 x31 | s16 => DD x54 x32 | s17 => DD x54 x33 | s18 => DD x54 x34 | s19 => DD x54 x35 | s20 => DD x54 x36 | s21 => DD x54 x37 | s22 => DD x54 x38 | s23 => DD x54 x39 | s24 => DD x54 x40 | s25 => DD x54 x41 | s26 => DD x54 x42 | s27 => DD x54 x43 | s28 => DD x54 x44 | s29 => DD x54 x45 | s30 => DD x54 x46 | s31 => DD x54 x47 | s32 => DD x54 x48 | s33 => DD x54 x49 | s34 => DD x54 x50 | s35 => DD x54 x51 | s36 => DD x54 x52 | s37 => DD x54 x53 | s38 => DD x54 x54 | s39 => DD x54 x55 | s40 => DD x54 x56 | s41 => DD x54 x57 | s42 => DD x54 x58 | s43 => DD x54 x59 | s44 => DD x54 x60 | s45 => DD x54 x61 | s46 => DD x54 x62 | s47 => DD x54 x63 | s48 => DD x55 x0 | s49 => DD x55 x1 | s50 => DD x55 x2 | s51 => DD x55 x3 | s52 => DD x55 x4 | s53 => DD x55 x5 | s54 => DD x55 x6 | s55 => DD x55 x7 | s56 => DD x55 x8 | s57 => DD x55 x9 | s58 => DD x55 x10 | s59 => DD x55 x11 | s60 => DD x55 x12 | s61 => DD x55 x13 | s62 => DD x55 x14 | s63 => DD x55 x15 | s64 => DD x55 x16 | s65 => DD x55 x17 | s66 => DD x55 x18 | s67 => DD x55 x19 | s68 => DD x55 x20 | s69 => DD x55 x21 | s70 => DD x55 x22 | s71 => DD x55 x23 | s72 => DD x55 x24 | s73 => DD x55 x25 | s74 => DD x55 x26 | s75 => DD x55 x27 | s76 => DD x55 x28 | s77 => DD x55 x29 | s78 => DD x55 x30 | s79 => DD x55 x31 | s80 => DD x55 x32 | s81 => DD x55 x33 | s82 => DD x55 x34 | s83 => DD x55 x35 | s84 => DD x55 x36 | s85 => DD x55 x37 | s86 => DD x55 x38 | s87 => DD x55 x39 | s88 => DD x55 x40 | s89 => DD x55 x41 | s90 => DD x55 x42 | s91 => DD x55 x43 | s92 => DD x55 x44 | s93 => DD x55 x45 | s94 => DD x55 x46 | s95 => DD x55 x47 | s96 => DD x55 x48 | s97 => DD x55 x49 | s98 => DD x55 x50 | s99 => DD x55 x51 | s100 => DD x55 x52 | s101 => DD x55 x53 | s102 => DD x55 x54 | s103 => DD x55 x55 | s104 => DD x55 x56 | s105 => DD x55 x57 | s106 => DD x55 x58 | s107 => DD x55 x59 | s108 => DD x55 x60 | s109 => DD x55 x61 | s110 => DD x55 x62 | s111 => DD x55 x63 | s112 => DD x56 x0 | s113 => DD x56 x1 | s114 => DD x56 x2 | s115 => DD x56 x3 | s116 => DD x56 x4 | s117 => DD x56 x5 | s118 => DD x56 x6 | s119 => DD x56 x7 | s120 => DD x56 x8 | s121 => DD x56 x9 | s122 => DD x56 x10 | s123 => DD x56 x11 | s124 => DD x56 x12 | s125 => DD x56 x13 | s126 => DD x56 x14 end.
Definition m3477 (c : sum2) : dd := match c with s0 => DD x54 x21 | s1 => DD x54 x22 | s2 => DD x54 x23 | s3 => DD x54 x24 | s4 => DD x54 x25 | s5 => DD x54 x26 | s6 => DD x54 x27 | s7 => DD x54 x28 | s8 => DD x54 x29 | s9 => DD x54 x30 | s10 => DD x54 x31 | s11 => DD x54 x32 | s12 => DD x54 x33 | s13 => DD x54 x34 | s14 => DD x54 x35 | s15 => DD x54 x36 | s16 => DD x54 x37 | s17 => DD x54 x38 | s18 => DD x54 x39 | s19 => DD x54 x40 | s20 => DD x54 x41 | s21 => DD x54 x42 | s22 => DD x54 x43 | s23 => DD x54 x44 | s24 => DD x54 x45 | s25 => DD x54 x46 | s26 => DD x54 x47 | s27 => DD x54 x48 | s28 => DD x54 x49 | s29 => DD x54 x50 | s30 => DD x54 x51 | s31 => DD x54 x52 | s32 => DD x54 x53 | s33 => DD x54 x54 | s34 => DD x54 x55 | s35 => DD x54 x56 | s36 => DD x54 x57 | s37 => DD x54 x58 | s38 => DD x54 x59 | s39 => DD x54 x60 | s40 => DD x54 x61 | s41 => DD x54 x62 | s42 => DD x54 x63 | s43 => DD x55 x0 | s44 => DD x55 x1 | s45 => DD x55 x2 | s46 => DD x55 x3 | s47 => DD x55 x4 | s48 => DD x55 x5 | s49 => DD x55 x6 | s50 => DD x55 x7 | s51 => DD x55 x8 | s52 => DD x55 x9 | s53 => DD x55 x10 | s54 => DD x55 x11 | s55 => DD x55 x12 | s56 => DD x55 x13 | s57 => DD x55 x14 | s58 => DD x55 x15 | s59 => DD x55 x16 | s60 => DD x55 x17 | s61 => DD x55 x18 | s62 => DD x55 x19 | s63 => DD x55 x20 | s64 => DD x55 x21 | s65 => DD x55 x22 | s66 => DD x55 x23 | s67 => DD x55 x24 | s68 => DD x55 x25 | s69 => DD x55 x26 | s70 => DD x55 x27 | s71 => DD x55 x28 | s72 => DD x55 x29 | s73 => DD x55 x30 | s74 => DD x55 x31 | s75 => DD x55 x32 | s76 => DD x55 x33 | s77 => DD x55 x34 | s78 => DD x55 x35 | s79 => DD x55 x36 | s80 => DD x55 x37 | s81 => DD x55 x38 | s82 => DD x55 x39 | s83 => DD x55 x40 | s84 => DD x55 x41 | s85 => DD x55 x42 | s86 => DD x55 x43 | s87 => DD x55 x44 | s88 => DD x55 x45 | s89 => DD x55 x46 | s90 => DD x55 x47 | s91 => DD x55 x48 | s92 => DD x55 x49 | s93 => DD x55 x50 | s94 => DD x55 x51 | s95 => DD x55 x52 | s96 => DD x55 x53 | s97 => DD x55 x54 | s98 => DD x55 x55 | s99 => DD x55 x56 | s100 => DD x55 x57 | s101 => DD x55 x58 | s102 => DD x55 x59 | s103 => DD x55 x60 | s104 => DD x55 x61 | s105 => DD x55 x62 | s106 => DD x55 x63 | s107 => DD x56 x0 | s108 => DD x56 x1 | s109 => DD x56 x2 | s110 => DD x56 x3 | s111 => DD x56 x4 | s112 => DD x56 x5 | s113 => DD x56 x6 | s114 => DD x56 x7 | s115 => DD x56 x8 | s116 => DD x56 x9 | s117 => DD x56 x10 | s118 => DD x56 x11 | s119 => DD x56 x12 | s120 => DD x56 x13 | s121 => DD x56 x14 | s122 => DD x56 x15 | s123 => DD x56 x16 | s124 => DD x56 x17 | s125 => DD x56 x18 | s126 => DD x56 x19 end.
Definition m3480 (c : sum2) : dd := match c with s0 => DD x54 x24 | s1 => DD x54 x25 | s2 => DD x54 x26 | s3 => DD x54 x27 | s4 => DD x54 x28 | s5 => DD x54 x29 | s6 => DD x54 x30 | s7 => DD x54 x31 | s8 => DD x54 x32 | s9 => DD x54 x33 | s10 => DD x54 x34 | s11 => DD x54 x35 | s12 => DD x54 x36 | s13 => DD x54 x37 | s14 => DD x54 x38 | s15 => DD x54 x39 | s16 => DD x54 x40 | s17 => DD x54 x41 | s18 => DD x54 x42 | s19 => DD x54 x43 | s20 => DD x54 x44 | s21 => DD x54 x45 | s22 => DD x54 x46 | s23 => DD x54 x47 | s24 => DD x54 x48 | s25 => DD x54 x49 | s26 => DD x54 x50 | s27 => DD x54 x51 | s28 => DD x54 x52 | s29 => DD x54 x53 | s30 => DD x54 x54 | s31 => DD x54 x55 | s32 => DD x54 x56 | s33 => DD x54 x57 | s34 => DD x54 x58 | s35 => DD x54 x59 | s36 => DD x54 x60 | s37 => DD x54 x61 | s38 => DD x54 x62 | s39 => DD x54 x63 | s40 => DD x55 x0 | s41 => DD x55 x1 | s42 => DD x55 x2 | s43 => DD x55 x3 | s44 => DD x55 x4 | s45 => DD x55 x5 | s46 => DD x55 x6 | s47 => DD x55 x7 | s48 => DD x55 x8 | s49 => DD x55 x9 | s50 => DD x55 x10 | s51 => DD x55 x11 | s52 => DD x55 x12 | s53 => DD x55 x13 | s54 => DD x55 x14 | s55 => DD x55 x15 | s56 => DD x55 x16 | s57 => DD x55 x17 | s58 => DD x55 x18 | s59 => DD x55 x19 | s60 => DD x55 x20 | s61 => DD x55 x21 | s62 => DD x55 x22 | s63 => DD x55 x23 | s64 => DD x55 x24 | s65 => DD x55 x25 | s66 => DD x55 x26 | s67 => DD x55 x27 | s68 => DD x55 x28 | s69 => DD x55 x29 | s70 => DD x55 x30 | s71 => DD x55 x31 | s72 => DD x55 x32 | s73 => DD x55 x33 | s74 => DD x55 x34 | s75 => DD x55 x35 | s76 => DD x55 x36 | s77 => DD x55 x37 | s78 => DD x55 x38 | s79 => DD x55 x39 | s80 => DD x55 x40 | s81 => DD x55 x41 | s82 => DD x55 x42 | s83 => DD x55 x43 | s84 => DD x55 x44 | s85 => DD x55 x45 | s86 => DD x55 x46 | s87 => DD x55 x47 | s88 => DD x55 x48 | s89 => DD x55 x49 | s90 => DD x55 x50 | s91 => DD x55 x51 | s92 => DD x55 x52 | s93 => DD x55 x53 | s94 => DD x55 x54 | s95 => DD x55 x55 | s96 => DD x55 x56 | s97 => DD x55 x57 | s98 => DD x55 x58 | s99 => DD x55 x59 | s100 => DD x55 x60 | s101 => DD x55 x61 | s102 => DD x55 x62 | s103 => DD x55 x63 | s104 => DD x56 x0 | s105 => DD x56 x1 | s106 => DD x56 x2 | s107 => DD x56 x3 | s108 => DD x56 x4 | s109 => DD x56 x5 | s110 => DD x56 x6 | s111 => DD x56 x7 | s112 => DD x56 x8 | s113 => DD x56 x9 | s114 => DD x56 x10 | s115 => DD x56 x11 | s116 => DD x56 x12 | s117 => DD x56 x13 | s118 => DD x56 x14 | s119 => DD x56 x15 | s120 => DD x56 x16 | s121 => DD x56 x17 | s122 => DD x56 x18 | s123 => DD x56 x19 | s124 => DD x56 x20 | s125 => DD x56 x21 | s126 => DD x56 x22 end.
Definition m3481 (c : sum2) : dd := match c with s0 => DD x54 x25 | s1 => DD x54 x26 | s2 => DD x54 x27 | s3 => DD x54 x28 | s4 => DD x54 x29 | s5 => DD x54 x30 | s6 => DD x54 x31 | s7 => DD x54 x32 | s8 => DD x54 x33 | s9 => DD x54 x34 | s10 => DD x54 x35 | s11 => DD x54 x36 | s12 => DD x54 x37 | s13 => DD x54 x38 | s14 => DD x54 x39 | s15 => DD x54 x40 | s16 => DD x54 x41 | s17 => DD x54 x42 | s18 => DD x54 x43 | s19 => DD x54 x44 | s20 => DD x54 x45 | s21 => DD x54 x46 | s22 => DD x54 x47 | s23 => DD x54 x48 | s24 => DD x54 x49 | s25 => DD x54 x50 | s26 => DD x54 x51 | s27 => DD x54 x52 | s28 => DD x54 x53 | s29 => DD x54 x54 | s30 => DD x54 x55 | s31 => DD x54 x56 | s32 => DD x54 x57 | s33 => DD x54 x58 | s34 => DD x54 x59 | s35 => DD x54 x60 | s36 => DD x54 x61 | s37 => DD x54 x62 | s38 => DD x54 x63 | s39 => DD x55 x0 | s40 => DD x55 x1 | s41 => DD x55 x2 | s42 => DD x55 x3 | s43 => DD x55 x4 | s44 => DD x55 x5 | s45 => DD x55 x6 | s46 => DD x55 x7 | s47 => DD x55 x8 | s48 => DD x55 x9 | s49 => DD x55 x10 | s50 => DD x55 x11 | s51 => DD x55 x12 | s52 => DD x55 x13 | s53 => DD x55 x14 | s54 => DD x55 x15 | s55 => DD x55 x16 | s56 => DD x55 x17 | s57 => DD x55 x18 | s58 => DD x55 x19 | s59 => DD x55 x20 | s60 => DD x55 x21 | s61 => DD x55 x22 | s62 => DD x55 x23 | s63 => DD x55 x24 | s64 => DD x55 x25 | s65 => DD x55 x26 | s66 => DD x55 x27 | s67 => DD x55 x28 | s68 => DD x55 x29 | s69 => DD x55 x30 | s70 => DD x55 x31 | s71 => DD x55 x32 | s72 => DD x55 x33 | s73 => DD x55 x34 | s74 => DD x55 x35 | s75 => DD x55 x36 | s76 => DD x55 x37 | s77 => DD x55 x38 | s78 => DD x55 x39 | s79 => DD x55 x40 | s80 => DD x55 x41 | s81 => DD x55 x42 | s82 => DD x55 x43 | s83 => DD x55 x44 | s84 => DD x55 x45 | s85 => DD x55 x46 | s86 => DD x55 x47 | s87 => DD x55 x48 | s88 => DD x55 x49 | s89 => DD x55 x50 | s90 => DD x55 x51 | s91 => DD x55 x52 | s92 => DD x55 x53 | s93 => DD x55 x54 | s94 => DD x55 x55 | s95 => DD x55 x56 | s96 => DD x55 x57 | s97 => DD x55 x58 | s98 => DD x55 x59 | s99 => DD x55 x60 | s100 => DD x55 x61 | s101 => DD x55 x62 | s102 => DD x55 x63 | s103 => DD x56 x0 | s104 => DD x56 x1 | s105 => DD x56 x2 | s106 => DD x56 x3 | s107 => DD x56 x4 | s108 => DD x56 x5 | s109 => DD x56 x6 | s110 => DD x56 x7 | s111 => DD x56 x8 | s112 => DD x56 x9 | s113 => DD x56 x10 | s114 => DD x56 x11 | s115 => DD x56 x12 | s116 => DD x56 x13 | s117 => DD x56 x14 | s118 => DD x56 x15 | s119 => DD x56 x16 | s120 => DD x56 x17 | s121 => DD x56 x18 | s122 => DD x56 x19 | s123 => DD x56 x20 | s124 => DD x56 x21 | s125 => DD x56 x22 | s126 => DD x56 x23 end.
Definition m3528 (c : sum2) : dd := match c with s0 => DD x55 x8 | s1 => DD x55 x9 | s2 => DD x55 x10 | s3 => DD x55 x11 | s4 => DD x55 x12 | s5 => DD x55 x13 | s6 => DD x55 x14 | s7 => DD x55 x15 | s8 => DD x55 x16 | s9 => DD x55 x17 | s10 => DD x55 x18 | s11 => DD x55 x19 | s12 => DD x55 x20 | s13 => DD x55 x21 | s14 => DD x55 x22 | s15 => DD x55 x23 | s16 => DD x55 x24 | s17 => DD x55 x25 | s18 => DD x55 x26 | s19 => DD x55 x27 | s20 => DD x55 x28 | s21 => DD x55 x29 | s22 => DD x55 x30 | s23 => DD x55 x31 | s24 => DD x55 x32 | s25 => DD x55 x33 | s26 => DD x55 x34 | s27 => DD x55 x35 | s28 => DD x55 x36 | s29 => DD x55 x37 | s30 => DD x55 x38 | s31 => DD x55 x39 | s32 => DD x55 x40 | s33 => DD x55 x41 | s34 => DD x55 x42 | s35 => DD x55 x43 | s36 => DD x55 x44 | s37 => DD x55 x45 | s38 => DD x55 x46 | s39 => DD x55 x47 | s40 => DD x55 x48 | s41 => DD x55 x49 | s42 => DD x55 x50 | s43 => DD x55 x51 | s44 => DD x55 x52 | s45 => DD x55 x53 | s46 => DD x55 x54 | s47 => DD x55 x55 | s48 => DD x55 x56 | s49 => DD x55 x57 | s50 => DD x55 x58 | s51 => DD x55 x59 | s52 => DD x55 x60 | s53 => DD x55 x61 | s54 => DD x55 x62 | s55 => DD x55 x63 | s56 => DD x56 x0 | s57 => DD x56 x1 | s58 => DD x56 x2 | s59 => DD x56 x3 | s60 => DD x56 x4 | s61 => DD x56 x5 | s62 => DD x56 x6 | s63 => DD x56 x7 | s64 => DD x56 x8 | s65 => DD x56 x9 | s66 => DD x56 x10 | s67 => DD x56 x11 | s68 => DD x56 x12 | s69 => DD x56 x13 | s70 => DD x56 x14 | s71 => DD x56 x15 | s72 => DD x56 x16 | s73 => DD x56 x17 | s74 => DD x56 x18 | s75 => DD x56 x19 | s76 => DD x56 x20 | s77 => DD x56 x21 | s78 => DD x56 x22 | s79 => DD x56 x23 | s80 => DD x56 x24 | s81 => DD x56 x25 | s82 => DD x56 x26 | s83 => DD x56 x27 | s84 => DD x56 x28 | s85 => DD x56 x29 | s86 => DD x56 x30 | s87 => DD x56 x31 | s88 => DD x56 x32 | s89 => DD x56 x33 | s90 => DD x56 x34 | s91 => DD x56 x35 | s92 => DD x56 x36 | s93 => DD x56 x37 | s94 => DD x56 x38 | s95 => DD x56 x39 | s96 => DD x56 x40 | s97 => DD x56 x41 | s98 => DD x56 x42 | s99 => DD x56 x43 | s100 => DD x56 x44 | s101 => DD x56 x45 | s102 => DD x56 x46 | s103 => DD x56 x47 | s104 => DD x56 x48 | s105 => DD x56 x49 | s106 => DD x56 x50 | s107 => DD x56 x51 | s108 => DD x56 x52 | s109 => DD x56 x53 | s110 => DD x56 x54 | s111 => DD x56 x55 | s112 => DD x56 x56 | s113 => DD x56 x57 | s114 => DD x56 x58 | s115 => DD x56 x59 | s116 => DD x56 x60 | s117 => DD x56 x61 | s118 => DD x56 x62 | s119 => DD x56 x63 | s120 => DD x57 x0 | s121 => DD x57 x1 | s122 => DD x57 x2 | s123 => DD x57 x3 | s124 => DD x57 x4 | s125 => DD x57 x5 | s126 => DD x57 x6 end.
Definition m3534 (c : sum2) : dd := match c with s0 => DD x55 x14 | s1 => DD x55 x15 | s2 => DD x55 x16 | s3 => DD x55 x17 | s4 => DD x55 x18 | s5 => DD x55 x19 | s6 => DD x55 x20 | s7 => DD x55 x21 | s8 => DD x55 x22 | s9 => DD x55 x23 | s10 => DD x55 x24 | s11 => DD x55 x25 | s12 => DD x55 x26 | s13 => DD x55 x27 | s14 => DD x55 x28 | s15 => DD x55 x29 | s16 => DD x55 x30 | s17 => DD x55 x31 | s18 => DD x55 x32 | s19 => DD x55 x33 | s20 => DD x55 x34 | s21 => DD x55 x35 | s22 => DD x55 x36 | s23 => DD x55 x37 | s24 => DD x55 x38 | s25 => DD x55 x39 | s26 => DD x55 x40 | s27 => DD x55 x41 | s28 => DD x55 x42 | s29 => DD x55 x43 | s30 => DD x55 x44 | s31 => DD x55 x45 | s32 => DD x55 x46 | s33 => DD x55 x47 | s34 => DD x55 x48 | s35 => DD x55 x49 | s36 => DD x55 x50 | s37 => DD x55 x51 | s38 => DD x55 x52 | s39 => DD x55 x53 | s40 => DD x55 x54 | s41 => DD x55 x55 | s42 => DD x55 x56 | s43 => DD x55 x57 | s44 => DD x55 x58 | s45 => DD x55 x59 | s46 => DD x55 x60 | s47 => DD x55 x61 | s48 => DD x55 x62 | s49 => DD x55 x63 | s50 => DD x56 x0 | s51 => DD x56 x1 | s52 => DD x56 x2 | s53 => DD x56 x3 | s54 => DD x56 x4 | s55 => DD x56 x5 | s56 => DD x56 x6 | s57 => DD x56 x7 | s58 => DD x56 x8 | s59 => DD x56 x9 | s60 => DD x56 x10 | s61 => DD x56 x11 | s62 => DD x56 x12 | s63 => DD x56 x13 | s64 => DD x56 x14 | s65 => DD x56 x15 | s66 => DD x56 x16 | s67 => DD x56 x17 | s68 => DD x56 x18 | s69 => DD x56 x19 | s70 => DD x56 x20 | s71 => DD x56 x21 | s72 => DD x56 x22 | s73 => DD x56 x23 | s74 => DD x56 x24 | s75 => DD x56 x25 | s76 => DD x56 x26 | s77 => DD x56 x27 | s78 => DD x56 x28 | s79 => DD x56 x29 | s80 => DD x56 x30 | s81 => DD x56 x31 | s82 => DD x56 x32 | s83 => DD x56 x33 | s84 => DD x56 x34 | s85 => DD x56 x35 | s86 => DD x56 x36 | s87 => DD x56 x37 | s88 => DD x56 x38 | s89 => DD x56 x39 | s90 => DD x56 x40 | s91 => DD x56 x41 | s92 => DD x56 x42 | s93 => DD x56 x43 | s94 => DD x56 x44 | s95 => DD x56 x45 | s96 => DD x56 x46 | s97 => DD x56 x47 | s98 => DD x56 x48 | s99 => DD x56 x49 | s100 => DD x56 x50 | s101 => DD x56 x51 | s102 => DD x56 x52 | s103 => DD x56 x53 | s104 => DD x56 x54 | s105 => DD x56 x55 | s106 => DD x56 x56 | s107 => DD x56 x57 | s108 => DD x56 x58 | s109 => DD x56 x59 | s110 => DD x56 x60 | s111 => DD x56 x61 | s112 => DD x56 x62 | s113 => DD x56 x63 | s114 => DD x57 x0 | s115 => DD x57 x1 | s116 => DD x57 x2 | s117 => DD x57 x3 | s118 => DD x57 x4 | s119 => DD x57 x5 | s120 => DD x57 x6 | s121 => DD x57 x7 | s122 => DD x57 x8 | s123 => DD x57 x9 | s124 => DD x57 x10 | s125 => DD x57 x11 | s126 => DD x57 x12 end.
Definition m3538 (c : sum2) : dd := match c with s0 => DD x55 x18 | s1 => DD x55 x19 | s2 => DD x55 x20 | s3 => DD x55 x21 | s4 => DD x55 x22 | s5 => DD x55 x23 | s6 => DD x55 x24 | s7 => DD x55 x25 | s8 => DD x55 x26 | s9 => DD x55 x27 | s10 => DD x55 x28 | s11 => DD x55 x29 | s12 => DD x55 x30 | s13 => DD x55 x31 | s14 => DD x55 x32 | s15 => DD x55 x33 | s16 => DD x55 x34 | s17 => DD x55 x35 | s18 => DD x55 x36 | s19 => DD x55 x37 | s20 => DD x55 x38 | s21 => DD x55 x39 | s22 => DD x55 x40 | s23 => DD x55 x41 | s24 => DD x55 x42 | s25 => DD x55 x43 | s26 => DD x55 x44 | s27 => DD x55 x45 | s28 => DD x55 x46 | s29 => DD x55 x47 | s30 => DD x55 x48 | s31 => DD x55 x49 | s32 => DD x55 x50 | s33 => DD x55 x51 | s34 => DD x55 x52 | s35 => DD x55 x53 | s36 => DD x55 x54 | s37 => DD x55 x55 | s38 => DD x55 x56 | s39 => DD x55 x57 | s40 => DD x55 x58 | s41 => DD x55 x59 | s42 => DD x55 x60 | s43 => DD x55 x61 | s44 => DD x55 x62 | s45 => DD x55 x63 | s46 => DD x56 x0 | s47 => DD x56 x1 | s48 => DD x56 x2 | s49 => DD x56 x3 | s50 => DD x56 x4 | s51 => DD x56 x5 | s52 => DD x56 x6 | s53 => DD x56 x7 | s54 => DD x56 x8 | s55 => DD x56 x9 | s56 => DD x56 x10 | s57 => DD x56 x11 | s58 => DD x56 x12 | s59 => DD x56 x13 | s60 => DD x56 x14 | s61 => DD x56 x15 | s62 => DD x56 x16 | s63 => DD x56 x17 | s64 => DD x56 x18 | s65 => DD x56 x19 | s66 => DD x56 x20 | s67 => DD x56 x21 | s68 => DD x56 x22 | s69 => DD x56 x23 | s70 => DD x56 x24 | s71 => DD x56 x25 | s72 => DD x56 x26 | s73 => DD x56 x27 | s74 => DD x56 x28 | s75 => DD x56 x29 | s76 => DD x56 x30 | s77 => DD x56 x31 | s78 => DD x56 x32 | s79 => DD x56 x33 | s80 => DD x56 x34 | s81 => DD x56 x35 | s82 => DD x56 x36 | s83 => DD x56 x37 | s84 => DD x56 x38 | s85 => DD x56 x39 | s86 => DD x56 x40 | s87 => DD x56 x41 | s88 => DD x56 x42 | s89 => DD x56 x43 | s90 => DD x56 x44 | s91 => DD x56 x45 | s92 => DD x56 x46 | s93 => DD x56 x47 | s94 => DD x56 x48 | s95 => DD x56 x49 | s96 => DD x56 x50 | s97 => DD x56 x51 | s98 => DD x56 x52 | s99 => DD x56 x53 | s100 => DD x56 x54 | s101 => DD x56 x55 | s102 => DD x56 x56 | s103 => DD x56 x57 | s104 => DD x56 x58 | s105 => DD x56 x59 | s106 => DD x56 x60 | s107 => DD x56 x61 | s108 => DD x56 x62 | s109 => DD x56 x63 | s110 => DD x57 x0 | s111 => DD x57 x1 | s112 => DD x57 x2 | s113 => DD x57 x3 | s114 => DD x57 x4 | s115 => DD x57 x5 | s116 => DD x57 x6 | s117 => DD x57 x7 | s118 => DD x57 x8 | s119 => DD x57 x9 | s120 => DD x57 x10 | s121 => DD x57 x11 | s122 => DD x57 x12 | s123 => DD x57 x13 | s124 => DD x57 x14 | s125 => DD x57 x15 | s126 => DD x57 x16 end.
Definition m3540 (c : sum2) : dd := match c with s0 => DD x55 x20 | s1 => DD x55 x21 | s2 => DD x55 x22 | s3 => DD x55 x23 | s4 => DD x55 x24 | s5 => DD x55 x25 | s6 => DD x55 x26 | s7 => DD x55 x27 | s8 => DD x55 x28 | s9 => DD x55 x29 | s10 => DD x55 x30 | s11 => DD x55 x31 | s12 => DD x55 x32 | s13 => DD x55 x33 | s14 => DD x55 x34 | s15 => DD x55 x35 | s16 => DD x55 x36 | s17 => DD x55 x37 | s18 => DD x55 x38 | s19 => DD x55 x39 | s20 => DD x55 x40 | s21 => DD x55 x41 | s22 => DD x55 x42 | s23 => DD x55 x43 | s24 => DD x55 x44 | s25 => DD x55 x45 | s26 => DD x55 x46 | s27 => DD x55 x47 | s28 => DD x55 x48 | s29 => DD x55 x49 | s30 => DD x55 x50 | s31 => DD x55 x51 | s32 => DD x55 x52 | s33 => DD x55 x53 | s34 => DD x55 x54 | s35 => DD x55 x55 | s36 => DD x55 x56 | s37 => DD x55 x57 | s38 => DD x55 x58 | s39 => DD x55 x59 | s40 => DD x55 x60 | s41 => DD x55 x61 | s42 => DD x55 x62 | s43 => DD x55 x63 | s44 => DD x56 x0 | s45 => DD x56 x1 | s46 => DD x56 x2 | s47 => DD x56 x3 | s48 => DD x56 x4 | s49 => DD x56 x5 | s50 => DD x56 x6 | s51 => DD x56 x7 | s52 => DD x56 x8 | s53 => DD x56 x9 | s54 => DD x56 x10 | s55 => DD x56 x11 | s56 => DD x56 x12 | s57 => DD x56 x13 | s58 => DD x56 x14 | s59 => DD x56 x15 | s60 => DD x56 x16 | s61 => DD x56 x17 | s62 => DD x56 x18 | s63 => DD x56 x19 | s64 => DD x56 x20 | s65 => DD x56 x21 | s66 => DD x56 x22 | s67 => DD x56 x23 | s68 => DD x56 x24 | s69 => DD x56 x25 | s70 => DD x56 x26 | s71 => DD x56 x27 | s72 => DD x56 x28 | s73 => DD x56 x29 | s74 => DD x56 x30 | s75 => DD x56 x31 | s76 => DD x56 x32 | s77 => DD x56 x33 | s78 => DD x56 x34 | s79 => DD x56 x35 | s80 => DD x56 x36 | s81 => DD x56 x37 | s82 => DD x56 x38 | s83 => DD x56 x39 | s84 => DD x56 x40 | s85 => DD x56 x41 | s86 => DD x56 x42 | s87 => DD x56 x43 | s88 => DD x56 x44 | s89 => DD x56 x45 | s90 => DD x56 x46 | s91 => DD x56 x47 | s92 => DD x56 x48 | s93 => DD x56 x49 | s94 => DD x56 x50 | s95 => DD x56 x51 | s96 => DD x56 x52 | s97 => DD x56 x53 | s98 => DD x56 x54 | s99 => DD x56 x55 | s100 => DD x56 x56 | s101 => DD x56 x57 | s102 => DD x56 x58 | s103 => DD x56 x59 | s104 => DD x56 x60 | s105 => DD x56 x61 | s106 => DD x56 x62 | s107 => DD x56 x63 | s108 => DD x57 x0 | s109 => DD x57 x1 | s110 => DD x57 x2 | s111 => DD x57 x3 | s112 => DD x57 x4 | s113 => DD x57 x5 | s114 => DD x57 x6 | s115 => DD x57 x7 | s116 => DD x57 x8 | s117 => DD x57 x9 | s118 => DD x57 x10 | s119 => DD x57 x11 | s120 => DD x57 x12 | s121 => DD x57 x13 | s122 => DD x57 x14 | s123 => DD x57 x15 | s124 => DD x57 x16 | s125 => DD x57 x17 | s126 => DD x57 x18 end.
Definition m3591 (c : sum2) : dd := match c with s0 => DD x56 x7 | s1 => DD x56 x8 | s2 => DD x56 x9 | s3 => DD x56 x10 | s4 => DD x56 x11 | s5 => DD x56 x12 | s6 => DD x56 x13 | s7 => DD x56 x14 | s8 => DD x56 x15 | s9 => DD x56 x16 | s10 => DD x56 x17 | s11 => DD x56 x18 | s12 => DD x56 x19 | s13 => DD x56 x20 | s14 => DD x56 x21 | s15 => DD x56 x22 | s16 => DD x56 x23 | s17 => DD x56 x24 | s18 => DD x56 x25 | s19 => DD x56 x26 | s20 => DD x56 x27 | s21 => DD x56 x28 | s22 => DD x56 x29 | s23 => DD x56 x30 | s24 => DD x56 x31 | s25 => DD x56 x32 | s26 => DD x56 x33 | s27 => DD x56 x34 | s28 => DD x56 x35 | s29 => DD x56 x36 | s30 => DD x56 x37 | s31 => DD x56 x38 | s32 => DD x56 x39 | s33 => DD x56 x40 | s34 => DD x56 x41 | s35 => DD x56 x42 | s36 => DD x56 x43 | s37 => DD x56 x44 | s38 => DD x56 x45 | s39 => DD x56 x46 | s40 => DD x56 x47 | s41 => DD x56 x48 | s42 => DD x56 x49 | s43 => DD x56 x50 | s44 => DD x56 x51 | s45 => DD x56 x52 | s46 => DD x56 x53 | s47 => DD x56 x54 | s48 => DD x56 x55 | s49 => DD x56 x56 | s50 => DD x56 x57 | s51 => DD x56 x58 | s52 => DD x56 x59 | s53 => DD x56 x60 | s54 => DD x56 x61 | s55 => DD x56 x62 | s56 => DD x56 x63 | s57 => DD x57 x0 | s58 => DD x57 x1 | s59 => DD x57 x2 | s60 => DD x57 x3 | s61 => DD x57 x4 | s62 => DD x57 x5 | s63 => DD x57 x6 | s64 => DD x57 x7 | s65 => DD x57 x8 | s66 => DD x57 x9 | s67 => DD x57 x10 | s68 => DD x57 x11 | s69 => DD x57 x12 | s70 => DD x57 x13 | s71 => DD x57 x14 | s72 => DD x57 x15 | s73 => DD x57 x16 | s74 => DD x57 x17 | s75 => DD x57 x18 | s76 => DD x57 x19 | s77 => DD x57 x20 | s78 => DD x57 x21 | s79 => DD x57 x22 | s80 => DD x57 x23 | s81 => DD x57 x24 | s82 => DD x57 x25 | s83 => DD x57 x26 | s84 => DD x57 x27 | s85 => DD x57 x28 | s86 => DD x57 x29 | s87 => DD x57 x30 | s88 => DD x57 x31 | s89 => DD x57 x32 | s90 => DD x57 x33 | s91 => DD x57 x34 | s92 => DD x57 x35 | s93 => DD x57 x36 | s94 => DD x57 x37 | s95 => DD x57 x38 | s96 => DD x57 x39 | s97 => DD x57 x40 | s98 => DD x57 x41 | s99 => DD x57 x42 | s100 => DD x57 x43 | s101 => DD x57 x44 | s102 => DD x57 x45 | s103 => DD x57 x46 | s104 => DD x57 x47 | s105 => DD x57 x48 | s106 => DD x57 x49 | s107 => DD x57 x50 | s108 => DD x57 x51 | s109 => DD x57 x52 | s110 => DD x57 x53 | s111 => DD x57 x54 | s112 => DD x57 x55 | s113 => DD x57 x56 | s114 => DD x57 x57 | s115 => DD x57 x58 | s116 => DD x57 x59 | s117 => DD x57 x60 | s118 => DD x57 x61 | s119 => DD x57 x62 | s120 => DD x57 x63 | s121 => DD x58 x0 | s122 => DD x58 x1 | s123 => DD x58 x2 | s124 => DD x58 x3 | s125 => DD x58 x4 | s126 => DD x58 x5 end.
Definition m3596 (c : sum2) : dd := match c with s0 => DD x56 x12 | s1 => DD x56 x13 | s2 => DD x56 x14 | s3 => DD x56 x15 | s4 => DD x56 x16 | s5 => DD x56 x17 | s6 => DD x56 x18 | s7 => DD x56 x19 | s8 => DD x56 x20 | s9 => DD x56 x21 | s10 => DD x56 x22 | s11 => DD x56 x23 | s12 => DD x56 x24 | s13 => DD x56 x25 | s14 => DD x56 x26 | s15 => DD x56 x27 | s16 => DD x56 x28 | s17 => DD x56 x29 | s18 => DD x56 x30 | s19 => DD x56 x31 | s20 => DD x56 x32 | s21 => DD x56 x33 | s22 => DD x56 x34 | s23 => DD x56 x35 | s24 => DD x56 x36 | s25 => DD x56 x37 | s26 => DD x56 x38 | s27 => DD x56 x39 | s28 => DD x56 x40 | s29 => DD x56 x41 | s30 => DD x56 x42 | s31 => DD x56 x43 | s32 => DD x56 x44 | s33 => DD x56 x45 | s34 => DD x56 x46 | s35 => DD x56 x47 | s36 => DD x56 x48 | s37 => DD x56 x49 | s38 => DD x56 x50 | s39 => DD x56 x51 | s40 => DD x56 x52 | s41 => DD x56 x53 | s42 => DD x56 x54 | s43 => DD x56 x55 | s44 => DD x56 x56 | s45 => DD x56 x57 | s46 => DD x56 x58 | s47 => DD x56 x59 | s48 => DD x56 x60 | s49 => DD x56 x61 | s50 => DD x56 x62 | s51 => DD x56 x63 | s52 => DD x57 x0 | s53 => DD x57 x1 | s54 => DD x57 x2 | s55 => DD x57 x3 | s56 => DD x57 x4 | s57 => DD x57 x5 | s58 => DD x57 x6 | s59 => DD x57 x7 | s60 => DD x57 x8 | s61 => DD x57 x9 | s62 => DD x57 x10 | s63 => DD x57 x11 | s64 => DD x57 x12 | s65 => DD x57 x13 | s66 => DD x57 x14 | s67 => DD x57 x15 | s68 => DD x57 x16 | s69 => DD x57 x17 | s70 => DD x57 x18 | s71 => DD x57 x19 | s72 => DD x57 x20 | s73 => DD x57 x21 | s74 => DD x57 x22 | s75 => DD x57 x23 | s76 => DD x57 x24 | s77 => DD x57 x25 | s78 => DD x57 x26 | s79 => DD x57 x27 | s80 => DD x57 x28 | s81 => DD x57 x29 | s82 => DD x57 x30 | s83 => DD x57 x31 | s84 => DD x57 x32 | s85 => DD x57 x33 | s86 => DD x57 x34 | s87 => DD x57 x35 | s88 => DD x57 x36 | s89 => DD x57 x37 | s90 => DD x57 x38 | s91 => DD x57 x39 | s92 => DD x57 x40 | s93 => DD x57 x41 | s94 => DD x57 x42 | s95 => DD x57 x43 | s96 => DD x57 x44 | s97 => DD x57 x45 | s98 => DD x57 x46 | s99 => DD x57 x47 | s100 => DD x57 x48 | s101 => DD x57 x49 | s102 => DD x57 x50 | s103 => DD x57 x51 | s104 => DD x57 x52 | s105 => DD x57 x53 | s106 => DD x57 x54 | s107 => DD x57 x55 | s108 => DD x57 x56 | s109 => DD x57 x57 | s110 => DD x57 x58 | s111 => DD x57 x59 | s112 => DD x57 x60 | s113 => DD x57 x61 | s114 => DD x57 x62 | s115 => DD x57 x63 | s116 => DD x58 x0 | s117 => DD x58 x1 | s118 => DD x58 x2 | s119 => DD x58 x3 | s120 => DD x58 x4 | s121 => DD x58 x5 | s122 => DD x58 x6 | s123 => DD x58 x7 | s124 => DD x58 x8 | s125 => DD x58 x9 | s126 => DD x58 x10 end.
Definition m3599 (c : sum2) : dd := match c with s0 => DD x56 x15 | s1 => DD x56 x16 | s2 => DD x56 x17 | s3 => DD x56 x18 | s4 => DD x56 x19 | s5 => DD x56 x20 | s6 => DD x56 x21 | s7 => DD x56 x22 | s8 => DD x56 x23 | s9 => DD x56 x24 | s10 => DD x56 x25 | s11 => DD x56 x26 | s12 => DD x56 x27 | s13 => DD x56 x28 | s14 => DD x56 x29 | s15 => DD x56 x30 | s16 => DD x56 x31 | s17 => DD x56 x32 | s18 => DD x56 x33 | s19 => DD x56 x34 | s20 => DD x56 x35 | s21 => DD x56 x36 | s22 => DD x56 x37 | s23 => DD x56 x38 | s24 => DD x56 x39 | s25 => DD x56 x40 | s26 => DD x56 x41 | s27 => DD x56 x42 | s28 => DD x56 x43 | s29 => DD x56 x44 | s30 => DD x56 x45 | s31 => DD x56 x46 | s32 => DD x56 x47 | s33 => DD x56 x48 | s34 => DD x56 x49 | s35 => DD x56 x50 | s36 => DD x56 x51 | s37 => DD x56 x52 | s38 => DD x56 x53 | s39 => DD x56 x54 | s40 => DD x56 x55 | s41 => DD x56 x56 | s42 => DD x56 x57 | s43 => DD x56 x58 | s44 => DD x56 x59 | s45 => DD x56 x60 | s46 => DD x56 x61 | s47 => DD x56 x62 | s48 => DD x56 x63 | s49 => DD x57 x0 | s50 => DD x57 x1 | s51 => DD x57 x2 | s52 => DD x57 x3 | s53 => DD x57 x4 | s54 => DD x57 x5 | s55 => DD x57 x6 | s56 => DD x57 x7 | s57 => DD x57 x8 | s58 => DD x57 x9 | s59 => DD x57 x10 | s60 => DD x57 x11 | s61 => DD x57 x12 | s62 => DD x57 x13 | s63 => DD x57 x14 | s64 => DD x57 x15 | s65 => DD x57 x16 | s66 => DD x57 x17 | s67 => DD x57 x18 | s68 => DD x57 x19 | s69 => DD x57 x20 | s70 => DD x57 x21 | s71 => DD x57 x22 | s72 => DD x57 x23 | s73 => DD x57 x24 | s74 => DD x57 x25 | s75 => DD x57 x26 | s76 => DD x57 x27 | s77 => DD x57 x28 | s78 => DD x57 x29 | s79 => DD x57 x30 | s80 => DD x57 x31 | s81 => DD x57 x32 | s82 => DD x57 x33 | s83 => DD x57 x34 | s84 => DD x57 x35 | s85 => DD x57 x36 | s86 => DD x57 x37 | s87 => DD x57 x38 | s88 => DD x57 x39 | s89 => DD x57 x40 | s90 => DD x57 x41 | s91 => DD x57 x42 | s92 => DD x57 x43 | s93 => DD x57 x44 | s94 => DD x57 x45 | s95 => DD x57 x46 | s96 => DD x57 x47 | s97 => DD x57 x48 | s98 => DD x57 x49 | s99 => DD x57 x50 | s100 => DD x57 x51 | s101 => DD x57 x52 | s102 => DD x57 x53 | s103 => DD x57 x54 | s104 => DD x57 x55 | s105 => DD x57 x56 | s106 => DD x57 x57 | s107 => DD x57 x58 | s108 => DD x57 x59 | s109 => DD x57 x60 | s110 => DD x57 x61 | s111 => DD x57 x62 | s112 => DD x57 x63 | s113 => DD x58 x0 | s114 => DD x58 x1 | s115 => DD x58 x2 | s116 => DD x58 x3 | s117 => DD x58 x4 | s118 => DD x58 x5 | s119 => DD x58 x6 | s120 => DD x58 x7 | s121 => DD x58 x8 | s122 => DD x58 x9 | s123 => DD x58 x10 | s124 => DD x58 x11 | s125 => DD x58 x12 | s126 => DD x58 x13 end.
Definition m3600 (c : sum2) : dd := match c with s0 => DD x56 x16 | s1 => DD x56 x17 | s2 => DD x56 x18 | s3 => DD x56 x19 | s4 => DD x56 x20 | s5 => DD x56 x21 | s6 => DD x56 x22 | s7 => DD x56 x23 | s8 => DD x56 x24 | s9 => DD x56 x25 | s10 => DD x56 x26 | s11 => DD x56 x27 | s12 => DD x56 x28 | s13 => DD x56 x29 | s14 => DD x56 x30 | s15 => DD x56 x31 | s16 => DD x56 x32 | s17 => DD x56 x33 | s18 => DD x56 x34 | s19 => DD x56 x35 | s20 => DD x56 x36 | s21 => DD x56 x37 | s22 => DD x56 x38 | s23 => DD x56 x39 | s24 => DD x56 x40 | s25 => DD x56 x41 | s26 => DD x56 x42 | s27 => DD x56 x43 | s28 => DD x56 x44 | s29 => DD x56 x45 | s30 => DD x56 x46 | s31 => DD x56 x47 | s32 => DD x56 x48 | s33 => DD x56 x49 | s34 => DD x56 x50 | s35 => DD x56 x51 | s36 => DD x56 x52 | s37 => DD x56 x53 | s38 => DD x56 x54 | s39 => DD x56 x55 | s40 => DD x56 x56 | s41 => DD x56 x57 | s42 => DD x56 x58 | s43 => DD x56 x59 | s44 => DD x56 x60 | s45 => DD x56 x61 | s46 => DD x56 x62 | s47 => DD x56 x63 | s48 => DD x57 x0 | s49 => DD x57 x1 | s50 => DD x57 x2 | s51 => DD x57 x3 | s52 => DD x57 x4 | s53 => DD x57 x5 | s54 => DD x57 x6 | s55 => DD x57 x7 | s56 => DD x57 x8 | s57 => DD x57 x9 | s58 => DD x57 x10 | s59 => DD x57 x11 | s60 => DD x57 x12 | s61 => DD x57 x13 | s62 => DD x57 x14 | s63 => DD x57 x15 | s64 => DD x57 x16 | s65 => DD x57 x17 | s66 => DD x57 x18 | s67 => DD x57 x19 | s68 => DD x57 x20 | s69 => DD x57 x21 | s70 => DD x57 x22 | s71 => DD x57 x23 | s72 => DD x57 x24 | s73 => DD x57 x25 | s74 => DD x57 x26 | s75 => DD x57 x27 | s76 => DD x57 x28 | s77 => DD x57 x29 | s78 => DD x57 x30 | s79 => DD x57 x31 | s80 => DD x57 x32 | s81 => DD x57 x33 | s82 => DD x57 x34 | s83 => DD x57 x35 | s84 => DD x57 x36 | s85 => DD x57 x37 | s86 => DD x57 x38 | s87 => DD x57 x39 | s88 => DD x57 x40 | s89 => DD x57 x41 | s90 => DD x57 x42 | s91 => DD x57 x43 | s92 => DD x57 x44 | s93 => DD x57 x45 | s94 => DD x57 x46 | s95 => DD x57 x47 | s96 => DD x57 x48 | s97 => DD x57 x49 | s98 => DD x57 x50 | s99 => DD x57 x51 | s100 => DD x57 x52 | s101 => DD x57 x53 | s102 => DD x57 x54 | s103 => DD x57 x55 | s104 => DD x57 x56 | s105 => DD x57 x57 | s106 => DD x57 x58 | s107 => DD x57 x59 | s108 => DD x57 x60 | s109 => DD x57 x61 | s110 => DD x57 x62 | s111 => DD x57 x63 | s112 => DD x58 x0 | s113 => DD x58 x1 | s114 => DD x58 x2 | s115 => DD x58 x3 | s116 => DD x58 x4 | s117 => DD x58 x5 | s118 => DD x58 x6 | s119 => DD x58 x7 | s120 => DD x58 x8 | s121 => DD x58 x9 | s122 => DD x58 x10 | s123 => DD x58 x11 | s124 => DD x58 x12 | s125 => DD x58 x13 | s126 => DD x58 x14 end.
Definition m3654 (c : sum2) : dd := match c with s0 => DD x57 x6 | s1 => DD x57 x7 | s2 => DD x57 x8 | s3 => DD x57 x9 | s4 => DD x57 x10 | s5 => DD x57 x11 | s6 => DD x57 x12 | s7 => DD x57 x13 | s8 => DD x57 x14 | s9 => DD x57 x15 | s10 => DD x57 x16 | s11 => DD x57 x17 | s12 => DD x57 x18 | s13 => DD x57 x19 | s14 => DD x57 x20 | s15 => DD x57 x21 | s16 => DD x57 x22 | s17 => DD x57 x23 | s18 => DD x57 x24 | s19 => DD x57 x25 | s20 => DD x57 x26 | s21 => DD x57 x27 | s22 => DD x57 x28 | s23 => DD x57 x29 | s24 => DD x57 x30 | s25 => DD x57 x31 | s26 => DD x57 x32 | s27 => DD x57 x33 | s28 => DD x57 x34 | s29 => DD x57 x35 | s30 => DD x57 x36 | s31 => DD x57 x37 | s32 => DD x57 x38 | s33 => DD x57 x39 | s34 => DD x57 x40 | s35 => DD x57 x41 | s36 => DD x57 x42 | s37 => DD x57 x43 | s38 => DD x57 x44 | s39 => DD x57 x45 | s40 => DD x57 x46 | s41 => DD x57 x47 | s42 => DD x57 x48 | s43 => DD x57 x49 | s44 => DD x57 x50 | s45 => DD x57 x51 | s46 => DD x57 x52 | s47 => DD x57 x53 | s48 => DD x57 x54 | s49 => DD x57 x55 | s50 => DD x57 x56 | s51 => DD x57 x57 | s52 => DD x57 x58 | s53 => DD x57 x59 | s54 => DD x57 x60 | s55 => DD x57 x61 | s56 => DD x57 x62 | s57 => DD x57 x63 | s58 => DD x58 x0 | s59 => DD x58 x1 | s60 => DD x58 x2 | s61 => DD x58 x3 | s62 => DD x58 x4 | s63 => DD x58 x5 | s64 => DD x58 x6 | s65 => DD x58 x7 | s66 => DD x58 x8 | s67 => DD x58 x9 | s68 => DD x58 x10 | s69 => DD x58 x11 | s70 => DD x58 x12 | s71 => DD x58 x13 | s72 => DD x58 x14 | s73 => DD x58 x15 | s74 => DD x58 x16 | s75 => DD x58 x17 | s76 => DD x58 x18 | s77 => DD x58 x19 | s78 => DD x58 x20 | s79 => DD x58 x21 | s80 => DD x58 x22 | s81 => DD x58 x23 | s82 => DD x58 x24 | s83 => DD x58 x25 | s84 => DD x58 x26 | s85 => DD x58 x27 | s86 => DD x58 x28 | s87 => DD x58 x29 | s88 => DD x58 x30 | s89 => DD x58 x31 | s90 => DD x58 x32 | s91 => DD x58 x33 | s92 => DD x58 x34 | s93 => DD x58 x35 | s94 => DD x58 x36 | s95 => DD x58 x37 | s96 => DD x58 x38 | s97 => DD x58 x39 | s98 => DD x58 x40 | s99 => DD x58 x41 | s100 => DD x58 x42 | s101 => DD x58 x43 | s102 => DD x58 x44 | s103 => DD x58 x45 | s104 => DD x58 x46 | s105 => DD x58 x47 | s106 => DD x58 x48 | s107 => DD x58 x49 | s108 => DD x58 x50 | s109 => DD x58 x51 | s110 => DD x58 x52 | s111 => DD x58 x53 | s112 => DD x58 x54 | s113 => DD x58 x55 | s114 => DD x58 x56 | s115 => DD x58 x57 | s116 => DD x58 x58 | s117 => DD x58 x59 | s118 => DD x58 x60 | s119 => DD x58 x61 | s120 => DD x58 x62 | s121 => DD x58 x63 | s122 => DD x59 x0 | s123 => DD x59 x1 | s124 => DD x59 x2 | s125 => DD x59 x3 | s126 => DD x59 x4 end.
Definition m3658 (c : sum2) : dd := match c with s0 => DD x57 x10 | s1 => DD x57 x11 | s2 => DD x57 x12 | s3 => DD x57 x13 | s4 => DD x57 x14 | s5 => DD x57 x15 | s6 => DD x57 x16 | s7 => DD x57 x17 | s8 => DD x57 x18 | s9 => DD x57 x19 | s10 => DD x57 x20 | s11 => DD x57 x21 | s12 => DD x57 x22 | s13 => DD x57 x23 | s14 => DD x57 x24 | s15 => DD x57 x25 | s16 => DD x57 x26 | s17 => DD x57 x27 | s18 => DD x57 x28 | s19 => DD x57 x29 | s20 => DD x57 x30 | s21 => DD x57 x31 | s22 => DD x57 x32 | s23 => DD x57 x33 | s24 => DD x57 x34 | s25 => DD x57 x35 | s26 => DD x57 x36 | s27 => DD x57 x37 | s28 => DD x57 x38 | s29 => DD x57 x39 | s30 => DD x57 x40 | s31 => DD x57 x41 | s32 => DD x57 x42 | s33 => DD x57 x43 | s34 => DD x57 x44 | s35 => DD x57 x45 | s36 => DD x57 x46 | s37 => DD x57 x47 | s38 => DD x57 x48 | s39 => DD x57 x49 | s40 => DD x57 x50 | s41 => DD x57 x51 | s42 => DD x57 x52 | s43 => DD x57 x53 | s44 => DD x57 x54 | s45 => DD x57 x55 | s46 => DD x57 x56 | s47 => DD x57 x57 | s48 => DD x57 x58 | s49 => DD x57 x59 | s50 => DD x57 x60 | s51 => DD x57 x61 | s52 => DD x57 x62 | s53 => DD x57 x63 | s54 => DD x58 x0 | s55 => DD x58 x1 | s56 => DD x58 x2 | s57 => DD x58 x3 | s58 => DD x58 x4 | s59 => DD x58 x5 | s60 => DD x58 x6 | s61 => DD x58 x7 | s62 => DD x58 x8 | s63 => DD x58 x9 | s64 => DD x58 x10 | s65 => DD x58 x11 | s66 => DD x58 x12 | s67 => DD x58 x13 | s68 => DD x58 x14 | s69 => DD x58 x15 | s70 => DD x58 x16 | s71 => DD x58 x17 | s72 => DD x58 x18 | s73 => DD x58 x19 | s74 => DD x58 x20 | s75 => DD x58 x21 | s76 => DD x58 x22 | s77 => DD x58 x23 | s78 => DD x58 x24 | s79 => DD x58 x25 | s80 => DD x58 x26 | s81 => DD x58 x27 | s82 => DD x58 x28 | s83 => DD x58 x29 | s84 => DD x58 x30 | s85 => DD x58 x31 | s86 => DD x58 x32 | s87 => DD x58 x33 | s88 => DD x58 x34 | s89 => DD x58 x35 | s90 => DD x58 x36 | s91 => DD x58 x37 | s92 => DD x58 x38 | s93 => DD x58 x39 | s94 => DD x58 x40 | s95 => DD x58 x41 | s96 => DD x58 x42 | s97 => DD x58 x43 | s98 => DD x58 x44 | s99 => DD x58 x45 | s100 => DD x58 x46 | s101 => DD x58 x47 | s102 => DD x58 x48 | s103 => DD x58 x49 | s104 => DD x58 x50 | s105 => DD x58 x51 | s106 => DD x58 x52 | s107 => DD x58 x53 | s108 => DD x58 x54 | s109 => DD x58 x55 | s110 => DD x58 x56 | s111 => DD x58 x57 | s112 => DD x58 x58 | s113 => DD x58 x59 | s114 => DD x58 x60 | s115 => DD x58 x61 | s116 => DD x58 x62 | s117 => DD x58 x63 | s118 => DD x59 x0 | s119 => DD x59 x1 | s120 => DD x59 x2 | s121 => DD x59 x3 | s122 => DD x59 x4 | s123 => DD x59 x5 | s124 => DD x59 x6 | s125 => DD x59 x7 | s126 => DD x59 x8 end.
Definition m3660 (c : sum2) : dd := match c with s0 => DD x57 x12 | s1 => DD x57 x13 | s2 => DD x57 x14 | s3 => DD x57 x15 | s4 => DD x57 x16 | s5 => DD x57 x17 | s6 => DD x57 x18 | s7 => DD x57 x19 | s8 => DD x57 x20 | s9 => DD x57 x21 | s10 => DD x57 x22 | s11 => DD x57 x23 | s12 => DD x57 x24 | s13 => DD x57 x25 | s14 => DD x57 x26 | s15 => DD x57 x27 | s16 => DD x57 x28 | s17 => DD x57 x29 | s18 => DD x57 x30 | s19 => DD x57 x31 | s20 => DD x57 x32 | s21 => DD x57 x33 | s22 => DD x57 x34 | s23 => DD x57 x35 | s24 => DD x57 x36 | s25 => DD x57 x37 | s26 => DD x57 x38 | s27 => DD x57 x39 | s28 => DD x57 x40 | s29 => DD x57 x41 | s30 => DD x57 x42 | s31 => DD x57 x43 | s32 => DD x57 x44 | s33 => DD x57 x45 | s34 => DD x57 x46 | s35 => DD x57 x47 | s36 => DD x57 x48 | s37 => DD x57 x49 | s38 => DD x57 x50 | s39 => DD x57 x51 | s40 => DD x57 x52 | s41 => DD x57 x53 | s42 => DD x57 x54 | s43 => DD x57 x55 | s44 => DD x57 x56 | s45 => DD x57 x57 | s46 => DD x57 x58 | s47 => DD x57 x59 | s48 => DD x57 x60 | s49 => DD x57 x61 | s50 => DD x57 x62 | s51 => DD x57 x63 | s52 => DD x58 x0 | s53 => DD x58 x1 | s54 => DD x58 x2 | s55 => DD x58 x3 | s56 => DD x58 x4 | s57 => DD x58 x5 | s58 => DD x58 x6 | s59 => DD x58 x7 | s60 => DD x58 x8 | s61 => DD x58 x9 | s62 => DD x58 x10 | s63 => DD x58 x11 | s64 => DD x58 x12 | s65 => DD x58 x13 | s66 => DD x58 x14 | s67 => DD x58 x15 | s68 => DD x58 x16 | s69 => DD x58 x17 | s70 => DD x58 x18 | s71 => DD x58 x19 | s72 => DD x58 x20 | s73 => DD x58 x21 | s74 => DD x58 x22 | s75 => DD x58 x23 | s76 => DD x58 x24 | s77 => DD x58 x25 | s78 => DD x58 x26 | s79 => DD x58 x27 | s80 => DD x58 x28 | s81 => DD x58 x29 | s82 => DD x58 x30 | s83 => DD x58 x31 | s84 => DD x58 x32 | s85 => DD x58 x33 | s86 => DD x58 x34 | s87 => DD x58 x35 | s88 => DD x58 x36 | s89 => DD x58 x37 | s90 => DD x58 x38 | s91 => DD x58 x39 | s92 => DD x58 x40 | s93 => DD x58 x41 | s94 => DD x58 x42 | s95 => DD x58 x43 | s96 => DD x58 x44 | s97 => DD x58 x45 | s98 => DD x58 x46 | s99 => DD x58 x47 | s100 => DD x58 x48 | s101 => DD x58 x49 | s102 => DD x58 x50 | s103 => DD x58 x51 | s104 => DD x58 x52 | s105 => DD x58 x53 | s106 => DD x58 x54 | s107 => DD x58 x55 | s108 => DD x58 x56 | s109 => DD x58 x57 | s110 => DD x58 x58 | s111 => DD x58 x59 | s112 => DD x58 x60 | s113 => DD x58 x61 | s114 => DD x58 x62 | s115 => DD x58 x63 | s116 => DD x59 x0 | s117 => DD x59 x1 | s118 => DD x59 x2 | s119 => DD x59 x3 | s120 => DD x59 x4 | s121 => DD x59 x5 | s122 => DD x59 x6 | s123 => DD x59 x7 | s124 => DD x59 x8 | s125 => DD x59 x9 | s126 => DD x59 x10 end.
Definition m3717 (c : sum2) : dd := match c with s0 => DD x58 x5 | s1 => DD x58 x6 | s2 => DD x58 x7 | s3 => DD x58 x8 | s4 => DD x58 x9 | s5 => DD x58 x10 | s6 => DD x58 x11 | s7 => DD x58 x12 | s8 => DD x58 x13 | s9 => DD x58 x14 | s10 => DD x58 x15 | s11 => DD x58 x16 | s12 => DD x58 x17 | s13 => DD x58 x18 | s14 => DD x58 x19 | s15 => DD x58 x20 | s16 => DD x58 x21 | s17 => DD x58 x22 | s18 => DD x58 x23 | s19 => DD x58 x24 | s20 => DD x58 x25 | s21 => DD x58 x26 | s22 => DD x58 x27 | s23 => DD x58 x28 | s24 => DD x58 x29 | s25 => DD x58 x30 | s26 => DD x58 x31 | s27 => DD x58 x32 | s28 => DD x58 x33 | s29 => DD x58 x34 | s30 => DD x58 x35 | s31 => DD x58 x36 | s32 => DD x58 x37 | s33 => DD x58 x38 | s34 => DD x58 x39 | s35 => DD x58 x40 | s36 => DD x58 x41 | s37 => DD x58 x42 | s38 => DD x58 x43 | s39 => DD x58 x44 | s40 => DD x58 x45 | s41 => DD x58 x46 | s42 => DD x58 x47 | s43 => DD x58 x48 | s44 => DD x58 x49 | s45 => DD x58 x50 | s46 => DD x58 x51 | s47 => DD x58 x52 | s48 => DD x58 x53 | s49 => DD x58 x54 | s50 => DD x58 x55 | s51 => DD x58 x56 | s52 => DD x58 x57 | s53 => DD x58 x58 | s54 => DD x58 x59 | s55 => DD x58 x60 | s56 => DD x58 x61 | s57 => DD x58 x62 | s58 => DD x58 x63 | s59 => DD x59 x0 | s60 => DD x59 x1 | s61 => DD x59 x2 | s62 => DD x59 x3 | s63 => DD x59 x4 | s64 => DD x59 x5 | s65 => DD x59 x6 | s66 => DD x59 x7 | s67 => DD x59 x8 | s68 => DD x59 x9 | s69 => DD x59 x10 | s70 => DD x59 x11 | s71 => DD x59 x12 | s72 => DD x59 x13 | s73 => DD x59 x14 | s74 => DD x59 x15 | s75 => DD x59 x16 | s76 => DD x59 x17 | s77 => DD x59 x18 | s78 => DD x59 x19 | s79 => DD x59 x20 | s80 => DD x59 x21 | s81 => DD x59 x22 | s82 => DD x59 x23 | s83 => DD x59 x24 | s84 => DD x59 x25 | s85 => DD x59 x26 | s86 => DD x59 x27 | s87 => DD x59 x28 | s88 => DD x59 x29 | s89 => DD x59 x30 | s90 => DD x59 x31 | s91 => DD x59 x32 | s92 => DD x59 x33 | s93 => DD x59 x34 | s94 => DD x59 x35 | s95 => DD x59 x36 | s96 => DD x59 x37 | s97 => DD x59 x38 | s98 => DD x59 x39 | s99 => DD x59 x40 | s100 => DD x59 x41 | s101 => DD x59 x42 | s102 => DD x59 x43 | s103 => DD x59 x44 | s104 => DD x59 x45 | s105 => DD x59 x46 | s106 => DD x59 x47 | s107 => DD x59 x48 | s108 => DD x59 x49 | s109 => DD x59 x50 | s110 => DD x59 x51 | s111 => DD x59 x52 | s112 => DD x59 x53 | s113 => DD x59 x54 | s114 => DD x59 x55 | s115 => DD x59 x56 | s116 => DD x59 x57 | s117 => DD x59 x58 | s118 => DD x59 x59 | s119 => DD x59 x60 | s120 => DD x59 x61 | s121 => DD x59 x62 | s122 => DD x59 x63 | s123 => DD x60 x0 | s124 => DD x60 x1 | s125 => DD x60 x2 | s126 => DD x60 x3 end.
Definition m3720 (c : sum2) : dd := match c with s0 => DD x58 x8 | s1 => DD x58 x9 | s2 => DD x58 x10 | s3 => DD x58 x11 | s4 => DD x58 x12 | s5 => DD x58 x13 | s6 => DD x58 x14 | s7 => DD x58 x15 | s8 => DD x58 x16 | s9 => DD x58 x17 | s10 => DD x58 x18 | s11 => DD x58 x19 | s12 => DD x58 x20 | s13 => DD x58 x21 | s14 => DD x58 x22 | s15 => DD x58 x23 | s16 => DD x58 x24 | s17 => DD x58 x25 | s18 => DD x58 x26 | s19 => DD x58 x27 | s20 => DD x58 x28 | s21 => DD x58 x29 | s22 => DD x58 x30 | s23 => DD x58 x31 | s24 => DD x58 x32 | s25 => DD x58 x33 | s26 => DD x58 x34 | s27 => DD x58 x35 | s28 => DD x58 x36 | s29 => DD x58 x37 | s30 => DD x58 x38 | s31 => DD x58 x39 | s32 => DD x58 x40 | s33 => DD x58 x41 | s34 => DD x58 x42 | s35 => DD x58 x43 | s36 => DD x58 x44 | s37 => DD x58 x45 | s38 => DD x58 x46 | s39 => DD x58 x47 | s40 => DD x58 x48 | s41 => DD x58 x49 | s42 => DD x58 x50 | s43 => DD x58 x51 | s44 => DD x58 x52 | s45 => DD x58 x53 | s46 => DD x58 x54 | s47 => DD x58 x55 | s48 => DD x58 x56 | s49 => DD x58 x57 | s50 => DD x58 x58 | s51 => DD x58 x59 | s52 => DD x58 x60 | s53 => DD x58 x61 | s54 => DD x58 x62 | s55 => DD x58 x63 | s56 => DD x59 x0 | s57 => DD x59 x1 | s58 => DD x59 x2 | s59 => DD x59 x3 | s60 => DD x59 x4 | s61 => DD x59 x5 | s62 => DD x59 x6 | s63 => DD x59 x7 | s64 => DD x59 x8 | s65 => DD x59 x9 | s66 => DD x59 x10 | s67 => DD x59 x11 | s68 => DD x59 x12 | s69 => DD x59 x13 | s70 => DD x59 x14 | s71 => DD x59 x15 | s72 => DD x59 x16 | s73 => DD x59 x17 | s74 => DD x59 x18 | s75 => DD x59 x19 | s76 => DD x59 x20 | s77 => DD x59 x21 | s78 => DD x59 x22 | s79 => DD x59 x23 | s80 => DD x59 x24 | s81 => DD x59 x25 | s82 => DD x59 x26 | s83 => DD x59 x27 | s84 => DD x59 x28 | s85 => DD x59 x29 | s86 => DD x59 x30 | s87 => DD x59 x31 | s88 => DD x59 x32 | s89 => DD x59 x33 | s90 => DD x59 x34 | s91 => DD x59 x35 | s92 => DD x59 x36 | s93 => DD x59 x37 | s94 => DD x59 x38 | s95 => DD x59 x39 | s96 => DD x59 x40 | s97 => DD x59 x41 | s98 => DD x59 x42 | s99 => DD x59 x43 | s100 => DD x59 x44 | s101 => DD x59 x45 | s102 => DD x59 x46 | s103 => DD x59 x47 | s104 => DD x59 x48 | s105 => DD x59 x49 | s106 => DD x59 x50 | s107 => DD x59 x51 | s108 => DD x59 x52 | s109 => DD x59 x53 | s110 => DD x59 x54 | s111 => DD x59 x55 | s112 => DD x59 x56 | s113 => DD x59 x57 | s114 => DD x59 x58 | s115 => DD x59 x59 | s116 => DD x59 x60 | s117 => DD x59 x61 | s118 => DD x59 x62 | s119 => DD x59 x63 | s120 => DD x60 x0 | s121 => DD x60 x1 | s122 => DD x60 x2 | s123 => DD x60 x3 | s124 => DD x60 x4 | s125 => DD x60 x5 | s126 => DD x60 x6 end.
Definition m3721 (c : sum2) : dd := match c with s0 => DD x58 x9 | s1 => DD x58 x10 | s2 => DD x58 x11 | s3 => DD x58 x12 | s4 => DD x58 x13 | s5 => DD x58 x14 | s6 => DD x58 x15 | s7 => DD x58 x16 | s8 => DD x58 x17 | s9 => DD x58 x18 | s10 => DD x58 x19 | s11 => DD x58 x20 | s12 => DD x58 x21 | s13 => DD x58 x22 | s14 => DD x58 x23 | s15 => DD x58 x24 | s16 => DD x58 x25 | s17 => DD x58 x26 | s18 => DD x58 x27 | s19 => DD x58 x28 | s20 => DD x58 x29 | s21 => DD x58 x30 | s22 => DD x58 x31 | s23 => DD x58 x32 | s24 => DD x58 x33 | s25 => DD x58 x34 | s26 => DD x58 x35 | s27 => DD x58 x36 | s28 => DD x58 x37 | s29 => DD x58 x38 | s30 => DD x58 x39 | s31 => DD x58 x40 | s32 => DD x58 x41 | s33 => DD x58 x42 | s34 => DD x58 x43 | s35 => DD x58 x44 | s36 => DD x58 x45 | s37 => DD x58 x46 | s38 => DD x58 x47 | s39 => DD x58 x48 | s40 => DD x58 x49 | s41 => DD x58 x50 | s42 => DD x58 x51 | s43 => DD x58 x52 | s44 => DD x58 x53 | s45 => DD x58 x54 | s46 => DD x58 x55 | s47 => DD x58 x56 | s48 => DD x58 x57 | s49 => DD x58 x58 | s50 => DD x58 x59 | s51 => DD x58 x60 | s52 => DD x58 x61 | s53 => DD x58 x62 | s54 => DD x58 x63 | s55 => DD x59 x0 | s56 => DD x59 x1 | s57 => DD x59 x2 | s58 => DD x59 x3 | s59 => DD x59 x4 | s60 => DD x59 x5 | s61 => DD x59 x6 | s62 => DD x59 x7 | s63 => DD x59 x8 | s64 => DD x59 x9 | s65 => DD x59 x10 | s66 => DD x59 x11 | s67 => DD x59 x12 | s68 => DD x59 x13 | s69 => DD x59 x14 | s70 => DD x59 x15 | s71 => DD x59 x16 | s72 => DD x59 x17 | s73 => DD x59 x18 | s74 => DD x59 x19 | s75 => DD x59 x20 | s76 => DD x59 x21 | s77 => DD x59 x22 | s78 => DD x59 x23 | s79 => DD x59 x24 | s80 => DD x59 x25 | s81 => DD x59 x26 | s82 => DD x59 x27 | s83 => DD x59 x28 | s84 => DD x59 x29 | s85 => DD x59 x30 | s86 => DD x59 x31 | s87 => DD x59 x32 | s88 => DD x59 x33 | s89 => DD x59 x34 | s90 => DD x59 x35 | s91 => DD x59 x36 | s92 => DD x59 x37 | s93 => DD x59 x38 | s94 => DD x59 x39 | s95 => DD x59 x40 | s96 => DD x59 x41 | s97 => DD x59 x42 | s98 => DD x59 x43 | s99 => DD x59 x44 | s100 => DD x59 x45 | s101 => DD x59 x46 | s102 => DD x59 x47 | s103 => DD x59 x48 | s104 => DD x59 x49 | s105 => DD x59 x50 | s106 => DD x59 x51 | s107 => DD x59 x52 | s108 => DD x59 x53 | s109 => DD x59 x54 | s110 => DD x59 x55 | s111 => DD x59 x56 | s112 => DD x59 x57 | s113 => DD x59 x58 | s114 => DD x59 x59 | s115 => DD x59 x60 | s116 => DD x59 x61 | s117 => DD x59 x62 | s118 => DD x59 x63 | s119 => DD x60 x0 | s120 => DD x60 x1 | s121 => DD x60 x2 | s122 => DD x60 x3 | s123 => DD x60 x4 | s124 => DD x60 x5 | s125 => DD x60 x6 | s126 => DD x60 x7 end.
Definition m3780 (c : sum2) : dd := match c with s0 => DD x59 x4 | s1 => DD x59 x5 | s2 => DD x59 x6 | s3 => DD x59 x7 | s4 => DD x59 x8 | s5 => DD x59 x9 | s6 => DD x59 x10 | s7 => DD x59 x11 | s8 => DD x59 x12 | s9 => DD x59 x13 | s10 => DD x59 x14 | s11 => DD x59 x15 | s12 => DD x59 x16 | s13 => DD x59 x17 | s14 => DD x59 x18 | s15 => DD x59 x19 | s16 => DD x59 x20 | s17 => DD x59 x21 | s18 => DD x59 x22 | s19 => DD x59 x23 | s20 => DD x59 x24 | s21 => DD x59 x25 | s22 => DD x59 x26 | s23 => DD x59 x27 | s24 => DD x59 x28 | s25 => DD x59 x29 | s26 => DD x59 x30 | s27 => DD x59 x31 | s28 => DD x59 x32 | s29 => DD x59 x33 | s30 => DD x59 x34 | s31 => DD x59 x35 | s32 => DD x59 x36 | s33 => DD x59 x37 | s34 => DD x59 x38 | s35 => DD x59 x39 | s36 => DD x59 x40 | s37 => DD x59 x41 | s38 => DD x59 x42 | s39 => DD x59 x43 | s40 => DD x59 x44 | s41 => DD x59 x45 | s42 => DD x59 x46 | s43 => DD x59 x47 | s44 => DD x59 x48 | s45 => DD x59 x49 | s46 => DD x59 x50 | s47 => DD x59 x51 | s48 => DD x59 x52 | s49 => DD x59 x53 | s50 => DD x59 x54 | s51 => DD x59 x55 | s52 => DD x59 x56 | s53 => DD x59 x57 | s54 => DD x59 x58 | s55 => DD x59 x59 | s56 => DD x59 x60 | s57 => DD x59 x61 | s58 => DD x59 x62 | s59 => DD x59 x63 | s60 => DD x60 x0 | s61 => DD x60 x1 | s62 => DD x60 x2 | s63 => DD x60 x3 | s64 => DD x60 x4 | s65 => DD x60 x5 | s66 => DD x60 x6 | s67 => DD x60 x7 | s68 => DD x60 x8 | s69 => DD x60 x9 | s70 => DD x60 x10 | s71 => DD x60 x11 | s72 => DD x60 x12 | s73 => DD x60 x13 | s74 => DD x60 x14 | s75 => DD x60 x15 | s76 => DD x60 x16 | s77 => DD x60 x17 | s78 => DD x60 x18 | s79 => DD x60 x19 | s80 => DD x60 x20 | s81 => DD x60 x21 | s82 => DD x60 x22 | s83 => DD x60 x23 | s84 => DD x60 x24 | s85 => DD x60 x25 | s86 => DD x60 x26 | s87 => DD x60 x27 | s88 => DD x60 x28 | s89 => DD x60 x29 | s90 => DD x60 x30 | s91 => DD x60 x31 | s92 => DD x60 x32 | s93 => DD x60 x33 | s94 => DD x60 x34 | s95 => DD x60 x35 | s96 => DD x60 x36 | s97 => DD x60 x37 | s98 => DD x60 x38 | s99 => DD x60 x39 | s100 => DD x60 x40 | s101 => DD x60 x41 | s102 => DD x60 x42 | s103 => DD x60 x43 | s104 => DD x60 x44 | s105 => DD x60 x45 | s106 => DD x60 x46 | s107 => DD x60 x47 | s108 => DD x60 x48 | s109 => DD x60 x49 | s110 => DD x60 x50 | s111 => DD x60 x51 | s112 => DD x60 x52 | s113 => DD x60 x53 | s114 => DD x60 x54 | s115 => DD x60 x55 | s116 => DD x60 x56 | s117 => DD x60 x57 | s118 => DD x60 x58 | s119 => DD x60 x59 | s120 => DD x60 x60 | s121 => DD x60 x61 | s122 => DD x60 x62 | s123 => DD x60 x63 | s124 => DD x61 x0 | s125 => DD x61 x1 | s126 => DD x61 x2 end.
Definition m3782 (c : sum2) : dd := match c with s0 => DD x59 x6 | s1 => DD x59 x7 | s2 => DD x59 x8 | s3 => DD x59 x9 | s4 => DD x59 x10 | s5 => DD x59 x11 | s6 => DD x59 x12 | s7 => DD x59 x13 | s8 => DD x59 x14 | s9 => DD x59 x15 | s10 => DD x59 x16 | s11 => DD x59 x17 | s12 => DD x59 x18 | s13 => DD x59 x19 | s14 => DD x59 x20 | s15 => DD x59 x21 | s16 => DD x59 x22 | s17 => DD x59 x23 | s18 => DD x59 x24 | s19 => DD x59 x25 | s20 => DD x59 x26 | s21 => DD x59 x27 | s22 => DD x59 x28 | s23 => DD x59 x29 | s24 => DD x59 x30 | s25 => DD x59 x31 | s26 => DD x59 x32 | s27 => DD x59 x33 | s28 => DD x59 x34 | s29 => DD x59 x35 | s30 => DD x59 x36 | s31 => DD x59 x37 | s32 => DD x59 x38 | s33 => DD x59 x39 | s34 => DD x59 x40 | s35 => DD x59 x41 | s36 => DD x59 x42 | s37 => DD x59 x43 | s38 => DD x59 x44 | s39 => DD x59 x45 | s40 => DD x59 x46 | s41 => DD x59 x47 | s42 => DD x59 x48 | s43 => DD x59 x49 | s44 => DD x59 x50 | s45 => DD x59 x51 | s46 => DD x59 x52 | s47 => DD x59 x53 | s48 => DD x59 x54 | s49 => DD x59 x55 | s50 => DD x59 x56 | s51 => DD x59 x57 | s52 => DD x59 x58 | s53 => DD x59 x59 | s54 => DD x59 x60 | s55 => DD x59 x61 | s56 => DD x59 x62 | s57 => DD x59 x63 | s58 => DD x60 x0 | s59 => DD x60 x1 | s60 => DD x60 x2 | s61 => DD x60 x3 | s62 => DD x60 x4 | s63 => DD x60 x5 | s64 => DD x60 x6 | s65 => DD x60 x7 | s66 => DD x60 x8 | s67 => DD x60 x9 | s68 => DD x60 x10 | s69 => DD x60 x11 | s70 => DD x60 x12 | s71 => DD x60 x13 | s72 => DD x60 x14 | s73 => DD x60 x15 | s74 => DD x60 x16 | s75 => DD x60 x17 | s76 => DD x60 x18 | s77 => DD x60 x19 | s78 => DD x60 x20 | s79 => DD x60 x21 | s80 => DD x60 x22 | s81 => DD x60 x23 | s82 => DD x60 x24 | s83 => DD x60 x25 | s84 => DD x60 x26 | s85 => DD x60 x27 | s86 => DD x60 x28 | s87 => DD x60 x29 | s88 => DD x60 x30 | s89 => DD x60 x31 | s90 => DD x60 x32 | s91 => DD x60 x33 | s92 => DD x60 x34 | s93 => DD x60 x35 | s94 => DD x60 x36 | s95 => DD x60 x37 | s96 => DD x60 x38 | s97 => DD x60 x39 | s98 => DD x60 x40 | s99 => DD x60 x41 | s100 => DD x60 x42 | s101 => DD x60 x43 | s102 => DD x60 x44 | s103 => DD x60 x45 | s104 => DD x60 x46 | s105 => DD x60 x47 | s106 => DD x60 x48 | s107 => DD x60 x49 | s108 => DD x60 x50 | s109 => DD x60 x51 | s110 => DD x60 x52 | s111 => DD x60 x53 | s112 => DD x60 x54 | s113 => DD x60 x55 | s114 => DD x60 x56 | s115 => DD x60 x57 | s116 => DD x60 x58 | s117 => DD x60 x59 | s118 => DD x60 x60 | s119 => DD x60 x61 | s120 => DD x60 x62 | s121 => DD x60 x63 | s122 => DD x61 x0 | s123 => DD x61 x1 | s124 => DD x61 x2 | s125 => DD x61 x3 | s126 => DD x61 x4 end.
Definition m3843 (c : sum2) : dd := match c with s0 => DD x60 x3 | s1 => DD x60 x4 | s2 => DD x60 x5 | s3 => DD x60 x6 | s4 => DD x60 x7 | s5 => DD x60 x8 | s6 => DD x60 x9 | s7 => DD x60 x10 | s8 => DD x60 x11 | s9 => DD x60 x12 | s10 => DD x60 x13 | s11 => DD x60 x14 | s12 => DD x60 x15 | s13 => DD x60 x16 | s14 => DD x60 x17 | s15 => DD x60 x18 | s16 => DD x60 x19 | s17 => DD x60 x20 | s18 => DD x60 x21 | s19 => DD x60 x22 | s20 => DD x60 x23 | s21 => DD x60 x24 | s22 => DD x60 x25 | s23 => DD x60 x26 | s24 => DD x60 x27 | s25 => DD x60 x28 | s26 => DD x60 x29 | s27 => DD x60 x30 | s28 => DD x60 x31 | s29 => DD x60 x32 | s30 => DD x60 x33 | s31 => DD x60 x34 | s32 => DD x60 x35 | s33 => DD x60 x36 | s34 => DD x60 x37 | s35 => DD x60 x38 | s36 => DD x60 x39 | s37 => DD x60 x40 | s38 => DD x60 x41 | s39 => DD x60 x42 | s40 => DD x60 x43 | s41 => DD x60 x44 | s42 => DD x60 x45 | s43 => DD x60 x46 | s44 => DD x60 x47 | s45 => DD x60 x48 | s46 => DD x60 x49 | s47 => DD x60 x50 | s48 => DD x60 x51 | s49 => DD x60 x52 | s50 => DD x60 x53 | s51 => DD x60 x54 | s52 => DD x60 x55 | s53 => DD x60 x56 | s54 => DD x60 x57 | s55 => DD x60 x58 | s56 => DD x60 x59 | s57 => DD x60 x60 | s58 => DD x60 x61 | s59 => DD x60 x62 | s60 => DD x60 x63 | s61 => DD x61 x0 | s62 => DD x61 x1 | s63 => DD x61 x2 | s64 => DD x61 x3 | s65 => DD x61 x4 | s66 => DD x61 x5 | s67 => DD x61 x6 | s68 => DD x61 x7 | s69 => DD x61 x8 | s70 => DD x61 x9 | s71 => DD x61 x10 | s72 => DD x61 x11 | s73 => DD x61 x12 | s74 => DD x61 x13 | s75 => DD x61 x14 | s76 => DD x61 x15 | s77 => DD x61 x16 | s78 => DD x61 x17 | s79 => DD x61 x18 | s80 => DD x61 x19 | s81 => DD x61 x20 | s82 => DD x61 x21 | s83 => DD x61 x22 | s84 => DD x61 x23 | s85 => DD x61 x24 | s86 => DD x61 x25 | s87 => DD x61 x26 | s88 => DD x61 x27 | s89 => DD x61 x28 | s90 => DD x61 x29 | s91 => DD x61 x30 | s92 => DD x61 x31 | s93 => DD x61 x32 | s94 => DD x61 x33 | s95 => DD x61 x34 | s96 => DD x61 x35 | s97 => DD x61 x36 | s98 => DD x61 x37 | s99 => DD x61 x38 | s100 => DD x61 x39 | s101 => DD x61 x40 | s102 => DD x61 x41 | s103 => DD x61 x42 | s104 => DD x61 x43 | s105 => DD x61 x44 | s106 => DD x61 x45 | s107 => DD x61 x46 | s108 => DD x61 x47 | s109 => DD x61 x48 | s110 => DD x61 x49 | s111 => DD x61 x50 | s112 => DD x61 x51 | s113 => DD x61 x52 | s114 => DD x61 x53 | s115 => DD x61 x54 | s116 => DD x61 x55 | s117 => DD x61 x56 | s118 => DD x61 x57 | s119 => DD x61 x58 | s120 => DD x61 x59 | s121 => DD x61 x60 | s122 => DD x61 x61 | s123 => DD x61 x62 | s124 => DD x61 x63 | s125 => DD x62 x0 | s126 => DD x62 x1 end.
Definition m3844 (c : sum2) : dd := match c with s0 => DD x60 x4 | s1 => DD x60 x5 | s2 => DD x60 x6 | s3 => DD x60 x7 | s4 => DD x60 x8 | s5 => DD x60 x9 | s6 => DD x60 x10 | s7 => DD x60 x11 | s8 => DD x60 x12 | s9 => DD x60 x13 | s10 => DD x60 x14 | s11 => DD x60 x15 | s12 => DD x60 x16 | s13 => DD x60 x17 | s14 => DD x60 x18 | s15 => DD x60 x19 | s16 => DD x60 x20 | s17 => DD x60 x21 | s18 => DD x60 x22 | s19 => DD x60 x23 | s20 => DD x60 x24 | s21 => DD x60 x25 | s22 => DD x60 x26 | s23 => DD x60 x27 | s24 => DD x60 x28 | s25 => DD x60 x29 | s26 => DD x60 x30 | s27 => DD x60 x31 | s28 => DD x60 x32 | s29 => DD x60 x33 | s30 => DD x60 x34 | s31 => DD x60 x35 | s32 => DD x60 x36 | s33 => DD x60 x37 | s34 => DD x60 x38 | s35 => DD x60 x39 | s36 => DD x60 x40 | s37 => DD x60 x41 | s38 => DD x60 x42 | s39 => DD x60 x43 | s40 => DD x60 x44 | s41 => DD x60 x45 | s42 => DD x60 x46 | s43 => DD x60 x47 | s44 => DD x60 x48 | s45 => DD x60 x49 | s46 => DD x60 x50 | s47 => DD x60 x51 | s48 => DD x60 x52 | s49 => DD x60 x53 | s50 => DD x60 x54 | s51 => DD x60 x55 | s52 => DD x60 x56 | s53 => DD x60 x57 | s54 => DD x60 x58 | s55 => DD x60 x59 | s56 => DD x60 x60 | s57 => DD x60 x61 | s58 => DD x60 x62 | s59 => DD x60 x63 | s60 => DD x61 x0 | s61 => DD x61 x1 | s62 => DD x61 x2 | s63 => DD x61 x3 | s64 => DD x61 x4 | s65 => DD x61 x5 | s66 => DD x61 x6 | s67 => DD x61 x7 | s68 => DD x61 x8 | s69 => DD x61 x9 | s70 => DD x61 x10 | s71 => DD x61 x11 | s72 => DD x61 x12 | s73 => DD x61 x13 | s74 => DD x61 x14 | s75 => DD x61 x15 | s76 => DD x61 x16 | s77 => DD x61 x17 | s78 => DD x61 x18 | s79 => DD x61 x19 | s80 => DD x61 x20 | s81 => DD x61 x21 | s82 => DD x61 x22 | s83 => DD x61 x23 | s84 => DD x61 x24 | s85 => DD x61 x25 | s86 => DD x61 x26 | s87 => DD x61 x27 | s88 => DD x61 x28 | s89 => DD x61 x29 | s90 => DD x61 x30 | s91 => DD x61 x31 | s92 => DD x61 x32 | s93 => DD x61 x33 | s94 => DD x61 x34 | s95 => DD x61 x35 | s96 => DD x61 x36 | s97 => DD x61 x37 | s98 => DD x61 x38 | s99 => DD x61 x39 | s100 => DD x61 x40 | s101 => DD x61 x41 | s102 => DD x61 x42 | s103 => DD x61 x43 | s104 => DD x61 x44 | s105 => DD x61 x45 | s106 => DD x61 x46 | s107 => DD x61 x47 | s108 => DD x61 x48 | s109 => DD x61 x49 | s110 => DD x61 x50 | s111 => DD x61 x51 | s112 => DD x61 x52 | s113 => DD x61 x53 | s114 => DD x61 x54 | s115 => DD x61 x55 | s116 => DD x61 x56 | s117 => DD x61 x57 | s118 => DD x61 x58 | s119 => DD x61 x59 | s120 => DD x61 x60 | s121 => DD x61 x61 | s122 => DD x61 x62 | s123 => DD x61 x63 | s124 => DD x62 x0 | s125 => DD x62 x1 | s126 => DD x62 x2 end.
Definition m3906 (c : sum2) : dd := match c with s0 => DD x61 x2 | s1 => DD x61 x3 | s2 => DD x61 x4 | s3 => DD x61 x5 | s4 => DD x61 x6 | s5 => DD x61 x7 | s6 => DD x61 x8 | s7 => DD x61 x9 | s8 => DD x61 x10 | s9 => DD x61 x11 | s10 => DD x61 x12 | s11 => DD x61 x13 | s12 => DD x61 x14 | s13 => DD x61 x15 | s14 => DD x61 x16 | s15 => DD x61 x17 | s16 => DD x61 x18 | s17 => DD x61 x19 | s18 => DD x61 x20 | s19 => DD x61 x21 | s20 => DD x61 x22 | s21 => DD x61 x23 | s22 => DD x61 x24 | s23 => DD x61 x25 | s24 => DD x61 x26 | s25 => DD x61 x27 | s26 => DD x61 x28 | s27 => DD x61 x29 | s28 => DD x61 x30 | s29 => DD x61 x31 | s30 => DD x61 x32 | s31 => DD x61 x33 | s32 => DD x61 x34 | s33 => DD x61 x35 | s34 => DD x61 x36 | s35 => DD x61 x37 | s36 => DD x61 x38 | s37 => DD x61 x39 | s38 => DD x61 x40 | s39 => DD x61 x41 | s40 => DD x61 x42 | s41 => DD x61 x43 | s42 => DD x61 x44 | s43 => DD x61 x45 | s44 => DD x61 x46 | s45 => DD x61 x47 | s46 => DD x61 x48 | s47 => DD x61 x49 | s48 => DD x61 x50 | s49 => DD x61 x51 | s50 => DD x61 x52 | s51 => DD x61 x53 | s52 => DD x61 x54 | s53 => DD x61 x55 | s54 => DD x61 x56 | s55 => DD x61 x57 | s56 => DD x61 x58 | s57 => DD x61 x59 | s58 => DD x61 x60 | s59 => DD x61 x61 | s60 => DD x61 x62 | s61 => DD x61 x63 | s62 => DD x62 x0 | s63 => DD x62 x1 | s64 => DD x62 x2 | s65 => DD x62 x3 | s66 => DD x62 x4 | s67 => DD x62 x5 | s68 => DD x62 x6 | s69 => DD x62 x7 | s70 => DD x62 x8 | s71 => DD x62 x9 | s72 => DD x62 x10 | s73 => DD x62 x11 | s74 => DD x62 x12 | s75 => DD x62 x13 | s76 => DD x62 x14 | s77 => DD x62 x15 | s78 => DD x62 x16 | s79 => DD x62 x17 | s80 => DD x62 x18 | s81 => DD x62 x19 | s82 => DD x62 x20 | s83 => DD x62 x21 | s84 => DD x62 x22 | s85 => DD x62 x23 | s86 => DD x62 x24 | s87 => DD x62 x25 | s88 => DD x62 x26 | s89 => DD x62 x27 | s90 => DD x62 x28 | s91 => DD x62 x29 | s92 => DD x62 x30 | s93 => DD x62 x31 | s94 => DD x62 x32 | s95 => DD x62 x33 | s96 => DD x62 x34 | s97 => DD x62 x35 | s98 => DD x62 x36 | s99 => DD x62 x37 | s100 => DD x62 x38 | s101 => DD x62 x39 | s102 => DD x62 x40 | s103 => DD x62 x41 | s104 => DD x62 x42 | s105 => DD x62 x43 | s106 => DD x62 x44 | s107 => DD x62 x45 | s108 => DD x62 x46 | s109 => DD x62 x47 | s110 => DD x62 x48 | s111 => DD x62 x49 | s112 => DD x62 x50 | s113 => DD x62 x51 | s114 => DD x62 x52 | s115 => DD x62 x53 | s116 => DD x62 x54 | s117 => DD x62 x55 | s118 => DD x62 x56 | s119 => DD x62 x57 | s120 => DD x62 x58 | s121 => DD x62 x59 | s122 => DD x62 x60 | s123 => DD x62 x61 | s124 => DD x62 x62 | s125 => DD x62 x63 | s126 => DD x63 x0 end.
Definition m3969 (c : sum2) : dd := match c with s0 => DD x62 x1 | s1 => DD x62 x2 | s2 => DD x62 x3 | s3 => DD x62 x4 | s4 => DD x62 x5 | s5 => DD x62 x6 | s6 => DD x62 x7 | s7 => DD x62 x8 | s8 => DD x62 x9 | s9 => DD x62 x10 | s10 => DD x62 x11 | s11 => DD x62 x12 | s12 => DD x62 x13 | s13 => DD x62 x14 | s14 => DD x62 x15 | s15 => DD x62 x16 | s16 => DD x62 x17 | s17 => DD x62 x18 | s18 => DD x62 x19 | s19 => DD x62 x20 | s20 => DD x62 x21 | s21 => DD x62 x22 | s22 => DD x62 x23 | s23 => DD x62 x24 | s24 => DD x62 x25 | s25 => DD x62 x26 | s26 => DD x62 x27 | s27 => DD x62 x28 | s28 => DD x62 x29 | s29 => DD x62 x30 | s30 => DD x62 x31 | s31 => DD x62 x32 | s32 => DD x62 x33 | s33 => DD x62 x34 | s34 => DD x62 x35 | s35 => DD x62 x36 | s36 => DD x62 x37 | s37 => DD x62 x38 | s38 => DD x62 x39 | s39 => DD x62 x40 | s40 => DD x62 x41 | s41 => DD x62 x42 | s42 => DD x62 x43 | s43 => DD x62 x44 | s44 => DD x62 x45 | s45 => DD x62 x46 | s46 => DD x62 x47 | s47 => DD x62 x48 | s48 => DD x62 x49 | s49 => DD x62 x50 | s50 => DD x62 x51 | s51 => DD x62 x52 | s52 => DD x62 x53 | s53 => DD x62 x54 | s54 => DD x62 x55 | s55 => DD x62 x56 | s56 => DD x62 x57 | s57 => DD x62 x58 | s58 => DD x62 x59 | s59 => DD x62 x60 | s60 => DD x62 x61 | s61 => DD x62 x62 | s62 => DD x62 x63 | s63 => DD x63 x0 | s64 => DD x63 x1 | s65 => DD x63 x2 | s66 => DD x63 x3 | s67 => DD x63 x4 | s68 => DD x63 x5 | s69 => DD x63 x6 | s70 => DD x63 x7 | s71 => DD x63 x8 | s72 => DD x63 x9 | s73 => DD x63 x10 | s74 => DD x63 x11 | s75 => DD x63 x12 | s76 => DD x63 x13 | s77 => DD x63 x14 | s78 => DD x63 x15 | s79 => DD x63 x16 | s80 => DD x63 x17 | s81 => DD x63 x18 | s82 => DD x63 x19 | s83 => DD x63 x20 | s84 => DD x63 x21 | s85 => DD x63 x22 | s86 => DD x63 x23 | s87 => DD x63 x24 | s88 => DD x63 x25 | s89 => DD x63 x26 | s90 => DD x63 x27 | s91 => DD x63 x28 | s92 => DD x63 x29 | s93 => DD x63 x30 | s94 => DD x63 x31 | s95 => DD x63 x32 | s96 => DD x63 x33 | s97 => DD x63 x34 | s98 => DD x63 x35 | s99 => DD x63 x36 | s100 => DD x63 x37 | s101 => DD x63 x38 | s102 => DD x63 x39 | s103 => DD x63 x40 | s104 => DD x63 x41 | s105 => DD x63 x42 | s106 => DD x63 x43 | s107 => DD x63 x44 | s108 => DD x63 x45 | s109 => DD x63 x46 | s110 => DD x63 x47 | s111 => DD x63 x48 | s112 => DD x63 x49 | s113 => DD x63 x50 | s114 => DD x63 x51 | s115 => DD x63 x52 | s116 => DD x63 x53 | s117 => DD x63 x54 | s118 => DD x63 x55 | s119 => DD x63 x56 | s120 => DD x63 x57 | s121 => DD x63 x58 | s122 => DD x63 x59 | s123 => DD x63 x60 | s124 => DD x63 x61 | s125 => DD x63 x62 | s126 => DD x63 x63 end.
(** x * y + c, for each x. *)
Definition r0 (y : dig) : sum2 -> dd := match y with x0 => m0 | x1 => m0 | x2 => m0 | x3 => m0 | x4 => m0 | x5 => m0 | x6 => m0 | x7 => m0 | x8 => m0 | x9 => m0 | x10 => m0 | x11 => m0 | x12 => m0 | x13 => m0 | x14 => m0 | x15 => m0 | x16 => m0 | x17 => m0 | x18 => m0 | x19 => m0 | x20 => m0 | x21 => m0 | x22 => m0 | x23 => m0 | x24 => m0 | x25 => m0 | x26 => m0 | x27 => m0 | x28 => m0 | x29 => m0 | x30 => m0 | x31 => m0 | x32 => m0 | x33 => m0 | x34 => m0 | x35 => m0 | x36 => m0 | x37 => m0 | x38 => m0 | x39 => m0 | x40 => m0 | x41 => m0 | x42 => m0 | x43 => m0 | x44 => m0 | x45 => m0 | x46 => m0 | x47 => m0 | x48 => m0 | x49 => m0 | x50 => m0 | x51 => m0 | x52 => m0 | x53 => m0 | x54 => m0 | x55 => m0 | x56 => m0 | x57 => m0 | x58 => m0 | x59 => m0 | x60 => m0 | x61 => m0 | x62 => m0 | x63 => m0 end.
Definition r1 (y : dig) : sum2 -> dd := match y with x0 => m0 | x1 => m1 | x2 => m2 | x3 => m3 | x4 => m4 | x5 => m5 | x6 => m6 | x7 => m7 | x8 => m8 | x9 => m9 | x10 => m10 | x11 => m11 | x12 => m12 | x13 => m13 | x14 => m14 | x15 => m15 | x16 => m16 | x17 => m17 | x18 => m18 | x19 => m19 | x20 => m20 | x21 => m21 | x22 => m22 | x23 => m23 | x24 => m24 | x25 => m25 | x26 => m26 | x27 => m27 | x28 => m28 | x29 => m29 | x30 => m30 | x31 => m31 | x32 => m32 | x33 => m33 | x34 => m34 | x35 => m35 | x36 => m36 | x37 => m37 | x38 => m38 | x39 => m39 | x40 => m40 | x41 => m41 | x42 => m42 | x43 => m43 | x44 => m44 | x45 => m45 | x46 => m46 | x47 => m47 | x48 => m48 | x49 => m49 | x50 => m50 | x51 => m51 | x52 => m52 | x53 => m53 | x54 => m54 | x55 => m55 | x56 => m56 | x57 => m57 | x58 => m58 | x59 => m59 | x60 => m60 | x61 => m61 | x62 => m62 | x63 => m63 end.
Definition r2 (y : dig) : sum2 -> dd := match y with x0 => m0 | x1 => m2 | x2 => m4 | x3 => m6 | x4 => m8 | x5 => m10 | x6 => m12 | x7 => m14 | x8 => m16 | x9 => m18 | x10 => m20 | x11 => m22 | x12 => m24 | x13 => m26 | x14 => m28 | x15 => m30 | x16 => m32 | x17 => m34 | x18 => m36 | x19 => m38 | x20 => m40 | x21 => m42 | x22 => m44 | x23 => m46 | x24 => m48 | x25 => m50 | x26 => m52 | x27 => m54 | x28 => m56 | x29 => m58 | x30 => m60 | x31 => m62 | x32 => m64 | x33 => m66 | x34 => m68 | x35 => m70 | x36 => m72 | x37 => m74 | x38 => m76 | x39 => m78 | x40 => m80 | x41 => m82 | x42 => m84 | x43 => m86 | x44 => m88 | x45 => m90 | x46 => m92 | x47 => m94 | x48 => m96 | x49 => m98 | x50 => m100 | x51 => m102 | x52 => m104 | x53 => m106 | x54 => m108 | x55 => m110 | x56 => m112 | x57 => m114 | x58 => m116 | x59 => m118 | x60 => m120 | x61 => m122 | x62 => m124 | x63 => m126 end.
Definition r3 (y : dig) : sum2 -> dd := match y with x0 => m0 | x1 => m3 | x2 => m6 | x3 => m9 | x4 => m12 | x5 => m15 | x6 => m18 | x7 => m21 | x8 => m24 | x9 => m27 | x10 => m30 | x11 => m33 | x12 => m36 | x13 => m39 | x14 => m42 | x15 => m45 | x16 => m48 | x17 => m51 | x18 => m54 | x19 => m57 | x20 => m60 | x21 => m63 | x22 => m66 | x23 => m69 | x24 => m72 | x25 => m75 | x26 => m78 | x27 => m81 | x28 => m84 | x29 => m87 | x30 => m90 | x31 => m93 | x32 => m96 | x33 => m99 | x34 => m102 | x35 => m105 | x36 => m108 | x37 => m111 | x38 => m114 | x39 => m117 | x40 => m120 | x41 => m123 | x42 => m126 | x43 => m129 | x44 => m132 | x45 => m135 | x46 => m138 | x47 => m141 | x48 => m144 | x49 => m147 | x50 => m150 | x51 => m153 | x52 => m156 | x53 => m159 | x54 => m162 | x55 => m165 | x56 => m168 | x57 => m171 | x58 => m174 | x59 => m177 | x60 => m180 | x61 => m183 | x62 => m186 | x63 => m189 end.
Definition r4 (y : dig) : sum2 -> dd := match y with x0 => m0 | x1 => m4 | x2 => m8 | x3 => m12 | x4 => m16 | x5 => m20 | x6 => m24 | x7 => m28 | x8 => m32 | x9 => m36 | x10 => m40 | x11 => m44 | x12 => m48 | x13 => m52 | x14 => m56 | x15 => m60 | x16 => m64 | x17 => m68 | x18 => m72 | x19 => m76 | x20 => m80 | x21 => m84 | x22 => m88 | x23 => m92 | x24 => m96 | x25 => m100 | x26 => m104 | x27 => m108 | x28 => m112 | x29 => m116 | x30 => m120 | x31 => m124 | x32 => m128 | x33 => m132 | x34 => m136 | x35 => m140 | x36 => m144 | x37 => m148 | x38 => m152 | x39 => m156 | x40 => m160 | x41 => m164 | x42 => m168 | x43 => m172 | x44 => m176 | x45 => m180 | x46 => m184 | x47 => m188 | x48 => m192 | x49 => m196 | x50 => m200 | x51 => m204 | x52 => m208 | x53 => m212 | x54 => m216 | x55 => m220 | x56 => m224 | x57 => m228 | x58 => m232 | x59 => m236 | x60 => m240 | x61 => m244 | x62 => m248 | x63 => m252 end.
Definition r5 (y : dig) : sum2 -> dd := match y with x0 => m0 | x1 => m5 | x2 => m10 | x3 => m15 | x4 => m20 | x5 => m25 | x6 => m30 | x7 => m35 | x8 => m40 | x9 => m45 | x10 => m50 | x11 => m55 | x12 => m60 | x13 => m65 | x14 => m70 | x15 => m75 | x16 => m80 | x17 => m85 | x18 => m90 | x19 => m95 | x20 => m100 | x21 => m105 | x22 => m110 | x23 => m115 | x24 => m120 | x25 => m125 | x26 => m130 | x27 => m135 | x28 => m140 | x29 => m145 | x30 => m150 | x31 => m155 | x32 => m160 | x33 => m165 | x34 => m170 | x35 => m175 | x36 => m180 | x37 => m185 | x38 => m190 | x39 => m195 | x40 => m200 | x41 => m205 | x42 => m210 | x43 => m215 | x44 => m220 | x45 => m225 | x46 => m230 | x47 => m235 | x48 => m240 | x49 => m245 | x50 => m250 | x51 => m255 | x52 => m260 | x53 => m265 | x54 => m270 | x55 => m275 | x56 => m280 | x57 => m285 | x58 => m290 | x59 => m295 | x60 => m300 | x61 => m305 | x62 => m310 | x63 => m315 end.
Definition r6 (y : dig) : sum2 -> dd := match y with x0 => m0 | x1 => m6 | x2 => m12 | x3 => m18 | x4 => m24 | x5 => m30 | x6 => m36 | x7 => m42 | x8 => m48 | x9 => m54 | x10 => m60 | x11 => m66 | x12 => m72 | x13 => m78 | x14 => m84 | x15 => m90 | x16 => m96 | x17 => m102 | x18 => m108 | x19 => m114 | x20 => m120 | x21 => m126 | x22 => m132 | x23 => m138 | x24 => m144 | x25 => m150 | x26 => m156 | x27 => m162 | x28 => m168 | x29 => m174 | x30 => m180 | x31 => m186 | x32 => m192 | x33 => m198 | x34 => m204 | x35 => m210 | x36 => m216 | x37 => m222 | x38 => m228 | x39 => m234 | x40 => m240 | x41 => m246 | x42 => m252 | x43 => m258 | x44 => m264 | x45 => m270 | x46 => m276 | x47 => m282 | x48 => m288 | x49 => m294 | x50 => m300 | x51 => m306 | x52 => m312 | x53 => m318 | x54 => m324 | x55 => m330 | x56 => m336 | x57 => m342 | x58 => m348 | x59 => m354 | x60 => m360 | x61 => m366 | x62 => m372 | x63 => m378 end.
Definition r7 (y : dig) : sum2 -> dd := match y with x0 => m0 | x1 => m7 | x2 => m14 | x3 => m21 | x4 => m28 | x5 => m35 | x6 => m42 | x7 => m49 | x8 => m56 | x9 => m63 | x10 => m70 | x11 => m77 | x12 => m84 | x13 => m91 | x14 => m98 | x15 => m105 | x16 => m112 | x17 => m119 | x18 => m126 | x19 => m133 | x20 => m140 | x21 => m147 | x22 => m154 | x23 => m161 | x24 => m168 | x25 => m175 | x26 => m182 | x27 => m189 | x28 => m196 | x29 => m203 | x30 => m210 | x31 => m217 | x32 => m224 | x33 => m231 | x34 => m238 | x35 => m245 | x36 => m252 | x37 => m259 | x38 => m266 | x39 => m273 | x40 => m280 | x41 => m287 | x42 => m294 | x43 => m301 | x44 => m308 | x45 => m315 | x46 => m322 | x47 => m329 | x48 => m336 | x49 => m343 | x50 => m350 | x51 => m357 | x52 => m364 | x53 => m371 | x54 => m378 | x55 => m385 | x56 => m392 | x57 => m399 | x58 => m406 | x59 => m413 | x60 => m420 | x61 => m427 | x62 => m434 | x63 => m441 end.
Definition r8 (y : dig) : sum2 -> dd := match y with x0 => m0 | x1 => m8 | x2 => m16 | x3 => m24 | x4 => m32 | x5 => m40 | x6 => m48 | x7 => m56 | x8 => m64 | x9 => m72 | x10 => m80 | x11 => m88 | x12 => m96 | x13 => m104 | x14 => m112 | x15 => m120 | x16 => m128 | x17 => m136 | x18 => m144 | x19 => m152 | x20 => m160 | x21 => m168 | x22 => m176 | x23 => m184 | x24 => m192 | x25 => m200 | x26 => m208 | x27 => m216 | x28 => m224 | x29 => m232 | x30 => m240 | x31 => m248 | x32 => m256 | x33 => m264 | x34 => m272 | x35 => m280 | x36 => m288 | x37 => m296 | x38 => m304 | x39 => m312 | x40 => m320 | x41 => m328 | x42 => m336 | x43 => m344 | x44 => m352 | x45 => m360 | x46 => m368 | x47 => m376 | x48 => m384 | x49 => m392 | x50 => m400 | x51 => m408 | x52 => m416 | x53 => m424 | x54 => m432 | x55 => m440 | x56 => m448 | x57 => m456 | x58 => m464 | x59 => m472 | x60 => m480 | x61 => m488 | x62 => m496 | x63 => m504 end.
Definition r9 (y : dig) : sum2 -> dd := match y with x0 => m0 | x1 => m9 | x2 => m18 | x3 => m27 | x4 => m36 | x5 => m45 | x6 => m54 | x7 => m63 | x8 => m72 | x9 => m81 | x10 => m90 | x11 => m99 | x12 => m108 | x13 => m117 | x14 => m126 | x15 => m135 | x16 => m144 | x17 => m153 | x18 => m162 | x19 => m171 | x20 => m180 | x21 => m189 | x22 => m198 | x23 => m207 | x24 => m216 | x25 => m225 | x26 => m234 | x27 => m243 | x28 => m252 | x29 => m261 | x30 => m270 | x31 => m279 | x32 => m288 | x33 => m297 | x34 => m306 | x35 => m315 | x36 => m324 | x37 => m333 | x38 => m342 | x39 => m351 | x40 => m360 | x41 => m369 | x42 => m378 | x43 => m387 | x44 => m396 | x45 => m405 | x46 => m414 | x47 => m423 | x48 => m432 | x49 => m441 | x50 => m450 | x51 => m459 | x52 => m468 | x53 => m477 | x54 => m486 | x55 => m495 | x56 => m504 | x57 => m513 | x58 => m522 | x59 => m531 | x60 => m540 | x61 => m549 | x62 => m558 | x63 => m567 end.
Definition r10 (y : dig) : sum2 -> dd := match y with x0 => m0 | x1 => m10 | x2 => m20 | x3 => m30 | x4 => m40 | x5 => m50 | x6 => m60 | x7 => m70 | x8 => m80 | x9 => m90 | x10 => m100 | x11 => m110 | x12 => m120 | x13 => m130 | x14 => m140 | x15 => m150 | x16 => m160 | x17 => m170 | x18 => m180 | x19 => m190 | x20 => m200 | x21 => m210 | x22 => m220 | x23 => m230 | x24 => m240 | x25 => m250 | x26 => m260 | x27 => m270 | x28 => m280 | x29 => m290 | x30 => m300 | x31 => m310 | x32 => m320 | x33 => m330 | x34 => m340 | x35 => m350 | x36 => m360 | x37 => m370 | x38 => m380 | x39 => m390 | x40 => m400 | x41 => m410 | x42 => m420 | x43 => m430 | x44 => m440 | x45 => m450 | x46 => m460 | x47 => m470 | x48 => m480 | x49 => m490 | x50 => m500 | x51 => m510 | x52 => m520 | x53 => m530 | x54 => m540 | x55 => m550 | x56 => m560 | x57 => m570 | x58 => m580 | x59 => m590 | x60 => m600 | x61 => m610 | x62 => m620 | x63 => m630 end.
Definition r11 (y : dig) : sum2 -> dd := match y with x0 => m0 | x1 => m11 | x2 => m22 | x3 => m33 | x4 => m44 | x5 => m55 | x6 => m66 | x7 => m77 | x8 => m88 | x9 => m99 | x10 => m110 | x11 => m121 | x12 => m132 | x13 => m143 | x14 => m154 | x15 => m165 | x16 => m176 | x17 => m187 | x18 => m198 | x19 => m209 | x20 => m220 | x21 => m231 | x22 => m242 | x23 => m253 | x24 => m264 | x25 => m275 | x26 => m286 | x27 => m297 | x28 => m308 | x29 => m319 | x30 => m330 | x31 => m341 | x32 => m352 | x33 => m363 | x34 => m374 | x35 => m385 | x36 => m396 | x37 => m407 | x38 => m418 | x39 => m429 | x40 => m440 | x41 => m451 | x42 => m462 | x43 => m473 | x44 => m484 | x45 => m495 | x46 => m506 | x47 => m517 | x48 => m528 | x49 => m539 | x50 => m550 | x51 => m561 | x52 => m572 | x53 => m583 | x54 => m594 | x55 => m605 | x56 => m616 | x57 => m627 | x58 => m638 | x59 => m649 | x60 => m660 | x61 => m671 | x62 => m682 | x63 => m693 end.
Definition r12 (y : dig) : sum2 -> dd := match y with x0 => m0 | x1 => m12 | x2 => m24 | x3 => m36 | x4 => m48 | x5 => m60 | x6 => m72 | x7 => m84 | x8 => m96 | x9 => m108 | x10 => m120 | x11 => m132 | x12 => m144 | x13 => m156 | x14 => m168 | x15 => m180 | x16 => m192 | x17 => m204 | x18 => m216 | x19 => m228 | x20 => m240 | x21 => m252 | x22 => m264 | x23 => m276 | x24 => m288 | x25 => m300 | x26 => m312 | x27 => m324 | x28 => m336 | x29 => m348 | x30 => m360 | x31 => m372 | x32 => m384 | x33 => m396 | x34 => m408 | x35 => m420 | x36 => m432 | x37 => m444 | x38 => m456 | x39 => m468 | x40 => m480 | x41 => m492 | x42 => m504 | x43 => m516 | x44 => m528 | x45 => m540 | x46 => m552 | x47 => m564 | x48 => m576 | x49 => m588 | x50 => m600 | x51 => m612 | x52 => m624 | x53 => m636 | x54 => m648 | x55 => m660 | x56 => m672 | x57 => m684 | x58 => m696 | x59 => m708 | x60 => m720 | x61 => m732 | x62 => m744 | x63 => m756 end.
Definition r13 (y : dig) : sum2 -> dd := match y with x0 => m0 | x1 => m13 | x2 => m26 | x3 => m39 | x4 => m52 | x5 => m65 | x6 => m78 | x7 => m91 | x8 => m104 | x9 => m117 | x10 => m130 | x11 => m143 | x12 => m156 | x13 => m169 | x14 => m182 | x15 => m195 | x16 => m208 | x17 => m221 | x18 => m234 | x19 => m247 | x20 => m260 | x21 => m273 | x22 => m286 | x23 => m299 | x24 => m312 | x25 => m325 | x26 => m338 | x27 => m351 | x28 => m364 | x29 => m377 | x30 => m390 | x31 => m403 | x32 => m416 | x33 => m429 | x34 => m442 | x35 => m455 | x36 => m468 | x37 => m481 | x38 => m494 | x39 => m507 | x40 => m520 | x41 => m533 | x42 => m546 | x43 => m559 | x44 => m572 | x45 => m585 | x46 => m598 | x47 => m611 | x48 => m624 | x49 => m637 | x50 => m650 | x51 => m663 | x52 => m676 | x53 => m689 | x54 => m702 | x55 => m715 | x56 => m728 | x57 => m741 | x58 => m754 | x59 => m767 | x60 => m780 | x61 => m793 | x62 => m806 | x63 => m819 end.
Definition r14 (y : dig) : sum2 -> dd := match y with x0 => m0 | x1 => m14 | x2 => m28 | x3 => m42 | x4 => m56 | x5 => m70 | x6 => m84 | x7 => m98 | x8 => m112 | x9 => m126 | x10 => m140 | x11 => m154 | x12 => m168 | x13 => m182 | x14 => m196 | x15 => m210 | x16 => m224 | x17 => m238 | x18 => m252 | x19 => m266 | x20 => m280 | x21 => m294 | x22 => m308 | x23 => m322 | x24 => m336 | x25 => m350 | x26 => m364 | x27 => m378 | x28 => m392 | x29 => m406 | x30 => m420 | x31 => m434 | x32 => m448 | x33 => m462 | x34 => m476 | x35 => m490 | x36 => m504 | x37 => m518 | x38 => m532 | x39 => m546 | x40 => m560 | x41 => m574 | x42 => m588 | x43 => m602 | x44 => m616 | x45 => m630 | x46 => m644 | x47 => m658 | x48 => m672 | x49 => m686 | x50 => m700 | x51 => m714 | x52 => m728 | x53 => m742 | x54 => m756 | x55 => m770 | x56 => m784 | x57 => m798 | x58 => m812 | x59 => m826 | x60 => m840 | x61 => m854 | x62 => m868 | x63 => m882 end.
Definition r15 (y : dig) : sum2 -> dd := match y with x0 => m0 | x1 => m15 | x2 => m30 | x3 => m45 | x4 => m60 | x5 => m75 | x6 => m90 | x7 => m105 | x8 => m120 | x9 => m135 | x10 => m150 | x11 => m165 | x12 => m180 | x13 => m195 | x14 => m210 | x15 => m225 | x16 => m240 | x17 => m255 | x18 => m270 | x19 => m285 | x20 => m300 | x21 => m315 | x22 => m330 | x23 => m345 | x24 => m360 | x25 => m375 | x26 => m390 | x27 => m405 | x28 => m420 | x29 => m435 | x30 => m450 | x31 => m465 | x32 => m480 | x33 => m495 | x34 => m510 | x35 => m525 | x36 => m540 | x37 => m555 | x38 => m570 | x39 => m585 | x40 => m600 | x41 => m615 | x42 => m630 | x43 => m645 | x44 => m660 | x45 => m675 | x46 => m690 | x47 => m705 | x48 => m720 | x49 => m735 | x50 => m750 | x51 => m765 | x52 => m780 | x53 => m795 | x54 => m810 | x55 => m825 | x56 => m840 | x57 => m855 | x58 => m870 | x59 => m885 | x60 => m900 | x61 => m915 | x62 => m930 | x63 => m945 end.
Definition r16 (y : dig) : sum2 -> dd := match y with x0 => m0 | x1 => m16 | x2 => m32 | x3 => m48 | x4 => m64 | x5 => m80 | x6 => m96 | x7 => m112 | x8 => m128 | x9 => m144 | x10 => m160 | x11 => m176 | x12 => m192 | x13 => m208 | x14 => m224 | x15 => m240 | x16 => m256 | x17 => m272 | x18 => m288 | x19 => m304 | x20 => m320 | x21 => m336 | x22 => m352 | x23 => m368 | x24 => m384 | x25 => m400 | x26 => m416 | x27 => m432 | x28 => m448 | x29 => m464 | x30 => m480 | x31 => m496 | x32 => m512 | x33 => m528 | x34 => m544 | x35 => m560 | x36 => m576 | x37 => m592 | x38 => m608 | x39 => m624 | x40 => m640 | x41 => m656 | x42 => m672 | x43 => m688 | x44 => m704 | x45 => m720 | x46 => m736 | x47 => m752 | x48 => m768 | x49 => m784 | x50 => m800 | x51 => m816 | x52 => m832 | x53 => m848 | x54 => m864 | x55 => m880 | x56 => m896 | x57 => m912 | x58 => m928 | x59 => m944 | x60 => m960 | x61 => m976 | x62 => m992 | x63 => m1008 end.
Definition r17 (y : dig) : sum2 -> dd := match y with x0 => m0 | x1 => m17 | x2 => m34 | x3 => m51 | x4 => m68 | x5 => m85 | x6 => m102 | x7 => m119 | x8 => m136 | x9 => m153 | x10 => m170 | x11 => m187 | x12 => m204 | x13 => m221 | x14 => m238 | x15 => m255 | x16 => m272 | x17 => m289 | x18 => m306 | x19 => m323 | x20 => m340 | x21 => m357 | x22 => m374 | x23 => m391 | x24 => m408 | x25 => m425 | x26 => m442 | x27 => m459 | x28 => m476 | x29 => m493 | x30 => m510 | x31 => m527 | x32 => m544 | x33 => m561 | x34 => m578 | x35 => m595 | x36 => m612 | x37 => m629 | x38 => m646 | x39 => m663 | x40 => m680 | x41 => m697 | x42 => m714 | x43 => m731 | x44 => m748 | x45 => m765 | x46 => m782 | x47 => m799 | x48 => m816 | x49 => m833 | x50 => m850 | x51 => m867 | x52 => m884 | x53 => m901 | x54 => m918 | x55 => m935 | x56 => m952 | x57 => m969 | x58 => m986 | x59 => m1003 | x60 => m1020 | x61 => m1037 | x62 => m1054 | x63 => m1071 end.
Definition r18 (y : dig) : sum2 -> dd := match y with x0 => m0 | x1 => m18 | x2 => m36 | x3 => m54 | x4 => m72 | x5 => m90 | x6 => m108 | x7 => m126 | x8 => m144 | x9 => m162 | x10 => m180 | x11 => m198 | x12 => m216 | x13 => m234 | x14 => m252 | x15 => m270 | x16 => m288 | x17 => m306 | x18 => m324 | x19 => m342 | x20 => m360 | x21 => m378 | x22 => m396 | x23 => m414 | x24 => m432 | x25 => m450 | x26 => m468 | x27 => m486 | x28 => m504 | x29 => m522 | x30 => m540 | x31 => m558 | x32 => m576 | x33 => m594 | x34 => m612 | x35 => m630 | x36 => m648 | x37 => m666 | x38 => m684 | x39 => m702 | x40 => m720 | x41 => m738 | x42 => m756 | x43 => m774 | x44 => m792 | x45 => m810 | x46 => m828 | x47 => m846 | x48 => m864 | x49 => m882 | x50 => m900 | x51 => m918 | x52 => m936 | x53 => m954 | x54 => m972 | x55 => m990 | x56 => m1008 | x57 => m1026 | x58 => m1044 | x59 => m1062 | x60 => m1080 | x61 => m1098 | x62 => m1116 | x63 => m1134 end.
Definition r19 (y : dig) : sum2 -> dd := match y with x0 => m0 | x1 => m19 | x2 => m38 | x3 => m57 | x4 => m76 | x5 => m95 | x6 => m114 | x7 => m133 | x8 => m152 | x9 => m171 | x10 => m190 | x11 => m209 | x12 => m228 | x13 => m247 | x14 => m266 | x15 => m285 | x16 => m304 | x17 => m323 | x18 => m342 | x19 => m361 | x20 => m380 | x21 => m399 | x22 => m418 | x23 => m437 | x24 => m456 | x25 => m475 | x26 => m494 | x27 => m513 | x28 => m532 | x29 => m551 | x30 => m570 | x31 => m589 | x32 => m608 | x33 => m627 | x34 => m646 | x35 => m665 | x36 => m684 | x37 => m703 | x38 => m722 | x39 => m741 | x40 => m760 | x41 => m779 | x42 => m798 | x43 => m817 | x44 => m836 | x45 => m855 | x46 => m874 | x47 => m893 | x48 => m912 | x49 => m931 | x50 => m950 | x51 => m969 | x52 => m988 | x53 => m1007 | x54 => m1026 | x55 => m1045 | x56 => m1064 | x57 => m1083 | x58 => m1102 | x59 => m1121 | x60 => m1140 | x61 => m1159 | x62 => m1178 | x63 => m1197 end.
Definition r20 (y : dig) : sum2 -> dd := match y with x0 => m0 | x1 => m20 | x2 => m40 | x3 => m60 | x4 => m80 | x5 => m100 | x6 => m120 | x7 => m140 | x8 => m160 | x9 => m180 | x10 => m200 | x11 => m220 | x12 => m240 | x13 => m260 | x14 => m280 | x15 => m300 | x16 => m320 | x17 => m340 | x18 => m360 | x19 => m380 | x20 => m400 | x21 => m420 | x22 => m440 | x23 => m460 | x24 => m480 | x25 => m500 | x26 => m520 | x27 => m540 | x28 => m560 | x29 => m580 | x30 => m600 | x31 => m620 | x32 => m640 | x33 => m660 | x34 => m680 | x35 => m700 | x36 => m720 | x37 => m740 | x38 => m760 | x39 => m780 | x40 => m800 | x41 => m820 | x42 => m840 | x43 => m860 | x44 => m880 | x45 => m900 | x46 => m920 | x47 => m940 | x48 => m960 | x49 => m980 | x50 => m1000 | x51 => m1020 | x52 => m1040 | x53 => m1060 | x54 => m1080 | x55 => m1100 | x56 => m1120 | x57 => m1140 | x58 => m1160 | x59 => m1180 | x60 => m1200 | x61 => m1220 | x62 => m1240 | x63 => m1260 end.
Definition r21 (y : dig) : sum2 -> dd := match y with x0 => m0 | x1 => m21 | x2 => m42 | x3 => m63 | x4 => m84 | x5 => m105 | x6 => m126 | x7 => m147 | x8 => m168 | x9 => m189 | x10 => m210 | x11 => m231 | x12 => m252 | x13 => m273 | x14 => m294 | x15 => m315 | x16 => m336 | x17 => m357 | x18 => m378 | x19 => m399 | x20 => m420 | x21 => m441 | x22 => m462 | x23 => m483 | x24 => m504 | x25 => m525 | x26 => m546 | x27 => m567 | x28 => m588 | x29 => m609 | x30 => m630 | x31 => m651 | x32 => m672 | x33 => m693 | x34 => m714 | x35 => m735 | x36 => m756 | x37 => m777 | x38 => m798 | x39 => m819 | x40 => m840 | x41 => m861 | x42 => m882 | x43 => m903 | x44 => m924 | x45 => m945 | x46 => m966 | x47 => m987 | x48 => m1008 | x49 => m1029 | x50 => m1050 | x51 => m1071 | x52 => m1092 | x53 => m1113 | x54 => m1134 | x55 => m1155 | x56 => m1176 | x57 => m1197 | x58 => m1218 | x59 => m1239 | x60 => m1260 | x61 => m1281 | x62 => m1302 | x63 => m1323 end.
Definition r22 (y : dig) : sum2 -> dd := match y with x0 => m0 | x1 => m22 | x2 => m44 | x3 => m66 | x4 => m88 | x5 => m110 | x6 => m132 | x7 => m154 | x8 => m176 | x9 => m198 | x10 => m220 | x11 => m242 | x12 => m264 | x13 => m286 | x14 => m308 | x15 => m330 | x16 => m352 | x17 => m374 | x18 => m396 | x19 => m418 | x20 => m440 | x21 => m462 | x22 => m484 | x23 => m506 | x24 => m528 | x25 => m550 | x26 => m572 | x27 => m594 | x28 => m616 | x29 => m638 | x30 => m660 | x31 => m682 | x32 => m704 | x33 => m726 | x34 => m748 | x35 => m770 | x36 => m792 | x37 => m814 | x38 => m836 | x39 => m858 | x40 => m880 | x41 => m902 | x42 => m924 | x43 => m946 | x44 => m968 | x45 => m990 | x46 => m1012 | x47 => m1034 | x48 => m1056 | x49 => m1078 | x50 => m1100 | x51 => m1122 | x52 => m1144 | x53 => m1166 | x54 => m1188 | x55 => m1210 | x56 => m1232 | x57 => m1254 | x58 => m1276 | x59 => m1298 | x60 => m1320 | x61 => m1342 | x62 => m1364 | x63 => m1386 end.
Definition r23 (y : dig) : sum2 -> dd := match y with x0 => m0 | x1 => m23 | x2 => m46 | x3 => m69 | x4 => m92 | x5 => m115 | x6 => m138 | x7 => m161 | x8 => m184 | x9 => m207 | x10 => m230 | x11 => m253 | x12 => m276 | x13 => m299 | x14 => m322 | x15 => m345 | x16 => m368 | x17 => m391 | x18 => m414 | x19 => m437 | x20 => m460 | x21 => m483 | x22 => m506 | x23 => m529 | x24 => m552 | x25 => m575 | x26 => m598 | x27 => m621 | x28 => m644 | x29 => m667 | x30 => m690 | x31 => m713 | x32 => m736 | x33 => m759 | x34 => m782 | x35 => m805 | x36 => m828 | x37 => m851 | x38 => m874 | x39 => m897 | x40 => m920 | x41 => m943 | x42 => m966 | x43 => m989 | x44 => m1012 | x45 => m1035 | x46 => m1058 | x47 => m1081 | x48 => m1104 | x49 => m1127 | x50 => m1150 | x51 => m1173 | x52 => m1196 | x53 => m1219 | x54 => m1242 | x55 => m1265 | x56 => m1288 | x57 => m1311 | x58 => m1334 | x59 => m1357 | x60 => m1380 | x61 => m1403 | x62 => m1426 | x63 => m1449 end.
Definition r24 (y : dig) : sum2 -> dd := match y with x0 => m0 | x1 => m24 | x2 => m48 | x3 => m72 | x4 => m96 | x5 => m120 | x6 => m144 | x7 => m168 | x8 => m192 | x9 => m216 | x10 => m240 | x11 => m264 | x12 => m288 | x13 => m312 | x14 => m336 | x15 => m360 | x16 => m384 | x17 => m408 | x18 => m432 | x19 => m456 | x20 => m480 | x21 => m504 | x22 => m528 | x23 => m552 | x24 => m576 | x25 => m600 | x26 => m624 | x27 => m648 | x28 => m672 | x29 => m696 | x30 => m720 | x31 => m744 | x32 => m768 | x33 => m792 | x34 => m816 | x35 => m840 | x36 => m864 | x37 => m888 | x38 => m912 | x39 => m936 | x40 => m960 | x41 => m984 | x42 => m1008 | x43 => m1032 | x44 => m1056 | x45 => m1080 | x46 => m1104 | x47 => m1128 | x48 => m1152 | x49 => m1176 | x50 => m1200 | x51 => m1224 | x52 => m1248 | x53 => m1272 | x54 => m1296 | x55 => m1320 | x56 => m1344 | x57 => m1368 | x58 => m1392 | x59 => m1416 | x60 => m1440 | x61 => m1464 | x62 => m1488 | x63 => m1512 end.
Definition r25 (y : dig) : sum2 -> dd := match y with x0 => m0 | x1 => m25 | x2 => m50 | x3 => m75 | x4 => m100 | x5 => m125 | x6 => m150 | x7 => m175 | x8 => m200 | x9 => m225 | x10 => m250 | x11 => m275 | x12 => m300 | x13 => m325 | x14 => m350 | x15 => m375 | x16 => m400 | x17 => m425 | x18 => m450 | x19 => m475 | x20 => m500 | x21 => m525 | x22 => m550 | x23 => m575 | x24 => m600 | x25 => m625 | x26 => m650 | x27 => m675 | x28 => m700 | x29 => m725 | x30 => m750 | x31 => m775 | x32 => m800 | x33 => m825 | x34 => m850 | x35 => m875 | x36 => m900 | x37 => m925 | x38 => m950 | x39 => m975 | x40 => m1000 | x41 => m1025 | x42 => m1050 | x43 => m1075 | x44 => m1100 | x45 => m1125 | x46 => m1150 | x47 => m1175 | x48 => m1200 | x49 => m1225 | x50 => m1250 | x51 => m1275 | x52 => m1300 | x53 => m1325 | x54 => m1350 | x55 => m1375 | x56 => m1400 | x57 => m1425 | x58 => m1450 | x59 => m1475 | x60 => m1500 | x61 => m1525 | x62 => m1550 | x63 => m1575 end.
Definition r26 (y : dig) : sum2 -> dd := match y with x0 => m0 | x1 => m26 | x2 => m52 | x3 => m78 | x4 => m104 | x5 => m130 | x6 => m156 | x7 => m182 | x8 => m208 | x9 => m234 | x10 => m260 | x11 => m286 | x12 => m312 | x13 => m338 | x14 => m364 | x15 => m390 | x16 => m416 | x17 => m442 | x18 => m468 | x19 => m494 | x20 => m520 | x21 => m546 | x22 => m572 | x23 => m598 | x24 => m624 | x25 => m650 | x26 => m676 | x27 => m702 | x28 => m728 | x29 => m754 | x30 => m780 | x31 => m806 | x32 => m832 | x33 => m858 | x34 => m884 | x35 => m910 | x36 => m936 | x37 => m962 | x38 => m988 | x39 => m1014 | x40 => m1040 | x41 => m1066 | x42 => m1092 | x43 => m1118 | x44 => m1144 | x45 => m1170 | x46 => m1196 | x47 => m1222 | x48 => m1248 | x49 => m1274 | x50 => m1300 | x51 => m1326 | x52 => m1352 | x53 => m1378 | x54 => m1404 | x55 => m1430 | x56 => m1456 | x57 => m1482 | x58 => m1508 | x59 => m1534 | x60 => m1560 | x61 => m1586 | x62 => m1612 | x63 => m1638 end.
Definition r27 (y : dig) : sum2 -> dd := match y with x0 => m0 | x1 => m27 | x2 => m54 | x3 => m81 | x4 => m108 | x5 => m135 | x6 => m162 | x7 => m189 | x8 => m216 | x9 => m243 | x10 => m270 | x11 => m297 | x12 => m324 | x13 => m351 | x14 => m378 | x15 => m405 | x16 => m432 | x17 => m459 | x18 => m486 | x19 => m513 | x20 => m540 | x21 => m567 | x22 => m594 | x23 => m621 | x24 => m648 | x25 => m675 | x26 => m702 | x27 => m729 | x28 => m756 | x29 => m783 | x30 => m810 | x31 => m837 | x32 => m864 | x33 => m891 | x34 => m918 | x35 => m945 | x36 => m972 | x37 => m999 | x38 => m1026 | x39 => m1053 | x40 => m1080 | x41 => m1107 | x42 => m1134 | x43 => m1161 | x44 => m1188 | x45 => m1215 | x46 => m1242 | x47 => m1269 | x48 => m1296 | x49 => m1323 | x50 => m1350 | x51 => m1377 | x52 => m1404 | x53 => m1431 | x54 => m1458 | x55 => m1485 | x56 => m1512 | x57 => m1539 | x58 => m1566 | x59 => m1593 | x60 => m1620 | x61 => m1647 | x62 => m1674 | x63 => m1701 end.
Definition r28 (y : dig) : sum2 -> dd := match y with x0 => m0 | x1 => m28 | x2 => m56 | x3 => m84 | x4 => m112 | x5 => m140 | x6 => m168 | x7 => m196 | x8 => m224 | x9 => m252 | x10 => m280 | x11 => m308 | x12 => m336 | x13 => m364 | x14 => m392 | x15 => m420 | x16 => m448 | x17 => m476 | x18 => m504 | x19 => m532 | x20 => m560 | x21 => m588 | x22 => m616 | x23 => m644 | x24 => m672 | x25 => m700 | x26 => m728 | x27 => m756 | x28 => m784 | x29 => m812 | x30 => m840 | x31 => m868 | x32 => m896 | x33 => m924 | x34 => m952 | x35 => m980 | x36 => m1008 | x37 => m1036 | x38 => m1064 | x39 => m1092 | x40 => m1120 | x41 => m1148 | x42 => m1176 | x43 => m1204 | x44 => m1232 | x45 => m1260 | x46 => m1288 | x47 => m1316 | x48 => m1344 | x49 => m1372 | x50 => m1400 | x51 => m1428 | x52 => m1456 | x53 => m1484 | x54 => m1512 | x55 => m1540 | x56 => m1568 | x57 => m1596 | x58 => m1624 | x59 => m1652 | x60 => m1680 | x61 => m1708 | x62 => m1736 | x63 => m1764 end.
Definition r29 (y : dig) : sum2 -> dd := match y with x0 => m0 | x1 => m29 | x2 => m58 | x3 => m87 | x4 => m116 | x5 => m145 | x6 => m174 | x7 => m203 | x8 => m232 | x9 => m261 | x10 => m290 | x11 => m319 | x12 => m348 | x13 => m377 | x14 => m406 | x15 => m435 | x16 => m464 | x17 => m493 | x18 => m522 | x19 => m551 | x20 => m580 | x21 => m609 | x22 => m638 | x23 => m667 | x24 => m696 | x25 => m725 | x26 => m754 | x27 => m783 | x28 => m812 | x29 => m841 | x30 => m870 | x31 => m899 | x32 => m928 | x33 => m957 | x34 => m986 | x35 => m1015 | x36 => m1044 | x37 => m1073 | x38 => m1102 | x39 => m1131 | x40 => m1160 | x41 => m1189 | x42 => m1218 | x43 => m1247 | x44 => m1276 | x45 => m1305 | x46 => m1334 | x47 => m1363 | x48 => m1392 | x49 => m1421 | x50 => m1450 | x51 => m1479 | x52 => m1508 | x53 => m1537 | x54 => m1566 | x55 => m1595 | x56 => m1624 | x57 => m1653 | x58 => m1682 | x59 => m1711 | x60 => m1740 | x61 => m1769 | x62 => m1798 | x63 => m1827 end.
Definition r30 (y : dig) : sum2 -> dd := match y with x0 => m0 | x1 => m30 | x2 => m60 | x3 => m90 | x4 => m120 | x5 => m150 | x6 => m180 | x7 => m210 | x8 => m240 | x9 => m270 | x10 => m300 | x11 => m330 | x12 => m360 | x13 => m390 | x14 => m420 | x15 => m450 | x16 => m480 | x17 => m510 | x18 => m540 | x19 => m570 | x20 => m600 | x21 => m630 | x22 => m660 | x23 => m690 | x24 => m720 | x25 => m750 | x26 => m780 | x27 => m810 | x28 => m840 | x29 => m870 | x30 => m900 | x31 => m930 | x32 => m960 | x33 => m990 | x34 => m1020 | x35 => m1050 | x36 => m1080 | x37 => m1110 | x38 => m1140 | x39 => m1170 | x40 => m1200 | x41 => m1230 | x42 => m1260 | x43 => m1290 | x44 => m1320 | x45 => m1350 | x46 => m1380 | x47 => m1410 | x48 => m1440 | x49 => m1470 | x50 => m1500 | x51 => m1530 | x52 => m1560 | x53 => m1590 | x54 => m1620 | x55 => m1650 | x56 => m1680 | x57 => m1710 | x58 => m1740 | x59 => m1770 | x60 => m1800 | x61 => m1830 | x62 => m1860 | x63 => m1890 end.
Definition r31 (y : dig) : sum2 -> dd := match y with x0 => m0 | x1 => m31 | x2 => m62 | x3 => m93 | x4 => m124 | x5 => m155 | x6 => m186 | x7 => m217 | x8 => m248 | x9 => m279 | x10 => m310 | x11 => m341 | x12 => m372 | x13 => m403 | x14 => m434 | x15 => m465 | x16 => m496 | x17 => m527 | x18 => m558 | x19 => m589 | x20 => m620 | x21 => m651 | x22 => m682 | x23 => m713 | x24 => m744 | x25 => m775 | x26 => m806 | x27 => m837 | x28 => m868 | x29 => m899 | x30 => m930 | x31 => m961 | x32 => m992 | x33 => m1023 | x34 => m1054 | x35 => m1085 | x36 => m1116 | x37 => m1147 | x38 => m1178 | x39 => m1209 | x40 => m1240 | x41 => m1271 | x42 => m1302 | x43 => m1333 | x44 => m1364 | x45 => m1395 | x46 => m1426 | x47 => m1457 | x48 => m1488 | x49 => m1519 | x50 => m1550 | x51 => m1581 | x52 => m1612 | x53 => m1643 | x54 => m1674 | x55 => m1705 | x56 => m1736 | x57 => m1767 | x58 => m1798 | x59 => m1829 | x60 => m1860 | x61 => m1891 | x62 => m1922 | x63 => m1953 end.
Definition r32 (y : dig) : sum2 -> dd := match y with x0 => m0 | x1 => m32 | x2 => m64 | x3 => m96 | x4 => m128 | x5 => m160 | x6 => m192 | x7 => m224 | x8 => m256 | x9 => m288 | x10 => m320 | x11 => m352 | x12 => m384 | x13 => m416 | x14 => m448 | x15 => m480 | x16 => m512 | x17 => m544 | x18 => m576 | x19 => m608 | x20 => m640 | x21 => m672 | x22 => m704 | x23 => m736 | x24 => m768 | x25 => m800 | x26 => m832 | x27 => m864 | x28 => m896 | x29 => m928 | x30 => m960 | x31 => m992 | x32 => m1024 | x33 => m1056 | x34 => m1088 | x35 => m1120 | x36 => m1152 | x37 => m1184 | x38 => m1216 | x39 => m1248 | x40 => m1280 | x41 => m1312 | x42 => m1344 | x43 => m1376 | x44 => m1408 | x45 => m1440 | x46 => m1472 | x47 => m1504 | x48 => m1536 | x49 => m1568 | x50 => m1600 | x51 => m1632 | x52 => m1664 | x53 => m1696 | x54 => m1728 | x55 => m1760 | x56 => m1792 | x57 => m1824 | x58 => m1856 | x59 => m1888 | x60 => m1920 | x61 => m1952 | x62 => m1984 | x63 => m2016 end.
Definition r33 (y : dig) : sum2 -> dd := match y with x0 => m0 | x1 => m33 | x2 => m66 | x3 => m99 | x4 => m132 | x5 => m165 | x6 => m198 | x7 => m231 | x8 => m264 | x9 => m297 | x10 => m330 | x11 => m363 | x12 => m396 | x13 => m429 | x14 => m462 | x15 => m495 | x16 => m528 | x17 => m561 | x18 => m594 | x19 => m627 | x20 => m660 | x21 => m693 | x22 => m726 | x23 => m759 | x24 => m792 | x25 => m825 | x26 => m858 | x27 => m891 | x28 => m924 | x29 => m957 | x30 => m990 | x31 => m1023 | x32 => m1056 | x33 => m1089 | x34 => m1122 | x35 => m1155 | x36 => m1188 | x37 => m1221 | x38 => m1254 | x39 => m1287 | x40 => m1320 | x41 => m1353 | x42 => m1386 | x43 => m1419 | x44 => m1452 | x45 => m1485 | x46 => m1518 | x47 => m1551 | x48 => m1584 | x49 => m1617 | x50 => m1650 | x51 => m1683 | x52 => m1716 | x53 => m1749 | x54 => m1782 | x55 => m1815 | x56 => m1848 | x57 => m1881 | x58 => m1914 | x59 => m1947 | x60 => m1980 | x61 => m2013 | x62 => m2046 | x63 => m2079 end.
Definition r34 (y : dig) : sum2 -> dd := match y with x0 => m0 | x1 => m34 | x2 => m68 | x3 => m102 | x4 => m136 | x5 => m170 | x6 => m204 | x7 => m238 | x8 => m272 | x9 => m306 | x10 => m340 | x11 => m374 | x12 => m408 | x13 => m442 | x14 => m476 | x15 => m510 | x16 => m544 | x17 => m578 | x18 => m612 | x19 => m646 | x20 => m680 | x21 => m714 | x22 => m748 | x23 => m782 | x24 => m816 | x25 => m850 | x26 => m884 | x27 => m918 | x28 => m952 | x29 => m986 | x30 => m1020 | x31 => m1054 | x32 => m1088 | x33 => m1122 | x34 => m1156 | x35 => m1190 | x36 => m1224 | x37 => m1258 | x38 => m1292 | x39 => m1326 | x40 => m1360 | x41 => m1394 | x42 => m1428 | x43 => m1462 | x44 => m1496 | x45 => m1530 | x46 => m1564 | x47 => m1598 | x48 => m1632 | x49 => m1666 | x50 => m1700 | x51 => m1734 | x52 => m1768 | x53 => m1802 | x54 => m1836 | x55 => m1870 | x56 => m1904 | x57 => m1938 | x58 => m1972 | x59 => m2006 | x60 => m2040 | x61 => m2074 | x62 => m2108 | x63 => m2142 end.
Definition r35 (y : dig) : sum2 -> dd := match y with x0 => m0 | x1 => m35 | x2 => m70 | x3 => m105 | x4 => m140 | x5 => m175 | x6 => m210 | x7 => m245 | x8 => m280 | x9 => m315 | x10 => m350 | x11 => m385 | x12 => m420 | x13 => m455 | x14 => m490 | x15 => m525 | x16 => m560 | x17 => m595 | x18 => m630 | x19 => m665 | x20 => m700 | x21 => m735 | x22 => m770 | x23 => m805 | x24 => m840 | x25 => m875 | x26 => m910 | x27 => m945 | x28 => m980 | x29 => m1015 | x30 => m1050 | x31 => m1085 | x32 => m1120 | x33 => m1155 | x34 => m1190 | x35 => m1225 | x36 => m1260 | x37 => m1295 | x38 => m1330 | x39 => m1365 | x40 => m1400 | x41 => m1435 | x42 => m1470 | x43 => m1505 | x44 => m1540 | x45 => m1575 | x46 => m1610 | x47 => m1645 | x48 => m1680 | x49 => m1715 | x50 => m1750 | x51 => m1785 | x52 => m1820 | x53 => m1855 | x54 => m1890 | x55 => m1925 | x56 => m1960 | x57 => m1995 | x58 => m2030 | x59 => m2065 | x60 => m2100 | x61 => m2135 | x62 => m2170 | x63 => m2205 end.
Definition r36 (y : dig) : sum2 -> dd := match y with x0 => m0 | x1 => m36 | x2 => m72 | x3 => m108 | x4 => m144 | x5 => m180 | x6 => m216 | x7 => m252 | x8 => m288 | x9 => m324 | x10 => m360 | x11 => m396 | x12 => m432 | x13 => m468 | x14 => m504 | x15 => m540 | x16 => m576 | x17 => m612 | x18 => m648 | x19 => m684 | x20 => m720 | x21 => m756 | x22 => m792 | x23 => m828 | x24 => m864 | x25 => m900 | x26 => m936 | x27 => m972 | x28 => m1008 | x29 => m1044 | x30 => m1080 | x31 => m1116 | x32 => m1152 | x33 => m1188 | x34 => m1224 | x35 => m1260 | x36 => m1296 | x37 => m1332 | x38 => m1368 | x39 => m1404 | x40 => m1440 | x41 => m1476 | x42 => m1512 | x43 => m1548 | x44 => m1584 | x45 => m1620 | x46 => m1656 | x47 => m1692 | x48 => m1728 | x49 => m1764 | x50 => m1800 | x51 => m1836 | x52 => m1872 | x53 => m1908 | x54 => m1944 | x55 => m1980 | x56 => m2016 | x57 => m2052 | x58 => m2088 | x59 => m2124 | x60 => m2160 | x61 => m2196 | x62 => m2232 | x63 => m2268 end.
Definition r37 (y : dig) : sum2 -> dd := match y with x0 => m0 | x1 => m37 | x2 => m74 | x3 => m111 | x4 => m148 | x5 => m185 | x6 => m222 | x7 => m259 | x8 => m296 | x9 => m333 | x10 => m370 | x11 => m407 | x12 => m444 | x13 => m481 | x14 => m518 | x15 => m555 | x16 => m592 | x17 => m629 | x18 => m666 | x19 => m703 | x20 => m740 | x21 => m777 | x22 => m814 | x23 => m851 | x24 => m888 | x25 => m925 | x26 => m962 | x27 => m999 | x28 => m1036 | x29 => m1073 | x30 => m1110 | x31 => m1147 | x32 => m1184 | x33 => m1221 | x34 => m1258 | x35 => m1295 | x36 => m1332 | x37 => m1369 | x38 => m1406 | x39 => m1443 | x40 => m1480 | x41 => m1517 | x42 => m1554 | x43 => m1591 | x44 => m1628 | x45 => m1665 | x46 => m1702 | x47 => m1739 | x48 => m1776 | x49 => m1813 | x50 => m1850 | x51 => m1887 | x52 => m1924 | x53 => m1961 | x54 => m1998 | x55 => m2035 | x56 => m2072 | x57 => m2109 | x58 => m2146 | x59 => m2183 | x60 => m2220 | x61 => m2257 | x62 => m2294 | x63 => m2331 end.
Definition r38 (y : dig) : sum2 -> dd := match y with x0 => m0 | x1 => m38 | x2 => m76 | x3 => m114 | x4 => m152 | x5 => m190 | x6 => m228 | x7 => m266 | x8 => m304 | x9 => m342 | x10 => m380 | x11 => m418 | x12 => m456 | x13 => m494 | x14 => m532 | x15 => m570 | x16 => m608 | x17 => m646 | x18 => m684 | x19 => m722 | x20 => m760 | x21 => m798 | x22 => m836 | x23 => m874 | x24 => m912 | x25 => m950 | x26 => m988 | x27 => m1026 | x28 => m1064 | x29 => m1102 | x30 => m1140 | x31 => m1178 | x32 => m1216 | x33 => m1254 | x34 => m1292 | x35 => m1330 | x36 => m1368 | x37 => m1406 | x38 => m1444 | x39 => m1482 | x40 => m1520 | x41 => m1558 | x42 => m1596 | x43 => m1634 | x44 => m1672 | x45 => m1710 | x46 => m1748 | x47 => m1786 | x48 => m1824 | x49 => m1862 | x50 => m1900 | x51 => m1938 | x52 => m1976 | x53 => m2014 | x54 => m2052 | x55 => m2090 | x56 => m2128 | x57 => m2166 | x58 => m2204 | x59 => m2242 | x60 => m2280 | x61 => m2318 | x62 => m2356 | x63 => m2394 end.
Definition r39 (y : dig) : sum2 -> dd := match y with x0 => m0 | x1 => m39 | x2 => m78 | x3 => m117 | x4 => m156 | x5 => m195 | x6 => m234 | x7 => m273 | x8 => m312 | x9 => m351 | x10 => m390 | x11 => m429 | x12 => m468 | x13 => m507 | x14 => m546 | x15 => m585 | x16 => m624 | x17 => m663 | x18 => m702 | x19 => m741 | x20 => m780 | x21 => m819 | x22 => m858 | x23 => m897 | x24 => m936 | x25 => m975 | x26 => m1014 | x27 => m1053 | x28 => m1092 | x29 => m1131 | x30 => m1170 | x31 => m1209 | x32 => m1248 | x33 => m1287 | x34 => m1326 | x35 => m1365 | x36 => m1404 | x37 => m1443 | x38 => m1482 | x39 => m1521 | x40 => m1560 | x41 => m1599 | x42 => m1638 | x43 => m1677 | x44 => m1716 | x45 => m1755 | x46 => m1794 | x47 => m1833 | x48 => m1872 | x49 => m1911 | x50 => m1950 | x51 => m1989 | x52 => m2028 | x53 => m2067 | x54 => m2106 | x55 => m2145 | x56 => m2184 | x57 => m2223 | x58 => m2262 | x59 => m2301 | x60 => m2340 | x61 => m2379 | x62 => m2418 | x63 => m2457 end.
Definition r40 (y : dig) : sum2 -> dd := match y with x0 => m0 | x1 => m40 | x2 => m80 | x3 => m120 | x4 => m160 | x5 => m200 | x6 => m240 | x7 => m280 | x8 => m320 | x9 => m360 | x10 => m400 | x11 => m440 | x12 => m480 | x13 => m520 | x14 => m560 | x15 => m600 | x16 => m640 | x17 => m680 | x18 => m720 | x19 => m760 | x20 => m800 | x21 => m840 | x22 => m880 | x23 => m920 | x24 => m960 | x25 => m1000 | x26 => m1040 | x27 => m1080 | x28 => m1120 | x29 => m1160 | x30 => m1200 | x31 => m1240 | x32 => m1280 | x33 => m1320 | x34 => m1360 | x35 => m1400 | x36 => m1440 | x37 => m1480 | x38 => m1520 | x39 => m1560 | x40 => m1600 | x41 => m1640 | x42 => m1680 | x43 => m1720 | x44 => m1760 | x45 => m1800 | x46 => m1840 | x47 => m1880 | x48 => m1920 | x49 => m1960 | x50 => m2000 | x51 => m2040 | x52 => m2080 | x53 => m2120 | x54 => m2160 | x55 => m2200 | x56 => m2240 | x57 => m2280 | x58 => m2320 | x59 => m2360 | x60 => m2400 | x61 => m2440 | x62 => m2480 | x63 => m2520 end.
Definition r41 (y : dig) : sum2 -> dd := match y with x0 => m0 | x1 => m41 | x2 => m82 | x3 => m123 | x4 => m164 | x5 => m205 | x6 => m246 | x7 => m287 | x8 => m328 | x9 => m369 | x10 => m410 | x11 => m451 | x12 => m492 | x13 => m533 | x14 => m574 | x15 => m615 | x16 => m656 | x17 => m697 | x18 => m738 | x19 => m779 | x20 => m820 | x21 => m861 | x22 => m902 | x23 => m943 | x24 => m984 | x25 => m1025 | x26 => m1066 | x27 => m1107 | x28 => m1148 | x29 => m1189 | x30 => m1230 | x31 => m1271 | x32 => m1312 | x33 => m1353 | x34 => m1394 | x35 => m1435 | x36 => m1476 | x37 => m1517 | x38 => m1558 | x39 => m1599 | x40 => m1640 | x41 => m1681 | x42 => m1722 | x43 => m1763 | x44 => m1804 | x45 => m1845 | x46 => m1886 | x47 => m1927 | x48 => m1968 | x49 => m2009 | x50 => m2050 | x51 => m2091 | x52 => m2132 | x53 => m2173 | x54 => m2214 | x55 => m2255 | x56 => m2296 | x57 => m2337 | x58 => m2378 | x59 => m2419 | x60 => m2460 | x61 => m2501 | x62 => m2542 | x63 => m2583 end.
Definition r42 (y : dig) : sum2 -> dd := match y with x0 => m0 | x1 => m42 | x2 => m84 | x3 => m126 | x4 => m168 | x5 => m210 | x6 => m252 | x7 => m294 | x8 => m336 | x9 => m378 | x10 => m420 | x11 => m462 | x12 => m504 | x13 => m546 | x14 => m588 | x15 => m630 | x16 => m672 | x17 => m714 | x18 => m756 | x19 => m798 | x20 => m840 | x21 => m882 | x22 => m924 | x23 => m966 | x24 => m1008 | x25 => m1050 | x26 => m1092 | x27 => m1134 | x28 => m1176 | x29 => m1218 | x30 => m1260 | x31 => m1302 | x32 => m1344 | x33 => m1386 | x34 => m1428 | x35 => m1470 | x36 => m1512 | x37 => m1554 | x38 => m1596 | x39 => m1638 | x40 => m1680 | x41 => m1722 | x42 => m1764 | x43 => m1806 | x44 => m1848 | x45 => m1890 | x46 => m1932 | x47 => m1974 | x48 => m2016 | x49 => m2058 | x50 => m2100 | x51 => m2142 | x52 => m2184 | x53 => m2226 | x54 => m2268 | x55 => m2310 | x56 => m2352 | x57 => m2394 | x58 => m2436 | x59 => m2478 | x60 => m2520 | x61 => m2562 | x62 => m2604 | x63 => m2646 end.
Definition r43 (y : dig) : sum2 -> dd := match y with x0 => m0 | x1 => m43 | x2 => m86 | x3 => m129 | x4 => m172 | x5 => m215 | x6 => m258 | x7 => m301 | x8 => m344 | x9 => m387 | x10 => m430 | x11 => m473 | x12 => m516 | x13 => m559 | x14 => m602 | x15 => m645 | x16 => m688 | x17 => m731 | x18 => m774 | x19 => m817 | x20 => m860 | x21 => m903 | x22 => m946 | x23 => m989 | x24 => m1032 | x25 => m1075 | x26 => m1118 | x27 => m1161 | x28 => m1204 | x29 => m1247 | x30 => m1290 | x31 => m1333 | x32 => m1376 | x33 => m1419 | x34 => m1462 | x35 => m1505 | x36 => m1548 | x37 => m1591 | x38 => m1634 | x39 => m1677 | x40 => m1720 | x41 => m1763 | x42 => m1806 | x43 => m1849 | x44 => m1892 | x45 => m1935 | x46 => m1978 | x47 => m2021 | x48 => m2064 | x49 => m2107 | x50 => m2150 | x51 => m2193 | x52 => m2236 | x53 => m2279 | x54 => m2322 | x55 => m2365 | x56 => m2408 | x57 => m2451 | x58 => m2494 | x59 => m2537 | x60 => m2580 | x61 => m2623 | x62 => m2666 | x63 => m2709 end.
Definition r44 (y : dig) : sum2 -> dd := match y with x0 => m0 | x1 => m44 | x2 => m88 | x3 => m132 | x4 => m176 | x5 => m220 | x6 => m264 | x7 => m308 | x8 => m352 | x9 => m396 | x10 => m440 | x11 => m484 | x12 => m528 | x13 => m572 | x14 => m616 | x15 => m660 | x16 => m704 | x17 => m748 | x18 => m792 | x19 => m836 | x20 => m880 | x21 => m924 | x22 => m968 | x23 => m1012 | x24 => m1056 | x25 => m1100 | x26 => m1144 | x27 => m1188 | x28 => m1232 | x29 => m1276 | x30 => m1320 | x31 => m1364 | x32 => m1408 | x33 => m1452 | x34 => m1496 | x35 => m1540 | x36 => m1584 | x37 => m1628 | x38 => m1672 | x39 => m1716 | x40 => m1760 | x41 => m1804 | x42 => m1848 | x43 => m1892 | x44 => m1936 | x45 => m1980 | x46 => m2024 | x47 => m2068 | x48 => m2112 | x49 => m2156 | x50 => m2200 | x51 => m2244 | x52 => m2288 | x53 => m2332 | x54 => m2376 | x55 => m2420 | x56 => m2464 | x57 => m2508 | x58 => m2552 | x59 => m2596 | x60 => m2640 | x61 => m2684 | x62 => m2728 | x63 => m2772 end.
Definition r45 (y : dig) : sum2 -> dd := match y with x0 => m0 | x1 => m45 | x2 => m90 | x3 => m135 | x4 => m180 | x5 => m225 | x6 => m270 | x7 => m315 | x8 => m360 | x9 => m405 | x10 => m450 | x11 => m495 | x12 => m540 | x13 => m585 | x14 => m630 | x15 => m675 | x16 => m720 | x17 => m765 | x18 => m810 | x19 => m855 | x20 => m900 | x21 => m945 | x22 => m990 | x23 => m1035 | x24 => m1080 | x25 => m1125 | x26 => m1170 | x27 => m1215 | x28 => m1260 | x29 => m1305 | x30 => m1350 | x31 => m1395 | x32 => m1440 | x33 => m1485 | x34 => m1530 | x35 => m1575 | x36 => m1620 | x37 => m1665 | x38 => m1710 | x39 => m1755 | x40 => m1800 | x41 => m1845 | x42 => m1890 | x43 => m1935 | x44 => m1980 | x45 => m2025 | x46 => m2070 | x47 => m2115 | x48 => m2160 | x49 => m2205 | x50 => m2250 | x51 => m2295 | x52 => m2340 | x53 => m2385 | x54 => m2430 | x55 => m2475 | x56 => m2520 | x57 => m2565 | x58 => m2610 | x59 => m2655 | x60 => m2700 | x61 => m2745 | x62 => m2790 | x63 => m2835 end.
Definition r46 (y : dig) : sum2 -> dd := match y with x0 => m0 | x1 => m46 | x2 => m92 | x3 => m138 | x4 => m184 | x5 => m230 | x6 => m276 | x7 => m322 | x8 => m368 | x9 => m414 | x10 => m460 | x11 => m506 | x12 => m552 | x13 => m598 | x14 => m644 | x15 => m690 | x16 => m736 | x17 => m782 | x18 => m828 | x19 => m874 | x20 => m920 | x21 => m966 | x22 => m1012 | x23 => m1058 | x24 => m1104 | x25 => m1150 | x26 => m1196 | x27 => m1242 | x28 => m1288 | x29 => m1334 | x30 => m1380 | x31 => m1426 | x32 => m1472 | x33 => m1518 | x34 => m1564 | x35 => m1610 | x36 => m1656 | x37 => m1702 | x38 => m1748 | x39 => m1794 | x40 => m1840 | x41 => m1886 | x42 => m1932 | x43 => m1978 | x44 => m2024 | x45 => m2070 | x46 => m2116 | x47 => m2162 | x48 => m2208 | x49 => m2254 | x50 => m2300 | x51 => m2346 | x52 => m2392 | x53 => m2438 | x54 => m2484 | x55 => m2530 | x56 => m2576 | x57 => m2622 | x58 => m2668 | x59 => m2714 | x60 => m2760 | x61 => m2806 | x62 => m2852 | x63 => m2898 end.
Definition r47 (y : dig) : sum2 -> dd := match y with x0 => m0 | x1 => m47 | x2 => m94 | x3 => m141 | x4 => m188 | x5 => m235 | x6 => m282 | x7 => m329 | x8 => m376 | x9 => m423 | x10 => m470 | x11 => m517 | x12 => m564 | x13 => m611 | x14 => m658 | x15 => m705 | x16 => m752 | x17 => m799 | x18 => m846 | x19 => m893 | x20 => m940 | x21 => m987 | x22 => m1034 | x23 => m1081 | x24 => m1128 | x25 => m1175 | x26 => m1222 | x27 => m1269 | x28 => m1316 | x29 => m1363 | x30 => m1410 | x31 => m1457 | x32 => m1504 | x33 => m1551 | x34 => m1598 | x35 => m1645 | x36 => m1692 | x37 => m1739 | x38 => m1786 | x39 => m1833 | x40 => m1880 | x41 => m1927 | x42 => m1974 | x43 => m2021 | x44 => m2068 | x45 => m2115 | x46 => m2162 | x47 => m2209 | x48 => m2256 | x49 => m2303 | x50 => m2350 | x51 => m2397 | x52 => m2444 | x53 => m2491 | x54 => m2538 | x55 => m2585 | x56 => m2632 | x57 => m2679 | x58 => m2726 | x59 => m2773 | x60 => m2820 | x61 => m2867 | x62 => m2914 | x63 => m2961 end.
Definition r48 (y : dig) : sum2 -> dd := match y with x0 => m0 | x1 => m48 | x2 => m96 | x3 => m144 | x4 => m192 | x5 => m240 | x6 => m288 | x7 => m336 | x8 => m384 | x9 => m432 | x10 => m480 | x11 => m528 | x12 => m576 | x13 => m624 | x14 => m672 | x15 => m720 | x16 => m768 | x17 => m816 | x18 => m864 | x19 => m912 | x20 => m960 | x21 => m1008 | x22 => m1056 | x23 => m1104 | x24 => m1152 | x25 => m1200 | x26 => m1248 | x27 => m1296 | x28 => m1344 | x29 => m1392 | x30 => m1440 | x31 => m1488 | x32 => m1536 | x33 => m1584 | x34 => m1632 | x35 => m1680 | x36 => m1728 | x37 => m1776 | x38 => m1824 | x39 => m1872 | x40 => m1920 | x41 => m1968 | x42 => m2016 | x43 => m2064 | x44 => m2112 | x45 => m2160 | x46 => m2208 | x47 => m2256 | x48 => m2304 | x49 => m2352 | x50 => m2400 | x51 => m2448 | x52 => m2496 | x53 => m2544 | x54 => m2592 | x55 => m2640 | x56 => m2688 | x57 => m2736 | x58 => m2784 | x59 => m2832 | x60 => m2880 | x61 => m2928 | x62 => m2976 | x63 => m3024 end.
Definition r49 (y : dig) : sum2 -> dd := match y with x0 => m0 | x1 => m49 | x2 => m98 | x3 => m147 | x4 => m196 | x5 => m245 | x6 => m294 | x7 => m343 | x8 => m392 | x9 => m441 | x10 => m490 | x11 => m539 | x12 => m588 | x13 => m637 | x14 => m686 | x15 => m735 | x16 => m784 | x17 => m833 | x18 => m882 | x19 => m931 | x20 => m980 | x21 => m1029 | x22 => m1078 | x23 => m1127 | x24 => m1176 | x25 => m1225 | x26 => m1274 | x27 => m1323 | x28 => m1372 | x29 => m1421 | x30 => m1470 | x31 => m1519 | x32 => m1568 | x33 => m1617 | x34 => m1666 | x35 => m1715 | x36 => m1764 | x37 => m1813 | x38 => m1862 | x39 => m1911 | x40 => m1960 | x41 => m2009 | x42 => m2058 | x43 => m2107 | x44 => m2156 | x45 => m2205 | x46 => m2254 | x47 => m2303 | x48 => m2352 | x49 => m2401 | x50 => m2450 | x51 => m2499 | x52 => m2548 | x53 => m2597 | x54 => m2646 | x55 => m2695 | x56 => m2744 | x57 => m2793 | x58 => m2842 | x59 => m2891 | x60 => m2940 | x61 => m2989 | x62 => m3038 | x63 => m3087 end.
Definition r50 (y : dig) : sum2 -> dd := match y with x0 => m0 | x1 => m50 | x2 => m100 | x3 => m150 | x4 => m200 | x5 => m250 | x6 => m300 | x7 => m350 | x8 => m400 | x9 => m450 | x10 => m500 | x11 => m550 | x12 => m600 | x13 => m650 | x14 => m700 | x15 => m750 | x16 => m800 | x17 => m850 | x18 => m900 | x19 => m950 | x20 => m1000 | x21 => m1050 | x22 => m1100 | x23 => m1150 | x24 => m1200 | x25 => m1250 | x26 => m1300 | x27 => m1350 | x28 => m1400 | x29 => m1450 | x30 => m1500 | x31 => m1550 | x32 => m1600 | x33 => m1650 | x34 => m1700 | x35 => m1750 | x36 => m1800 | x37 => m1850 | x38 => m1900 | x39 => m1950 | x40 => m2000 | x41 => m2050 | x42 => m2100 | x43 => m2150 | x44 => m2200 | x45 => m2250 | x46 => m2300 | x47 => m2350 | x48 => m2400 | x49 => m2450 | x50 => m2500 | x51 => m2550 | x52 => m2600 | x53 => m2650 | x54 => m2700 | x55 => m2750 | x56 => m2800 | x57 => m2850 | x58 => m2900 | x59 => m2950 | x60 => m3000 | x61 => m3050 | x62 => m3100 | x63 => m3150 end.
Definition r51 (y : dig) : sum2 -> dd := match y with x0 => m0 | x1 => m51 | x2 => m102 | x3 => m153 | x4 => m204 | x5 => m255 | x6 => m306 | x7 => m357 | x8 => m408 | x9 => m459 | x10 => m510 | x11 => m561 | x12 => m612 | x13 => m663 | x14 => m714 | x15 => m765 | x16 => m816 | x17 => m867 | x18 => m918 | x19 => m969 | x20 => m1020 | x21 => m1071 | x22 => m1122 | x23 => m1173 | x24 => m1224 | x25 => m1275 | x26 => m1326 | x27 => m1377 | x28 => m1428 | x29 => m1479 | x30 => m1530 | x31 => m1581 | x32 => m1632 | x33 => m1683 | x34 => m1734 | x35 => m1785 | x36 => m1836 | x37 => m1887 | x38 => m1938 | x39 => m1989 | x40 => m2040 | x41 => m2091 | x42 => m2142 | x43 => m2193 | x44 => m2244 | x45 => m2295 | x46 => m2346 | x47 => m2397 | x48 => m2448 | x49 => m2499 | x50 => m2550 | x51 => m2601 | x52 => m2652 | x53 => m2703 | x54 => m2754 | x55 => m2805 | x56 => m2856 | x57 => m2907 | x58 => m2958 | x59 => m3009 | x60 => m3060 | x61 => m3111 | x62 => m3162 | x63 => m3213 end.
Definition r52 (y : dig) : sum2 -> dd := match y with x0 => m0 | x1 => m52 | x2 => m104 | x3 => m156 | x4 => m208 | x5 => m260 | x6 => m312 | x7 => m364 | x8 => m416 | x9 => m468 | x10 => m520 | x11 => m572 | x12 => m624 | x13 => m676 | x14 => m728 | x15 => m780 | x16 => m832 | x17 => m884 | x18 => m936 | x19 => m988 | x20 => m1040 | x21 => m1092 | x22 => m1144 | x23 => m1196 | x24 => m1248 | x25 => m1300 | x26 => m1352 | x27 => m1404 | x28 => m1456 | x29 => m1508 | x30 => m1560 | x31 => m1612 | x32 => m1664 | x33 => m1716 | x34 => m1768 | x35 => m1820 | x36 => m1872 | x37 => m1924 | x38 => m1976 | x39 => m2028 | x40 => m2080 | x41 => m2132 | x42 => m2184 | x43 => m2236 | x44 => m2288 | x45 => m2340 | x46 => m2392 | x47 => m2444 | x48 => m2496 | x49 => m2548 | x50 => m2600 | x51 => m2652 | x52 => m2704 | x53 => m2756 | x54 => m2808 | x55 => m2860 | x56 => m2912 | x57 => m2964 | x58 => m3016 | x59 => m3068 | x60 => m3120 | x61 => m3172 | x62 => m3224 | x63 => m3276 end.
Definition r53 (y : dig) : sum2 -> dd := match y with x0 => m0 | x1 => m53 | x2 => m106 | x3 => m159 | x4 => m212 | x5 => m265 | x6 => m318 | x7 => m371 | x8 => m424 | x9 => m477 | x10 => m530 | x11 => m583 | x12 => m636 | x13 => m689 | x14 => m742 | x15 => m795 | x16 => m848 | x17 => m901 | x18 => m954 | x19 => m1007 | x20 => m1060 | x21 => m1113 | x22 => m1166 | x23 => m1219 | x24 => m1272 | x25 => m1325 | x26 => m1378 | x27 => m1431 | x28 => m1484 | x29 => m1537 | x30 => m1590 | x31 => m1643 | x32 => m1696 | x33 => m1749 | x34 => m1802 | x35 => m1855 | x36 => m1908 | x37 => m1961 | x38 => m2014 | x39 => m2067 | x40 => m2120 | x41 => m2173 | x42 => m2226 | x43 => m2279 | x44 => m2332 | x45 => m2385 | x46 => m2438 | x47 => m2491 | x48 => m2544 | x49 => m2597 | x50 => m2650 | x51 => m2703 | x52 => m2756 | x53 => m2809 | x54 => m2862 | x55 => m2915 | x56 => m2968 | x57 => m3021 | x58 => m3074 | x59 => m3127 | x60 => m3180 | x61 => m3233 | x62 => m3286 | x63 => m3339 end.
Definition r54 (y : dig) : sum2 -> dd := match y with x0 => m0 | x1 => m54 | x2 => m108 | x3 => m162 | x4 => m216 | x5 => m270 | x6 => m324 | x7 => m378 | x8 => m432 | x9 => m486 | x10 => m540 | x11 => m594 | x12 => m648 | x13 => m702 | x14 => m756 | x15 => m810 | x16 => m864 | x17 => m918 | x18 => m972 | x19 => m1026 | x20 => m1080 | x21 => m1134 | x22 => m1188 | x23 => m1242 | x24 => m1296 | x25 => m1350 | x26 => m1404 | x27 => m1458 | x28 => m1512 | x29 => m1566 | x30 => m1620 | x31 => m1674 | x32 => m1728 | x33 => m1782 | x34 => m1836 | x35 => m1890 | x36 => m1944 | x37 => m1998 | x38 => m2052 | x39 => m2106 | x40 => m2160 | x41 => m2214 | x42 => m2268 | x43 => m2322 | x44 => m2376 | x45 => m2430 | x46 => m2484 | x47 => m2538 | x48 => m2592 | x49 => m2646 | x50 => m2700 | x51 => m2754 | x52 => m2808 | x53 => m2862 | x54 => m2916 | x55 => m2970 | x56 => m3024 | x57 => m3078 | x58 => m3132 | x59 => m3186 | x60 => m3240 | x61 => m3294 | x62 => m3348 | x63 => m3402 end.
Definition r55 (y : dig) : sum2 -> dd := match y with x0 => m0 | x1 => m55 | x2 => m110 | x3 => m165 | x4 => m220 | x5 => m275 | x6 => m330 | x7 => m385 | x8 => m440 | x9 => m495 | x10 => m550 | x11 => m605 | x12 => m660 | x13 => m715 | x14 => m770 | x15 => m825 | x16 => m880 | x17 => m935 | x18 => m990 | x19 => m1045 | x20 => m1100 | x21 => m1155 | x22 => m1210 | x23 => m1265 | x24 => m1320 | x25 => m1375 | x26 => m1430 | x27 => m1485 | x28 => m1540 | x29 => m1595 | x30 => m1650 | x31 => m1705 | x32 => m1760 | x33 => m1815 | x34 => m1870 | x35 => m1925 | x36 => m1980 | x37 => m2035 | x38 => m2090 | x39 => m2145 | x40 => m2200 | x41 => m2255 | x42 => m2310 | x43 => m2365 | x44 => m2420 | x45 => m2475 | x46 => m2530 | x47 => m2585 | x48 => m2640 | x49 => m2695 | x50 => m2750 | x51 => m2805 | x52 => m2860 | x53 => m2915 | x54 => m2970 | x55 => m3025 | x56 => m3080 | x57 => m3135 | x58 => m3190 | x59 => m3245 | x60 => m3300 | x61 => m3355 | x62 => m3410 | x63 => m3465 end.
Definition r56 (y : dig) : sum2 -> dd := match y with x0 => m0 | x1 => m56 | x2 => m112 | x3 => m168 | x4 => m224 | x5 => m280 | x6 => m336 | x7 => m392 | x8 => m448 | x9 => m504 | x10 => m560 | x11 => m616 | x12 => m672 | x13 => m728 | x14 => m784 | x15 => m840 | x16 => m896 | x17 => m952 | x18 => m1008 | x19 => m1064 | x20 => m1120 | x21 => m1176 | x22 => m1232 | x23 => m1288 | x24 => m1344 | x25 => m1400 | x26 => m1456 | x27 => m1512 | x28 => m1568 | x29 => m1624 | x30 => m1680 | x31 => m1736 | x32 => m1792 | x33 => m1848 | x34 => m1904 | x35 => m1960 | x36 => m2016 | x37 => m2072 | x38 => m2128 | x39 => m2184 | x40 => m2240 | x41 => m2296 | x42 => m2352 | x43 => m2408 | x44 => m2464 | x45 => m2520 | x46 => m2576 | x47 => m2632 | x48 => m2688 | x49 => m2744 | x50 => m2800 | x51 => m2856 | x52 => m2912 | x53 => m2968 | x54 => m3024 | x55 => m3080 | x56 => m3136 | x57 => m3192 | x58 => m3248 | x59 => m3304 | x60 => m3360 | x61 => m3416 | x62 => m3472 | x63 => m3528 end.
Definition r57 (y : dig) : sum2 -> dd := match y with x0 => m0 | x1 => m57 | x2 => m114 | x3 => m171 | x4 => m228 | x5 => m285 | x6 => m342 | x7 => m399 | x8 => m456 | x9 => m513 | x10 => m570 | x11 => m627 | x12 => m684 | x13 => m741 | x14 => m798 | x15 => m855 | x16 => m912 | x17 => m969 | x18 => m1026 | x19 => m1083 | x20 => m1140 | x21 => m1197 | x22 => m1254 | x23 => m1311 | x24 => m1368 | x25 => m1425 | x26 => m1482 | x27 => m1539 | x28 => m1596 | x29 => m1653 | x30 => m1710 | x31 => m1767 | x32 => m1824 | x33 => m1881 | x34 => m1938 | x35 => m1995 | x36 => m2052 | x37 => m2109 | x38 => m2166 | x39 => m2223 | x40 => m2280 | x41 => m2337 | x42 => m2394 | x43 => m2451 | x44 => m2508 | x45 => m2565 | x46 => m2622 | x47 => m2679 | x48 => m2736 | x49 => m2793 | x50 => m2850 | x51 => m2907 | x52 => m2964 | x53 => m3021 | x54 => m3078 | x55 => m3135 | x56 => m3192 | x57 => m3249 | x58 => m3306 | x59 => m3363 | x60 => m3420 | x61 => m3477 | x62 => m3534 | x63 => m3591 end.
Definition r58 (y : dig) : sum2 -> dd := match y with x0 => m0 | x1 => m58 | x2 => m116 | x3 => m174 | x4 => m232 | x5 => m290 | x6 => m348 | x7 => m406 | x8 => m464 | x9 => m522 | x10 => m580 | x11 => m638 | x12 => m696 | x13 => m754 | x14 => m812 | x15 => m870 | x16 => m928 | x17 => m986 | x18 => m1044 | x19 => m1102 | x20 => m1160 | x21 => m1218 | x22 => m1276 | x23 => m1334 | x24 => m1392 | x25 => m1450 | x26 => m1508 | x27 => m1566 | x28 => m1624 | x29 => m1682 | x30 => m1740 | x31 => m1798 | x32 => m1856 | x33 => m1914 | x34 => m1972 | x35 => m2030 | x36 => m2088 | x37 => m2146 | x38 => m2204 | x39 => m2262 | x40 => m2320 | x41 => m2378 | x42 => m2436 | x43 => m2494 | x44 => m2552 | x45 => m2610 | x46 => m2668 | x47 => m2726 | x48 => m2784 | x49 => m2842 | x50 => m2900 | x51 => m2958 | x52 => m3016 | x53 => m3074 | x54 => m3132 | x55 => m3190 | x56 => m3248 | x57 => m3306 | x58 => m3364 | x59 => m3422 | x60 => m3480 | x61 => m3538 | x62 => m3596 | x63 => m3654 end.
Definition r59 (y : dig) : sum2 -> dd := match y with x0 => m0 | x1 => m59 | x2 => m118 | x3 => m177 | x4 => m236 | x5 => m295 | x6 => m354 | x7 => m413 | x8 => m472 | x9 => m531 | x10 => m590 | x11 => m649 | x12 => m708 | x13 => m767 | x14 => m826 | x15 => m885 | x16 => m944 | x17 => m1003 | x18 => m1062 | x19 => m1121 | x20 => m1180 | x21 => m1239 | x22 => m1298 | x23 => m1357 | x24 => m1416 | x25 => m1475 | x26 => m1534 | x27 => m1593 | x28 => m1652 | x29 => m1711 | x30 => m1770 | x31 => m1829 | x32 => m1888 | x33 => m1947 | x34 => m2006 | x35 => m2065 | x36 => m2124 | x37 => m2183 | x38 => m2242 | x39 => m2301 | x40 => m2360 | x41 => m2419 | x42 => m2478 | x43 => m2537 | x44 => m2596 | x45 => m2655 | x46 => m2714 | x47 => m2773 | x48 => m2832 | x49 => m2891 | x50 => m2950 | x51 => m3009 | x52 => m3068 | x53 => m3127 | x54 => m3186 | x55 => m3245 | x56 => m3304 | x57 => m3363 | x58 => m3422 | x59 => m3481 | x60 => m3540 | x61 => m3599 | x62 => m3658 | x63 => m3717 end.
Definition r60 (y : dig) : sum2 -> dd := match y with x0 => m0 | x1 => m60 | x2 => m120 | x3 => m180 | x4 => m240 | x5 => m300 | x6 => m360 | x7 => m420 | x8 => m480 | x9 => m540 | x10 => m600 | x11 => m660 | x12 => m720 | x13 => m780 | x14 => m840 | x15 => m900 | x16 => m960 | x17 => m1020 | x18 => m1080 | x19 => m1140 | x20 => m1200 | x21 => m1260 | x22 => m1320 | x23 => m1380 | x24 => m1440 | x25 => m1500 | x26 => m1560 | x27 => m1620 | x28 => m1680 | x29 => m1740 | x30 => m1800 | x31 => m1860 | x32 => m1920 | x33 => m1980 | x34 => m2040 | x35 => m2100 | x36 => m2160 | x37 => m2220 | x38 => m2280 | x39 => m2340 | x40 => m2400 | x41 => m2460 | x42 => m2520 | x43 => m2580 | x44 => m2640 | x45 => m2700 | x46 => m2760 | x47 => m2820 | x48 => m2880 | x49 => m2940 | x50 => m3000 | x51 => m3060 | x52 => m3120 | x53 => m3180 | x54 => m3240 | x55 => m3300 | x56 => m3360 | x57 => m3420 | x58 => m3480 | x59 => m3540 | x60 => m3600 | x61 => m3660 | x62 => m3720 | x63 => m3780 end.
Definition r61 (y : dig) : sum2 -> dd := match y with x0 => m0 | x1 => m61 | x2 => m122 | x3 => m183 | x4 => m244 | x5 => m305 | x6 => m366 | x7 => m427 | x8 => m488 | x9 => m549 | x10 => m610 | x11 => m671 | x12 => m732 | x13 => m793 | x14 => m854 | x15 => m915 | x16 => m976 | x17 => m1037 | x18 => m1098 | x19 => m1159 | x20 => m1220 | x21 => m1281 | x22 => m1342 | x23 => m1403 | x24 => m1464 | x25 => m1525 | x26 => m1586 | x27 => m1647 | x28 => m1708 | x29 => m1769 | x30 => m1830 | x31 => m1891 | x32 => m1952 | x33 => m2013 | x34 => m2074 | x35 => m2135 | x36 => m2196 | x37 => m2257 | x38 => m2318 | x39 => m2379 | x40 => m2440 | x41 => m2501 | x42 => m2562 | x43 => m2623 | x44 => m2684 | x45 => m2745 | x46 => m2806 | x47 => m2867 | x48 => m2928 | x49 => m2989 | x50 => m3050 | x51 => m3111 | x52 => m3172 | x53 => m3233 | x54 => m3294 | x55 => m3355 | x56 => m3416 | x57 => m3477 | x58 => m3538 | x59 => m3599 | x60 => m3660 | x61 => m3721 | x62 => m3782 | x63 => m3843 end.
Definition r62 (y : dig) : sum2 -> dd := match y with x0 => m0 | x1 => m62 | x2 => m124 | x3 => m186 | x4 => m248 | x5 => m310 | x6 => m372 | x7 => m434 | x8 => m496 | x9 => m558 | x10 => m620 | x11 => m682 | x12 => m744 | x13 => m806 | x14 => m868 | x15 => m930 | x16 => m992 | x17 => m1054 | x18 => m1116 | x19 => m1178 | x20 => m1240 | x21 => m1302 | x22 => m1364 | x23 => m1426 | x24 => m1488 | x25 => m1550 | x26 => m1612 | x27 => m1674 | x28 => m1736 | x29 => m1798 | x30 => m1860 | x31 => m1922 | x32 => m1984 | x33 => m2046 | x34 => m2108 | x35 => m2170 | x36 => m2232 | x37 => m2294 | x38 => m2356 | x39 => m2418 | x40 => m2480 | x41 => m2542 | x42 => m2604 | x43 => m2666 | x44 => m2728 | x45 => m2790 | x46 => m2852 | x47 => m2914 | x48 => m2976 | x49 => m3038 | x50 => m3100 | x51 => m3162 | x52 => m3224 | x53 => m3286 | x54 => m3348 | x55 => m3410 | x56 => m3472 | x57 => m3534 | x58 => m3596 | x59 => m3658 | x60 => m3720 | x61 => m3782 | x62 => m3844 | x63 => m3906 end.
Definition r63 (y : dig) : sum2 -> dd := match y with x0 => m0 | x1 => m63 | x2 => m126 | x3 => m189 | x4 => m252 | x5 => m315 | x6 => m378 | x7 => m441 | x8 => m504 | x9 => m567 | x10 => m630 | x11 => m693 | x12 => m756 | x13 => m819 | x14 => m882 | x15 => m945 | x16 => m1008 | x17 => m1071 | x18 => m1134 | x19 => m1197 | x20 => m1260 | x21 => m1323 | x22 => m1386 | x23 => m1449 | x24 => m1512 | x25 => m1575 | x26 => m1638 | x27 => m1701 | x28 => m1764 | x29 => m1827 | x30 => m1890 | x31 => m1953 | x32 => m2016 | x33 => m2079 | x34 => m2142 | x35 => m2205 | x36 => m2268 | x37 => m2331 | x38 => m2394 | x39 => m2457 | x40 => m2520 | x41 => m2583 | x42 => m2646 | x43 => m2709 | x44 => m2772 | x45 => m2835 | x46 => m2898 | x47 => m2961 | x48 => m3024 | x49 => m3087 | x50 => m3150 | x51 => m3213 | x52 => m3276 | x53 => m3339 | x54 => m3402 | x55 => m3465 | x56 => m3528 | x57 => m3591 | x58 => m3654 | x59 => m3717 | x60 => m3780 | x61 => m3843 | x62 => m3906 | x63 => m3969 end.
(** x * y + c. *)
Definition mac (x : dig) : dig -> sum2 -> dd := match x with x0 => r0 | x1 => r1 | x2 => r2 | x3 => r3 | x4 => r4 | x5 => r5 | x6 => r6 | x7 => r7 | x8 => r8 | x9 => r9 | x10 => r10 | x11 => r11 | x12 => r12 | x13 => r13 | x14 => r14 | x15 => r15 | x16 => r16 | x17 => r17 | x18 => r18 | x19 => r19 | x20 => r20 | x21 => r21 | x22 => r22 | x23 => r23 | x24 => r24 | x25 => r25 | x26 => r26 | x27 => r27 | x28 => r28 | x29 => r29 | x30 => r30 | x31 => r31 | x32 => r32 | x33 => r33 | x34 => r34 | x35 => r35 | x36 => r36 | x37 => r37 | x38 => r38 | x39 => r39 | x40 => r40 | x41 => r41 | x42 => r42 | x43 => r43 | x44 => r44 | x45 => r45 | x46 => r46 | x47 => r47 | x48 => r48 | x49 => r49 | x50 => r50 | x51 => r51 | x52 => r52 | x53 => r53 | x54 => r54 | x55 => r55 | x56 => r56 | x57 => r57 | x58 => r58 | x59 => r59 | x60 => r60 | x61 => r61 | x62 => r62 | x63 => r63 end.
(** x + y. *)
Definition ad (x y : dig) : sum2 := match x with
 | x0 => match y with x0 => s0 | x1 => s1 | x2 => s2 | x3 => s3 | x4 => s4 | x5 => s5 | x6 => s6 | x7 => s7 | x8 => s8 | x9 => s9 | x10 => s10 | x11 => s11 | x12 => s12 | x13 => s13 | x14 => s14 | x15 => s15 | x16 => s16 | x17 => s17 | x18 => s18 | x19 => s19 | x20 => s20 | x21 => s21 | x22 => s22 | x23 => s23 | x24 => s24 | x25 => s25 | x26 => s26 | x27 => s27 | x28 => s28 | x29 => s29 | x30 => s30 | x31 => s31 | x32 => s32 | x33 => s33 | x34 => s34 | x35 => s35 | x36 => s36 | x37 => s37 | x38 => s38 | x39 => s39 | x40 => s40 | x41 => s41 | x42 => s42 | x43 => s43 | x44 => s44 | x45 => s45 | x46 => s46 | x47 => s47 | x48 => s48 | x49 => s49 | x50 => s50 | x51 => s51 | x52 => s52 | x53 => s53 | x54 => s54 | x55 => s55 | x56 => s56 | x57 => s57 | x58 => s58 | x59 => s59 | x60 => s60 | x61 => s61 | x62 => s62 | x63 => s63 end
 | x1 => match y with x0 => s1 | x1 => s2 | x2 => s3 | x3 => s4 | x4 => s5 | x5 => s6 | x6 => s7 | x7 => s8 | x8 => s9 | x9 => s10 | x10 => s11 | x11 => s12 | x12 => s13 | x13 => s14 | x14 => s15 | x15 => s16 | x16 => s17 | x17 => s18 | x18 => s19 | x19 => s20 | x20 => s21 | x21 => s22 | x22 => s23 | x23 => s24 | x24 => s25 | x25 => s26 | x26 => s27 | x27 => s28 | x28 => s29 | x29 => s30 | x30 => s31 | x31 => s32 | x32 => s33 | x33 => s34 | x34 => s35 | x35 => s36 | x36 => s37 | x37 => s38 | x38 => s39 | x39 => s40 | x40 => s41 | x41 => s42 | x42 => s43 | x43 => s44 | x44 => s45 | x45 => s46 | x46 => s47 | x47 => s48 | x48 => s49 | x49 => s50 | x50 => s51 | x51 => s52 | x52 => s53 | x53 => s54 | x54 => s55 | x55 => s56 | x56 => s57 | x57 => s58 | x58 => s59 | x59 => s60 | x60 => s61 | x61 => s62 | x62 => s63 | x63 => s64 end
 | x2 => match y with x0 => s2 | x1 => s3 | x2 => s4 | x3 => s5 | x4 => s6 | x5 => s7 | x6 => s8 | x7 => s9 | x8 => s10 | x9 => s11 | x10 => s12 | x11 => s13 | x12 => s14 | x13 => s15 | x14 => s16 | x15 => s17 | x16 => s18 | x17 => s19 | x18 => s20 | x19 => s21 | x20 => s22 | x21 => s23 | x22 => s24 | x23 => s25 | x24 => s26 | x25 => s27 | x26 => s28 | x27 => s29 | x28 => s30 | x29 => s31 | x30 => s32 | x31 => s33 | x32 => s34 | x33 => s35 | x34 => s36 | x35 => s37 | x36 => s38 | x37 => s39 | x38 => s40 | x39 => s41 | x40 => s42 | x41 => s43 | x42 => s44 | x43 => s45 | x44 => s46 | x45 => s47 | x46 => s48 | x47 => s49 | x48 => s50 | x49 => s51 | x50 => s52 | x51 => s53 | x52 => s54 | x53 => s55 | x54 => s56 | x55 => s57 | x56 => s58 | x57 => s59 | x58 => s60 | x59 => s61 | x60 => s62 | x61 => s63 | x62 => s64 | x63 => s65 end
 | x3 => match y with x0 => s3 | x1 => s4 | x2 => s5 | x3 => s6 | x4 => s7 | x5 => s8 | x6 => s9 | x7 => s10 | x8 => s11 | x9 => s12 | x10 => s13 | x11 => s14 | x12 => s15 | x13 => s16 | x14 => s17 | x15 => s18 | x16 => s19 | x17 => s20 | x18 => s21 | x19 => s22 | x20 => s23 | x21 => s24 | x22 => s25 | x23 => s26 | x24 => s27 | x25 => s28 | x26 => s29 | x27 => s30 | x28 => s31 | x29 => s32 | x30 => s33 | x31 => s34 | x32 => s35 | x33 => s36 | x34 => s37 | x35 => s38 | x36 => s39 | x37 => s40 | x38 => s41 | x39 => s42 | x40 => s43 | x41 => s44 | x42 => s45 | x43 => s46 | x44 => s47 | x45 => s48 | x46 => s49 | x47 => s50 | x48 => s51 | x49 => s52 | x50 => s53 | x51 => s54 | x52 => s55 | x53 => s56 | x54 => s57 | x55 => s58 | x56 => s59 | x57 => s60 | x58 => s61 | x59 => s62 | x60 => s63 | x61 => s64 | x62 => s65 | x63 => s66 end
 | x4 => match y with x0 => s4 | x1 => s5 | x2 => s6 | x3 => s7 | x4 => s8 | x5 => s9 | x6 => s10 | x7 => s11 | x8 => s12 | x9 => s13 | x10 => s14 | x11 => s15 | x12 => s16 | x13 => s17 | x14 => s18 | x15 => s19 | x16 => s20 | x17 => s21 | x18 => s22 | x19 => s23 | x20 => s24 | x21 => s25 | x22 => s26 | x23 => s27 | x24 => s28 | x25 => s29 | x26 => s30 | x27 => s31 | x28 => s32 | x29 => s33 | x30 => s34 | x31 => s35 | x32 => s36 | x33 => s37 | x34 => s38 | x35 => s39 | x36 => s40 | x37 => s41 | x38 => s42 | x39 => s43 | x40 => s44 | x41 => s45 | x42 => s46 | x43 => s47 | x44 => s48 | x45 => s49 | x46 => s50 | x47 => s51 | x48 => s52 | x49 => s53 | x50 => s54 | x51 => s55 | x52 => s56 | x53 => s57 | x54 => s58 | x55 => s59 | x56 => s60 | x57 => s61 | x58 => s62 | x59 => s63 | x60 => s64 | x61 => s65 | x62 => s66 | x63 => s67 end
 | x5 => match y with x0 => s5 | x1 => s6 | x2 => s7 | x3 => s8 | x4 => s9 | x5 => s10 | x6 => s11 | x7 => s12 | x8 => s13 | x9 => s14 | x10 => s15 | x11 => s16 | x12 => s17 | x13 => s18 | x14 => s19 | x15 => s20 | x16 => s21 | x17 => s22 | x18 => s23 | x19 => s24 | x20 => s25 | x21 => s26 | x22 => s27 | x23 => s28 | x24 => s29 | x25 => s30 | x26 => s31 | x27 => s32 | x28 => s33 | x29 => s34 | x30 => s35 | x31 => s36 | x32 => s37 | x33 => s38 | x34 => s39 | x35 => s40 | x36 => s41 | x37 => s42 | x38 => s43 | x39 => s44 | x40 => s45 | x41 => s46 | x42 => s47 | x43 => s48 | x44 => s49 | x45 => s50 | x46 => s51 | x47 => s52 | x48 => s53 | x49 => s54 | x50 => s55 | x51 => s56 | x52 => s57 | x53 => s58 | x54 => s59 | x55 => s60 | x56 => s61 | x57 => s62 | x58 => s63 | x59 => s64 | x60 => s65 | x61 => s66 | x62 => s67 | x63 => s68 end
 | x6 => match y with x0 => s6 | x1 => s7 | x2 => s8 | x3 => s9 | x4 => s10 | x5 => s11 | x6 => s12 | x7 => s13 | x8 => s14 | x9 => s15 | x10 => s16 | x11 => s17 | x12 => s18 | x13 => s19 | x14 => s20 | x15 => s21 | x16 => s22 | x17 => s23 | x18 => s24 | x19 => s25 | x20 => s26 | x21 => s27 | x22 => s28 | x23 => s29 | x24 => s30 | x25 => s31 | x26 => s32 | x27 => s33 | x28 => s34 | x29 => s35 | x30 => s36 | x31 => s37 | x32 => s38 | x33 => s39 | x34 => s40 | x35 => s41 | x36 => s42 | x37 => s43 | x38 => s44 | x39 => s45 | x40 => s46 | x41 => s47 | x42 => s48 | x43 => s49 | x44 => s50 | x45 => s51 | x46 => s52 | x47 => s53 | x48 => s54 | x49 => s55 | x50 => s56 | x51 => s57 | x52 => s58 | x53 => s59 | x54 => s60 | x55 => s61 | x56 => s62 | x57 => s63 | x58 => s64 | x59 => s65 | x60 => s66 | x61 => s67 | x62 => s68 | x63 => s69 end
 | x7 => match y with x0 => s7 | x1 => s8 | x2 => s9 | x3 => s10 | x4 => s11 | x5 => s12 | x6 => s13 | x7 => s14 | x8 => s15 | x9 => s16 | x10 => s17 | x11 => s18 | x12 => s19 | x13 => s20 | x14 => s21 | x15 => s22 | x16 => s23 | x17 => s24 | x18 => s25 | x19 => s26 | x20 => s27 | x21 => s28 | x22 => s29 | x23 => s30 | x24 => s31 | x25 => s32 | x26 => s33 | x27 => s34 | x28 => s35 | x29 => s36 | x30 => s37 | x31 => s38 | x32 => s39 | x33 => s40 | x34 => s41 | x35 => s42 | x36 => s43 | x37 => s44 | x38 => s45 | x39 => s46 | x40 => s47 | x41 => s48 | x42 => s49 | x43 => s50 | x44 => s51 | x45 => s52 | x46 => s53 | x47 => s54 | x48 => s55 | x49 => s56 | x50 => s57 | x51 => s58 | x52 => s59 | x53 => s60 | x54 => s61 | x55 => s62 | x56 => s63 | x57 => s64 | x58 => s65 | x59 => s66 | x60 => s67 | x61 => s68 | x62 => s69 | x63 => s70 end
 | x8 => match y with x0 => s8 | x1 => s9 | x2 => s10 | x3 => s11 | x4 => s12 | x5 => s13 | x6 => s14 | x7 => s15 | x8 => s16 | x9 => s17 | x10 => s18 | x11 => s19 | x12 => s20 | x13 => s21 | x14 => s22 | x15 => s23 | x16 => s24 | x17 => s25 | x18 => s26 | x19 => s27 | x20 => s28 | x21 => s29 | x22 => s30 | x23 => s31 | x24 => s32 | x25 => s33 | x26 => s34 | x27 => s35 | x28 => s36 | x29 => s37 | x30 => s38 | x31 => s39 | x32 => s40 | x33 => s41 | x34 => s42 | x35 => s43 | x36 => s44 | x37 => s45 | x38 => s46 | x39 => s47 | x40 => s48 | x41 => s49 | x42 => s50 | x43 => s51 | x44 => s52 | x45 => s53 | x46 => s54 | x47 => s55 | x48 => s56 | x49 => s57 | x50 => s58 | x51 => s59 | x52 => s60 | x53 => s61 | x54 => s62 | x55 => s63 | x56 => s64 | x57 => s65 | x58 => s66 | x59 => s67 | x60 => s68 | x61 => s69 | x62 => s70 | x63 => s71 end
 | x9 => match y with x0 => s9 | x1 => s10 | x2 => s11 | x3 => s12 | x4 => s13 | x5 => s14 | x6 => s15 | x7 => s16 | x8 => s17 | x9 => s18 | x10 => s19 | x11 => s20 | x12 => s21 | x13 => s22 | x14 => s23 | x15 => s24 | x16 => s25 | x17 => s26 | x18 => s27 | x19 => s28 | x20 => s29 | x21 => s30 | x22 => s31 | x23 => s32 | x24 => s33 | x25 => s34 | x26 => s35 | x27 => s36 | x28 => s37 | x29 => s38 | x30 => s39 | x31 => s40 | x32 => s41 | x33 => s42 | x34 => s43 | x35 => s44 | x36 => s45 | x37 => s46 | x38 => s47 | x39 => s48 | x40 => s49 | x41 => s50 | x42 => s51 | x43 => s52 | x44 => s53 | x45 => s54 | x46 => s55 | x47 => s56 | x48 => s57 | x49 => s58 | x50 => s59 | x51 => s60 | x52 => s61 | x53 => s62 | x54 => s63 | x55 => s64 | x56 => s65 | x57 => s66 | x58 => s67 | x59 => s68 | x60 => s69 | x61 => s70 | x62 => s71 | x63 => s72 end
 | x10 => match y with x0 => s10 | x1 => s11 | x2 => s12 | x3 => s13 | x4 => s14 | x5 => s15 | x6 => s16 | x7 => s17 | x8 => s18 | x9 => s19 | x10 => s20 | x11 => s21 | x12 => s22 | x13 => s23 | x14 => s24 | x15 => s25 | x16 => s26 | x17 => s27 | x18 => s28 | x19 => s29 | x20 => s30 | x21 => s31 | x22 => s32 | x23 => s33 | x24 => s34 | x25 => s35 | x26 => s36 | x27 => s37 | x28 => s38 | x29 => s39 | x30 => s40 | x31 => s41 | x32 => s42 | x33 => s43 | x34 => s44 | x35 => s45 | x36 => s46 | x37 => s47 | x38 => s48 | x39 => s49 | x40 => s50 | x41 => s51 | x42 => s52 | x43 => s53 | x44 => s54 | x45 => s55 | x46 => s56 | x47 => s57 | x48 => s58 | x49 => s59 | x50 => s60 | x51 => s61 | x52 => s62 | x53 => s63 | x54 => s64 | x55 => s65 | x56 => s66 | x57 => s67 | x58 => s68 | x59 => s69 | x60 => s70 | x61 => s71 | x62 => s72 | x63 => s73 end
 | x11 => match y with x0 => s11 | x1 => s12 | x2 => s13 | x3 => s14 | x4 => s15 | x5 => s16 | x6 => s17 | x7 => s18 | x8 => s19 | x9 => s20 | x10 => s21 | x11 => s22 | x12 => s23 | x13 => s24 | x14 => s25 | x15 => s26 | x16 => s27 | x17 => s28 | x18 => s29 | x19 => s30 | x20 => s31 | x21 => s32 | x22 => s33 | x23 => s34 | x24 => s35 | x25 => s36 | x26 => s37 | x27 => s38 | x28 => s39 | x29 => s40 | x30 => s41 | x31 => s42 | x32 => s43 | x33 => s44 | x34 => s45 | x35 => s46 | x36 => s47 | x37 => s48 | x38 => s49 | x39 => s50 | x40 => s51 | x41 => s52 | x42 => s53 | x43 => s54 | x44 => s55 | x45 => s56 | x46 => s57 | x47 => s58 | x48 => s59 | x49 => s60 | x50 => s61 | x51 => s62 | x52 => s63 | x53 => s64 | x54 => s65 | x55 => s66 | x56 => s67 | x57 => s68 | x58 => s69 | x59 => s70 | x60 => s71 | x61 => s72 | x62 => s73 | x63 => s74 end
 | x12 => match y with x0 => s12 | x1 => s13 | x2 => s14 | x3 => s15 | x4 => s16 | x5 => s17 | x6 => s18 | x7 => s19 | x8 => s20 | x9 => s21 | x10 => s22 | x11 => s23 | x12 => s24 | x13 => s25 | x14 => s26 | x15 => s27 | x16 => s28 | x17 => s29 | x18 => s30 | x19 => s31 | x20 => s32 | x21 => s33 | x22 => s34 | x23 => s35 | x24 => s36 | x25 => s37 | x26 => s38 | x27 => s39 | x28 => s40 | x29 => s41 | x30 => s42 | x31 => s43 | x32 => s44 | x33 => s45 | x34 => s46 | x35 => s47 | x36 => s48 | x37 => s49 | x38 => s50 | x39 => s51 | x40 => s52 | x41 => s53 | x42 => s54 | x43 => s55 | x44 => s56 | x45 => s57 | x46 => s58 | x47 => s59 | x48 => s60 | x49 => s61 | x50 => s62 | x51 => s63 | x52 => s64 | x53 => s65 | x54 => s66 | x55 => s67 | x56 => s68 | x57 => s69 | x58 => s70 | x59 => s71 | x60 => s72 | x61 => s73 | x62 => s74 | x63 => s75 end
 | x13 => match y with x0 => s13 | x1 => s14 | x2 => s15 | x3 => s16 | x4 => s17 | x5 => s18 | x6 => s19 | x7 => s20 | x8 => s21 | x9 => s22 | x10 => s23 | x11 => s24 | x12 => s25 | x13 => s26 | x14 => s27 | x15 => s28 | x16 => s29 | x17 => s30 | x18 => s31 | x19 => s32 | x20 => s33 | x21 => s34 | x22 => s35 | x23 => s36 | x24 => s37 | x25 => s38 | x26 => s39 | x27 => s40 | x28 => s41 | x29 => s42 | x30 => s43 | x31 => s44 | x32 => s45 | x33 => s46 | x34 => s47 | x35 => s48 | x36 => s49 | x37 => s50 | x38 => s51 | x39 => s52 | x40 => s53 | x41 => s54 | x42 => s55 | x43 => s56 | x44 => s57 | x45 => s58 | x46 => s59 | x47 => s60 | x48 => s61 | x49 => s62 | x50 => s63 | x51 => s64 | x52 => s65 | x53 => s66 | x54 => s67 | x55 => s68 | x56 => s69 | x57 => s70 | x58 => s71 | x59 => s72 | x60 => s73 | x61 => s74 | x62 => s75 | x63 => s76 end
 | x14 => match y with x0 => s14 | x1 => s15 | x2 => s16 | x3 => s17 | x4 => s18 | x5 => s19 | x6 => s20 | x7 => s21 | x8 => s22 | x9 => s23 | x10 => s24 | x11 => s25 | x12 => s26 | x13 => s27 | x14 => s28 | x15 => s29 | x16 => s30 | x17 => s31 | x18 => s32 | x19 => s33 | x20 => s34 | x21 => s35 | x22 => s36 | x23 => s37 | x24 => s38 | x25 => s39 | x26 => s40 | x27 => s41 | x28 => s42 | x29 => s43 | x30 => s44 | x31 => s45 | x32 => s46 | x33 => s47 | x34 => s48 | x35 => s49 | x36 => s50 | x37 => s51 | x38 => s52 | x39 => s53 | x40 => s54 | x41 => s55 | x42 => s56 | x43 => s57 | x44 => s58 | x45 => s59 | x46 => s60 | x47 => s61 | x48 => s62 | x49 => s63 | x50 => s64 | x51 => s65 | x52 => s66 | x53 => s67 | x54 => s68 | x55 => s69 | x56 => s70 | x57 => s71 | x58 => s72 | x59 => s73 | x60 => s74 | x61 => s75 | x62 => s76 | x63 => s77 end
 | x15 => match y with x0 => s15 | x1 => s16 | x2 => s17 | x3 => s18 | x4 => s19 | x5 => s20 | x6 => s21 | x7 => s22 | x8 => s23 | x9 => s24 | x10 => s25 | x11 => s26 | x12 => s27 | x13 => s28 | x14 => s29 | x15 => s30 | x16 => s31 | x17 => s32 | x18 => s33 | x19 => s34 | x20 => s35 | x21 => s36 | x22 => s37 | x23 => s38 | x24 => s39 | x25 => s40 | x26 => s41 | x27 => s42 | x28 => s43 | x29 => s44 | x30 => s45 | x31 => s46 | x32 => s47 | x33 => s48 | x34 => s49 | x35 => s50 | x36 => s51 | x37 => s52 | x38 => s53 | x39 => s54 | x40 => s55 | x41 => s56 | x42 => s57 | x43 => s58 | x44 => s59 | x45 => s60 | x46 => s61 | x47 => s62 | x48 => s63 | x49 => s64 | x50 => s65 | x51 => s66 | x52 => s67 | x53 => s68 | x54 => s69 | x55 => s70 | x56 => s71 | x57 => s72 | x58 => s73 | x59 => s74 | x60 => s75 | x61 => s76 | x62 => s77 | x63 => s78 end
 | x16 => match y with x0 => s16 | x1 => s17 | x2 => s18 | x3 => s19 | x4 => s20 | x5 => s21 | x6 => s22 | x7 => s23 | x8 => s24 | x9 => s25 | x10 => s26 | x11 => s27 | x12 => s28 | x13 => s29 | x14 => s30 | x15 => s31 | x16 => s32 | x17 => s33 | x18 => s34 | x19 => s35 | x20 => s36 | x21 => s37 | x22 => s38 | x23 => s39 | x24 => s40 | x25 => s41 | x26 => s42 | x27 => s43 | x28 => s44 | x29 => s45 | x30 => s46 | x31 => s47 | x32 => s48 | x33 => s49 | x34 => s50 | x35 => s51 | x36 => s52 | x37 => s53 | x38 => s54 | x39 => s55 | x40 => s56 | x41 => s57 | x42 => s58 | x43 => s59 | x44 => s60 | x45 => s61 | x46 => s62 | x47 => s63 | x48 => s64 | x49 => s65 | x50 => s66 | x51 => s67 | x52 => s68 | x53 => s69 | x54 => s70 | x55 => s71 | x56 => s72 | x57 => s73 | x58 => s74 | x59 => s75 | x60 => s76 | x61 => s77 | x62 => s78 | x63 => s79 end
 | x17 => match y with x0 => s17 | x1 => s18 | x2 => s19 | x3 => s20 | x4 => s21 | x5 => s22 | x6 => s23 | x7 => s24 | x8 => s25 | x9 => s26 | x10 => s27 | x11 => s28 | x12 => s29 | x13 => s30 | x14 => s31 | x15 => s32 | x16 => s33 | x17 => s34 | x18 => s35 | x19 => s36 | x20 => s37 | x21 => s38 | x22 => s39 | x23 => s40 | x24 => s41 | x25 => s42 | x26 => s43 | x27 => s44 | x28 => s45 | x29 => s46 | x30 => s47 | x31 => s48 | x32 => s49 | x33 => s50 | x34 => s51 | x35 => s52 | x36 => s53 | x37 => s54 | x38 => s55 | x39 => s56 | x40 => s57 | x41 => s58 | x42 => s59 | x43 => s60 | x44 => s61 | x45 => s62 | x46 => s63 | x47 => s64 | x48 => s65 | x49 => s66 | x50 => s67 | x51 => s68 | x52 => s69 | x53 => s70 | x54 => s71 | x55 => s72 | x56 => s73 | x57 => s74 | x58 => s75 | x59 => s76 | x60 => s77 | x61 => s78 | x62 => s79 | x63 => s80 end
 | x18 => match y with x0 => s18 | x1 => s19 | x2 => s20 | x3 => s21 | x4 => s22 | x5 => s23 | x6 => s24 | x7 => s25 | x8 => s26 | x9 => s27 | x10 => s28 | x11 => s29 | x12 => s30 | x13 => s31 | x14 => s32 | x15 => s33 | x16 => s34 | x17 => s35 | x18 => s36 | x19 => s37 | x20 => s38 | x21 => s39 | x22 => s40 | x23 => s41 | x24 => s42 | x25 => s43 | x26 => s44 | x27 => s45 | x28 => s46 | x29 => s47 | x30 => s48 | x31 => s49 | x32 => s50 | x33 => s51 | x34 => s52 | x35 => s53 | x36 => s54 | x37 => s55 | x38 => s56 | x39 => s57 | x40 => s58 | x41 => s59 | x42 => s60 | x43 => s61 | x44 => s62 | x45 => s63 | x46 => s64 | x47 => s65 | x48 => s66 | x49 => s67 | x50 => s68 | x51 => s69 | x52 => s70 | x53 => s71 | x54 => s72 | x55 => s73 | x56 => s74 | x57 => s75 | x58 => s76 | x59 => s77 | x60 => s78 | x61 => s79 | x62 => s80 | x63 => s81 end
 | x19 => match y with x0 => s19 | x1 => s20 | x2 => s21 | x3 => s22 | x4 => s23 | x5 => s24 | x6 => s25 | x7 => s26 | x8 => s27 | x9 => s28 | x10 => s29 | x11 => s30 | x12 => s31 | x13 => s32 | x14 => s33 | x15 => s34 | x16 => s35 | x17 => s36 | x18 => s37 | x19 => s38 | x20 => s39 | x21 => s40 | x22 => s41 | x23 => s42 | x24 => s43 | x25 => s44 | x26 => s45 | x27 => s46 | x28 => s47 | x29 => s48 | x30 => s49 | x31 => s50 | x32 => s51 | x33 => s52 | x34 => s53 | x35 => s54 | x36 => s55 | x37 => s56 | x38 => s57 | x39 => s58 | x40 => s59 | x41 => s60 | x42 => s61 | x43 => s62 | x44 => s63 | x45 => s64 | x46 => s65 | x47 => s66 | x48 => s67 | x49 => s68 | x50 => s69 | x51 => s70 | x52 => s71 | x53 => s72 | x54 => s73 | x55 => s74 | x56 => s75 | x57 => s76 | x58 => s77 | x59 => s78 | x60 => s79 | x61 => s80 | x62 => s81 | x63 => s82 end
 | x20 => match y with x0 => s20 | x1 => s21 | x2 => s22 | x3 => s23 | x4 => s24 | x5 => s25 | x6 => s26 | x7 => s27 | x8 => s28 | x9 => s29 | x10 => s30 | x11 => s31 | x12 => s32 | x13 => s33 | x14 => s34 | x15 => s35 | x16 => s36 | x17 => s37 | x18 => s38 | x19 => s39 | x20 => s40 | x21 => s41 | x22 => s42 | x23 => s43 | x24 => s44 | x25 => s45 | x26 => s46 | x27 => s47 | x28 => s48 | x29 => s49 | x30 => s50 | x31 => s51 | x32 => s52 | x33 => s53 | x34 => s54 | x35 => s55 | x36 => s56 | x37 => s57 | x38 => s58 | x39 => s59 | x40 => s60 | x41 => s61 | x42 => s62 | x43 => s63 | x44 => s64 | x45 => s65 | x46 => s66 | x47 => s67 | x48 => s68 | x49 => s69 | x50 => s70 | x51 => s71 | x52 => s72 | x53 => s73 | x54 => s74 | x55 => s75 | x56 => s76 | x57 => s77 | x58 => s78 | x59 => s79 | x60 => s80 | x61 => s81 | x62 => s82 | x63 => s83 end
 | x21 => match y with x0 => s21 | x1 => s22 | x2 => s23 | x3 => s24 | x4 => s25 | x5 => s26 | x6 => s27 | x7 => s28 | x8 => s29 | x9 => s30 | x10 => s31 | x11 => s32 | x12 => s33 | x13 => s34 | x14 => s35 | x15 => s36 | x16 => s37 | x17 => s38 | x18 => s39 | x19 => s40 | x20 => s41 | x21 => s42 | x22 => s43 | x23 => s44 | x24 => s45 | x25 => s46 | x26 => s47 | x27 => s48 | x28 => s49 | x29 => s50 | x30 => s51 | x31 => s52 | x32 => s53 | x33 => s54 | x34 => s55 | x35 => s56 | x36 => s57 | x37 => s58 | x38 => s59 | x39 => s60 | x40 => s61 | x41 => s62 | x42 => s63 | x43 => s64 | x44 => s65 | x45 => s66 | x46 => s67 | x47 => s68 | x48 => s69 | x49 => s70 | x50 => s71 | x51 => s72 | x52 => s73 | x53 => s74 | x54 => s75 | x55 => s76 | x56 => s77 | x57 => s78 | x58 => s79 | x59 => s80 | x60 => s81 | x61 => s82 | x62 => s83 | x63 => s84 end
 | x22 => match y with x0 => s22 | x1 => s23 | x2 => s24 | x3 => s25 | x4 => s26 | x5 => s27 | x6 => s28 | x7 => s29 | x8 => s30 | x9 => s31 | x10 => s32 | x11 => s33 | x12 => s34 | x13 => s35 | x14 => s36 | x15 => s37 | x16 => s38 | x17 => s39 | x18 => s40 | x19 => s41 | x20 => s42 | x21 => s43 | x22 => s44 | x23 => s45 | x24 => s46 | x25 => s47 | x26 => s48 | x27 => s49 | x28 => s50 | x29 => s51 | x30 => s52 | x31 => s53 | x32 => s54 | x33 => s55 | x34 => s56 | x35 => s57 | x36 => s58 | x37 => s59 | x38 => s60 | x39 => s61 | x40 => s62 | x41 => s63 | x42 => s64 | x43 => s65 | x44 => s66 | x45 => s67 | x46 => s68 | x47 => s69 | x48 => s70 | x49 => s71 | x50 => s72 | x51 => s73 | x52 => s74 | x53 => s75 | x54 => s76 | x55 => s77 | x56 => s78 | x57 => s79 | x58 => s80 | x59 => s81 | x60 => s82 | x61 => s83 | x62 => s84 | x63 => s85 end
 | x23 => match y with x0 => s23 | x1 => s24 | x2 => s25 | x3 => s26 | x4 => s27 | x5 => s28 | x6 => s29 | x7 => s30 | x8 => s31 | x9 => s32 | x10 => s33 | x11 => s34 | x12 => s35 | x13 => s36 | x14 => s37 | x15 => s38 | x16 => s39 | x17 => s40 | x18 => s41 | x19 => s42 | x20 => s43 | x21 => s44 | x22 => s45 | x23 => s46 | x24 => s47 | x25 => s48 | x26 => s49 | x27 => s50 | x28 => s51 | x29 => s52 | x30 => s53 | x31 => s54 | x32 => s55 | x33 => s56 | x34 => s57 | x35 => s58 | x36 => s59 | x37 => s60 | x38 => s61 | x39 => s62 | x40 => s63 | x41 => s64 | x42 => s65 | x43 => s66 | x44 => s67 | x45 => s68 | x46 => s69 | x47 => s70 | x48 => s71 | x49 => s72 | x50 => s73 | x51 => s74 | x52 => s75 | x53 => s76 | x54 => s77 | x55 => s78 | x56 => s79 | x57 => s80 | x58 => s81 | x59 => s82 | x60 => s83 | x61 => s84 | x62 => s85 | x63 => s86 end
 | x24 => match y with x0 => s24 | x1 => s25 | x2 => s26 | x3 => s27 | x4 => s28 | x5 => s29 | x6 => s30 | x7 => s31 | x8 => s32 | x9 => s33 | x10 => s34 | x11 => s35 | x12 => s36 | x13 => s37 | x14 => s38 | x15 => s39 | x16 => s40 | x17 => s41 | x18 => s42 | x19 => s43 | x20 => s44 | x21 => s45 | x22 => s46 | x23 => s47 | x24 => s48 | x25 => s49 | x26 => s50 | x27 => s51 | x28 => s52 | x29 => s53 | x30 => s54 | x31 => s55 | x32 => s56 | x33 => s57 | x34 => s58 | x35 => s59 | x36 => s60 | x37 => s61 | x38 => s62 | x39 => s63 | x40 => s64 | x41 => s65 | x42 => s66 | x43 => s67 | x44 => s68 | x45 => s69 | x46 => s70 | x47 => s71 | x48 => s72 | x49 => s73 | x50 => s74 | x51 => s75 | x52 => s76 | x53 => s77 | x54 => s78 | x55 => s79 | x56 => s80 | x57 => s81 | x58 => s82 | x59 => s83 | x60 => s84 | x61 => s85 | x62 => s86 | x63 => s87 end
 | x25 => match y with x0 => s25 | x1 => s26 | x2 => s27 | x3 => s28 | x4 => s29 | x5 => s30 | x6 => s31 | x7 => s32 | x8 => s33 | x9 => s34 | x10 => s35 | x11 => s36 | x12 => s37 | x13 => s38 | x14 => s39 | x15 => s40 | x16 => s41 | x17 => s42 | x18 => s43 | x19 => s44 | x20 => s45 | x21 => s46 | x22 => s47 | x23 => s48 | x24 => s49 | x25 => s50 | x26 => s51 | x27 => s52 | x28 => s53 | x29 => s54 | x30 => s55 | x31 => s56 | x32 => s57 | x33 => s58 | x34 => s59 | x35 => s60 | x36 => s61 | x37 => s62 | x38 => s63 | x39 => s64 | x40 => s65 | x41 => s66 | x42 => s67 | x43 => s68 | x44 => s69 | x45 => s70 | x46 => s71 | x47 => s72 | x48 => s73 | x49 => s74 | x50 => s75 | x51 => s76 | x52 => s77 | x53 => s78 | x54 => s79 | x55 => s80 | x56 => s81 | x57 => s82 | x58 => s83 | x59 => s84 | x60 => s85 | x61 => s86 | x62 => s87 | x63 => s88 end
 | x26 => match y with x0 => s26 | x1 => s27 | x2 => s28 | x3 => s29 | x4 => s30 | x5 => s31 | x6 => s32 | x7 => s33 | x8 => s34 | x9 => s35 | x10 => s36 | x11 => s37 | x12 => s38 | x13 => s39 | x14 => s40 | x15 => s41 | x16 => s42 | x17 => s43 | x18 => s44 | x19 => s45 | x20 => s46 | x21 => s47 | x22 => s48 | x23 => s49 | x24 => s50 | x25 => s51 | x26 => s52 | x27 => s53 | x28 => s54 | x29 => s55 | x30 => s56 | x31 => s57 | x32 => s58 | x33 => s59 | x34 => s60 | x35 => s61 | x36 => s62 | x37 => s63 | x38 => s64 | x39 => s65 | x40 => s66 | x41 => s67 | x42 => s68 | x43 => s69 | x44 => s70 | x45 => s71 | x46 => s72 | x47 => s73 | x48 => s74 | x49 => s75 | x50 => s76 | x51 => s77 | x52 => s78 | x53 => s79 | x54 => s80 | x55 => s81 | x56 => s82 | x57 => s83 | x58 => s84 | x59 => s85 | x60 => s86 | x61 => s87 | x62 => s88 | x63 => s89 end
 | x27 => match y with x0 => s27 | x1 => s28 | x2 => s29 | x3 => s30 | x4 => s31 | x5 => s32 | x6 => s33 | x7 => s34 | x8 => s35 | x9 => s36 | x10 => s37 | x11 => s38 | x12 => s39 | x13 => s40 | x14 => s41 | x15 => s42 | x16 => s43 | x17 => s44 | x18 => s45 | x19 => s46 | x20 => s47 | x21 => s48 | x22 => s49 | x23 => s50 | x24 => s51 | x25 => s52 | x26 => s53 | x27 => s54 | x28 => s55 | x29 => s56 | x30 => s57 | x31 => s58 | x32 => s59 | x33 => s60 | x34 => s61 | x35 => s62 | x36 => s63 | x37 => s64 | x38 => s65 | x39 => s66 | x40 => s67 | x41 => s68 | x42 => s69 | x43 => s70 | x44 => s71 | x45 => s72 | x46 => s73 | x47 => s74 | x48 => s75 | x49 => s76 | x50 => s77 | x51 => s78 | x52 => s79 | x53 => s80 | x54 => s81 | x55 => s82 | x56 => s83 | x57 => s84 | x58 => s85 | x59 => s86 | x60 => s87 | x61 => s88 | x62 => s89 | x63 => s90 end
 | x28 => match y with x0 => s28 | x1 => s29 | x2 => s30 | x3 => s31 | x4 => s32 | x5 => s33 | x6 => s34 | x7 => s35 | x8 => s36 | x9 => s37 | x10 => s38 | x11 => s39 | x12 => s40 | x13 => s41 | x14 => s42 | x15 => s43 | x16 => s44 | x17 => s45 | x18 => s46 | x19 => s47 | x20 => s48 | x21 => s49 | x22 => s50 | x23 => s51 | x24 => s52 | x25 => s53 | x26 => s54 | x27 => s55 | x28 => s56 | x29 => s57 | x30 => s58 | x31 => s59 | x32 => s60 | x33 => s61 | x34 => s62 | x35 => s63 | x36 => s64 | x37 => s65 | x38 => s66 | x39 => s67 | x40 => s68 | x41 => s69 | x42 => s70 | x43 => s71 | x44 => s72 | x45 => s73 | x46 => s74 | x47 => s75 | x48 => s76 | x49 => s77 | x50 => s78 | x51 => s79 | x52 => s80 | x53 => s81 | x54 => s82 | x55 => s83 | x56 => s84 | x57 => s85 | x58 => s86 | x59 => s87 | x60 => s88 | x61 => s89 | x62 => s90 | x63 => s91 end
 | x29 => match y with x0 => s29 | x1 => s30 | x2 => s31 | x3 => s32 | x4 => s33 | x5 => s34 | x6 => s35 | x7 => s36 | x8 => s37 | x9 => s38 | x10 => s39 | x11 => s40 | x12 => s41 | x13 => s42 | x14 => s43 | x15 => s44 | x16 => s45 | x17 => s46 | x18 => s47 | x19 => s48 | x20 => s49 | x21 => s50 | x22 => s51 | x23 => s52 | x24 => s53 | x25 => s54 | x26 => s55 | x27 => s56 | x28 => s57 | x29 => s58 | x30 => s59 | x31 => s60 | x32 => s61 | x33 => s62 | x34 => s63 | x35 => s64 | x36 => s65 | x37 => s66 | x38 => s67 | x39 => s68 | x40 => s69 | x41 => s70 | x42 => s71 | x43 => s72 | x44 => s73 | x45 => s74 | x46 => s75 | x47 => s76 | x48 => s77 | x49 => s78 | x50 => s79 | x51 => s80 | x52 => s81 | x53 => s82 | x54 => s83 | x55 => s84 | x56 => s85 | x57 => s86 | x58 => s87 | x59 => s88 | x60 => s89 | x61 => s90 | x62 => s91 | x63 => s92 end
 | x30 => match y with x0 => s30 | x1 => s31 | x2 => s32 | x3 => s33 | x4 => s34 | x5 => s35 | x6 => s36 | x7 => s37 | x8 => s38 | x9 => s39 | x10 => s40 | x11 => s41 | x12 => s42 | x13 => s43 | x14 => s44 | x15 => s45 | x16 => s46 | x17 => s47 | x18 => s48 | x19 => s49 | x20 => s50 | x21 => s51 | x22 => s52 | x23 => s53 | x24 => s54 | x25 => s55 | x26 => s56 | x27 => s57 | x28 => s58 | x29 => s59 | x30 => s60 | x31 => s61 | x32 => s62 | x33 => s63 | x34 => s64 | x35 => s65 | x36 => s66 | x37 => s67 | x38 => s68 | x39 => s69 | x40 => s70 | x41 => s71 | x42 => s72 | x43 => s73 | x44 => s74 | x45 => s75 | x46 => s76 | x47 => s77 | x48 => s78 | x49 => s79 | x50 => s80 | x51 => s81 | x52 => s82 | x53 => s83 | x54 => s84 | x55 => s85 | x56 => s86 | x57 => s87 | x58 => s88 | x59 => s89 | x60 => s90 | x61 => s91 | x62 => s92 | x63 => s93 end
 | x31 => match y with x0 => s31 | x1 => s32 | x2 => s33 | x3 => s34 | x4 => s35 | x5 => s36 | x6 => s37 | x7 => s38 | x8 => s39 | x9 => s40 | x10 => s41 | x11 => s42 | x12 => s43 | x13 => s44 | x14 => s45 | x15 => s46 | x16 => s47 | x17 => s48 | x18 => s49 | x19 => s50 | x20 => s51 | x21 => s52 | x22 => s53 | x23 => s54 | x24 => s55 | x25 => s56 | x26 => s57 | x27 => s58 | x28 => s59 | x29 => s60 | x30 => s61 | x31 => s62 | x32 => s63 | x33 => s64 | x34 => s65 | x35 => s66 | x36 => s67 | x37 => s68 | x38 => s69 | x39 => s70 | x40 => s71 | x41 => s72 | x42 => s73 | x43 => s74 | x44 => s75 | x45 => s76 | x46 => s77 | x47 => s78 | x48 => s79 | x49 => s80 | x50 => s81 | x51 => s82 | x52 => s83 | x53 => s84 | x54 => s85 | x55 => s86 | x56 => s87 | x57 => s88 | x58 => s89 | x59 => s90 | x60 => s91 | x61 => s92 | x62 => s93 | x63 => s94 end
 | x32 => match y with x0 => s32 | x1 => s33 | x2 => s34 | x3 => s35 | x4 => s36 | x5 => s37 | x6 => s38 | x7 => s39 | x8 => s40 | x9 => s41 | x10 => s42 | x11 => s43 | x12 => s44 | x13 => s45 | x14 => s46 | x15 => s47 | x16 => s48 | x17 => s49 | x18 => s50 | x19 => s51 | x20 => s52 | x21 => s53 | x22 => s54 | x23 => s55 | x24 => s56 | x25 => s57 | x26 => s58 | x27 => s59 | x28 => s60 | x29 => s61 | x30 => s62 | x31 => s63 | x32 => s64 | x33 => s65 | x34 => s66 | x35 => s67 | x36 => s68 | x37 => s69 | x38 => s70 | x39 => s71 | x40 => s72 | x41 => s73 | x42 => s74 | x43 => s75 | x44 => s76 | x45 => s77 | x46 => s78 | x47 => s79 | x48 => s80 | x49 => s81 | x50 => s82 | x51 => s83 | x52 => s84 | x53 => s85 | x54 => s86 | x55 => s87 | x56 => s88 | x57 => s89 | x58 => s90 | x59 => s91 | x60 => s92 | x61 => s93 | x62 => s94 | x63 => s95 end
 | x33 => match y with x0 => s33 | x1 => s34 | x2 => s35 | x3 => s36 | x4 => s37 | x5 => s38 | x6 => s39 | x7 => s40 | x8 => s41 | x9 => s42 | x10 => s43 | x11 => s44 | x12 => s45 | x13 => s46 | x14 => s47 | x15 => s48 | x16 => s49 | x17 => s50 | x18 => s51 | x19 => s52 | x20 => s53 | x21 => s54 | x22 => s55 | x23 => s56 | x24 => s57 | x25 => s58 | x26 => s59 | x27 => s60 | x28 => s61 | x29 => s62 | x30 => s63 | x31 => s64 | x32 => s65 | x33 => s66 | x34 => s67 | x35 => s68 | x36 => s69 | x37 => s70 | x38 => s71 | x39 => s72 | x40 => s73 | x41 => s74 | x42 => s75 | x43 => s76 | x44 => s77 | x45 => s78 | x46 => s79 | x47 => s80 | x48 => s81 | x49 => s82 | x50 => s83 | x51 => s84 | x52 => s85 | x53 => s86 | x54 => s87 | x55 => s88 | x56 => s89 | x57 => s90 | x58 => s91 | x59 => s92 | x60 => s93 | x61 => s94 | x62 => s95 | x63 => s96 end
 | x34 => match y with x0 => s34 | x1 => s35 | x2 => s36 | x3 => s37 | x4 => s38 | x5 => s39 | x6 => s40 | x7 => s41 | x8 => s42 | x9 => s43 | x10 => s44 | x11 => s45 | x12 => s46 | x13 => s47 | x14 => s48 | x15 => s49 | x16 => s50 | x17 => s51 | x18 => s52 | x19 => s53 | x20 => s54 | x21 => s55 | x22 => s56 | x23 => s57 | x24 => s58 | x25 => s59 | x26 => s60 | x27 => s61 | x28 => s62 | x29 => s63 | x30 => s64 | x31 => s65 | x32 => s66 | x33 => s67 | x34 => s68 | x35 => s69 | x36 => s70 | x37 => s71 | x38 => s72 | x39 => s73 | x40 => s74 | x41 => s75 | x42 => s76 | x43 => s77 | x44 => s78 | x45 => s79 | x46 => s80 | x47 => s81 | x48 => s82 | x49 => s83 | x50 => s84 | x51 => s85 | x52 => s86 | x53 => s87 | x54 => s88 | x55 => s89 | x56 => s90 | x57 => s91 | x58 => s92 | x59 => s93 | x60 => s94 | x61 => s95 | x62 => s96 | x63 => s97 end
 | x35 => match y with x0 => s35 | x1 => s36 | x2 => s37 | x3 => s38 | x4 => s39 | x5 => s40 | x6 => s41 | x7 => s42 | x8 => s43 | x9 => s44 | x10 => s45 | x11 => s46 | x12 => s47 | x13 => s48 | x14 => s49 | x15 => s50 | x16 => s51 | x17 => s52 | x18 => s53 | x19 => s54 | x20 => s55 | x21 => s56 | x22 => s57 | x23 => s58 | x24 => s59 | x25 => s60 | x26 => s61 | x27 => s62 | x28 => s63 | x29 => s64 | x30 => s65 | x31 => s66 | x32 => s67 | x33 => s68 | x34 => s69 | x35 => s70 | x36 => s71 | x37 => s72 | x38 => s73 | x39 => s74 | x40 => s75 | x41 => s76 | x42 => s77 | x43 => s78 | x44 => s79 | x45 => s80 | x46 => s81 | x47 => s82 | x48 => s83 | x49 => s84 | x50 => s85 | x51 => s86 | x52 => s87 | x53 => s88 | x54 => s89 | x55 => s90 | x56 => s91 | x57 => s92 | x58 => s93 | x59 => s94 | x60 => s95 | x61 => s96 | x62 => s97 | x63 => s98 end
 | x36 => match y with x0 => s36 | x1 => s37 | x2 => s38 | x3 => s39 | x4 => s40 | x5 => s41 | x6 => s42 | x7 => s43 | x8 => s44 | x9 => s45 | x10 => s46 | x11 => s47 | x12 => s48 | x13 => s49 | x14 => s50 | x15 => s51 | x16 => s52 | x17 => s53 | x18 => s54 | x19 => s55 | x20 => s56 | x21 => s57 | x22 => s58 | x23 => s59 | x24 => s60 | x25 => s61 | x26 => s62 | x27 => s63 | x28 => s64 | x29 => s65 | x30 => s66 | x31 => s67 | x32 => s68 | x33 => s69 | x34 => s70 | x35 => s71 | x36 => s72 | x37 => s73 | x38 => s74 | x39 => s75 | x40 => s76 | x41 => s77 | x42 => s78 | x43 => s79 | x44 => s80 | x45 => s81 | x46 => s82 | x47 => s83 | x48 => s84 | x49 => s85 | x50 => s86 | x51 => s87 | x52 => s88 | x53 => s89 | x54 => s90 | x55 => s91 | x56 => s92 | x57 => s93 | x58 => s94 | x59 => s95 | x60 => s96 | x61 => s97 | x62 => s98 | x63 => s99 end
 | x37 => match y with x0 => s37 | x1 => s38 | x2 => s39 | x3 => s40 | x4 => s41 | x5 => s42 | x6 => s43 | x7 => s44 | x8 => s45 | x9 => s46 | x10 => s47 | x11 => s48 | x12 => s49 | x13 => s50 | x14 => s51 | x15 => s52 | x16 => s53 | x17 => s54 | x18 => s55 | x19 => s56 | x20 => s57 | x21 => s58 | x22 => s59 | x23 => s60 | x24 => s61 | x25 => s62 | x26 => s63 | x27 => s64 | x28 => s65 | x29 => s66 | x30 => s67 | x31 => s68 | x32 => s69 | x33 => s70 | x34 => s71 | x35 => s72 | x36 => s73 | x37 => s74 | x38 => s75 | x39 => s76 | x40 => s77 | x41 => s78 | x42 => s79 | x43 => s80 | x44 => s81 | x45 => s82 | x46 => s83 | x47 => s84 | x48 => s85 | x49 => s86 | x50 => s87 | x51 => s88 | x52 => s89 | x53 => s90 | x54 => s91 | x55 => s92 | x56 => s93 | x57 => s94 | x58 => s95 | x59 => s96 | x60 => s97 | x61 => s98 | x62 => s99 | x63 => s100 end
 | x38 => match y with x0 => s38 | x1 => s39 | x2 => s40 | x3 => s41 | x4 => s42 | x5 => s43 | x6 => s44 | x7 => s45 | x8 => s46 | x9 => s47 | x10 => s48 | x11 => s49 | x12 => s50 | x13 => s51 | x14 => s52 | x15 => s53 | x16 => s54 | x17 => s55 | x18 => s56 | x19 => s57 | x20 => s58 | x21 => s59 | x22 => s60 | x23 => s61 | x24 => s62 | x25 => s63 | x26 => s64 | x27 => s65 | x28 => s66 | x29 => s67 | x30 => s68 | x31 => s69 | x32 => s70 | x33 => s71 | x34 => s72 | x35 => s73 | x36 => s74 | x37 => s75 | x38 => s76 | x39 => s77 | x40 => s78 | x41 => s79 | x42 => s80 | x43 => s81 | x44 => s82 | x45 => s83 | x46 => s84 | x47 => s85 | x48 => s86 | x49 => s87 | x50 => s88 | x51 => s89 | x52 => s90 | x53 => s91 | x54 => s92 | x55 => s93 | x56 => s94 | x57 => s95 | x58 => s96 | x59 => s97 | x60 => s98 | x61 => s99 | x62 => s100 | x63 => s101 end
 | x39 => match y with x0 => s39 | x1 => s40 | x2 => s41 | x3 => s42 | x4 => s43 | x5 => s44 | x6 => s45 | x7 => s46 | x8 => s47 | x9 => s48 | x10 => s49 | x11 => s50 | x12 => s51 | x13 => s52 | x14 => s53 | x15 => s54 | x16 => s55 | x17 => s56 | x18 => s57 | x19 => s58 | x20 => s59 | x21 => s60 | x22 => s61 | x23 => s62 | x24 => s63 | x25 => s64 | x26 => s65 | x27 => s66 | x28 => s67 | x29 => s68 | x30 => s69 | x31 => s70 | x32 => s71 | x33 => s72 | x34 => s73 | x35 => s74 | x36 => s75 | x37 => s76 | x38 => s77 | x39 => s78 | x40 => s79 | x41 => s80 | x42 => s81 | x43 => s82 | x44 => s83 | x45 => s84 | x46 => s85 | x47 => s86 | x48 => s87 | x49 => s88 | x50 => s89 | x51 => s90 | x52 => s91 | x53 => s92 | x54 => s93 | x55 => s94 | x56 => s95 | x57 => s96 | x58 => s97 | x59 => s98 | x60 => s99 | x61 => s100 | x62 => s101 | x63 => s102 end
 | x40 => match y with x0 => s40 | x1 => s41 | x2 => s42 | x3 => s43 | x4 => s44 | x5 => s45 | x6 => s46 | x7 => s47 | x8 => s48 | x9 => s49 | x10 => s50 | x11 => s51 | x12 => s52 | x13 => s53 | x14 => s54 | x15 => s55 | x16 => s56 | x17 => s57 | x18 => s58 | x19 => s59 | x20 => s60 | x21 => s61 | x22 => s62 | x23 => s63 | x24 => s64 | x25 => s65 | x26 => s66 | x27 => s67 | x28 => s68 | x29 => s69 | x30 => s70 | x31 => s71 | x32 => s72 | x33 => s73 | x34 => s74 | x35 => s75 | x36 => s76 | x37 => s77 | x38 => s78 | x39 => s79 | x40 => s80 | x41 => s81 | x42 => s82 | x43 => s83 | x44 => s84 | x45 => s85 | x46 => s86 | x47 => s87 | x48 => s88 | x49 => s89 | x50 => s90 | x51 => s91 | x52 => s92 | x53 => s93 | x54 => s94 | x55 => s95 | x56 => s96 | x57 => s97 | x58 => s98 | x59 => s99 | x60 => s100 | x61 => s101 | x62 => s102 | x63 => s103 end
 | x41 => match y with x0 => s41 | x1 => s42 | x2 => s43 | x3 => s44 | x4 => s45 | x5 => s46 | x6 => s47 | x7 => s48 | x8 => s49 | x9 => s50 | x10 => s51 | x11 => s52 | x12 => s53 | x13 => s54 | x14 => s55 | x15 => s56 | x16 => s57 | x17 => s58 | x18 => s59 | x19 => s60 | x20 => s61 | x21 => s62 | x22 => s63 | x23 => s64 | x24 => s65 | x25 => s66 | x26 => s67 | x27 => s68 | x28 => s69 | x29 => s70 | x30 => s71 | x31 => s72 | x32 => s73 | x33 => s74 | x34 => s75 | x35 => s76 | x36 => s77 | x37 => s78 | x38 => s79 | x39 => s80 | x40 => s81 | x41 => s82 | x42 => s83 | x43 => s84 | x44 => s85 | x45 => s86 | x46 => s87 | x47 => s88 | x48 => s89 | x49 => s90 | x50 => s91 | x51 => s92 | x52 => s93 | x53 => s94 | x54 => s95 | x55 => s96 | x56 => s97 | x57 => s98 | x58 => s99 | x59 => s100 | x60 => s101 | x61 => s102 | x62 => s103 | x63 => s104 end
 | x42 => match y with x0 => s42 | x1 => s43 | x2 => s44 | x3 => s45 | x4 => s46 | x5 => s47 | x6 => s48 | x7 => s49 | x8 => s50 | x9 => s51 | x10 => s52 | x11 => s53 | x12 => s54 | x13 => s55 | x14 => s56 | x15 => s57 | x16 => s58 | x17 => s59 | x18 => s60 | x19 => s61 | x20 => s62 | x21 => s63 | x22 => s64 | x23 => s65 | x24 => s66 | x25 => s67 | x26 => s68 | x27 => s69 | x28 => s70 | x29 => s71 | x30 => s72 | x31 => s73 | x32 => s74 | x33 => s75 | x34 => s76 | x35 => s77 | x36 => s78 | x37 => s79 | x38 => s80 | x39 => s81 | x40 => s82 | x41 => s83 | x42 => s84 | x43 => s85 | x44 => s86 | x45 => s87 | x46 => s88 | x47 => s89 | x48 => s90 | x49 => s91 | x50 => s92 | x51 => s93 | x52 => s94 | x53 => s95 | x54 => s96 | x55 => s97 | x56 => s98 | x57 => s99 | x58 => s100 | x59 => s101 | x60 => s102 | x61 => s103 | x62 => s104 | x63 => s105 end
 | x43 => match y with x0 => s43 | x1 => s44 | x2 => s45 | x3 => s46 | x4 => s47 | x5 => s48 | x6 => s49 | x7 => s50 | x8 => s51 | x9 => s52 | x10 => s53 | x11 => s54 | x12 => s55 | x13 => s56 | x14 => s57 | x15 => s58 | x16 => s59 | x17 => s60 | x18 => s61 | x19 => s62 | x20 => s63 | x21 => s64 | x22 => s65 | x23 => s66 | x24 => s67 | x25 => s68 | x26 => s69 | x27 => s70 | x28 => s71 | x29 => s72 | x30 => s73 | x31 => s74 | x32 => s75 | x33 => s76 | x34 => s77 | x35 => s78 | x36 => s79 | x37 => s80 | x38 => s81 | x39 => s82 | x40 => s83 | x41 => s84 | x42 => s85 | x43 => s86 | x44 => s87 | x45 => s88 | x46 => s89 | x47 => s90 | x48 => s91 | x49 => s92 | x50 => s93 | x51 => s94 | x52 => s95 | x53 => s96 | x54 => s97 | x55 => s98 | x56 => s99 | x57 => s100 | x58 => s101 | x59 => s102 | x60 => s103 | x61 => s104 | x62 => s105 | x63 => s106 end
 | x44 => match y with x0 => s44 | x1 => s45 | x2 => s46 | x3 => s47 | x4 => s48 | x5 => s49 | x6 => s50 | x7 => s51 | x8 => s52 | x9 => s53 | x10 => s54 | x11 => s55 | x12 => s56 | x13 => s57 | x14 => s58 | x15 => s59 | x16 => s60 | x17 => s61 | x18 => s62 | x19 => s63 | x20 => s64 | x21 => s65 | x22 => s66 | x23 => s67 | x24 => s68 | x25 => s69 | x26 => s70 | x27 => s71 | x28 => s72 | x29 => s73 | x30 => s74 | x31 => s75 | x32 => s76 | x33 => s77 | x34 => s78 | x35 => s79 | x36 => s80 | x37 => s81 | x38 => s82 | x39 => s83 | x40 => s84 | x41 => s85 | x42 => s86 | x43 => s87 | x44 => s88 | x45 => s89 | x46 => s90 | x47 => s91 | x48 => s92 | x49 => s93 | x50 => s94 | x51 => s95 | x52 => s96 | x53 => s97 | x54 => s98 | x55 => s99 | x56 => s100 | x57 => s101 | x58 => s102 | x59 => s103 | x60 => s104 | x61 => s105 | x62 => s106 | x63 => s107 end
 | x45 => match y with x0 => s45 | x1 => s46 | x2 => s47 | x3 => s48 | x4 => s49 | x5 => s50 | x6 => s51 | x7 => s52 | x8 => s53 | x9 => s54 | x10 => s55 | x11 => s56 | x12 => s57 | x13 => s58 | x14 => s59 | x15 => s60 | x16 => s61 | x17 => s62 | x18 => s63 | x19 => s64 | x20 => s65 | x21 => s66 | x22 => s67 | x23 => s68 | x24 => s69 | x25 => s70 | x26 => s71 | x27 => s72 | x28 => s73 | x29 => s74 | x30 => s75 | x31 => s76 | x32 => s77 | x33 => s78 | x34 => s79 | x35 => s80 | x36 => s81 | x37 => s82 | x38 => s83 | x39 => s84 | x40 => s85 | x41 => s86 | x42 => s87 | x43 => s88 | x44 => s89 | x45 => s90 | x46 => s91 | x47 => s92 | x48 => s93 | x49 => s94 | x50 => s95 | x51 => s96 | x52 => s97 | x53 => s98 | x54 => s99 | x55 => s100 | x56 => s101 | x57 => s102 | x58 => s103 | x59 => s104 | x60 => s105 | x61 => s106 | x62 => s107 | x63 => s108 end
 | x46 => match y with x0 => s46 | x1 => s47 | x2 => s48 | x3 => s49 | x4 => s50 | x5 => s51 | x6 => s52 | x7 => s53 | x8 => s54 | x9 => s55 | x10 => s56 | x11 => s57 | x12 => s58 | x13 => s59 | x14 => s60 | x15 => s61 | x16 => s62 | x17 => s63 | x18 => s64 | x19 => s65 | x20 => s66 | x21 => s67 | x22 => s68 | x23 => s69 | x24 => s70 | x25 => s71 | x26 => s72 | x27 => s73 | x28 => s74 | x29 => s75 | x30 => s76 | x31 => s77 | x32 => s78 | x33 => s79 | x34 => s80 | x35 => s81 | x36 => s82 | x37 => s83 | x38 => s84 | x39 => s85 | x40 => s86 | x41 => s87 | x42 => s88 | x43 => s89 | x44 => s90 | x45 => s91 | x46 => s92 | x47 => s93 | x48 => s94 | x49 => s95 | x50 => s96 | x51 => s97 | x52 => s98 | x53 => s99 | x54 => s100 | x55 => s101 | x56 => s102 | x57 => s103 | x58 => s104 | x59 => s105 | x60 => s106 | x61 => s107 | x62 => s108 | x63 => s109 end
 | x47 => match y with x0 => s47 | x1 => s48 | x2 => s49 | x3 => s50 | x4 => s51 | x5 => s52 | x6 => s53 | x7 => s54 | x8 => s55 | x9 => s56 | x10 => s57 | x11 => s58 | x12 => s59 | x13 => s60 | x14 => s61 | x15 => s62 | x16 => s63 | x17 => s64 | x18 => s65 | x19 => s66 | x20 => s67 | x21 => s68 | x22 => s69 | x23 => s70 | x24 => s71 | x25 => s72 | x26 => s73 | x27 => s74 | x28 => s75 | x29 => s76 | x30 => s77 | x31 => s78 | x32 => s79 | x33 => s80 | x34 => s81 | x35 => s82 | x36 => s83 | x37 => s84 | x38 => s85 | x39 => s86 | x40 => s87 | x41 => s88 | x42 => s89 | x43 => s90 | x44 => s91 | x45 => s92 | x46 => s93 | x47 => s94 | x48 => s95 | x49 => s96 | x50 => s97 | x51 => s98 | x52 => s99 | x53 => s100 | x54 => s101 | x55 => s102 | x56 => s103 | x57 => s104 | x58 => s105 | x59 => s106 | x60 => s107 | x61 => s108 | x62 => s109 | x63 => s110 end
 | x48 => match y with x0 => s48 | x1 => s49 | x2 => s50 | x3 => s51 | x4 => s52 | x5 => s53 | x6 => s54 | x7 => s55 | x8 => s56 | x9 => s57 | x10 => s58 | x11 => s59 | x12 => s60 | x13 => s61 | x14 => s62 | x15 => s63 | x16 => s64 | x17 => s65 | x18 => s66 | x19 => s67 | x20 => s68 | x21 => s69 | x22 => s70 | x23 => s71 | x24 => s72 | x25 => s73 | x26 => s74 | x27 => s75 | x28 => s76 | x29 => s77 | x30 => s78 | x31 => s79 | x32 => s80 | x33 => s81 | x34 => s82 | x35 => s83 | x36 => s84 | x37 => s85 | x38 => s86 | x39 => s87 | x40 => s88 | x41 => s89 | x42 => s90 | x43 => s91 | x44 => s92 | x45 => s93 | x46 => s94 | x47 => s95 | x48 => s96 | x49 => s97 | x50 => s98 | x51 => s99 | x52 => s100 | x53 => s101 | x54 => s102 | x55 => s103 | x56 => s104 | x57 => s105 | x58 => s106 | x59 => s107 | x60 => s108 | x61 => s109 | x62 => s110 | x63 => s111 end
 | x49 => match y with x0 => s49 | x1 => s50 | x2 => s51 | x3 => s52 | x4 => s53 | x5 => s54 | x6 => s55 | x7 => s56 | x8 => s57 | x9 => s58 | x10 => s59 | x11 => s60 | x12 => s61 | x13 => s62 | x14 => s63 | x15 => s64 | x16 => s65 | x17 => s66 | x18 => s67 | x19 => s68 | x20 => s69 | x21 => s70 | x22 => s71 | x23 => s72 | x24 => s73 | x25 => s74 | x26 => s75 | x27 => s76 | x28 => s77 | x29 => s78 | x30 => s79 | x31 => s80 | x32 => s81 | x33 => s82 | x34 => s83 | x35 => s84 | x36 => s85 | x37 => s86 | x38 => s87 | x39 => s88 | x40 => s89 | x41 => s90 | x42 => s91 | x43 => s92 | x44 => s93 | x45 => s94 | x46 => s95 | x47 => s96 | x48 => s97 | x49 => s98 | x50 => s99 | x51 => s100 | x52 => s101 | x53 => s102 | x54 => s103 | x55 => s104 | x56 => s105 | x57 => s106 | x58 => s107 | x59 => s108 | x60 => s109 | x61 => s110 | x62 => s111 | x63 => s112 end
 | x50 => match y with x0 => s50 | x1 => s51 | x2 => s52 | x3 => s53 | x4 => s54 | x5 => s55 | x6 => s56 | x7 => s57 | x8 => s58 | x9 => s59 | x10 => s60 | x11 => s61 | x12 => s62 | x13 => s63 | x14 => s64 | x15 => s65 | x16 => s66 | x17 => s67 | x18 => s68 | x19 => s69 | x20 => s70 | x21 => s71 | x22 => s72 | x23 => s73 | x24 => s74 | x25 => s75 | x26 => s76 | x27 => s77 | x28 => s78 | x29 => s79 | x30 => s80 | x31 => s81 | x32 => s82 | x33 => s83 | x34 => s84 | x35 => s85 | x36 => s86 | x37 => s87 | x38 => s88 | x39 => s89 | x40 => s90 | x41 => s91 | x42 => s92 | x43 => s93 | x44 => s94 | x45 => s95 | x46 => s96 | x47 => s97 | x48 => s98 | x49 => s99 | x50 => s100 | x51 => s101 | x52 => s102 | x53 => s103 | x54 => s104 | x55 => s105 | x56 => s106 | x57 => s107 | x58 => s108 | x59 => s109 | x60 => s110 | x61 => s111 | x62 => s112 | x63 => s113 end
 | x51 => match y with x0 => s51 | x1 => s52 | x2 => s53 | x3 => s54 | x4 => s55 | x5 => s56 | x6 => s57 | x7 => s58 | x8 => s59 | x9 => s60 | x10 => s61 | x11 => s62 | x12 => s63 | x13 => s64 | x14 => s65 | x15 => s66 | x16 => s67 | x17 => s68 | x18 => s69 | x19 => s70 | x20 => s71 | x21 => s72 | x22 => s73 | x23 => s74 | x24 => s75 | x25 => s76 | x26 => s77 | x27 => s78 | x28 => s79 | x29 => s80 | x30 => s81 | x31 => s82 | x32 => s83 | x33 => s84 | x34 => s85 | x35 => s86 | x36 => s87 | x37 => s88 | x38 => s89 | x39 => s90 | x40 => s91 | x41 => s92 | x42 => s93 | x43 => s94 | x44 => s95 | x45 => s96 | x46 => s97 | x47 => s98 | x48 => s99 | x49 => s100 | x50 => s101 | x51 => s102 | x52 => s103 | x53 => s104 | x54 => s105 | x55 => s106 | x56 => s107 | x57 => s108 | x58 => s109 | x59 => s110 | x60 => s111 | x61 => s112 | x62 => s113 | x63 => s114 end
 | x52 => match y with x0 => s52 | x1 => s53 | x2 => s54 | x3 => s55 | x4 => s56 | x5 => s57 | x6 => s58 | x7 => s59 | x8 => s60 | x9 => s61 | x10 => s62 | x11 => s63 | x12 => s64 | x13 => s65 | x14 => s66 | x15 => s67 | x16 => s68 | x17 => s69 | x18 => s70 | x19 => s71 | x20 => s72 | x21 => s73 | x22 => s74 | x23 => s75 | x24 => s76 | x25 => s77 | x26 => s78 | x27 => s79 | x28 => s80 | x29 => s81 | x30 => s82 | x31 => s83 | x32 => s84 | x33 => s85 | x34 => s86 | x35 => s87 | x36 => s88 | x37 => s89 | x38 => s90 | x39 => s91 | x40 => s92 | x41 => s93 | x42 => s94 | x43 => s95 | x44 => s96 | x45 => s97 | x46 => s98 | x47 => s99 | x48 => s100 | x49 => s101 | x50 => s102 | x51 => s103 | x52 => s104 | x53 => s105 | x54 => s106 | x55 => s107 | x56 => s108 | x57 => s109 | x58 => s110 | x59 => s111 | x60 => s112 | x61 => s113 | x62 => s114 | x63 => s115 end
 | x53 => match y with x0 => s53 | x1 => s54 | x2 => s55 | x3 => s56 | x4 => s57 | x5 => s58 | x6 => s59 | x7 => s60 | x8 => s61 | x9 => s62 | x10 => s63 | x11 => s64 | x12 => s65 | x13 => s66 | x14 => s67 | x15 => s68 | x16 => s69 | x17 => s70 | x18 => s71 | x19 => s72 | x20 => s73 | x21 => s74 | x22 => s75 | x23 => s76 | x24 => s77 | x25 => s78 | x26 => s79 | x27 => s80 | x28 => s81 | x29 => s82 | x30 => s83 | x31 => s84 | x32 => s85 | x33 => s86 | x34 => s87 | x35 => s88 | x36 => s89 | x37 => s90 | x38 => s91 | x39 => s92 | x40 => s93 | x41 => s94 | x42 => s95 | x43 => s96 | x44 => s97 | x45 => s98 | x46 => s99 | x47 => s100 | x48 => s101 | x49 => s102 | x50 => s103 | x51 => s104 | x52 => s105 | x53 => s106 | x54 => s107 | x55 => s108 | x56 => s109 | x57 => s110 | x58 => s111 | x59 => s112 | x60 => s113 | x61 => s114 | x62 => s115 | x63 => s116 end
 | x54 => match y with x0 => s54 | x1 => s55 | x2 => s56 | x3 => s57 | x4 => s58 | x5 => s59 | x6 => s60 | x7 => s61 | x8 => s62 | x9 => s63 | x10 => s64 | x11 => s65 | x12 => s66 | x13 => s67 | x14 => s68 | x15 => s69 | x16 => s70 | x17 => s71 | x18 => s72 | x19 => s73 | x20 => s74 | x21 => s75 | x22 => s76 | x23 => s77 | x24 => s78 | x25 => s79 | x26 => s80 | x27 => s81 | x28 => s82 | x29 => s83 | x30 => s84 | x31 => s85 | x32 => s86 | x33 => s87 | x34 => s88 | x35 => s89 | x36 => s90 | x37 => s91 | x38 => s92 | x39 => s93 | x40 => s94 | x41 => s95 | x42 => s96 | x43 => s97 | x44 => s98 | x45 => s99 | x46 => s100 | x47 => s101 | x48 => s102 | x49 => s103 | x50 => s104 | x51 => s105 | x52 => s106 | x53 => s107 | x54 => s108 | x55 => s109 | x56 => s110 | x57 => s111 | x58 => s112 | x59 => s113 | x60 => s114 | x61 => s115 | x62 => s116 | x63 => s117 end
 | x55 => match y with x0 => s55 | x1 => s56 | x2 => s57 | x3 => s58 | x4 => s59 | x5 => s60 | x6 => s61 | x7 => s62 | x8 => s63 | x9 => s64 | x10 => s65 | x11 => s66 | x12 => s67 | x13 => s68 | x14 => s69 | x15 => s70 | x16 => s71 | x17 => s72 | x18 => s73 | x19 => s74 | x20 => s75 | x21 => s76 | x22 => s77 | x23 => s78 | x24 => s79 | x25 => s80 | x26 => s81 | x27 => s82 | x28 => s83 | x29 => s84 | x30 => s85 | x31 => s86 | x32 => s87 | x33 => s88 | x34 => s89 | x35 => s90 | x36 => s91 | x37 => s92 | x38 => s93 | x39 => s94 | x40 => s95 | x41 => s96 | x42 => s97 | x43 => s98 | x44 => s99 | x45 => s100 | x46 => s101 | x47 => s102 | x48 => s103 | x49 => s104 | x50 => s105 | x51 => s106 | x52 => s107 | x53 => s108 | x54 => s109 | x55 => s110 | x56 => s111 | x57 => s112 | x58 => s113 | x59 => s114 | x60 => s115 | x61 => s116 | x62 => s117 | x63 => s118 end
 | x56 => match y with x0 => s56 | x1 => s57 | x2 => s58 | x3 => s59 | x4 => s60 | x5 => s61 | x6 => s62 | x7 => s63 | x8 => s64 | x9 => s65 | x10 => s66 | x11 => s67 | x12 => s68 | x13 => s69 | x14 => s70 | x15 => s71 | x16 => s72 | x17 => s73 | x18 => s74 | x19 => s75 | x20 => s76 | x21 => s77 | x22 => s78 | x23 => s79 | x24 => s80 | x25 => s81 | x26 => s82 | x27 => s83 | x28 => s84 | x29 => s85 | x30 => s86 | x31 => s87 | x32 => s88 | x33 => s89 | x34 => s90 | x35 => s91 | x36 => s92 | x37 => s93 | x38 => s94 | x39 => s95 | x40 => s96 | x41 => s97 | x42 => s98 | x43 => s99 | x44 => s100 | x45 => s101 | x46 => s102 | x47 => s103 | x48 => s104 | x49 => s105 | x50 => s106 | x51 => s107 | x52 => s108 | x53 => s109 | x54 => s110 | x55 => s111 | x56 => s112 | x57 => s113 | x58 => s114 | x59 => s115 | x60 => s116 | x61 => s117 | x62 => s118 | x63 => s119 end
 | x57 => match y with x0 => s57 | x1 => s58 | x2 => s59 | x3 => s60 | x4 => s61 | x5 => s62 | x6 => s63 | x7 => s64 | x8 => s65 | x9 => s66 | x10 => s67 | x11 => s68 | x12 => s69 | x13 => s70 | x14 => s71 | x15 => s72 | x16 => s73 | x17 => s74 | x18 => s75 | x19 => s76 | x20 => s77 | x21 => s78 | x22 => s79 | x23 => s80 | x24 => s81 | x25 => s82 | x26 => s83 | x27 => s84 | x28 => s85 | x29 => s86 | x30 => s87 | x31 => s88 | x32 => s89 | x33 => s90 | x34 => s91 | x35 => s92 | x36 => s93 | x37 => s94 | x38 => s95 | x39 => s96 | x40 => s97 | x41 => s98 | x42 => s99 | x43 => s100 | x44 => s101 | x45 => s102 | x46 => s103 | x47 => s104 | x48 => s105 | x49 => s106 | x50 => s107 | x51 => s108 | x52 => s109 | x53 => s110 | x54 => s111 | x55 => s112 | x56 => s113 | x57 => s114 | x58 => s115 | x59 => s116 | x60 => s117 | x61 => s118 | x62 => s119 | x63 => s120 end
 | x58 => match y with x0 => s58 | x1 => s59 | x2 => s60 | x3 => s61 | x4 => s62 | x5 => s63 | x6 => s64 | x7 => s65 | x8 => s66 | x9 => s67 | x10 => s68 | x11 => s69 | x12 => s70 | x13 => s71 | x14 => s72 | x15 => s73 | x16 => s74 | x17 => s75 | x18 => s76 | x19 => s77 | x20 => s78 | x21 => s79 | x22 => s80 | x23 => s81 | x24 => s82 | x25 => s83 | x26 => s84 | x27 => s85 | x28 => s86 | x29 => s87 | x30 => s88 | x31 => s89 | x32 => s90 | x33 => s91 | x34 => s92 | x35 => s93 | x36 => s94 | x37 => s95 | x38 => s96 | x39 => s97 | x40 => s98 | x41 => s99 | x42 => s100 | x43 => s101 | x44 => s102 | x45 => s103 | x46 => s104 | x47 => s105 | x48 => s106 | x49 => s107 | x50 => s108 | x51 => s109 | x52 => s110 | x53 => s111 | x54 => s112 | x55 => s113 | x56 => s114 | x57 => s115 | x58 => s116 | x59 => s117 | x60 => s118 | x61 => s119 | x62 => s120 | x63 => s121 end
 | x59 => match y with x0 => s59 | x1 => s60 | x2 => s61 | x3 => s62 | x4 => s63 | x5 => s64 | x6 => s65 | x7 => s66 | x8 => s67 | x9 => s68 | x10 => s69 | x11 => s70 | x12 => s71 | x13 => s72 | x14 => s73 | x15 => s74 | x16 => s75 | x17 => s76 | x18 => s77 | x19 => s78 | x20 => s79 | x21 => s80 | x22 => s81 | x23 => s82 | x24 => s83 | x25 => s84 | x26 => s85 | x27 => s86 | x28 => s87 | x29 => s88 | x30 => s89 | x31 => s90 | x32 => s91 | x33 => s92 | x34 => s93 | x35 => s94 | x36 => s95 | x37 => s96 | x38 => s97 | x39 => s98 | x40 => s99 | x41 => s100 | x42 => s101 | x43 => s102 | x44 => s103 | x45 => s104 | x46 => s105 | x47 => s106 | x48 => s107 | x49 => s108 | x50 => s109 | x51 => s110 | x52 => s111 | x53 => s112 | x54 => s113 | x55 => s114 | x56 => s115 | x57 => s116 | x58 => s117 | x59 => s118 | x60 => s119 | x61 => s120 | x62 => s121 | x63 => s122 end
 | x60 => match y with x0 => s60 | x1 => s61 | x2 => s62 | x3 => s63 | x4 => s64 | x5 => s65 | x6 => s66 | x7 => s67 | x8 => s68 | x9 => s69 | x10 => s70 | x11 => s71 | x12 => s72 | x13 => s73 | x14 => s74 | x15 => s75 | x16 => s76 | x17 => s77 | x18 => s78 | x19 => s79 | x20 => s80 | x21 => s81 | x22 => s82 | x23 => s83 | x24 => s84 | x25 => s85 | x26 => s86 | x27 => s87 | x28 => s88 | x29 => s89 | x30 => s90 | x31 => s91 | x32 => s92 | x33 => s93 | x34 => s94 | x35 => s95 | x36 => s96 | x37 => s97 | x38 => s98 | x39 => s99 | x40 => s100 | x41 => s101 | x42 => s102 | x43 => s103 | x44 => s104 | x45 => s105 | x46 => s106 | x47 => s107 | x48 => s108 | x49 => s109 | x50 => s110 | x51 => s111 | x52 => s112 | x53 => s113 | x54 => s114 | x55 => s115 | x56 => s116 | x57 => s117 | x58 => s118 | x59 => s119 | x60 => s120 | x61 => s121 | x62 => s122 | x63 => s123 end
 | x61 => match y with x0 => s61 | x1 => s62 | x2 => s63 | x3 => s64 | x4 => s65 | x5 => s66 | x6 => s67 | x7 => s68 | x8 => s69 | x9 => s70 | x10 => s71 | x11 => s72 | x12 => s73 | x13 => s74 | x14 => s75 | x15 => s76 | x16 => s77 | x17 => s78 | x18 => s79 | x19 => s80 | x20 => s81 | x21 => s82 | x22 => s83 | x23 => s84 | x24 => s85 | x25 => s86 | x26 => s87 | x27 => s88 | x28 => s89 | x29 => s90 | x30 => s91 | x31 => s92 | x32 => s93 | x33 => s94 | x34 => s95 | x35 => s96 | x36 => s97 | x37 => s98 | x38 => s99 | x39 => s100 | x40 => s101 | x41 => s102 | x42 => s103 | x43 => s104 | x44 => s105 | x45 => s106 | x46 => s107 | x47 => s108 | x48 => s109 | x49 => s110 | x50 => s111 | x51 => s112 | x52 => s113 | x53 => s114 | x54 => s115 | x55 => s116 | x56 => s117 | x57 => s118 | x58 => s119 | x59 => s120 | x60 => s121 | x61 => s122 | x62 => s123 | x63 => s124 end
 | x62 => match y with x0 => s62 | x1 => s63 | x2 => s64 | x3 => s65 | x4 => s66 | x5 => s67 | x6 => s68 | x7 => s69 | x8 => s70 | x9 => s71 | x10 => s72 | x11 => s73 | x12 => s74 | x13 => s75 | x14 => s76 | x15 => s77 | x16 => s78 | x17 => s79 | x18 => s80 | x19 => s81 | x20 => s82 | x21 => s83 | x22 => s84 | x23 => s85 | x24 => s86 | x25 => s87 | x26 => s88 | x27 => s89 | x28 => s90 | x29 => s91 | x30 => s92 | x31 => s93 | x32 => s94 | x33 => s95 | x34 => s96 | x35 => s97 | x36 => s98 | x37 => s99 | x38 => s100 | x39 => s101 | x40 => s102 | x41 => s103 | x42 => s104 | x43 => s105 | x44 => s106 | x45 => s107 | x46 => s108 | x47 => s109 | x48 => s110 | x49 => s111 | x50 => s112 | x51 => s113 | x52 => s114 | x53 => s115 | x54 => s116 | x55 => s117 | x56 => s118 | x57 => s119 | x58 => s120 | x59 => s121 | x60 => s122 | x61 => s123 | x62 => s124 | x63 => s125 end
 | x63 => match y with x0 => s63 | x1 => s64 | x2 => s65 | x3 => s66 | x4 => s67 | x5 => s68 | x6 => s69 | x7 => s70 | x8 => s71 | x9 => s72 | x10 => s73 | x11 => s74 | x12 => s75 | x13 => s76 | x14 => s77 | x15 => s78 | x16 => s79 | x17 => s80 | x18 => s81 | x19 => s82 | x20 => s83 | x21 => s84 | x22 => s85 | x23 => s86 | x24 => s87 | x25 => s88 | x26 => s89 | x27 => s90 | x28 => s91 | x29 => s92 | x30 => s93 | x31 => s94 | x32 => s95 | x33 => s96 | x34 => s97 | x35 => s98 | x36 => s99 | x37 => s100 | x38 => s101 | x39 => s102 | x40 => s103 | x41 => s104 | x42 => s105 | x43 => s106 | x44 => s107 | x45 => s108 | x46 => s109 | x47 => s110 | x48 => s111 | x49 => s112 | x50 => s113 | x51 => s114 | x52 => s115 | x53 => s116 | x54 => s117 | x55 => s118 | x56 => s119 | x57 => s120 | x58 => s121 | x59 => s122 | x60 => s123 | x61 => s124 | x62 => s125 | x63 => s126 end
 end.
(** A digit as a sum. *)
Definition ad0 (x : dig) : sum2 := match x with x0 => s0 | x1 => s1 | x2 => s2 | x3 => s3 | x4 => s4 | x5 => s5 | x6 => s6 | x7 => s7 | x8 => s8 | x9 => s9 | x10 => s10 | x11 => s11 | x12 => s12 | x13 => s13 | x14 => s14 | x15 => s15 | x16 => s16 | x17 => s17 | x18 => s18 | x19 => s19 | x20 => s20 | x21 => s21 | x22 => s22 | x23 => s23 | x24 => s24 | x25 => s25 | x26 => s26 | x27 => s27 | x28 => s28 | x29 => s29 | x30 => s30 | x31 => s31 | x32 => s32 | x33 => s33 | x34 => s34 | x35 => s35 | x36 => s36 | x37 => s37 | x38 => s38 | x39 => s39 | x40 => s40 | x41 => s41 | x42 => s42 | x43 => s43 | x44 => s44 | x45 => s45 | x46 => s46 | x47 => s47 | x48 => s48 | x49 => s49 | x50 => s50 | x51 => s51 | x52 => s52 | x53 => s53 | x54 => s54 | x55 => s55 | x56 => s56 | x57 => s57 | x58 => s58 | x59 => s59 | x60 => s60 | x61 => s61 | x62 => s62 | x63 => s63 end.
(** x + y. *)
Definition adc0 (x y : dig) : cd := match x with
 | x0 => match y with x0 => C0 x0 | x1 => C0 x1 | x2 => C0 x2 | x3 => C0 x3 | x4 => C0 x4 | x5 => C0 x5 | x6 => C0 x6 | x7 => C0 x7 | x8 => C0 x8 | x9 => C0 x9 | x10 => C0 x10 | x11 => C0 x11 | x12 => C0 x12 | x13 => C0 x13 | x14 => C0 x14 | x15 => C0 x15 | x16 => C0 x16 | x17 => C0 x17 | x18 => C0 x18 | x19 => C0 x19 | x20 => C0 x20 | x21 => C0 x21 | x22 => C0 x22 | x23 => C0 x23 | x24 => C0 x24 | x25 => C0 x25 | x26 => C0 x26 | x27 => C0 x27 | x28 => C0 x28 | x29 => C0 x29 | x30 => C0 x30 | x31 => C0 x31 | x32 => C0 x32 | x33 => C0 x33 | x34 => C0 x34 | x35 => C0 x35 | x36 => C0 x36 | x37 => C0 x37 | x38 => C0 x38 | x39 => C0 x39 | x40 => C0 x40 | x41 => C0 x41 | x42 => C0 x42 | x43 => C0 x43 | x44 => C0 x44 | x45 => C0 x45 | x46 => C0 x46 | x47 => C0 x47 | x48 => C0 x48 | x49 => C0 x49 | x50 => C0 x50 | x51 => C0 x51 | x52 => C0 x52 | x53 => C0 x53 | x54 => C0 x54 | x55 => C0 x55 | x56 => C0 x56 | x57 => C0 x57 | x58 => C0 x58 | x59 => C0 x59 | x60 => C0 x60 | x61 => C0 x61 | x62 => C0 x62 | x63 => C0 x63 end
 | x1 => match y with x0 => C0 x1 | x1 => C0 x2 | x2 => C0 x3 | x3 => C0 x4 | x4 => C0 x5 | x5 => C0 x6 | x6 => C0 x7 | x7 => C0 x8 | x8 => C0 x9 | x9 => C0 x10 | x10 => C0 x11 | x11 => C0 x12 | x12 => C0 x13 | x13 => C0 x14 | x14 => C0 x15 | x15 => C0 x16 | x16 => C0 x17 | x17 => C0 x18 | x18 => C0 x19 | x19 => C0 x20 | x20 => C0 x21 | x21 => C0 x22 | x22 => C0 x23 | x23 => C0 x24 | x24 => C0 x25 | x25 => C0 x26 | x26 => C0 x27 | x27 => C0 x28 | x28 => C0 x29 | x29 => C0 x30 | x30 => C0 x31 | x31 => C0 x32 | x32 => C0 x33 | x33 => C0 x34 | x34 => C0 x35 | x35 => C0 x36 | x36 => C0 x37 | x37 => C0 x38 | x38 => C0 x39 | x39 => C0 x40 | x40 => C0 x41 | x41 => C0 x42 | x42 => C0 x43 | x43 => C0 x44 | x44 => C0 x45 | x45 => C0 x46 | x46 => C0 x47 | x47 => C0 x48 | x48 => C0 x49 | x49 => C0 x50 | x50 => C0 x51 | x51 => C0 x52 | x52 => C0 x53 | x53 => C0 x54 | x54 => C0 x55 | x55 => C0 x56 | x56 => C0 x57 | x57 => C0 x58 | x58 => C0 x59 | x59 => C0 x60 | x60 => C0 x61 | x61 => C0 x62 | x62 => C0 x63 | x63 => C1 x0 end
 | x2 => match y with x0 => C0 x2 | x1 => C0 x3 | x2 => C0 x4 | x3 => C0 x5 | x4 => C0 x6 | x5 => C0 x7 | x6 => C0 x8 | x7 => C0 x9 | x8 => C0 x10 | x9 => C0 x11 | x10 => C0 x12 | x11 => C0 x13 | x12 => C0 x14 | x13 => C0 x15 | x14 => C0 x16 | x15 => C0 x17 | x16 => C0 x18 | x17 => C0 x19 | x18 => C0 x20 | x19 => C0 x21 | x20 => C0 x22 | x21 => C0 x23 | x22 => C0 x24 | x23 => C0 x25 | x24 => C0 x26 | x25 => C0 x27 | x26 => C0 x28 | x27 => C0 x29 | x28 => C0 x30 | x29 => C0 x31 | x30 => C0 x32 | x31 => C0 x33 | x32 => C0 x34 | x33 => C0 x35 | x34 => C0 x36 | x35 => C0 x37 | x36 => C0 x38 | x37 => C0 x39 | x38 => C0 x40 | x39 => C0 x41 | x40 => C0 x42 | x41 => C0 x43 | x42 => C0 x44 | x43 => C0 x45 | x44 => C0 x46 | x45 => C0 x47 | x46 => C0 x48 | x47 => C0 x49 | x48 => C0 x50 | x49 => C0 x51 | x50 => C0 x52 | x51 => C0 x53 | x52 => C0 x54 | x53 => C0 x55 | x54 => C0 x56 | x55 => C0 x57 | x56 => C0 x58 | x57 => C0 x59 | x58 => C0 x60 | x59 => C0 x61 | x60 => C0 x62 | x61 => C0 x63 | x62 => C1 x0 | x63 => C1 x1 end
 | x3 => match y with x0 => C0 x3 | x1 => C0 x4 | x2 => C0 x5 | x3 => C0 x6 | x4 => C0 x7 | x5 => C0 x8 | x6 => C0 x9 | x7 => C0 x10 | x8 => C0 x11 | x9 => C0 x12 | x10 => C0 x13 | x11 => C0 x14 | x12 => C0 x15 | x13 => C0 x16 | x14 => C0 x17 | x15 => C0 x18 | x16 => C0 x19 | x17 => C0 x20 | x18 => C0 x21 | x19 => C0 x22 | x20 => C0 x23 | x21 => C0 x24 | x22 => C0 x25 | x23 => C0 x26 | x24 => C0 x27 | x25 => C0 x28 | x26 => C0 x29 | x27 => C0 x30 | x28 => C0 x31 | x29 => C0 x32 | x30 => C0 x33 | x31 => C0 x34 | x32 => C0 x35 | x33 => C0 x36 | x34 => C0 x37 | x35 => C0 x38 | x36 => C0 x39 | x37 => C0 x40 | x38 => C0 x41 | x39 => C0 x42 | x40 => C0 x43 | x41 => C0 x44 | x42 => C0 x45 | x43 => C0 x46 | x44 => C0 x47 | x45 => C0 x48 | x46 => C0 x49 | x47 => C0 x50 | x48 => C0 x51 | x49 => C0 x52 | x50 => C0 x53 | x51 => C0 x54 | x52 => C0 x55 | x53 => C0 x56 | x54 => C0 x57 | x55 => C0 x58 | x56 => C0 x59 | x57 => C0 x60 | x58 => C0 x61 | x59 => C0 x62 | x60 => C0 x63 | x61 => C1 x0 | x62 => C1 x1 | x63 => C1 x2 end
 | x4 => match y with x0 => C0 x4 | x1 => C0 x5 | x2 => C0 x6 | x3 => C0 x7 | x4 => C0 x8 | x5 => C0 x9 | x6 => C0 x10 | x7 => C0 x11 | x8 => C0 x12 | x9 => C0 x13 | x10 => C0 x14 | x11 => C0 x15 | x12 => C0 x16 | x13 => C0 x17 | x14 => C0 x18 | x15 => C0 x19 | x16 => C0 x20 | x17 => C0 x21 | x18 => C0 x22 | x19 => C0 x23 | x20 => C0 x24 | x21 => C0 x25 | x22 => C0 x26 | x23 => C0 x27 | x24 => C0 x28 | x25 => C0 x29 | x26 => C0 x30 | x27 => C0 x31 | x28 => C0 x32 | x29 => C0 x33 | x30 => C0 x34 | x31 => C0 x35 | x32 => C0 x36 | x33 => C0 x37 | x34 => C0 x38 | x35 => C0 x39 | x36 => C0 x40 | x37 => C0 x41 | x38 => C0 x42 | x39 => C0 x43 | x40 => C0 x44 | x41 => C0 x45 | x42 => C0 x46 | x43 => C0 x47 | x44 => C0 x48 | x45 => C0 x49 | x46 => C0 x50 | x47 => C0 x51 | x48 => C0 x52 | x49 => C0 x53 | x50 => C0 x54 | x51 => C0 x55 | x52 => C0 x56 | x53 => C0 x57 | x54 => C0 x58 | x55 => C0 x59 | x56 => C0 x60 | x57 => C0 x61 | x58 => C0 x62 | x59 => C0 x63 | x60 => C1 x0 | x61 => C1 x1 | x62 => C1 x2 | x63 => C1 x3 end
 | x5 => match y with x0 => C0 x5 | x1 => C0 x6 | x2 => C0 x7 | x3 => C0 x8 | x4 => C0 x9 | x5 => C0 x10 | x6 => C0 x11 | x7 => C0 x12 | x8 => C0 x13 | x9 => C0 x14 | x10 => C0 x15 | x11 => C0 x16 | x12 => C0 x17 | x13 => C0 x18 | x14 => C0 x19 | x15 => C0 x20 | x16 => C0 x21 | x17 => C0 x22 | x18 => C0 x23 | x19 => C0 x24 | x20 => C0 x25 | x21 => C0 x26 | x22 => C0 x27 | x23 => C0 x28 | x24 => C0 x29 | x25 => C0 x30 | x26 => C0 x31 | x27 => C0 x32 | x28 => C0 x33 | x29 => C0 x34 | x30 => C0 x35 | x31 => C0 x36 | x32 => C0 x37 | x33 => C0 x38 | x34 => C0 x39 | x35 => C0 x40 | x36 => C0 x41 | x37 => C0 x42 | x38 => C0 x43 | x39 => C0 x44 | x40 => C0 x45 | x41 => C0 x46 | x42 => C0 x47 | x43 => C0 x48 | x44 => C0 x49 | x45 => C0 x50 | x46 => C0 x51 | x47 => C0 x52 | x48 => C0 x53 | x49 => C0 x54 | x50 => C0 x55 | x51 => C0 x56 | x52 => C0 x57 | x53 => C0 x58 | x54 => C0 x59 | x55 => C0 x60 | x56 => C0 x61 | x57 => C0 x62 | x58 => C0 x63 | x59 => C1 x0 | x60 => C1 x1 | x61 => C1 x2 | x62 => C1 x3 | x63 => C1 x4 end
 | x6 => match y with x0 => C0 x6 | x1 => C0 x7 | x2 => C0 x8 | x3 => C0 x9 | x4 => C0 x10 | x5 => C0 x11 | x6 => C0 x12 | x7 => C0 x13 | x8 => C0 x14 | x9 => C0 x15 | x10 => C0 x16 | x11 => C0 x17 | x12 => C0 x18 | x13 => C0 x19 | x14 => C0 x20 | x15 => C0 x21 | x16 => C0 x22 | x17 => C0 x23 | x18 => C0 x24 | x19 => C0 x25 | x20 => C0 x26 | x21 => C0 x27 | x22 => C0 x28 | x23 => C0 x29 | x24 => C0 x30 | x25 => C0 x31 | x26 => C0 x32 | x27 => C0 x33 | x28 => C0 x34 | x29 => C0 x35 | x30 => C0 x36 | x31 => C0 x37 | x32 => C0 x38 | x33 => C0 x39 | x34 => C0 x40 | x35 => C0 x41 | x36 => C0 x42 | x37 => C0 x43 | x38 => C0 x44 | x39 => C0 x45 | x40 => C0 x46 | x41 => C0 x47 | x42 => C0 x48 | x43 => C0 x49 | x44 => C0 x50 | x45 => C0 x51 | x46 => C0 x52 | x47 => C0 x53 | x48 => C0 x54 | x49 => C0 x55 | x50 => C0 x56 | x51 => C0 x57 | x52 => C0 x58 | x53 => C0 x59 | x54 => C0 x60 | x55 => C0 x61 | x56 => C0 x62 | x57 => C0 x63 | x58 => C1 x0 | x59 => C1 x1 | x60 => C1 x2 | x61 => C1 x3 | x62 => C1 x4 | x63 => C1 x5 end
 | x7 => match y with x0 => C0 x7 | x1 => C0 x8 | x2 => C0 x9 | x3 => C0 x10 | x4 => C0 x11 | x5 => C0 x12 | x6 => C0 x13 | x7 => C0 x14 | x8 => C0 x15 | x9 => C0 x16 | x10 => C0 x17 | x11 => C0 x18 | x12 => C0 x19 | x13 => C0 x20 | x14 => C0 x21 | x15 => C0 x22 | x16 => C0 x23 | x17 => C0 x24 | x18 => C0 x25 | x19 => C0 x26 | x20 => C0 x27 | x21 => C0 x28 | x22 => C0 x29 | x23 => C0 x30 | x24 => C0 x31 | x25 => C0 x32 | x26 => C0 x33 | x27 => C0 x34 | x28 => C0 x35 | x29 => C0 x36 | x30 => C0 x37 | x31 => C0 x38 | x32 => C0 x39 | x33 => C0 x40 | x34 => C0 x41 | x35 => C0 x42 | x36 => C0 x43 | x37 => C0 x44 | x38 => C0 x45 | x39 => C0 x46 | x40 => C0 x47 | x41 => C0 x48 | x42 => C0 x49 | x43 => C0 x50 | x44 => C0 x51 | x45 => C0 x52 | x46 => C0 x53 | x47 => C0 x54 | x48 => C0 x55 | x49 => C0 x56 | x50 => C0 x57 | x51 => C0 x58 | x52 => C0 x59 | x53 => C0 x60 | x54 => C0 x61 | x55 => C0 x62 | x56 => C0 x63 | x57 => C1 x0 | x58 => C1 x1 | x59 => C1 x2 | x60 => C1 x3 | x61 => C1 x4 | x62 => C1 x5 | x63 => C1 x6 end
 | x8 => match y with x0 => C0 x8 | x1 => C0 x9 | x2 => C0 x10 | x3 => C0 x11 | x4 => C0 x12 | x5 => C0 x13 | x6 => C0 x14 | x7 => C0 x15 | x8 => C0 x16 | x9 => C0 x17 | x10 => C0 x18 | x11 => C0 x19 | x12 => C0 x20 | x13 => C0 x21 | x14 => C0 x22 | x15 => C0 x23 | x16 => C0 x24 | x17 => C0 x25 | x18 => C0 x26 | x19 => C0 x27 | x20 => C0 x28 | x21 => C0 x29 | x22 => C0 x30 | x23 => C0 x31 | x24 => C0 x32 | x25 => C0 x33 | x26 => C0 x34 | x27 => C0 x35 | x28 => C0 x36 | x29 => C0 x37 | x30 => C0 x38 | x31 => C0 x39 | x32 => C0 x40 | x33 => C0 x41 | x34 => C0 x42 | x35 => C0 x43 | x36 => C0 x44 | x37 => C0 x45 | x38 => C0 x46 | x39 => C0 x47 | x40 => C0 x48 | x41 => C0 x49 | x42 => C0 x50 | x43 => C0 x51 | x44 => C0 x52 | x45 => C0 x53 | x46 => C0 x54 | x47 => C0 x55 | x48 => C0 x56 | x49 => C0 x57 | x50 => C0 x58 | x51 => C0 x59 | x52 => C0 x60 | x53 => C0 x61 | x54 => C0 x62 | x55 => C0 x63 | x56 => C1 x0 | x57 => C1 x1 | x58 => C1 x2 | x59 => C1 x3 | x60 => C1 x4 | x61 => C1 x5 | x62 => C1 x6 | x63 => C1 x7 end
 | x9 => match y with x0 => C0 x9 | x1 => C0 x10 | x2 => C0 x11 | x3 => C0 x12 | x4 => C0 x13 | x5 => C0 x14 | x6 => C0 x15 | x7 => C0 x16 | x8 => C0 x17 | x9 => C0 x18 | x10 => C0 x19 | x11 => C0 x20 | x12 => C0 x21 | x13 => C0 x22 | x14 => C0 x23 | x15 => C0 x24 | x16 => C0 x25 | x17 => C0 x26 | x18 => C0 x27 | x19 => C0 x28 | x20 => C0 x29 | x21 => C0 x30 | x22 => C0 x31 | x23 => C0 x32 | x24 => C0 x33 | x25 => C0 x34 | x26 => C0 x35 | x27 => C0 x36 | x28 => C0 x37 | x29 => C0 x38 | x30 => C0 x39 | x31 => C0 x40 | x32 => C0 x41 | x33 => C0 x42 | x34 => C0 x43 | x35 => C0 x44 | x36 => C0 x45 | x37 => C0 x46 | x38 => C0 x47 | x39 => C0 x48 | x40 => C0 x49 | x41 => C0 x50 | x42 => C0 x51 | x43 => C0 x52 | x44 => C0 x53 | x45 => C0 x54 | x46 => C0 x55 | x47 => C0 x56 | x48 => C0 x57 | x49 => C0 x58 | x50 => C0 x59 | x51 => C0 x60 | x52 => C0 x61 | x53 => C0 x62 | x54 => C0 x63 | x55 => C1 x0 | x56 => C1 x1 | x57 => C1 x2 | x58 => C1 x3 | x59 => C1 x4 | x60 => C1 x5 | x61 => C1 x6 | x62 => C1 x7 | x63 => C1 x8 end
 | x10 => match y with x0 => C0 x10 | x1 => C0 x11 | x2 => C0 x12 | x3 => C0 x13 | x4 => C0 x14 | x5 => C0 x15 | x6 => C0 x16 | x7 => C0 x17 | x8 => C0 x18 | x9 => C0 x19 | x10 => C0 x20 | x11 => C0 x21 | x12 => C0 x22 | x13 => C0 x23 | x14 => C0 x24 | x15 => C0 x25 | x16 => C0 x26 | x17 => C0 x27 | x18 => C0 x28 | x19 => C0 x29 | x20 => C0 x30 | x21 => C0 x31 | x22 => C0 x32 | x23 => C0 x33 | x24 => C0 x34 | x25 => C0 x35 | x26 => C0 x36 | x27 => C0 x37 | x28 => C0 x38 | x29 => C0 x39 | x30 => C0 x40 | x31 => C0 x41 | x32 => C0 x42 | x33 => C0 x43 | x34 => C0 x44 | x35 => C0 x45 | x36 => C0 x46 | x37 => C0 x47 | x38 => C0 x48 | x39 => C0 x49 | x40 => C0 x50 | x41 => C0 x51 | x42 => C0 x52 | x43 => C0 x53 | x44 => C0 x54 | x45 => C0 x55 | x46 => C0 x56 | x47 => C0 x57 | x48 => C0 x58 | x49 => C0 x59 | x50 => C0 x60 | x51 => C0 x61 | x52 => C0 x62 | x53 => C0 x63 | x54 => C1 x0 | x55 => C1 x1 | x56 => C1 x2 | x57 => C1 x3 | x58 => C1 x4 | x59 => C1 x5 | x60 => C1 x6 | x61 => C1 x7 | x62 => C1 x8 | x63 => C1 x9 end
 | x11 => match y with x0 => C0 x11 | x1 => C0 x12 | x2 => C0 x13 | x3 => C0 x14 | x4 => C0 x15 | x5 => C0 x16 | x6 => C0 x17 | x7 => C0 x18 | x8 => C0 x19 | x9 => C0 x20 | x10 => C0 x21 | x11 => C0 x22 | x12 => C0 x23 | x13 => C0 x24 | x14 => C0 x25 | x15 => C0 x26 | x16 => C0 x27 | x17 => C0 x28 | x18 => C0 x29 | x19 => C0 x30 | x20 => C0 x31 | x21 => C0 x32 | x22 => C0 x33 | x23 => C0 x34 | x24 => C0 x35 | x25 => C0 x36 | x26 => C0 x37 | x27 => C0 x38 | x28 => C0 x39 | x29 => C0 x40 | x30 => C0 x41 | x31 => C0 x42 | x32 => C0 x43 | x33 => C0 x44 | x34 => C0 x45 | x35 => C0 x46 | x36 => C0 x47 | x37 => C0 x48 | x38 => C0 x49 | x39 => C0 x50 | x40 => C0 x51 | x41 => C0 x52 | x42 => C0 x53 | x43 => C0 x54 | x44 => C0 x55 | x45 => C0 x56 | x46 => C0 x57 | x47 => C0 x58 | x48 => C0 x59 | x49 => C0 x60 | x50 => C0 x61 | x51 => C0 x62 | x52 => C0 x63 | x53 => C1 x0 | x54 => C1 x1 | x55 => C1 x2 | x56 => C1 x3 | x57 => C1 x4 | x58 => C1 x5 | x59 => C1 x6 | x60 => C1 x7 | x61 => C1 x8 | x62 => C1 x9 | x63 => C1 x10 end
 | x12 => match y with x0 => C0 x12 | x1 => C0 x13 | x2 => C0 x14 | x3 => C0 x15 | x4 => C0 x16 | x5 => C0 x17 | x6 => C0 x18 | x7 => C0 x19 | x8 => C0 x20 | x9 => C0 x21 | x10 => C0 x22 | x11 => C0 x23 | x12 => C0 x24 | x13 => C0 x25 | x14 => C0 x26 | x15 => C0 x27 | x16 => C0 x28 | x17 => C0 x29 | x18 => C0 x30 | x19 => C0 x31 | x20 => C0 x32 | x21 => C0 x33 | x22 => C0 x34 | x23 => C0 x35 | x24 => C0 x36 | x25 => C0 x37 | x26 => C0 x38 | x27 => C0 x39 | x28 => C0 x40 | x29 => C0 x41 | x30 => C0 x42 | x31 => C0 x43 | x32 => C0 x44 | x33 => C0 x45 | x34 => C0 x46 | x35 => C0 x47 | x36 => C0 x48 | x37 => C0 x49 | x38 => C0 x50 | x39 => C0 x51 | x40 => C0 x52 | x41 => C0 x53 | x42 => C0 x54 | x43 => C0 x55 | x44 => C0 x56 | x45 => C0 x57 | x46 => C0 x58 | x47 => C0 x59 | x48 => C0 x60 | x49 => C0 x61 | x50 => C0 x62 | x51 => C0 x63 | x52 => C1 x0 | x53 => C1 x1 | x54 => C1 x2 | x55 => C1 x3 | x56 => C1 x4 | x57 => C1 x5 | x58 => C1 x6 | x59 => C1 x7 | x60 => C1 x8 | x61 => C1 x9 | x62 => C1 x10 | x63 => C1 x11 end
 | x13 => match y with x0 => C0 x13 | x1 => C0 x14 | x2 => C0 x15 | x3 => C0 x16 | x4 => C0 x17 | x5 => C0 x18 | x6 => C0 x19 | x7 => C0 x20 | x8 => C0 x21 | x9 => C0 x22 | x10 => C0 x23 | x11 => C0 x24 | x12 => C0 x25 | x13 => C0 x26 | x14 => C0 x27 | x15 => C0 x28 | x16 => C0 x29 | x17 => C0 x30 | x18 => C0 x31 | x19 => C0 x32 | x20 => C0 x33 | x21 => C0 x34 | x22 => C0 x35 | x23 => C0 x36 | x24 => C0 x37 | x25 => C0 x38 | x26 => C0 x39 | x27 => C0 x40 | x28 => C0 x41 | x29 => C0 x42 | x30 => C0 x43 | x31 => C0 x44 | x32 => C0 x45 | x33 => C0 x46 | x34 => C0 x47 | x35 => C0 x48 | x36 => C0 x49 | x37 => C0 x50 | x38 => C0 x51 | x39 => C0 x52 | x40 => C0 x53 | x41 => C0 x54 | x42 => C0 x55 | x43 => C0 x56 | x44 => C0 x57 | x45 => C0 x58 | x46 => C0 x59 | x47 => C0 x60 | x48 => C0 x61 | x49 => C0 x62 | x50 => C0 x63 | x51 => C1 x0 | x52 => C1 x1 | x53 => C1 x2 | x54 => C1 x3 | x55 => C1 x4 | x56 => C1 x5 | x57 => C1 x6 | x58 => C1 x7 | x59 => C1 x8 | x60 => C1 x9 | x61 => C1 x10 | x62 => C1 x11 | x63 => C1 x12 end
 | x14 => match y with x0 => C0 x14 | x1 => C0 x15 | x2 => C0 x16 | x3 => C0 x17 | x4 => C0 x18 | x5 => C0 x19 | x6 => C0 x20 | x7 => C0 x21 | x8 => C0 x22 | x9 => C0 x23 | x10 => C0 x24 | x11 => C0 x25 | x12 => C0 x26 | x13 => C0 x27 | x14 => C0 x28 | x15 => C0 x29 | x16 => C0 x30 | x17 => C0 x31 | x18 => C0 x32 | x19 => C0 x33 | x20 => C0 x34 | x21 => C0 x35 | x22 => C0 x36 | x23 => C0 x37 | x24 => C0 x38 | x25 => C0 x39 | x26 => C0 x40 | x27 => C0 x41 | x28 => C0 x42 | x29 => C0 x43 | x30 => C0 x44 | x31 => C0 x45 | x32 => C0 x46 | x33 => C0 x47 | x34 => C0 x48 | x35 => C0 x49 | x36 => C0 x50 | x37 => C0 x51 | x38 => C0 x52 | x39 => C0 x53 | x40 => C0 x54 | x41 => C0 x55 | x42 => C0 x56 | x43 => C0 x57 | x44 => C0 x58 | x45 => C0 x59 | x46 => C0 x60 | x47 => C0 x61 | x48 => C0 x62 | x49 => C0 x63 | x50 => C1 x0 | x51 => C1 x1 | x52 => C1 x2 | x53 => C1 x3 | x54 => C1 x4 | x55 => C1 x5 | x56 => C1 x6 | x57 => C1 x7 | x58 => C1 x8 | x59 => C1 x9 | x60 => C1 x10 | x61 => C1 x11 | x62 => C1 x12 | x63 => C1 x13 end
 | x15 => match y with x0 => C0 x15 | x1 => C0 x16 | x2 => C0 x17 | x3 => C0 x18 | x4 => C0 x19 | x5 => C0 x20 | x6 => C0 x21 | x7 => C0 x22 | x8 => C0 x23 | x9 => C0 x24 | x10 => C0 x25 | x11 => C0 x26 | x12 => C0 x27 | x13 => C0 x28 | x14 => C0 x29 | x15 => C0 x30 | x16 => C0 x31 | x17 => C0 x32 | x18 => C0 x33 | x19 => C0 x34 | x20 => C0 x35 | x21 => C0 x36 | x22 => C0 x37 | x23 => C0 x38 | x24 => C0 x39 | x25 => C0 x40 | x26 => C0 x41 | x27 => C0 x42 | x28 => C0 x43 | x29 => C0 x44 | x30 => C0 x45 | x31 => C0 x46 | x32 => C0 x47 | x33 => C0 x48 | x34 => C0 x49 | x35 => C0 x50 | x36 => C0 x51 | x37 => C0 x52 | x38 => C0 x53 | x39 => C0 x54 | x40 => C0 x55 | x41 => C0 x56 | x42 => C0 x57 | x43 => C0 x58 | x44 => C0 x59 | x45 => C0 x60 | x46 => C0 x61 | x47 => C0 x62 | x48 => C0 x63 | x49 => C1 x0 | x50 => C1 x1 | x51 => C1 x2 | x52 => C1 x3 | x53 => C1 x4 | x54 => C1 x5 | x55 => C1 x6 | x56 => C1 x7 | x57 => C1 x8 | x58 => C1 x9 | x59 => C1 x10 | x60 => C1 x11 | x61 => C1 x12 | x62 => C1 x13 | x63 => C1 x14 end
 | x16 => match y with x0 => C0 x16 | x1 => C0 x17 | x2 => C0 x18 | x3 => C0 x19 | x4 => C0 x20 | x5 => C0 x21 | x6 => C0 x22 | x7 => C0 x23 | x8 => C0 x24 | x9 => C0 x25 | x10 => C0 x26 | x11 => C0 x27 | x12 => C0 x28 | x13 => C0 x29 | x14 => C0 x30 | x15 => C0 x31 | x16 => C0 x32 | x17 => C0 x33 | x18 => C0 x34 | x19 => C0 x35 | x20 => C0 x36 | x21 => C0 x37 | x22 => C0 x38 | x23 => C0 x39 | x24 => C0 x40 | x25 => C0 x41 | x26 => C0 x42 | x27 => C0 x43 | x28 => C0 x44 | x29 => C0 x45 | x30 => C0 x46 | x31 => C0 x47 | x32 => C0 x48 | x33 => C0 x49 | x34 => C0 x50 | x35 => C0 x51 | x36 => C0 x52 | x37 => C0 x53 | x38 => C0 x54 | x39 => C0 x55 | x40 => C0 x56 | x41 => C0 x57 | x42 => C0 x58 | x43 => C0 x59 | x44 => C0 x60 | x45 => C0 x61 | x46 => C0 x62 | x47 => C0 x63 | x48 => C1 x0 | x49 => C1 x1 | x50 => C1 x2 | x51 => C1 x3 | x52 => C1 x4 | x53 => C1 x5 | x54 => C1 x6 | x55 => C1 x7 | x56 => C1 x8 | x57 => C1 x9 | x58 => C1 x10 | x59 => C1 x11 | x60 => C1 x12 | x61 => C1 x13 | x62 => C1 x14 | x63 => C1 x15 end
 | x17 => match y with x0 => C0 x17 | x1 => C0 x18 | x2 => C0 x19 | x3 => C0 x20 | x4 => C0 x21 | x5 => C0 x22 | x6 => C0 x23 | x7 => C0 x24 | x8 => C0 x25 | x9 => C0 x26 | x10 => C0 x27 | x11 => C0 x28 | x12 => C0 x29 | x13 => C0 x30 | x14 => C0 x31 | x15 => C0 x32 | x16 => C0 x33 | x17 => C0 x34 | x18 => C0 x35 | x19 => C0 x36 | x20 => C0 x37 | x21 => C0 x38 | x22 => C0 x39 | x23 => C0 x40 | x24 => C0 x41 | x25 => C0 x42 | x26 => C0 x43 | x27 => C0 x44 | x28 => C0 x45 | x29 => C0 x46 | x30 => C0 x47 | x31 => C0 x48 | x32 => C0 x49 | x33 => C0 x50 | x34 => C0 x51 | x35 => C0 x52 | x36 => C0 x53 | x37 => C0 x54 | x38 => C0 x55 | x39 => C0 x56 | x40 => C0 x57 | x41 => C0 x58 | x42 => C0 x59 | x43 => C0 x60 | x44 => C0 x61 | x45 => C0 x62 | x46 => C0 x63 | x47 => C1 x0 | x48 => C1 x1 | x49 => C1 x2 | x50 => C1 x3 | x51 => C1 x4 | x52 => C1 x5 | x53 => C1 x6 | x54 => C1 x7 | x55 => C1 x8 | x56 => C1 x9 | x57 => C1 x10 | x58 => C1 x11 | x59 => C1 x12 | x60 => C1 x13 | x61 => C1 x14 | x62 => C1 x15 | x63 => C1 x16 end
 | x18 => match y with x0 => C0 x18 | x1 => C0 x19 | x2 => C0 x20 | x3 => C0 x21 | x4 => C0 x22 | x5 => C0 x23 | x6 => C0 x24 | x7 => C0 x25 | x8 => C0 x26 | x9 => C0 x27 | x10 => C0 x28 | x11 => C0 x29 | x12 => C0 x30 | x13 => C0 x31 | x14 => C0 x32 | x15 => C0 x33 | x16 => C0 x34 | x17 => C0 x35 | x18 => C0 x36 | x19 => C0 x37 | x20 => C0 x38 | x21 => C0 x39 | x22 => C0 x40 | x23 => C0 x41 | x24 => C0 x42 | x25 => C0 x43 | x26 => C0 x44 | x27 => C0 x45 | x28 => C0 x46 | x29 => C0 x47 | x30 => C0 x48 | x31 => C0 x49 | x32 => C0 x50 | x33 => C0 x51 | x34 => C0 x52 | x35 => C0 x53 | x36 => C0 x54 | x37 => C0 x55 | x38 => C0 x56 | x39 => C0 x57 | x40 => C0 x58 | x41 => C0 x59 | x42 => C0 x60 | x43 => C0 x61 | x44 => C0 x62 | x45 => C0 x63 | x46 => C1 x0 | x47 => C1 x1 | x48 => C1 x2 | x49 => C1 x3 | x50 => C1 x4 | x51 => C1 x5 | x52 => C1 x6 | x53 => C1 x7 | x54 => C1 x8 | x55 => C1 x9 | x56 => C1 x10 | x57 => C1 x11 | x58 => C1 x12 | x59 => C1 x13 | x60 => C1 x14 | x61 => C1 x15 | x62 => C1 x16 | x63 => C1 x17 end
 | x19 => match y with x0 => C0 x19 | x1 => C0 x20 | x2 => C0 x21 | x3 => C0 x22 | x4 => C0 x23 | x5 => C0 x24 | x6 => C0 x25 | x7 => C0 x26 | x8 => C0 x27 | x9 => C0 x28 | x10 => C0 x29 | x11 => C0 x30 | x12 => C0 x31 | x13 => C0 x32 | x14 => C0 x33 | x15 => C0 x34 | x16 => C0 x35 | x17 => C0 x36 | x18 => C0 x37 | x19 => C0 x38 | x20 => C0 x39 | x21 => C0 x40 | x22 => C0 x41 | x23 => C0 x42 | x24 => C0 x43 | x25 => C0 x44 | x26 => C0 x45 | x27 => C0 x46 | x28 => C0 x47 | x29 => C0 x48 | x30 => C0 x49 | x31 => C0 x50 | x32 => C0 x51 | x33 => C0 x52 | x34 => C0 x53 | x35 => C0 x54 | x36 => C0 x55 | x37 => C0 x56 | x38 => C0 x57 | x39 => C0 x58 | x40 => C0 x59 | x41 => C0 x60 | x42 => C0 x61 | x43 => C0 x62 | x44 => C0 x63 | x45 => C1 x0 | x46 => C1 x1 | x47 => C1 x2 | x48 => C1 x3 | x49 => C1 x4 | x50 => C1 x5 | x51 => C1 x6 | x52 => C1 x7 | x53 => C1 x8 | x54 => C1 x9 | x55 => C1 x10 | x56 => C1 x11 | x57 => C1 x12 | x58 => C1 x13 | x59 => C1 x14 | x60 => C1 x15 | x61 => C1 x16 | x62 => C1 x17 | x63 => C1 x18 end
 | x20 => match y with x0 => C0 x20 | x1 => C0 x21 | x2 => C0 x22 | x3 => C0 x23 | x4 => C0 x24 | x5 => C0 x25 | x6 => C0 x26 | x7 => C0 x27 | x8 => C0 x28 | x9 => C0 x29 | x10 => C0 x30 | x11 => C0 x31 | x12 => C0 x32 | x13 => C0 x33 | x14 => C0 x34 | x15 => C0 x35 | x16 => C0 x36 | x17 => C0 x37 | x18 => C0 x38 | x19 => C0 x39 | x20 => C0 x40 | x21 => C0 x41 | x22 => C0 x42 | x23 => C0 x43 | x24 => C0 x44 | x25 => C0 x45 | x26 => C0 x46 | x27 => C0 x47 | x28 => C0 x48 | x29 => C0 x49 | x30 => C0 x50 | x31 => C0 x51 | x32 => C0 x52 | x33 => C0 x53 | x34 => C0 x54 | x35 => C0 x55 | x36 => C0 x56 | x37 => C0 x57 | x38 => C0 x58 | x39 => C0 x59 | x40 => C0 x60 | x41 => C0 x61 | x42 => C0 x62 | x43 => C0 x63 | x44 => C1 x0 | x45 => C1 x1 | x46 => C1 x2 | x47 => C1 x3 | x48 => C1 x4 | x49 => C1 x5 | x50 => C1 x6 | x51 => C1 x7 | x52 => C1 x8 | x53 => C1 x9 | x54 => C1 x10 | x55 => C1 x11 | x56 => C1 x12 | x57 => C1 x13 | x58 => C1 x14 | x59 => C1 x15 | x60 => C1 x16 | x61 => C1 x17 | x62 => C1 x18 | x63 => C1 x19 end
 | x21 => match y with x0 => C0 x21 | x1 => C0 x22 | x2 => C0 x23 | x3 => C0 x24 | x4 => C0 x25 | x5 => C0 x26 | x6 => C0 x27 | x7 => C0 x28 | x8 => C0 x29 | x9 => C0 x30 | x10 => C0 x31 | x11 => C0 x32 | x12 => C0 x33 | x13 => C0 x34 | x14 => C0 x35 | x15 => C0 x36 | x16 => C0 x37 | x17 => C0 x38 | x18 => C0 x39 | x19 => C0 x40 | x20 => C0 x41 | x21 => C0 x42 | x22 => C0 x43 | x23 => C0 x44 | x24 => C0 x45 | x25 => C0 x46 | x26 => C0 x47 | x27 => C0 x48 | x28 => C0 x49 | x29 => C0 x50 | x30 => C0 x51 | x31 => C0 x52 | x32 => C0 x53 | x33 => C0 x54 | x34 => C0 x55 | x35 => C0 x56 | x36 => C0 x57 | x37 => C0 x58 | x38 => C0 x59 | x39 => C0 x60 | x40 => C0 x61 | x41 => C0 x62 | x42 => C0 x63 | x43 => C1 x0 | x44 => C1 x1 | x45 => C1 x2 | x46 => C1 x3 | x47 => C1 x4 | x48 => C1 x5 | x49 => C1 x6 | x50 => C1 x7 | x51 => C1 x8 | x52 => C1 x9 | x53 => C1 x10 | x54 => C1 x11 | x55 => C1 x12 | x56 => C1 x13 | x57 => C1 x14 | x58 => C1 x15 | x59 => C1 x16 | x60 => C1 x17 | x61 => C1 x18 | x62 => C1 x19 | x63 => C1 x20 end
 | x22 => match y with x0 => C0 x22 | x1 => C0 x23 | x2 => C0 x24 | x3 => C0 x25 | x4 => C0 x26 | x5 => C0 x27 | x6 => C0 x28 | x7 => C0 x29 | x8 => C0 x30 | x9 => C0 x31 | x10 => C0 x32 | x11 => C0 x33 | x12 => C0 x34 | x13 => C0 x35 | x14 => C0 x36 | x15 => C0 x37 | x16 => C0 x38 | x17 => C0 x39 | x18 => C0 x40 | x19 => C0 x41 | x20 => C0 x42 | x21 => C0 x43 | x22 => C0 x44 | x23 => C0 x45 | x24 => C0 x46 | x25 => C0 x47 | x26 => C0 x48 | x27 => C0 x49 | x28 => C0 x50 | x29 => C0 x51 | x30 => C0 x52 | x31 => C0 x53 | x32 => C0 x54 | x33 => C0 x55 | x34 => C0 x56 | x35 => C0 x57 | x36 => C0 x58 | x37 => C0 x59 | x38 => C0 x60 | x39 => C0 x61 | x40 => C0 x62 | x41 => C0 x63 | x42 => C1 x0 | x43 => C1 x1 | x44 => C1 x2 | x45 => C1 x3 | x46 => C1 x4 | x47 => C1 x5 | x48 => C1 x6 | x49 => C1 x7 | x50 => C1 x8 | x51 => C1 x9 | x52 => C1 x10 | x53 => C1 x11 | x54 => C1 x12 | x55 => C1 x13 | x56 => C1 x14 | x57 => C1 x15 | x58 => C1 x16 | x59 => C1 x17 | x60 => C1 x18 | x61 => C1 x19 | x62 => C1 x20 | x63 => C1 x21 end
 | x23 => match y with x0 => C0 x23 | x1 => C0 x24 | x2 => C0 x25 | x3 => C0 x26 | x4 => C0 x27 | x5 => C0 x28 | x6 => C0 x29 | x7 => C0 x30 | x8 => C0 x31 | x9 => C0 x32 | x10 => C0 x33 | x11 => C0 x34 | x12 => C0 x35 | x13 => C0 x36 | x14 => C0 x37 | x15 => C0 x38 | x16 => C0 x39 | x17 => C0 x40 | x18 => C0 x41 | x19 => C0 x42 | x20 => C0 x43 | x21 => C0 x44 | x22 => C0 x45 | x23 => C0 x46 | x24 => C0 x47 | x25 => C0 x48 | x26 => C0 x49 | x27 => C0 x50 | x28 => C0 x51 | x29 => C0 x52 | x30 => C0 x53 | x31 => C0 x54 | x32 => C0 x55 | x33 => C0 x56 | x34 => C0 x57 | x35 => C0 x58 | x36 => C0 x59 | x37 => C0 x60 | x38 => C0 x61 | x39 => C0 x62 | x40 => C0 x63 | x41 => C1 x0 | x42 => C1 x1 | x43 => C1 x2 | x44 => C1 x3 | x45 => C1 x4 | x46 => C1 x5 | x47 => C1 x6 | x48 => C1 x7 | x49 => C1 x8 | x50 => C1 x9 | x51 => C1 x10 | x52 => C1 x11 | x53 => C1 x12 | x54 => C1 x13 | x55 => C1 x14 | x56 => C1 x15 | x57 => C1 x16 | x58 => C1 x17 | x59 => C1 x18 | x60 => C1 x19 | x61 => C1 x20 | x62 => C1 x21 | x63 => C1 x22 end
 | x24 => match y with x0 => C0 x24 | x1 => C0 x25 | x2 => C0 x26 | x3 => C0 x27 | x4 => C0 x28 | x5 => C0 x29 | x6 => C0 x30 | x7 => C0 x31 | x8 => C0 x32 | x9 => C0 x33 | x10 => C0 x34 | x11 => C0 x35 | x12 => C0 x36 | x13 => C0 x37 | x14 => C0 x38 | x15 => C0 x39 | x16 => C0 x40 | x17 => C0 x41 | x18 => C0 x42 | x19 => C0 x43 | x20 => C0 x44 | x21 => C0 x45 | x22 => C0 x46 | x23 => C0 x47 | x24 => C0 x48 | x25 => C0 x49 | x26 => C0 x50 | x27 => C0 x51 | x28 => C0 x52 | x29 => C0 x53 | x30 => C0 x54 | x31 => C0 x55 | x32 => C0 x56 | x33 => C0 x57 | x34 => C0 x58 | x35 => C0 x59 | x36 => C0 x60 | x37 => C0 x61 | x38 => C0 x62 | x39 => C0 x63 | x40 => C1 x0 | x41 => C1 x1 | x42 => C1 x2 | x43 => C1 x3 | x44 => C1 x4 | x45 => C1 x5 | x46 => C1 x6 | x47 => C1 x7 | x48 => C1 x8 | x49 => C1 x9 | x50 => C1 x10 | x51 => C1 x11 | x52 => C1 x12 | x53 => C1 x13 | x54 => C1 x14 | x55 => C1 x15 | x56 => C1 x16 | x57 => C1 x17 | x58 => C1 x18 | x59 => C1 x19 | x60 => C1 x20 | x61 => C1 x21 | x62 => C1 x22 | x63 => C1 x23 end
 | x25 => match y with x0 => C0 x25 | x1 => C0 x26 | x2 => C0 x27 | x3 => C0 x28 | x4 => C0 x29 | x5 => C0 x30 | x6 => C0 x31 | x7 => C0 x32 | x8 => C0 x33 | x9 => C0 x34 | x10 => C0 x35 | x11 => C0 x36 | x12 => C0 x37 | x13 => C0 x38 | x14 => C0 x39 | x15 => C0 x40 | x16 => C0 x41 | x17 => C0 x42 | x18 => C0 x43 | x19 => C0 x44 | x20 => C0 x45 | x21 => C0 x46 | x22 => C0 x47 | x23 => C0 x48 | x24 => C0 x49 | x25 => C0 x50 | x26 => C0 x51 | x27 => C0 x52 | x28 => C0 x53 | x29 => C0 x54 | x30 => C0 x55 | x31 => C0 x56 | x32 => C0 x57 | x33 => C0 x58 | x34 => C0 x59 | x35 => C0 x60 | x36 => C0 x61 | x37 => C0 x62 | x38 => C0 x63 | x39 => C1 x0 | x40 => C1 x1 | x41 => C1 x2 | x42 => C1 x3 | x43 => C1 x4 | x44 => C1 x5 | x45 => C1 x6 | x46 => C1 x7 | x47 => C1 x8 | x48 => C1 x9 | x49 => C1 x10 | x50 => C1 x11 | x51 => C1 x12 | x52 => C1 x13 | x53 => C1 x14 | x54 => C1 x15 | x55 => C1 x16 | x56 => C1 x17 | x57 => C1 x18 | x58 => C1 x19 | x59 => C1 x20 | x60 => C1 x21 | x61 => C1 x22 | x62 => C1 x23 | x63 => C1 x24 end
 | x26 => match y with x0 => C0 x26 | x1 => C0 x27 | x2 => C0 x28 | x3 => C0 x29 | x4 => C0 x30 | x5 => C0 x31 | x6 => C0 x32 | x7 => C0 x33 | x8 => C0 x34 | x9 => C0 x35 | x10 => C0 x36 | x11 => C0 x37 | x12 => C0 x38 | x13 => C0 x39 | x14 => C0 x40 | x15 => C0 x41 | x16 => C0 x42 | x17 => C0 x43 | x18 => C0 x44 | x19 => C0 x45 | x20 => C0 x46 | x21 => C0 x47 | x22 => C0 x48 | x23 => C0 x49 | x24 => C0 x50 | x25 => C0 x51 | x26 => C0 x52 | x27 => C0 x53 | x28 => C0 x54 | x29 => C0 x55 | x30 => C0 x56 | x31 => C0 x57 | x32 => C0 x58 | x33 => C0 x59 | x34 => C0 x60 | x35 => C0 x61 | x36 => C0 x62 | x37 => C0 x63 | x38 => C1 x0 | x39 => C1 x1 | x40 => C1 x2 | x41 => C1 x3 | x42 => C1 x4 | x43 => C1 x5 | x44 => C1 x6 | x45 => C1 x7 | x46 => C1 x8 | x47 => C1 x9 | x48 => C1 x10 | x49 => C1 x11 | x50 => C1 x12 | x51 => C1 x13 | x52 => C1 x14 | x53 => C1 x15 | x54 => C1 x16 | x55 => C1 x17 | x56 => C1 x18 | x57 => C1 x19 | x58 => C1 x20 | x59 => C1 x21 | x60 => C1 x22 | x61 => C1 x23 | x62 => C1 x24 | x63 => C1 x25 end
 | x27 => match y with x0 => C0 x27 | x1 => C0 x28 | x2 => C0 x29 | x3 => C0 x30 | x4 => C0 x31 | x5 => C0 x32 | x6 => C0 x33 | x7 => C0 x34 | x8 => C0 x35 | x9 => C0 x36 | x10 => C0 x37 | x11 => C0 x38 | x12 => C0 x39 | x13 => C0 x40 | x14 => C0 x41 | x15 => C0 x42 | x16 => C0 x43 | x17 => C0 x44 | x18 => C0 x45 | x19 => C0 x46 | x20 => C0 x47 | x21 => C0 x48 | x22 => C0 x49 | x23 => C0 x50 | x24 => C0 x51 | x25 => C0 x52 | x26 => C0 x53 | x27 => C0 x54 | x28 => C0 x55 | x29 => C0 x56 | x30 => C0 x57 | x31 => C0 x58 | x32 => C0 x59 | x33 => C0 x60 | x34 => C0 x61 | x35 => C0 x62 | x36 => C0 x63 | x37 => C1 x0 | x38 => C1 x1 | x39 => C1 x2 | x40 => C1 x3 | x41 => C1 x4 | x42 => C1 x5 | x43 => C1 x6 | x44 => C1 x7 | x45 => C1 x8 | x46 => C1 x9 | x47 => C1 x10 | x48 => C1 x11 | x49 => C1 x12 | x50 => C1 x13 | x51 => C1 x14 | x52 => C1 x15 | x53 => C1 x16 | x54 => C1 x17 | x55 => C1 x18 | x56 => C1 x19 | x57 => C1 x20 | x58 => C1 x21 | x59 => C1 x22 | x60 => C1 x23 | x61 => C1 x24 | x62 => C1 x25 | x63 => C1 x26 end
 | x28 => match y with x0 => C0 x28 | x1 => C0 x29 | x2 => C0 x30 | x3 => C0 x31 | x4 => C0 x32 | x5 => C0 x33 | x6 => C0 x34 | x7 => C0 x35 | x8 => C0 x36 | x9 => C0 x37 | x10 => C0 x38 | x11 => C0 x39 | x12 => C0 x40 | x13 => C0 x41 | x14 => C0 x42 | x15 => C0 x43 | x16 => C0 x44 | x17 => C0 x45 | x18 => C0 x46 | x19 => C0 x47 | x20 => C0 x48 | x21 => C0 x49 | x22 => C0 x50 | x23 => C0 x51 | x24 => C0 x52 | x25 => C0 x53 | x26 => C0 x54 | x27 => C0 x55 | x28 => C0 x56 | x29 => C0 x57 | x30 => C0 x58 | x31 => C0 x59 | x32 => C0 x60 | x33 => C0 x61 | x34 => C0 x62 | x35 => C0 x63 | x36 => C1 x0 | x37 => C1 x1 | x38 => C1 x2 | x39 => C1 x3 | x40 => C1 x4 | x41 => C1 x5 | x42 => C1 x6 | x43 => C1 x7 | x44 => C1 x8 | x45 => C1 x9 | x46 => C1 x10 | x47 => C1 x11 | x48 => C1 x12 | x49 => C1 x13 | x50 => C1 x14 | x51 => C1 x15 | x52 => C1 x16 | x53 => C1 x17 | x54 => C1 x18 | x55 => C1 x19 | x56 => C1 x20 | x57 => C1 x21 | x58 => C1 x22 | x59 => C1 x23 | x60 => C1 x24 | x61 => C1 x25 | x62 => C1 x26 | x63 => C1 x27 end
 | x29 => match y with x0 => C0 x29 | x1 => C0 x30 | x2 => C0 x31 | x3 => C0 x32 | x4 => C0 x33 | x5 => C0 x34 | x6 => C0 x35 | x7 => C0 x36 | x8 => C0 x37 | x9 => C0 x38 | x10 => C0 x39 | x11 => C0 x40 | x12 => C0 x41 | x13 => C0 x42 | x14 => C0 x43 | x15 => C0 x44 | x16 => C0 x45 | x17 => C0 x46 | x18 => C0 x47 | x19 => C0 x48 | x20 => C0 x49 | x21 => C0 x50 | x22 => C0 x51 | x23 => C0 x52 | x24 => C0 x53 | x25 => C0 x54 | x26 => C0 x55 | x27 => C0 x56 | x28 => C0 x57 | x29 => C0 x58 | x30 => C0 x59 | x31 => C0 x60 | x32 => C0 x61 | x33 => C0 x62 | x34 => C0 x63 | x35 => C1 x0 | x36 => C1 x1 | x37 => C1 x2 | x38 => C1 x3 | x39 => C1 x4 | x40 => C1 x5 | x41 => C1 x6 | x42 => C1 x7 | x43 => C1 x8 | x44 => C1 x9 | x45 => C1 x10 | x46 => C1 x11 | x47 => C1 x12 | x48 => C1 x13 | x49 => C1 x14 | x50 => C1 x15 | x51 => C1 x16 | x52 => C1 x17 | x53 => C1 x18 | x54 => C1 x19 | x55 => C1 x20 | x56 => C1 x21 | x57 => C1 x22 | x58 => C1 x23 | x59 => C1 x24 | x60 => C1 x25 | x61 => C1 x26 | x62 => C1 x27 | x63 => C1 x28 end
 | x30 => match y with x0 => C0 x30 | x1 => C0 x31 | x2 => C0 x32 | x3 => C0 x33 | x4 => C0 x34 | x5 => C0 x35 | x6 => C0 x36 | x7 => C0 x37 | x8 => C0 x38 | x9 => C0 x39 | x10 => C0 x40 | x11 => C0 x41 | x12 => C0 x42 | x13 => C0 x43 | x14 => C0 x44 | x15 => C0 x45 | x16 => C0 x46 | x17 => C0 x47 | x18 => C0 x48 | x19 => C0 x49 | x20 => C0 x50 | x21 => C0 x51 | x22 => C0 x52 | x23 => C0 x53 | x24 => C0 x54 | x25 => C0 x55 | x26 => C0 x56 | x27 => C0 x57 | x28 => C0 x58 | x29 => C0 x59 | x30 => C0 x60 | x31 => C0 x61 | x32 => C0 x62 | x33 => C0 x63 | x34 => C1 x0 | x35 => C1 x1 | x36 => C1 x2 | x37 => C1 x3 | x38 => C1 x4 | x39 => C1 x5 | x40 => C1 x6 | x41 => C1 x7 | x42 => C1 x8 | x43 => C1 x9 | x44 => C1 x10 | x45 => C1 x11 | x46 => C1 x12 | x47 => C1 x13 | x48 => C1 x14 | x49 => C1 x15 | x50 => C1 x16 | x51 => C1 x17 | x52 => C1 x18 | x53 => C1 x19 | x54 => C1 x20 | x55 => C1 x21 | x56 => C1 x22 | x57 => C1 x23 | x58 => C1 x24 | x59 => C1 x25 | x60 => C1 x26 | x61 => C1 x27 | x62 => C1 x28 | x63 => C1 x29 end
 | x31 => match y with x0 => C0 x31 | x1 => C0 x32 | x2 => C0 x33 | x3 => C0 x34 | x4 => C0 x35 | x5 => C0 x36 | x6 => C0 x37 | x7 => C0 x38 | x8 => C0 x39 | x9 => C0 x40 | x10 => C0 x41 | x11 => C0 x42 | x12 => C0 x43 | x13 => C0 x44 | x14 => C0 x45 | x15 => C0 x46 | x16 => C0 x47 | x17 => C0 x48 | x18 => C0 x49 | x19 => C0 x50 | x20 => C0 x51 | x21 => C0 x52 | x22 => C0 x53 | x23 => C0 x54 | x24 => C0 x55 | x25 => C0 x56 | x26 => C0 x57 | x27 => C0 x58 | x28 => C0 x59 | x29 => C0 x60 | x30 => C0 x61 | x31 => C0 x62 | x32 => C0 x63 | x33 => C1 x0 | x34 => C1 x1 | x35 => C1 x2 | x36 => C1 x3 | x37 => C1 x4 | x38 => C1 x5 | x39 => C1 x6 | x40 => C1 x7 | x41 => C1 x8 | x42 => C1 x9 | x43 => C1 x10 | x44 => C1 x11 | x45 => C1 x12 | x46 => C1 x13 | x47 => C1 x14 | x48 => C1 x15 | x49 => C1 x16 | x50 => C1 x17 | x51 => C1 x18 | x52 => C1 x19 | x53 => C1 x20 | x54 => C1 x21 | x55 => C1 x22 | x56 => C1 x23 | x57 => C1 x24 | x58 => C1 x25 | x59 => C1 x26 | x60 => C1 x27 | x61 => C1 x28 | x62 => C1 x29 | x63 => C1 x30 end
 | x32 => match y with x0 => C0 x32 | x1 => C0 x33 | x2 => C0 x34 | x3 => C0 x35 | x4 => C0 x36 | x5 => C0 x37 | x6 => C0 x38 | x7 => C0 x39 | x8 => C0 x40 | x9 => C0 x41 | x10 => C0 x42 | x11 => C0 x43 | x12 => C0 x44 | x13 => C0 x45 | x14 => C0 x46 | x15 => C0 x47 | x16 => C0 x48 | x17 => C0 x49 | x18 => C0 x50 | x19 => C0 x51 | x20 => C0 x52 | x21 => C0 x53 | x22 => C0 x54 | x23 => C0 x55 | x24 => C0 x56 | x25 => C0 x57 | x26 => C0 x58 | x27 => C0 x59 | x28 => C0 x60 | x29 => C0 x61 | x30 => C0 x62 | x31 => C0 x63 | x32 => C1 x0 | x33 => C1 x1 | x34 => C1 x2 | x35 => C1 x3 | x36 => C1 x4 | x37 => C1 x5 | x38 => C1 x6 | x39 => C1 x7 | x40 => C1 x8 | x41 => C1 x9 | x42 => C1 x10 | x43 => C1 x11 | x44 => C1 x12 | x45 => C1 x13 | x46 => C1 x14 | x47 => C1 x15 | x48 => C1 x16 | x49 => C1 x17 | x50 => C1 x18 | x51 => C1 x19 | x52 => C1 x20 | x53 => C1 x21 | x54 => C1 x22 | x55 => C1 x23 | x56 => C1 x24 | x57 => C1 x25 | x58 => C1 x26 | x59 => C1 x27 | x60 => C1 x28 | x61 => C1 x29 | x62 => C1 x30 | x63 => C1 x31 end
 | x33 => match y with x0 => C0 x33 | x1 => C0 x34 | x2 => C0 x35 | x3 => C0 x36 | x4 => C0 x37 | x5 => C0 x38 | x6 => C0 x39 | x7 => C0 x40 | x8 => C0 x41 | x9 => C0 x42 | x10 => C0 x43 | x11 => C0 x44 | x12 => C0 x45 | x13 => C0 x46 | x14 => C0 x47 | x15 => C0 x48 | x16 => C0 x49 | x17 => C0 x50 | x18 => C0 x51 | x19 => C0 x52 | x20 => C0 x53 | x21 => C0 x54 | x22 => C0 x55 | x23 => C0 x56 | x24 => C0 x57 | x25 => C0 x58 | x26 => C0 x59 | x27 => C0 x60 | x28 => C0 x61 | x29 => C0 x62 | x30 => C0 x63 | x31 => C1 x0 | x32 => C1 x1 | x33 => C1 x2 | x34 => C1 x3 | x35 => C1 x4 | x36 => C1 x5 | x37 => C1 x6 | x38 => C1 x7 | x39 => C1 x8 | x40 => C1 x9 | x41 => C1 x10 | x42 => C1 x11 | x43 => C1 x12 | x44 => C1 x13 | x45 => C1 x14 | x46 => C1 x15 | x47 => C1 x16 | x48 => C1 x17 | x49 => C1 x18 | x50 => C1 x19 | x51 => C1 x20 | x52 => C1 x21 | x53 => C1 x22 | x54 => C1 x23 | x55 => C1 x24 | x56 => C1 x25 | x57 => C1 x26 | x58 => C1 x27 | x59 => C1 x28 | x60 => C1 x29 | x61 => C1 x30 | x62 => C1 x31 | x63 => C1 x32 end
 | x34 => match y with x0 => C0 x34 | x1 => C0 x35 | x2 => C0 x36 | x3 => C0 x37 | x4 => C0 x38 | x5 => C0 x39 | x6 => C0 x40 | x7 => C0 x41 | x8 => C0 x42 | x9 => C0 x43 | x10 => C0 x44 | x11 => C0 x45 | x12 => C0 x46 | x13 => C0 x47 | x14 => C0 x48 | x15 => C0 x49 | x16 => C0 x50 | x17 => C0 x51 | x18 => C0 x52 | x19 => C0 x53 | x20 => C0 x54 | x21 => C0 x55 | x22 => C0 x56 | x23 => C0 x57 | x24 => C0 x58 | x25 => C0 x59 | x26 => C0 x60 | x27 => C0 x61 | x28 => C0 x62 | x29 => C0 x63 | x30 => C1 x0 | x31 => C1 x1 | x32 => C1 x2 | x33 => C1 x3 | x34 => C1 x4 | x35 => C1 x5 | x36 => C1 x6 | x37 => C1 x7 | x38 => C1 x8 | x39 => C1 x9 | x40 => C1 x10 | x41 => C1 x11 | x42 => C1 x12 | x43 => C1 x13 | x44 => C1 x14 | x45 => C1 x15 | x46 => C1 x16 | x47 => C1 x17 | x48 => C1 x18 | x49 => C1 x19 | x50 => C1 x20 | x51 => C1 x21 | x52 => C1 x22 | x53 => C1 x23 | x54 => C1 x24 | x55 => C1 x25 | x56 => C1 x26 | x57 => C1 x27 | x58 => C1 x28 | x59 => C1 x29 | x60 => C1 x30 | x61 => C1 x31 | x62 => C1 x32 | x63 => C1 x33 end
 | x35 => match y with x0 => C0 x35 | x1 => C0 x36 | x2 => C0 x37 | x3 => C0 x38 | x4 => C0 x39 | x5 => C0 x40 | x6 => C0 x41 | x7 => C0 x42 | x8 => C0 x43 | x9 => C0 x44 | x10 => C0 x45 | x11 => C0 x46 | x12 => C0 x47 | x13 => C0 x48 | x14 => C0 x49 | x15 => C0 x50 | x16 => C0 x51 | x17 => C0 x52 | x18 => C0 x53 | x19 => C0 x54 | x20 => C0 x55 | x21 => C0 x56 | x22 => C0 x57 | x23 => C0 x58 | x24 => C0 x59 | x25 => C0 x60 | x26 => C0 x61 | x27 => C0 x62 | x28 => C0 x63 | x29 => C1 x0 | x30 => C1 x1 | x31 => C1 x2 | x32 => C1 x3 | x33 => C1 x4 | x34 => C1 x5 | x35 => C1 x6 | x36 => C1 x7 | x37 => C1 x8 | x38 => C1 x9 | x39 => C1 x10 | x40 => C1 x11 | x41 => C1 x12 | x42 => C1 x13 | x43 => C1 x14 | x44 => C1 x15 | x45 => C1 x16 | x46 => C1 x17 | x47 => C1 x18 | x48 => C1 x19 | x49 => C1 x20 | x50 => C1 x21 | x51 => C1 x22 | x52 => C1 x23 | x53 => C1 x24 | x54 => C1 x25 | x55 => C1 x26 | x56 => C1 x27 | x57 => C1 x28 | x58 => C1 x29 | x59 => C1 x30 | x60 => C1 x31 | x61 => C1 x32 | x62 => C1 x33 | x63 => C1 x34 end
 | x36 => match y with x0 => C0 x36 | x1 => C0 x37 | x2 => C0 x38 | x3 => C0 x39 | x4 => C0 x40 | x5 => C0 x41 | x6 => C0 x42 | x7 => C0 x43 | x8 => C0 x44 | x9 => C0 x45 | x10 => C0 x46 | x11 => C0 x47 | x12 => C0 x48 | x13 => C0 x49 | x14 => C0 x50 | x15 => C0 x51 | x16 => C0 x52 | x17 => C0 x53 | x18 => C0 x54 | x19 => C0 x55 | x20 => C0 x56 | x21 => C0 x57 | x22 => C0 x58 | x23 => C0 x59 | x24 => C0 x60 | x25 => C0 x61 | x26 => C0 x62 | x27 => C0 x63 | x28 => C1 x0 | x29 => C1 x1 | x30 => C1 x2 | x31 => C1 x3 | x32 => C1 x4 | x33 => C1 x5 | x34 => C1 x6 | x35 => C1 x7 | x36 => C1 x8 | x37 => C1 x9 | x38 => C1 x10 | x39 => C1 x11 | x40 => C1 x12 | x41 => C1 x13 | x42 => C1 x14 | x43 => C1 x15 | x44 => C1 x16 | x45 => C1 x17 | x46 => C1 x18 | x47 => C1 x19 | x48 => C1 x20 | x49 => C1 x21 | x50 => C1 x22 | x51 => C1 x23 | x52 => C1 x24 | x53 => C1 x25 | x54 => C1 x26 | x55 => C1 x27 | x56 => C1 x28 | x57 => C1 x29 | x58 => C1 x30 | x59 => C1 x31 | x60 => C1 x32 | x61 => C1 x33 | x62 => C1 x34 | x63 => C1 x35 end
 | x37 => match y with x0 => C0 x37 | x1 => C0 x38 | x2 => C0 x39 | x3 => C0 x40 | x4 => C0 x41 | x5 => C0 x42 | x6 => C0 x43 | x7 => C0 x44 | x8 => C0 x45 | x9 => C0 x46 | x10 => C0 x47 | x11 => C0 x48 | x12 => C0 x49 | x13 => C0 x50 | x14 => C0 x51 | x15 => C0 x52 | x16 => C0 x53 | x17 => C0 x54 | x18 => C0 x55 | x19 => C0 x56 | x20 => C0 x57 | x21 => C0 x58 | x22 => C0 x59 | x23 => C0 x60 | x24 => C0 x61 | x25 => C0 x62 | x26 => C0 x63 | x27 => C1 x0 | x28 => C1 x1 | x29 => C1 x2 | x30 => C1 x3 | x31 => C1 x4 | x32 => C1 x5 | x33 => C1 x6 | x34 => C1 x7 | x35 => C1 x8 | x36 => C1 x9 | x37 => C1 x10 | x38 => C1 x11 | x39 => C1 x12 | x40 => C1 x13 | x41 => C1 x14 | x42 => C1 x15 | x43 => C1 x16 | x44 => C1 x17 | x45 => C1 x18 | x46 => C1 x19 | x47 => C1 x20 | x48 => C1 x21 | x49 => C1 x22 | x50 => C1 x23 | x51 => C1 x24 | x52 => C1 x25 | x53 => C1 x26 | x54 => C1 x27 | x55 => C1 x28 | x56 => C1 x29 | x57 => C1 x30 | x58 => C1 x31 | x59 => C1 x32 | x60 => C1 x33 | x61 => C1 x34 | x62 => C1 x35 | x63 => C1 x36 end
 | x38 => match y with x0 => C0 x38 | x1 => C0 x39 | x2 => C0 x40 | x3 => C0 x41 | x4 => C0 x42 | x5 => C0 x43 | x6 => C0 x44 | x7 => C0 x45 | x8 => C0 x46 | x9 => C0 x47 | x10 => C0 x48 | x11 => C0 x49 | x12 => C0 x50 | x13 => C0 x51 | x14 => C0 x52 | x15 => C0 x53 | x16 => C0 x54 | x17 => C0 x55 | x18 => C0 x56 | x19 => C0 x57 | x20 => C0 x58 | x21 => C0 x59 | x22 => C0 x60 | x23 => C0 x61 | x24 => C0 x62 | x25 => C0 x63 | x26 => C1 x0 | x27 => C1 x1 | x28 => C1 x2 | x29 => C1 x3 | x30 => C1 x4 | x31 => C1 x5 | x32 => C1 x6 | x33 => C1 x7 | x34 => C1 x8 | x35 => C1 x9 | x36 => C1 x10 | x37 => C1 x11 | x38 => C1 x12 | x39 => C1 x13 | x40 => C1 x14 | x41 => C1 x15 | x42 => C1 x16 | x43 => C1 x17 | x44 => C1 x18 | x45 => C1 x19 | x46 => C1 x20 | x47 => C1 x21 | x48 => C1 x22 | x49 => C1 x23 | x50 => C1 x24 | x51 => C1 x25 | x52 => C1 x26 | x53 => C1 x27 | x54 => C1 x28 | x55 => C1 x29 | x56 => C1 x30 | x57 => C1 x31 | x58 => C1 x32 | x59 => C1 x33 | x60 => C1 x34 | x61 => C1 x35 | x62 => C1 x36 | x63 => C1 x37 end
 | x39 => match y with x0 => C0 x39 | x1 => C0 x40 | x2 => C0 x41 | x3 => C0 x42 | x4 => C0 x43 | x5 => C0 x44 | x6 => C0 x45 | x7 => C0 x46 | x8 => C0 x47 | x9 => C0 x48 | x10 => C0 x49 | x11 => C0 x50 | x12 => C0 x51 | x13 => C0 x52 | x14 => C0 x53 | x15 => C0 x54 | x16 => C0 x55 | x17 => C0 x56 | x18 => C0 x57 | x19 => C0 x58 | x20 => C0 x59 | x21 => C0 x60 | x22 => C0 x61 | x23 => C0 x62 | x24 => C0 x63 | x25 => C1 x0 | x26 => C1 x1 | x27 => C1 x2 | x28 => C1 x3 | x29 => C1 x4 | x30 => C1 x5 | x31 => C1 x6 | x32 => C1 x7 | x33 => C1 x8 | x34 => C1 x9 | x35 => C1 x10 | x36 => C1 x11 | x37 => C1 x12 | x38 => C1 x13 | x39 => C1 x14 | x40 => C1 x15 | x41 => C1 x16 | x42 => C1 x17 | x43 => C1 x18 | x44 => C1 x19 | x45 => C1 x20 | x46 => C1 x21 | x47 => C1 x22 | x48 => C1 x23 | x49 => C1 x24 | x50 => C1 x25 | x51 => C1 x26 | x52 => C1 x27 | x53 => C1 x28 | x54 => C1 x29 | x55 => C1 x30 | x56 => C1 x31 | x57 => C1 x32 | x58 => C1 x33 | x59 => C1 x34 | x60 => C1 x35 | x61 => C1 x36 | x62 => C1 x37 | x63 => C1 x38 end
 | x40 => match y with x0 => C0 x40 | x1 => C0 x41 | x2 => C0 x42 | x3 => C0 x43 | x4 => C0 x44 | x5 => C0 x45 | x6 => C0 x46 | x7 => C0 x47 | x8 => C0 x48 | x9 => C0 x49 | x10 => C0 x50 | x11 => C0 x51 | x12 => C0 x52 | x13 => C0 x53 | x14 => C0 x54 | x15 => C0 x55 | x16 => C0 x56 | x17 => C0 x57 | x18 => C0 x58 | x19 => C0 x59 | x20 => C0 x60 | x21 => C0 x61 | x22 => C0 x62 | x23 => C0 x63 | x24 => C1 x0 | x25 => C1 x1 | x26 => C1 x2 | x27 => C1 x3 | x28 => C1 x4 | x29 => C1 x5 | x30 => C1 x6 | x31 => C1 x7 | x32 => C1 x8 | x33 => C1 x9 | x34 => C1 x10 | x35 => C1 x11 | x36 => C1 x12 | x37 => C1 x13 | x38 => C1 x14 | x39 => C1 x15 | x40 => C1 x16 | x41 => C1 x17 | x42 => C1 x18 | x43 => C1 x19 | x44 => C1 x20 | x45 => C1 x21 | x46 => C1 x22 | x47 => C1 x23 | x48 => C1 x24 | x49 => C1 x25 | x50 => C1 x26 | x51 => C1 x27 | x52 => C1 x28 | x53 => C1 x29 | x54 => C1 x30 | x55 => C1 x31 | x56 => C1 x32 | x57 => C1 x33 | x58 => C1 x34 | x59 => C1 x35 | x60 => C1 x36 | x61 => C1 x37 | x62 => C1 x38 | x63 => C1 x39 end
 | x41 => match y with x0 => C0 x41 | x1 => C0 x42 | x2 => C0 x43 | x3 => C0 x44 | x4 => C0 x45 | x5 => C0 x46 | x6 => C0 x47 | x7 => C0 x48 | x8 => C0 x49 | x9 => C0 x50 | x10 => C0 x51 | x11 => C0 x52 | x12 => C0 x53 | x13 => C0 x54 | x14 => C0 x55 | x15 => C0 x56 | x16 => C0 x57 | x17 => C0 x58 | x18 => C0 x59 | x19 => C0 x60 | x20 => C0 x61 | x21 => C0 x62 | x22 => C0 x63 | x23 => C1 x0 | x24 => C1 x1 | x25 => C1 x2 | x26 => C1 x3 | x27 => C1 x4 | x28 => C1 x5 | x29 => C1 x6 | x30 => C1 x7 | x31 => C1 x8 | x32 => C1 x9 | x33 => C1 x10 | x34 => C1 x11 | x35 => C1 x12 | x36 => C1 x13 | x37 => C1 x14 | x38 => C1 x15 | x39 => C1 x16 | x40 => C1 x17 | x41 => C1 x18 | x42 => C1 x19 | x43 => C1 x20 | x44 => C1 x21 | x45 => C1 x22 | x46 => C1 x23 | x47 => C1 x24 | x48 => C1 x25 | x49 => C1 x26 | x50 => C1 x27 | x51 => C1 x28 | x52 => C1 x29 | x53 => C1 x30 | x54 => C1 x31 | x55 => C1 x32 | x56 => C1 x33 | x57 => C1 x34 | x58 => C1 x35 | x59 => C1 x36 | x60 => C1 x37 | x61 => C1 x38 | x62 => C1 x39 | x63 => C1 x40 end
 | x42 => match y with x0 => C0 x42 | x1 => C0 x43 | x2 => C0 x44 | x3 => C0 x45 | x4 => C0 x46 | x5 => C0 x47 | x6 => C0 x48 | x7 => C0 x49 | x8 => C0 x50 | x9 => C0 x51 | x10 => C0 x52 | x11 => C0 x53 | x12 => C0 x54 | x13 => C0 x55 | x14 => C0 x56 | x15 => C0 x57 | x16 => C0 x58 | x17 => C0 x59 | x18 => C0 x60 | x19 => C0 x61 | x20 => C0 x62 | x21 => C0 x63 | x22 => C1 x0 | x23 => C1 x1 | x24 => C1 x2 | x25 => C1 x3 | x26 => C1 x4 | x27 => C1 x5 | x28 => C1 x6 | x29 => C1 x7 | x30 => C1 x8 | x31 => C1 x9 | x32 => C1 x10 | x33 => C1 x11 | x34 => C1 x12 | x35 => C1 x13 | x36 => C1 x14 | x37 => C1 x15 | x38 => C1 x16 | x39 => C1 x17 | x40 => C1 x18 | x41 => C1 x19 | x42 => C1 x20 | x43 => C1 x21 | x44 => C1 x22 | x45 => C1 x23 | x46 => C1 x24 | x47 => C1 x25 | x48 => C1 x26 | x49 => C1 x27 | x50 => C1 x28 | x51 => C1 x29 | x52 => C1 x30 | x53 => C1 x31 | x54 => C1 x32 | x55 => C1 x33 | x56 => C1 x34 | x57 => C1 x35 | x58 => C1 x36 | x59 => C1 x37 | x60 => C1 x38 | x61 => C1 x39 | x62 => C1 x40 | x63 => C1 x41 end
 | x43 => match y with x0 => C0 x43 | x1 => C0 x44 | x2 => C0 x45 | x3 => C0 x46 | x4 => C0 x47 | x5 => C0 x48 | x6 => C0 x49 | x7 => C0 x50 | x8 => C0 x51 | x9 => C0 x52 | x10 => C0 x53 | x11 => C0 x54 | x12 => C0 x55 | x13 => C0 x56 | x14 => C0 x57 | x15 => C0 x58 | x16 => C0 x59 | x17 => C0 x60 | x18 => C0 x61 | x19 => C0 x62 | x20 => C0 x63 | x21 => C1 x0 | x22 => C1 x1 | x23 => C1 x2 | x24 => C1 x3 | x25 => C1 x4 | x26 => C1 x5 | x27 => C1 x6 | x28 => C1 x7 | x29 => C1 x8 | x30 => C1 x9 | x31 => C1 x10 | x32 => C1 x11 | x33 => C1 x12 | x34 => C1 x13 | x35 => C1 x14 | x36 => C1 x15 | x37 => C1 x16 | x38 => C1 x17 | x39 => C1 x18 | x40 => C1 x19 | x41 => C1 x20 | x42 => C1 x21 | x43 => C1 x22 | x44 => C1 x23 | x45 => C1 x24 | x46 => C1 x25 | x47 => C1 x26 | x48 => C1 x27 | x49 => C1 x28 | x50 => C1 x29 | x51 => C1 x30 | x52 => C1 x31 | x53 => C1 x32 | x54 => C1 x33 | x55 => C1 x34 | x56 => C1 x35 | x57 => C1 x36 | x58 => C1 x37 | x59 => C1 x38 | x60 => C1 x39 | x61 => C1 x40 | x62 => C1 x41 | x63 => C1 x42 end
 | x44 => match y with x0 => C0 x44 | x1 => C0 x45 | x2 => C0 x46 | x3 => C0 x47 | x4 => C0 x48 | x5 => C0 x49 | x6 => C0 x50 | x7 => C0 x51 | x8 => C0 x52 | x9 => C0 x53 | x10 => C0 x54 | x11 => C0 x55 | x12 => C0 x56 | x13 => C0 x57 | x14 => C0 x58 | x15 => C0 x59 | x16 => C0 x60 | x17 => C0 x61 | x18 => C0 x62 | x19 => C0 x63 | x20 => C1 x0 | x21 => C1 x1 | x22 => C1 x2 | x23 => C1 x3 | x24 => C1 x4 | x25 => C1 x5 | x26 => C1 x6 | x27 => C1 x7 | x28 => C1 x8 | x29 => C1 x9 | x30 => C1 x10 | x31 => C1 x11 | x32 => C1 x12 | x33 => C1 x13 | x34 => C1 x14 | x35 => C1 x15 | x36 => C1 x16 | x37 => C1 x17 | x38 => C1 x18 | x39 => C1 x19 | x40 => C1 x20 | x41 => C1 x21 | x42 => C1 x22 | x43 => C1 x23 | x44 => C1 x24 | x45 => C1 x25 | x46 => C1 x26 | x47 => C1 x27 | x48 => C1 x28 | x49 => C1 x29 | x50 => C1 x30 | x51 => C1 x31 | x52 => C1 x32 | x53 => C1 x33 | x54 => C1 x34 | x55 => C1 x35 | x56 => C1 x36 | x57 => C1 x37 | x58 => C1 x38 | x59 => C1 x39 | x60 => C1 x40 | x61 => C1 x41 | x62 => C1 x42 | x63 => C1 x43 end
 | x45 => match y with x0 => C0 x45 | x1 => C0 x46 | x2 => C0 x47 | x3 => C0 x48 | x4 => C0 x49 | x5 => C0 x50 | x6 => C0 x51 | x7 => C0 x52 | x8 => C0 x53 | x9 => C0 x54 | x10 => C0 x55 | x11 => C0 x56 | x12 => C0 x57 | x13 => C0 x58 | x14 => C0 x59 | x15 => C0 x60 | x16 => C0 x61 | x17 => C0 x62 | x18 => C0 x63 | x19 => C1 x0 | x20 => C1 x1 | x21 => C1 x2 | x22 => C1 x3 | x23 => C1 x4 | x24 => C1 x5 | x25 => C1 x6 | x26 => C1 x7 | x27 => C1 x8 | x28 => C1 x9 | x29 => C1 x10 | x30 => C1 x11 | x31 => C1 x12 | x32 => C1 x13 | x33 => C1 x14 | x34 => C1 x15 | x35 => C1 x16 | x36 => C1 x17 | x37 => C1 x18 | x38 => C1 x19 | x39 => C1 x20 | x40 => C1 x21 | x41 => C1 x22 | x42 => C1 x23 | x43 => C1 x24 | x44 => C1 x25 | x45 => C1 x26 | x46 => C1 x27 | x47 => C1 x28 | x48 => C1 x29 | x49 => C1 x30 | x50 => C1 x31 | x51 => C1 x32 | x52 => C1 x33 | x53 => C1 x34 | x54 => C1 x35 | x55 => C1 x36 | x56 => C1 x37 | x57 => C1 x38 | x58 => C1 x39 | x59 => C1 x40 | x60 => C1 x41 | x61 => C1 x42 | x62 => C1 x43 | x63 => C1 x44 end
 | x46 => match y with x0 => C0 x46 | x1 => C0 x47 | x2 => C0 x48 | x3 => C0 x49 | x4 => C0 x50 | x5 => C0 x51 | x6 => C0 x52 | x7 => C0 x53 | x8 => C0 x54 | x9 => C0 x55 | x10 => C0 x56 | x11 => C0 x57 | x12 => C0 x58 | x13 => C0 x59 | x14 => C0 x60 | x15 => C0 x61 | x16 => C0 x62 | x17 => C0 x63 | x18 => C1 x0 | x19 => C1 x1 | x20 => C1 x2 | x21 => C1 x3 | x22 => C1 x4 | x23 => C1 x5 | x24 => C1 x6 | x25 => C1 x7 | x26 => C1 x8 | x27 => C1 x9 | x28 => C1 x10 | x29 => C1 x11 | x30 => C1 x12 | x31 => C1 x13 | x32 => C1 x14 | x33 => C1 x15 | x34 => C1 x16 | x35 => C1 x17 | x36 => C1 x18 | x37 => C1 x19 | x38 => C1 x20 | x39 => C1 x21 | x40 => C1 x22 | x41 => C1 x23 | x42 => C1 x24 | x43 => C1 x25 | x44 => C1 x26 | x45 => C1 x27 | x46 => C1 x28 | x47 => C1 x29 | x48 => C1 x30 | x49 => C1 x31 | x50 => C1 x32 | x51 => C1 x33 | x52 => C1 x34 | x53 => C1 x35 | x54 => C1 x36 | x55 => C1 x37 | x56 => C1 x38 | x57 => C1 x39 | x58 => C1 x40 | x59 => C1 x41 | x60 => C1 x42 | x61 => C1 x43 | x62 => C1 x44 | x63 => C1 x45 end
 | x47 => match y with x0 => C0 x47 | x1 => C0 x48 | x2 => C0 x49 | x3 => C0 x50 | x4 => C0 x51 | x5 => C0 x52 | x6 => C0 x53 | x7 => C0 x54 | x8 => C0 x55 | x9 => C0 x56 | x10 => C0 x57 | x11 => C0 x58 | x12 => C0 x59 | x13 => C0 x60 | x14 => C0 x61 | x15 => C0 x62 | x16 => C0 x63 | x17 => C1 x0 | x18 => C1 x1 | x19 => C1 x2 | x20 => C1 x3 | x21 => C1 x4 | x22 => C1 x5 | x23 => C1 x6 | x24 => C1 x7 | x25 => C1 x8 | x26 => C1 x9 | x27 => C1 x10 | x28 => C1 x11 | x29 => C1 x12 | x30 => C1 x13 | x31 => C1 x14 | x32 => C1 x15 | x33 => C1 x16 | x34 => C1 x17 | x35 => C1 x18 | x36 => C1 x19 | x37 => C1 x20 | x38 => C1 x21 | x39 => C1 x22 | x40 => C1 x23 | x41 => C1 x24 | x42 => C1 x25 | x43 => C1 x26 | x44 => C1 x27 | x45 => C1 x28 | x46 => C1 x29 | x47 => C1 x30 | x48 => C1 x31 | x49 => C1 x32 | x50 => C1 x33 | x51 => C1 x34 | x52 => C1 x35 | x53 => C1 x36 | x54 => C1 x37 | x55 => C1 x38 | x56 => C1 x39 | x57 => C1 x40 | x58 => C1 x41 | x59 => C1 x42 | x60 => C1 x43 | x61 => C1 x44 | x62 => C1 x45 | x63 => C1 x46 end
 | x48 => match y with x0 => C0 x48 | x1 => C0 x49 | x2 => C0 x50 | x3 => C0 x51 | x4 => C0 x52 | x5 => C0 x53 | x6 => C0 x54 | x7 => C0 x55 | x8 => C0 x56 | x9 => C0 x57 | x10 => C0 x58 | x11 => C0 x59 | x12 => C0 x60 | x13 => C0 x61 | x14 => C0 x62 | x15 => C0 x63 | x16 => C1 x0 | x17 => C1 x1 | x18 => C1 x2 | x19 => C1 x3 | x20 => C1 x4 | x21 => C1 x5 | x22 => C1 x6 | x23 => C1 x7 | x24 => C1 x8 | x25 => C1 x9 | x26 => C1 x10 | x27 => C1 x11 | x28 => C1 x12 | x29 => C1 x13 | x30 => C1 x14 | x31 => C1 x15 | x32 => C1 x16 | x33 => C1 x17 | x34 => C1 x18 | x35 => C1 x19 | x36 => C1 x20 | x37 => C1 x21 | x38 => C1 x22 | x39 => C1 x23 | x40 => C1 x24 | x41 => C1 x25 | x42 => C1 x26 | x43 => C1 x27 | x44 => C1 x28 | x45 => C1 x29 | x46 => C1 x30 | x47 => C1 x31 | x48 => C1 x32 | x49 => C1 x33 | x50 => C1 x34 | x51 => C1 x35 | x52 => C1 x36 | x53 => C1 x37 | x54 => C1 x38 | x55 => C1 x39 | x56 => C1 x40 | x57 => C1 x41 | x58 => C1 x42 | x59 => C1 x43 | x60 => C1 x44 | x61 => C1 x45 | x62 => C1 x46 | x63 => C1 x47 end
 | x49 => match y with x0 => C0 x49 | x1 => C0 x50 | x2 => C0 x51 | x3 => C0 x52 | x4 => C0 x53 | x5 => C0 x54 | x6 => C0 x55 | x7 => C0 x56 | x8 => C0 x57 | x9 => C0 x58 | x10 => C0 x59 | x11 => C0 x60 | x12 => C0 x61 | x13 => C0 x62 | x14 => C0 x63 | x15 => C1 x0 | x16 => C1 x1 | x17 => C1 x2 | x18 => C1 x3 | x19 => C1 x4 | x20 => C1 x5 | x21 => C1 x6 | x22 => C1 x7 | x23 => C1 x8 | x24 => C1 x9 | x25 => C1 x10 | x26 => C1 x11 | x27 => C1 x12 | x28 => C1 x13 | x29 => C1 x14 | x30 => C1 x15 | x31 => C1 x16 | x32 => C1 x17 | x33 => C1 x18 | x34 => C1 x19 | x35 => C1 x20 | x36 => C1 x21 | x37 => C1 x22 | x38 => C1 x23 | x39 => C1 x24 | x40 => C1 x25 | x41 => C1 x26 | x42 => C1 x27 | x43 => C1 x28 | x44 => C1 x29 | x45 => C1 x30 | x46 => C1 x31 | x47 => C1 x32 | x48 => C1 x33 | x49 => C1 x34 | x50 => C1 x35 | x51 => C1 x36 | x52 => C1 x37 | x53 => C1 x38 | x54 => C1 x39 | x55 => C1 x40 | x56 => C1 x41 | x57 => C1 x42 | x58 => C1 x43 | x59 => C1 x44 | x60 => C1 x45 | x61 => C1 x46 | x62 => C1 x47 | x63 => C1 x48 end
 | x50 => match y with x0 => C0 x50 | x1 => C0 x51 | x2 => C0 x52 | x3 => C0 x53 | x4 => C0 x54 | x5 => C0 x55 | x6 => C0 x56 | x7 => C0 x57 | x8 => C0 x58 | x9 => C0 x59 | x10 => C0 x60 | x11 => C0 x61 | x12 => C0 x62 | x13 => C0 x63 | x14 => C1 x0 | x15 => C1 x1 | x16 => C1 x2 | x17 => C1 x3 | x18 => C1 x4 | x19 => C1 x5 | x20 => C1 x6 | x21 => C1 x7 | x22 => C1 x8 | x23 => C1 x9 | x24 => C1 x10 | x25 => C1 x11 | x26 => C1 x12 | x27 => C1 x13 | x28 => C1 x14 | x29 => C1 x15 | x30 => C1 x16 | x31 => C1 x17 | x32 => C1 x18 | x33 => C1 x19 | x34 => C1 x20 | x35 => C1 x21 | x36 => C1 x22 | x37 => C1 x23 | x38 => C1 x24 | x39 => C1 x25 | x40 => C1 x26 | x41 => C1 x27 | x42 => C1 x28 | x43 => C1 x29 | x44 => C1 x30 | x45 => C1 x31 | x46 => C1 x32 | x47 => C1 x33 | x48 => C1 x34 | x49 => C1 x35 | x50 => C1 x36 | x51 => C1 x37 | x52 => C1 x38 | x53 => C1 x39 | x54 => C1 x40 | x55 => C1 x41 | x56 => C1 x42 | x57 => C1 x43 | x58 => C1 x44 | x59 => C1 x45 | x60 => C1 x46 | x61 => C1 x47 | x62 => C1 x48 | x63 => C1 x49 end
 | x51 => match y with x0 => C0 x51 | x1 => C0 x52 | x2 => C0 x53 | x3 => C0 x54 | x4 => C0 x55 | x5 => C0 x56 | x6 => C0 x57 | x7 => C0 x58 | x8 => C0 x59 | x9 => C0 x60 | x10 => C0 x61 | x11 => C0 x62 | x12 => C0 x63 | x13 => C1 x0 | x14 => C1 x1 | x15 => C1 x2 | x16 => C1 x3 | x17 => C1 x4 | x18 => C1 x5 | x19 => C1 x6 | x20 => C1 x7 | x21 => C1 x8 | x22 => C1 x9 | x23 => C1 x10 | x24 => C1 x11 | x25 => C1 x12 | x26 => C1 x13 | x27 => C1 x14 | x28 => C1 x15 | x29 => C1 x16 | x30 => C1 x17 | x31 => C1 x18 | x32 => C1 x19 | x33 => C1 x20 | x34 => C1 x21 | x35 => C1 x22 | x36 => C1 x23 | x37 => C1 x24 | x38 => C1 x25 | x39 => C1 x26 | x40 => C1 x27 | x41 => C1 x28 | x42 => C1 x29 | x43 => C1 x30 | x44 => C1 x31 | x45 => C1 x32 | x46 => C1 x33 | x47 => C1 x34 | x48 => C1 x35 | x49 => C1 x36 | x50 => C1 x37 | x51 => C1 x38 | x52 => C1 x39 | x53 => C1 x40 | x54 => C1 x41 | x55 => C1 x42 | x56 => C1 x43 | x57 => C1 x44 | x58 => C1 x45 | x59 => C1 x46 | x60 => C1 x47 | x61 => C1 x48 | x62 => C1 x49 | x63 => C1 x50 end
 | x52 => match y with x0 => C0 x52 | x1 => C0 x53 | x2 => C0 x54 | x3 => C0 x55 | x4 => C0 x56 | x5 => C0 x57 | x6 => C0 x58 | x7 => C0 x59 | x8 => C0 x60 | x9 => C0 x61 | x10 => C0 x62 | x11 => C0 x63 | x12 => C1 x0 | x13 => C1 x1 | x14 => C1 x2 | x15 => C1 x3 | x16 => C1 x4 | x17 => C1 x5 | x18 => C1 x6 | x19 => C1 x7 | x20 => C1 x8 | x21 => C1 x9 | x22 => C1 x10 | x23 => C1 x11 | x24 => C1 x12 | x25 => C1 x13 | x26 => C1 x14 | x27 => C1 x15 | x28 => C1 x16 | x29 => C1 x17 | x30 => C1 x18 | x31 => C1 x19 | x32 => C1 x20 | x33 => C1 x21 | x34 => C1 x22 | x35 => C1 x23 | x36 => C1 x24 | x37 => C1 x25 | x38 => C1 x26 | x39 => C1 x27 | x40 => C1 x28 | x41 => C1 x29 | x42 => C1 x30 | x43 => C1 x31 | x44 => C1 x32 | x45 => C1 x33 | x46 => C1 x34 | x47 => C1 x35 | x48 => C1 x36 | x49 => C1 x37 | x50 => C1 x38 | x51 => C1 x39 | x52 => C1 x40 | x53 => C1 x41 | x54 => C1 x42 | x55 => C1 x43 | x56 => C1 x44 | x57 => C1 x45 | x58 => C1 x46 | x59 => C1 x47 | x60 => C1 x48 | x61 => C1 x49 | x62 => C1 x50 | x63 => C1 x51 end
 | x53 => match y with x0 => C0 x53 | x1 => C0 x54 | x2 => C0 x55 | x3 => C0 x56 | x4 => C0 x57 | x5 => C0 x58 | x6 => C0 x59 | x7 => C0 x60 | x8 => C0 x61 | x9 => C0 x62 | x10 => C0 x63 | x11 => C1 x0 | x12 => C1 x1 | x13 => C1 x2 | x14 => C1 x3 | x15 => C1 x4 | x16 => C1 x5 | x17 => C1 x6 | x18 => C1 x7 | x19 => C1 x8 | x20 => C1 x9 | x21 => C1 x10 | x22 => C1 x11 | x23 => C1 x12 | x24 => C1 x13 | x25 => C1 x14 | x26 => C1 x15 | x27 => C1 x16 | x28 => C1 x17 | x29 => C1 x18 | x30 => C1 x19 | x31 => C1 x20 | x32 => C1 x21 | x33 => C1 x22 | x34 => C1 x23 | x35 => C1 x24 | x36 => C1 x25 | x37 => C1 x26 | x38 => C1 x27 | x39 => C1 x28 | x40 => C1 x29 | x41 => C1 x30 | x42 => C1 x31 | x43 => C1 x32 | x44 => C1 x33 | x45 => C1 x34 | x46 => C1 x35 | x47 => C1 x36 | x48 => C1 x37 | x49 => C1 x38 | x50 => C1 x39 | x51 => C1 x40 | x52 => C1 x41 | x53 => C1 x42 | x54 => C1 x43 | x55 => C1 x44 | x56 => C1 x45 | x57 => C1 x46 | x58 => C1 x47 | x59 => C1 x48 | x60 => C1 x49 | x61 => C1 x50 | x62 => C1 x51 | x63 => C1 x52 end
 | x54 => match y with x0 => C0 x54 | x1 => C0 x55 | x2 => C0 x56 | x3 => C0 x57 | x4 => C0 x58 | x5 => C0 x59 | x6 => C0 x60 | x7 => C0 x61 | x8 => C0 x62 | x9 => C0 x63 | x10 => C1 x0 | x11 => C1 x1 | x12 => C1 x2 | x13 => C1 x3 | x14 => C1 x4 | x15 => C1 x5 | x16 => C1 x6 | x17 => C1 x7 | x18 => C1 x8 | x19 => C1 x9 | x20 => C1 x10 | x21 => C1 x11 | x22 => C1 x12 | x23 => C1 x13 | x24 => C1 x14 | x25 => C1 x15 | x26 => C1 x16 | x27 => C1 x17 | x28 => C1 x18 | x29 => C1 x19 | x30 => C1 x20 | x31 => C1 x21 | x32 => C1 x22 | x33 => C1 x23 | x34 => C1 x24 | x35 => C1 x25 | x36 => C1 x26 | x37 => C1 x27 | x38 => C1 x28 | x39 => C1 x29 | x40 => C1 x30 | x41 => C1 x31 | x42 => C1 x32 | x43 => C1 x33 | x44 => C1 x34 | x45 => C1 x35 | x46 => C1 x36 | x47 => C1 x37 | x48 => C1 x38 | x49 => C1 x39 | x50 => C1 x40 | x51 => C1 x41 | x52 => C1 x42 | x53 => C1 x43 | x54 => C1 x44 | x55 => C1 x45 | x56 => C1 x46 | x57 => C1 x47 | x58 => C1 x48 | x59 => C1 x49 | x60 => C1 x50 | x61 => C1 x51 | x62 => C1 x52 | x63 => C1 x53 end
 | x55 => match y with x0 => C0 x55 | x1 => C0 x56 | x2 => C0 x57 | x3 => C0 x58 | x4 => C0 x59 | x5 => C0 x60 | x6 => C0 x61 | x7 => C0 x62 | x8 => C0 x63 | x9 => C1 x0 | x10 => C1 x1 | x11 => C1 x2 | x12 => C1 x3 | x13 => C1 x4 | x14 => C1 x5 | x15 => C1 x6 | x16 => C1 x7 | x17 => C1 x8 | x18 => C1 x9 | x19 => C1 x10 | x20 => C1 x11 | x21 => C1 x12 | x22 => C1 x13 | x23 => C1 x14 | x24 => C1 x15 | x25 => C1 x16 | x26 => C1 x17 | x27 => C1 x18 | x28 => C1 x19 | x29 => C1 x20 | x30 => C1 x21 | x31 => C1 x22 | x32 => C1 x23 | x33 => C1 x24 | x34 => C1 x25 | x35 => C1 x26 | x36 => C1 x27 | x37 => C1 x28 | x38 => C1 x29 | x39 => C1 x30 | x40 => C1 x31 | x41 => C1 x32 | x42 => C1 x33 | x43 => C1 x34 | x44 => C1 x35 | x45 => C1 x36 | x46 => C1 x37 | x47 => C1 x38 | x48 => C1 x39 | x49 => C1 x40 | x50 => C1 x41 | x51 => C1 x42 | x52 => C1 x43 | x53 => C1 x44 | x54 => C1 x45 | x55 => C1 x46 | x56 => C1 x47 | x57 => C1 x48 | x58 => C1 x49 | x59 => C1 x50 | x60 => C1 x51 | x61 => C1 x52 | x62 => C1 x53 | x63 => C1 x54 end
 | x56 => match y with x0 => C0 x56 | x1 => C0 x57 | x2 => C0 x58 | x3 => C0 x59 | x4 => C0 x60 | x5 => C0 x61 | x6 => C0 x62 | x7 => C0 x63 | x8 => C1 x0 | x9 => C1 x1 | x10 => C1 x2 | x11 => C1 x3 | x12 => C1 x4 | x13 => C1 x5 | x14 => C1 x6 | x15 => C1 x7 | x16 => C1 x8 | x17 => C1 x9 | x18 => C1 x10 | x19 => C1 x11 | x20 => C1 x12 | x21 => C1 x13 | x22 => C1 x14 | x23 => C1 x15 | x24 => C1 x16 | x25 => C1 x17 | x26 => C1 x18 | x27 => C1 x19 | x28 => C1 x20 | x29 => C1 x21 | x30 => C1 x22 | x31 => C1 x23 | x32 => C1 x24 | x33 => C1 x25 | x34 => C1 x26 | x35 => C1 x27 | x36 => C1 x28 | x37 => C1 x29 | x38 => C1 x30 | x39 => C1 x31 | x40 => C1 x32 | x41 => C1 x33 | x42 => C1 x34 | x43 => C1 x35 | x44 => C1 x36 | x45 => C1 x37 | x46 => C1 x38 | x47 => C1 x39 | x48 => C1 x40 | x49 => C1 x41 | x50 => C1 x42 | x51 => C1 x43 | x52 => C1 x44 | x53 => C1 x45 | x54 => C1 x46 | x55 => C1 x47 | x56 => C1 x48 | x57 => C1 x49 | x58 => C1 x50 | x59 => C1 x51 | x60 => C1 x52 | x61 => C1 x53 | x62 => C1 x54 | x63 => C1 x55 end
 | x57 => match y with x0 => C0 x57 | x1 => C0 x58 | x2 => C0 x59 | x3 => C0 x60 | x4 => C0 x61 | x5 => C0 x62 | x6 => C0 x63 | x7 => C1 x0 | x8 => C1 x1 | x9 => C1 x2 | x10 => C1 x3 | x11 => C1 x4 | x12 => C1 x5 | x13 => C1 x6 | x14 => C1 x7 | x15 => C1 x8 | x16 => C1 x9 | x17 => C1 x10 | x18 => C1 x11 | x19 => C1 x12 | x20 => C1 x13 | x21 => C1 x14 | x22 => C1 x15 | x23 => C1 x16 | x24 => C1 x17 | x25 => C1 x18 | x26 => C1 x19 | x27 => C1 x20 | x28 => C1 x21 | x29 => C1 x22 | x30 => C1 x23 | x31 => C1 x24 | x32 => C1 x25 | x33 => C1 x26 | x34 => C1 x27 | x35 => C1 x28 | x36 => C1 x29 | x37 => C1 x30 | x38 => C1 x31 | x39 => C1 x32 | x40 => C1 x33 | x41 => C1 x34 | x42 => C1 x35 | x43 => C1 x36 | x44 => C1 x37 | x45 => C1 x38 | x46 => C1 x39 | x47 => C1 x40 | x48 => C1 x41 | x49 => C1 x42 | x50 => C1 x43 | x51 => C1 x44 | x52 => C1 x45 | x53 => C1 x46 | x54 => C1 x47 | x55 => C1 x48 | x56 => C1 x49 | x57 => C1 x50 | x58 => C1 x51 | x59 => C1 x52 | x60 => C1 x53 | x61 => C1 x54 | x62 => C1 x55 | x63 => C1 x56 end
 | x58 => match y with x0 => C0 x58 | x1 => C0 x59 | x2 => C0 x60 | x3 => C0 x61 | x4 => C0 x62 | x5 => C0 x63 | x6 => C1 x0 | x7 => C1 x1 | x8 => C1 x2 | x9 => C1 x3 | x10 => C1 x4 | x11 => C1 x5 | x12 => C1 x6 | x13 => C1 x7 | x14 => C1 x8 | x15 => C1 x9 | x16 => C1 x10 | x17 => C1 x11 | x18 => C1 x12 | x19 => C1 x13 | x20 => C1 x14 | x21 => C1 x15 | x22 => C1 x16 | x23 => C1 x17 | x24 => C1 x18 | x25 => C1 x19 | x26 => C1 x20 | x27 => C1 x21 | x28 => C1 x22 | x29 => C1 x23 | x30 => C1 x24 | x31 => C1 x25 | x32 => C1 x26 | x33 => C1 x27 | x34 => C1 x28 | x35 => C1 x29 | x36 => C1 x30 | x37 => C1 x31 | x38 => C1 x32 | x39 => C1 x33 | x40 => C1 x34 | x41 => C1 x35 | x42 => C1 x36 | x43 => C1 x37 | x44 => C1 x38 | x45 => C1 x39 | x46 => C1 x40 | x47 => C1 x41 | x48 => C1 x42 | x49 => C1 x43 | x50 => C1 x44 | x51 => C1 x45 | x52 => C1 x46 | x53 => C1 x47 | x54 => C1 x48 | x55 => C1 x49 | x56 => C1 x50 | x57 => C1 x51 | x58 => C1 x52 | x59 => C1 x53 | x60 => C1 x54 | x61 => C1 x55 | x62 => C1 x56 | x63 => C1 x57 end
 | x59 => match y with x0 => C0 x59 | x1 => C0 x60 | x2 => C0 x61 | x3 => C0 x62 | x4 => C0 x63 | x5 => C1 x0 | x6 => C1 x1 | x7 => C1 x2 | x8 => C1 x3 | x9 => C1 x4 | x10 => C1 x5 | x11 => C1 x6 | x12 => C1 x7 | x13 => C1 x8 | x14 => C1 x9 | x15 => C1 x10 | x16 => C1 x11 | x17 => C1 x12 | x18 => C1 x13 | x19 => C1 x14 | x20 => C1 x15 | x21 => C1 x16 | x22 => C1 x17 | x23 => C1 x18 | x24 => C1 x19 | x25 => C1 x20 | x26 => C1 x21 | x27 => C1 x22 | x28 => C1 x23 | x29 => C1 x24 | x30 => C1 x25 | x31 => C1 x26 | x32 => C1 x27 | x33 => C1 x28 | x34 => C1 x29 | x35 => C1 x30 | x36 => C1 x31 | x37 => C1 x32 | x38 => C1 x33 | x39 => C1 x34 | x40 => C1 x35 | x41 => C1 x36 | x42 => C1 x37 | x43 => C1 x38 | x44 => C1 x39 | x45 => C1 x40 | x46 => C1 x41 | x47 => C1 x42 | x48 => C1 x43 | x49 => C1 x44 | x50 => C1 x45 | x51 => C1 x46 | x52 => C1 x47 | x53 => C1 x48 | x54 => C1 x49 | x55 => C1 x50 | x56 => C1 x51 | x57 => C1 x52 | x58 => C1 x53 | x59 => C1 x54 | x60 => C1 x55 | x61 => C1 x56 | x62 => C1 x57 | x63 => C1 x58 end
 | x60 => match y with x0 => C0 x60 | x1 => C0 x61 | x2 => C0 x62 | x3 => C0 x63 | x4 => C1 x0 | x5 => C1 x1 | x6 => C1 x2 | x7 => C1 x3 | x8 => C1 x4 | x9 => C1 x5 | x10 => C1 x6 | x11 => C1 x7 | x12 => C1 x8 | x13 => C1 x9 | x14 => C1 x10 | x15 => C1 x11 | x16 => C1 x12 | x17 => C1 x13 | x18 => C1 x14 | x19 => C1 x15 | x20 => C1 x16 | x21 => C1 x17 | x22 => C1 x18 | x23 => C1 x19 | x24 => C1 x20 | x25 => C1 x21 | x26 => C1 x22 | x27 => C1 x23 | x28 => C1 x24 | x29 => C1 x25 | x30 => C1 x26 | x31 => C1 x27 | x32 => C1 x28 | x33 => C1 x29 | x34 => C1 x30 | x35 => C1 x31 | x36 => C1 x32 | x37 => C1 x33 | x38 => C1 x34 | x39 => C1 x35 | x40 => C1 x36 | x41 => C1 x37 | x42 => C1 x38 | x43 => C1 x39 | x44 => C1 x40 | x45 => C1 x41 | x46 => C1 x42 | x47 => C1 x43 | x48 => C1 x44 | x49 => C1 x45 | x50 => C1 x46 | x51 => C1 x47 | x52 => C1 x48 | x53 => C1 x49 | x54 => C1 x50 | x55 => C1 x51 | x56 => C1 x52 | x57 => C1 x53 | x58 => C1 x54 | x59 => C1 x55 | x60 => C1 x56 | x61 => C1 x57 | x62 => C1 x58 | x63 => C1 x59 end
 | x61 => match y with x0 => C0 x61 | x1 => C0 x62 | x2 => C0 x63 | x3 => C1 x0 | x4 => C1 x1 | x5 => C1 x2 | x6 => C1 x3 | x7 => C1 x4 | x8 => C1 x5 | x9 => C1 x6 | x10 => C1 x7 | x11 => C1 x8 | x12 => C1 x9 | x13 => C1 x10 | x14 => C1 x11 | x15 => C1 x12 | x16 => C1 x13 | x17 => C1 x14 | x18 => C1 x15 | x19 => C1 x16 | x20 => C1 x17 | x21 => C1 x18 | x22 => C1 x19 | x23 => C1 x20 | x24 => C1 x21 | x25 => C1 x22 | x26 => C1 x23 | x27 => C1 x24 | x28 => C1 x25 | x29 => C1 x26 | x30 => C1 x27 | x31 => C1 x28 | x32 => C1 x29 | x33 => C1 x30 | x34 => C1 x31 | x35 => C1 x32 | x36 => C1 x33 | x37 => C1 x34 | x38 => C1 x35 | x39 => C1 x36 | x40 => C1 x37 | x41 => C1 x38 | x42 => C1 x39 | x43 => C1 x40 | x44 => C1 x41 | x45 => C1 x42 | x46 => C1 x43 | x47 => C1 x44 | x48 => C1 x45 | x49 => C1 x46 | x50 => C1 x47 | x51 => C1 x48 | x52 => C1 x49 | x53 => C1 x50 | x54 => C1 x51 | x55 => C1 x52 | x56 => C1 x53 | x57 => C1 x54 | x58 => C1 x55 | x59 => C1 x56 | x60 => C1 x57 | x61 => C1 x58 | x62 => C1 x59 | x63 => C1 x60 end
 | x62 => match y with x0 => C0 x62 | x1 => C0 x63 | x2 => C1 x0 | x3 => C1 x1 | x4 => C1 x2 | x5 => C1 x3 | x6 => C1 x4 | x7 => C1 x5 | x8 => C1 x6 | x9 => C1 x7 | x10 => C1 x8 | x11 => C1 x9 | x12 => C1 x10 | x13 => C1 x11 | x14 => C1 x12 | x15 => C1 x13 | x16 => C1 x14 | x17 => C1 x15 | x18 => C1 x16 | x19 => C1 x17 | x20 => C1 x18 | x21 => C1 x19 | x22 => C1 x20 | x23 => C1 x21 | x24 => C1 x22 | x25 => C1 x23 | x26 => C1 x24 | x27 => C1 x25 | x28 => C1 x26 | x29 => C1 x27 | x30 => C1 x28 | x31 => C1 x29 | x32 => C1 x30 | x33 => C1 x31 | x34 => C1 x32 | x35 => C1 x33 | x36 => C1 x34 | x37 => C1 x35 | x38 => C1 x36 | x39 => C1 x37 | x40 => C1 x38 | x41 => C1 x39 | x42 => C1 x40 | x43 => C1 x41 | x44 => C1 x42 | x45 => C1 x43 | x46 => C1 x44 | x47 => C1 x45 | x48 => C1 x46 | x49 => C1 x47 | x50 => C1 x48 | x51 => C1 x49 | x52 => C1 x50 | x53 => C1 x51 | x54 => C1 x52 | x55 => C1 x53 | x56 => C1 x54 | x57 => C1 x55 | x58 => C1 x56 | x59 => C1 x57 | x60 => C1 x58 | x61 => C1 x59 | x62 => C1 x60 | x63 => C1 x61 end
 | x63 => match y with x0 => C0 x63 | x1 => C1 x0 | x2 => C1 x1 | x3 => C1 x2 | x4 => C1 x3 | x5 => C1 x4 | x6 => C1 x5 | x7 => C1 x6 | x8 => C1 x7 | x9 => C1 x8 | x10 => C1 x9 | x11 => C1 x10 | x12 => C1 x11 | x13 => C1 x12 | x14 => C1 x13 | x15 => C1 x14 | x16 => C1 x15 | x17 => C1 x16 | x18 => C1 x17 | x19 => C1 x18 | x20 => C1 x19 | x21 => C1 x20 | x22 => C1 x21 | x23 => C1 x22 | x24 => C1 x23 | x25 => C1 x24 | x26 => C1 x25 | x27 => C1 x26 | x28 => C1 x27 | x29 => C1 x28 | x30 => C1 x29 | x31 => C1 x30 | x32 => C1 x31 | x33 => C1 x32 | x34 => C1 x33 | x35 => C1 x34 | x36 => C1 x35 | x37 => C1 x36 | x38 => C1 x37 | x39 => C1 x38 | x40 => C1 x39 | x41 => C1 x40 | x42 => C1 x41 | x43 => C1 x42 | x44 => C1 x43 | x45 => C1 x44 | x46 => C1 x45 | x47 => C1 x46 | x48 => C1 x47 | x49 => C1 x48 | x50 => C1 x49 | x51 => C1 x50 | x52 => C1 x51 | x53 => C1 x52 | x54 => C1 x53 | x55 => C1 x54 | x56 => C1 x55 | x57 => C1 x56 | x58 => C1 x57 | x59 => C1 x58 | x60 => C1 x59 | x61 => C1 x60 | x62 => C1 x61 | x63 => C1 x62 end
 end.
(** x + y + 1. *)
Definition adc1 (x y : dig) : cd := match x with
 | x0 => match y with x0 => C0 x1 | x1 => C0 x2 | x2 => C0 x3 | x3 => C0 x4 | x4 => C0 x5 | x5 => C0 x6 | x6 => C0 x7 | x7 => C0 x8 | x8 => C0 x9 | x9 => C0 x10 | x10 => C0 x11 | x11 => C0 x12 | x12 => C0 x13 | x13 => C0 x14 | x14 => C0 x15 | x15 => C0 x16 | x16 => C0 x17 | x17 => C0 x18 | x18 => C0 x19 | x19 => C0 x20 | x20 => C0 x21 | x21 => C0 x22 | x22 => C0 x23 | x23 => C0 x24 | x24 => C0 x25 | x25 => C0 x26 | x26 => C0 x27 | x27 => C0 x28 | x28 => C0 x29 | x29 => C0 x30 | x30 => C0 x31 | x31 => C0 x32 | x32 => C0 x33 | x33 => C0 x34 | x34 => C0 x35 | x35 => C0 x36 | x36 => C0 x37 | x37 => C0 x38 | x38 => C0 x39 | x39 => C0 x40 | x40 => C0 x41 | x41 => C0 x42 | x42 => C0 x43 | x43 => C0 x44 | x44 => C0 x45 | x45 => C0 x46 | x46 => C0 x47 | x47 => C0 x48 | x48 => C0 x49 | x49 => C0 x50 | x50 => C0 x51 | x51 => C0 x52 | x52 => C0 x53 | x53 => C0 x54 | x54 => C0 x55 | x55 => C0 x56 | x56 => C0 x57 | x57 => C0 x58 | x58 => C0 x59 | x59 => C0 x60 | x60 => C0 x61 | x61 => C0 x62 | x62 => C0 x63 | x63 => C1 x0 end
 | x1 => match y with x0 => C0 x2 | x1 => C0 x3 | x2 => C0 x4 | x3 => C0 x5 | x4 => C0 x6 | x5 => C0 x7 | x6 => C0 x8 | x7 => C0 x9 | x8 => C0 x10 | x9 => C0 x11 | x10 => C0 x12 | x11 => C0 x13 | x12 => C0 x14 | x13 => C0 x15 | x14 => C0 x16 | x15 => C0 x17 | x16 => C0 x18 | x17 => C0 x19 | x18 => C0 x20 | x19 => C0 x21 | x20 => C0 x22 | x21 => C0 x23 | x22 => C0 x24 | x23 => C0 x25 | x24 => C0 x26 | x25 => C0 x27 | x26 => C0 x28 | x27 => C0 x29 | x28 => C0 x30 | x29 => C0 x31 | x30 => C0 x32 | x31 => C0 x33 | x32 => C0 x34 | x33 => C0 x35 | x34 => C0 x36 | x35 => C0 x37 | x36 => C0 x38 | x37 => C0 x39 | x38 => C0 x40 | x39 => C0 x41 | x40 => C0 x42 | x41 => C0 x43 | x42 => C0 x44 | x43 => C0 x45 | x44 => C0 x46 | x45 => C0 x47 | x46 => C0 x48 | x47 => C0 x49 | x48 => C0 x50 | x49 => C0 x51 | x50 => C0 x52 | x51 => C0 x53 | x52 => C0 x54 | x53 => C0 x55 | x54 => C0 x56 | x55 => C0 x57 | x56 => C0 x58 | x57 => C0 x59 | x58 => C0 x60 | x59 => C0 x61 | x60 => C0 x62 | x61 => C0 x63 | x62 => C1 x0 | x63 => C1 x1 end
 | x2 => match y with x0 => C0 x3 | x1 => C0 x4 | x2 => C0 x5 | x3 => C0 x6 | x4 => C0 x7 | x5 => C0 x8 | x6 => C0 x9 | x7 => C0 x10 | x8 => C0 x11 | x9 => C0 x12 | x10 => C0 x13 | x11 => C0 x14 | x12 => C0 x15 | x13 => C0 x16 | x14 => C0 x17 | x15 => C0 x18 | x16 => C0 x19 | x17 => C0 x20 | x18 => C0 x21 | x19 => C0 x22 | x20 => C0 x23 | x21 => C0 x24 | x22 => C0 x25 | x23 => C0 x26 | x24 => C0 x27 | x25 => C0 x28 | x26 => C0 x29 | x27 => C0 x30 | x28 => C0 x31 | x29 => C0 x32 | x30 => C0 x33 | x31 => C0 x34 | x32 => C0 x35 | x33 => C0 x36 | x34 => C0 x37 | x35 => C0 x38 | x36 => C0 x39 | x37 => C0 x40 | x38 => C0 x41 | x39 => C0 x42 | x40 => C0 x43 | x41 => C0 x44 | x42 => C0 x45 | x43 => C0 x46 | x44 => C0 x47 | x45 => C0 x48 | x46 => C0 x49 | x47 => C0 x50 | x48 => C0 x51 | x49 => C0 x52 | x50 => C0 x53 | x51 => C0 x54 | x52 => C0 x55 | x53 => C0 x56 | x54 => C0 x57 | x55 => C0 x58 | x56 => C0 x59 | x57 => C0 x60 | x58 => C0 x61 | x59 => C0 x62 | x60 => C0 x63 | x61 => C1 x0 | x62 => C1 x1 | x63 => C1 x2 end
 | x3 => match y with x0 => C0 x4 | x1 => C0 x5 | x2 => C0 x6 | x3 => C0 x7 | x4 => C0 x8 | x5 => C0 x9 | x6 => C0 x10 | x7 => C0 x11 | x8 => C0 x12 | x9 => C0 x13 | x10 => C0 x14 | x11 => C0 x15 | x12 => C0 x16 | x13 => C0 x17 | x14 => C0 x18 | x15 => C0 x19 | x16 => C0 x20 | x17 => C0 x21 | x18 => C0 x22 | x19 => C0 x23 | x20 => C0 x24 | x21 => C0 x25 | x22 => C0 x26 | x23 => C0 x27 | x24 => C0 x28 | x25 => C0 x29 | x26 => C0 x30 | x27 => C0 x31 | x28 => C0 x32 | x29 => C0 x33 | x30 => C0 x34 | x31 => C0 x35 | x32 => C0 x36 | x33 => C0 x37 | x34 => C0 x38 | x35 => C0 x39 | x36 => C0 x40 | x37 => C0 x41 | x38 => C0 x42 | x39 => C0 x43 | x40 => C0 x44 | x41 => C0 x45 | x42 => C0 x46 | x43 => C0 x47 | x44 => C0 x48 | x45 => C0 x49 | x46 => C0 x50 | x47 => C0 x51 | x48 => C0 x52 | x49 => C0 x53 | x50 => C0 x54 | x51 => C0 x55 | x52 => C0 x56 | x53 => C0 x57 | x54 => C0 x58 | x55 => C0 x59 | x56 => C0 x60 | x57 => C0 x61 | x58 => C0 x62 | x59 => C0 x63 | x60 => C1 x0 | x61 => C1 x1 | x62 => C1 x2 | x63 => C1 x3 end
 | x4 => match y with x0 => C0 x5 | x1 => C0 x6 | x2 => C0 x7 | x3 => C0 x8 | x4 => C0 x9 | x5 => C0 x10 | x6 => C0 x11 | x7 => C0 x12 | x8 => C0 x13 | x9 => C0 x14 | x10 => C0 x15 | x11 => C0 x16 | x12 => C0 x17 | x13 => C0 x18 | x14 => C0 x19 | x15 => C0 x20 | x16 => C0 x21 | x17 => C0 x22 | x18 => C0 x23 | x19 => C0 x24 | x20 => C0 x25 | x21 => C0 x26 | x22 => C0 x27 | x23 => C0 x28 | x24 => C0 x29 | x25 => C0 x30 | x26 => C0 x31 | x27 => C0 x32 | x28 => C0 x33 | x29 => C0 x34 | x30 => C0 x35 | x31 => C0 x36 | x32 => C0 x37 | x33 => C0 x38 | x34 => C0 x39 | x35 => C0 x40 | x36 => C0 x41 | x37 => C0 x42 | x38 => C0 x43 | x39 => C0 x44 | x40 => C0 x45 | x41 => C0 x46 | x42 => C0 x47 | x43 => C0 x48 | x44 => C0 x49 | x45 => C0 x50 | x46 => C0 x51 | x47 => C0 x52 | x48 => C0 x53 | x49 => C0 x54 | x50 => C0 x55 | x51 => C0 x56 | x52 => C0 x57 | x53 => C0 x58 | x54 => C0 x59 | x55 => C0 x60 | x56 => C0 x61 | x57 => C0 x62 | x58 => C0 x63 | x59 => C1 x0 | x60 => C1 x1 | x61 => C1 x2 | x62 => C1 x3 | x63 => C1 x4 end
 | x5 => match y with x0 => C0 x6 | x1 => C0 x7 | x2 => C0 x8 | x3 => C0 x9 | x4 => C0 x10 | x5 => C0 x11 | x6 => C0 x12 | x7 => C0 x13 | x8 => C0 x14 | x9 => C0 x15 | x10 => C0 x16 | x11 => C0 x17 | x12 => C0 x18 | x13 => C0 x19 | x14 => C0 x20 | x15 => C0 x21 | x16 => C0 x22 | x17 => C0 x23 | x18 => C0 x24 | x19 => C0 x25 | x20 => C0 x26 | x21 => C0 x27 | x22 => C0 x28 | x23 => C0 x29 | x24 => C0 x30 | x25 => C0 x31 | x26 => C0 x32 | x27 => C0 x33 | x28 => C0 x34 | x29 => C0 x35 | x30 => C0 x36 | x31 => C0 x37 | x32 => C0 x38 | x33 => C0 x39 | x34 => C0 x40 | x35 => C0 x41 | x36 => C0 x42 | x37 => C0 x43 | x38 => C0 x44 | x39 => C0 x45 | x40 => C0 x46 | x41 => C0 x47 | x42 => C0 x48 | x43 => C0 x49 | x44 => C0 x50 | x45 => C0 x51 | x46 => C0 x52 | x47 => C0 x53 | x48 => C0 x54 | x49 => C0 x55 | x50 => C0 x56 | x51 => C0 x57 | x52 => C0 x58 | x53 => C0 x59 | x54 => C0 x60 | x55 => C0 x61 | x56 => C0 x62 | x57 => C0 x63 | x58 => C1 x0 | x59 => C1 x1 | x60 => C1 x2 | x61 => C1 x3 | x62 => C1 x4 | x63 => C1 x5 end
 | x6 => match y with x0 => C0 x7 | x1 => C0 x8 | x2 => C0 x9 | x3 => C0 x10 | x4 => C0 x11 | x5 => C0 x12 | x6 => C0 x13 | x7 => C0 x14 | x8 => C0 x15 | x9 => C0 x16 | x10 => C0 x17 | x11 => C0 x18 | x12 => C0 x19 | x13 => C0 x20 | x14 => C0 x21 | x15 => C0 x22 | x16 => C0 x23 | x17 => C0 x24 | x18 => C0 x25 | x19 => C0 x26 | x20 => C0 x27 | x21 => C0 x28 | x22 => C0 x29 | x23 => C0 x30 | x24 => C0 x31 | x25 => C0 x32 | x26 => C0 x33 | x27 => C0 x34 | x28 => C0 x35 | x29 => C0 x36 | x30 => C0 x37 | x31 => C0 x38 | x32 => C0 x39 | x33 => C0 x40 | x34 => C0 x41 | x35 => C0 x42 | x36 => C0 x43 | x37 => C0 x44 | x38 => C0 x45 | x39 => C0 x46 | x40 => C0 x47 | x41 => C0 x48 | x42 => C0 x49 | x43 => C0 x50 | x44 => C0 x51 | x45 => C0 x52 | x46 => C0 x53 | x47 => C0 x54 | x48 => C0 x55 | x49 => C0 x56 | x50 => C0 x57 | x51 => C0 x58 | x52 => C0 x59 | x53 => C0 x60 | x54 => C0 x61 | x55 => C0 x62 | x56 => C0 x63 | x57 => C1 x0 | x58 => C1 x1 | x59 => C1 x2 | x60 => C1 x3 | x61 => C1 x4 | x62 => C1 x5 | x63 => C1 x6 end
 | x7 => match y with x0 => C0 x8 | x1 => C0 x9 | x2 => C0 x10 | x3 => C0 x11 | x4 => C0 x12 | x5 => C0 x13 | x6 => C0 x14 | x7 => C0 x15 | x8 => C0 x16 | x9 => C0 x17 | x10 => C0 x18 | x11 => C0 x19 | x12 => C0 x20 | x13 => C0 x21 | x14 => C0 x22 | x15 => C0 x23 | x16 => C0 x24 | x17 => C0 x25 | x18 => C0 x26 | x19 => C0 x27 | x20 => C0 x28 | x21 => C0 x29 | x22 => C0 x30 | x23 => C0 x31 | x24 => C0 x32 | x25 => C0 x33 | x26 => C0 x34 | x27 => C0 x35 | x28 => C0 x36 | x29 => C0 x37 | x30 => C0 x38 | x31 => C0 x39 | x32 => C0 x40 | x33 => C0 x41 | x34 => C0 x42 | x35 => C0 x43 | x36 => C0 x44 | x37 => C0 x45 | x38 => C0 x46 | x39 => C0 x47 | x40 => C0 x48 | x41 => C0 x49 | x42 => C0 x50 | x43 => C0 x51 | x44 => C0 x52 | x45 => C0 x53 | x46 => C0 x54 | x47 => C0 x55 | x48 => C0 x56 | x49 => C0 x57 | x50 => C0 x58 | x51 => C0 x59 | x52 => C0 x60 | x53 => C0 x61 | x54 => C0 x62 | x55 => C0 x63 | x56 => C1 x0 | x57 => C1 x1 | x58 => C1 x2 | x59 => C1 x3 | x60 => C1 x4 | x61 => C1 x5 | x62 => C1 x6 | x63 => C1 x7 end
 | x8 => match y with x0 => C0 x9 | x1 => C0 x10 | x2 => C0 x11 | x3 => C0 x12 | x4 => C0 x13 | x5 => C0 x14 | x6 => C0 x15 | x7 => C0 x16 | x8 => C0 x17 | x9 => C0 x18 | x10 => C0 x19 | x11 => C0 x20 | x12 => C0 x21 | x13 => C0 x22 | x14 => C0 x23 | x15 => C0 x24 | x16 => C0 x25 | x17 => C0 x26 | x18 => C0 x27 | x19 => C0 x28 | x20 => C0 x29 | x21 => C0 x30 | x22 => C0 x31 | x23 => C0 x32 | x24 => C0 x33 | x25 => C0 x34 | x26 => C0 x35 | x27 => C0 x36 | x28 => C0 x37 | x29 => C0 x38 | x30 => C0 x39 | x31 => C0 x40 | x32 => C0 x41 | x33 => C0 x42 | x34 => C0 x43 | x35 => C0 x44 | x36 => C0 x45 | x37 => C0 x46 | x38 => C0 x47 | x39 => C0 x48 | x40 => C0 x49 | x41 => C0 x50 | x42 => C0 x51 | x43 => C0 x52 | x44 => C0 x53 | x45 => C0 x54 | x46 => C0 x55 | x47 => C0 x56 | x48 => C0 x57 | x49 => C0 x58 | x50 => C0 x59 | x51 => C0 x60 | x52 => C0 x61 | x53 => C0 x62 | x54 => C0 x63 | x55 => C1 x0 | x56 => C1 x1 | x57 => C1 x2 | x58 => C1 x3 | x59 => C1 x4 | x60 => C1 x5 | x61 => C1 x6 | x62 => C1 x7 | x63 => C1 x8 end
 | x9 => match y with x0 => C0 x10 | x1 => C0 x11 | x2 => C0 x12 | x3 => C0 x13 | x4 => C0 x14 | x5 => C0 x15 | x6 => C0 x16 | x7 => C0 x17 | x8 => C0 x18 | x9 => C0 x19 | x10 => C0 x20 | x11 => C0 x21 | x12 => C0 x22 | x13 => C0 x23 | x14 => C0 x24 | x15 => C0 x25 | x16 => C0 x26 | x17 => C0 x27 | x18 => C0 x28 | x19 => C0 x29 | x20 => C0 x30 | x21 => C0 x31 | x22 => C0 x32 | x23 => C0 x33 | x24 => C0 x34 | x25 => C0 x35 | x26 => C0 x36 | x27 => C0 x37 | x28 => C0 x38 | x29 => C0 x39 | x30 => C0 x40 | x31 => C0 x41 | x32 => C0 x42 | x33 => C0 x43 | x34 => C0 x44 | x35 => C0 x45 | x36 => C0 x46 | x37 => C0 x47 | x38 => C0 x48 | x39 => C0 x49 | x40 => C0 x50 | x41 => C0 x51 | x42 => C0 x52 | x43 => C0 x53 | x44 => C0 x54 | x45 => C0 x55 | x46 => C0 x56 | x47 => C0 x57 | x48 => C0 x58 | x49 => C0 x59 | x50 => C0 x60 | x51 => C0 x61 | x52 => C0 x62 | x53 => C0 x63 | x54 => C1 x0 | x55 => C1 x1 | x56 => C1 x2 | x57 => C1 x3 | x58 => C1 x4 | x59 => C1 x5 | x60 => C1 x6 | x61 => C1 x7 | x62 => C1 x8 | x63 => C1 x9 end
 | x10 => match y with x0 => C0 x11 | x1 => C0 x12 | x2 => C0 x13 | x3 => C0 x14 | x4 => C0 x15 | x5 => C0 x16 | x6 => C0 x17 | x7 => C0 x18 | x8 => C0 x19 | x9 => C0 x20 | x10 => C0 x21 | x11 => C0 x22 | x12 => C0 x23 | x13 => C0 x24 | x14 => C0 x25 | x15 => C0 x26 | x16 => C0 x27 | x17 => C0 x28 | x18 => C0 x29 | x19 => C0 x30 | x20 => C0 x31 | x21 => C0 x32 | x22 => C0 x33 | x23 => C0 x34 | x24 => C0 x35 | x25 => C0 x36 | x26 => C0 x37 | x27 => C0 x38 | x28 => C0 x39 | x29 => C0 x40 | x30 => C0 x41 | x31 => C0 x42 | x32 => C0 x43 | x33 => C0 x44 | x34 => C0 x45 | x35 => C0 x46 | x36 => C0 x47 | x37 => C0 x48 | x38 => C0 x49 | x39 => C0 x50 | x40 => C0 x51 | x41 => C0 x52 | x42 => C0 x53 | x43 => C0 x54 | x44 => C0 x55 | x45 => C0 x56 | x46 => C0 x57 | x47 => C0 x58 | x48 => C0 x59 | x49 => C0 x60 | x50 => C0 x61 | x51 => C0 x62 | x52 => C0 x63 | x53 => C1 x0 | x54 => C1 x1 | x55 => C1 x2 | x56 => C1 x3 | x57 => C1 x4 | x58 => C1 x5 | x59 => C1 x6 | x60 => C1 x7 | x61 => C1 x8 | x62 => C1 x9 | x63 => C1 x10 end
 | x11 => match y with x0 => C0 x12 | x1 => C0 x13 | x2 => C0 x14 | x3 => C0 x15 | x4 => C0 x16 | x5 => C0 x17 | x6 => C0 x18 | x7 => C0 x19 | x8 => C0 x20 | x9 => C0 x21 | x10 => C0 x22 | x11 => C0 x23 | x12 => C0 x24 | x13 => C0 x25 | x14 => C0 x26 | x15 => C0 x27 | x16 => C0 x28 | x17 => C0 x29 | x18 => C0 x30 | x19 => C0 x31 | x20 => C0 x32 | x21 => C0 x33 | x22 => C0 x34 | x23 => C0 x35 | x24 => C0 x36 | x25 => C0 x37 | x26 => C0 x38 | x27 => C0 x39 | x28 => C0 x40 | x29 => C0 x41 | x30 => C0 x42 | x31 => C0 x43 | x32 => C0 x44 | x33 => C0 x45 | x34 => C0 x46 | x35 => C0 x47 | x36 => C0 x48 | x37 => C0 x49 | x38 => C0 x50 | x39 => C0 x51 | x40 => C0 x52 | x41 => C0 x53 | x42 => C0 x54 | x43 => C0 x55 | x44 => C0 x56 | x45 => C0 x57 | x46 => C0 x58 | x47 => C0 x59 | x48 => C0 x60 | x49 => C0 x61 | x50 => C0 x62 | x51 => C0 x63 | x52 => C1 x0 | x53 => C1 x1 | x54 => C1 x2 | x55 => C1 x3 | x56 => C1 x4 | x57 => C1 x5 | x58 => C1 x6 | x59 => C1 x7 | x60 => C1 x8 | x61 => C1 x9 | x62 => C1 x10 | x63 => C1 x11 end
 | x12 => match y with x0 => C0 x13 | x1 => C0 x14 | x2 => C0 x15 | x3 => C0 x16 | x4 => C0 x17 | x5 => C0 x18 | x6 => C0 x19 | x7 => C0 x20 | x8 => C0 x21 | x9 => C0 x22 | x10 => C0 x23 | x11 => C0 x24 | x12 => C0 x25 | x13 => C0 x26 | x14 => C0 x27 | x15 => C0 x28 | x16 => C0 x29 | x17 => C0 x30 | x18 => C0 x31 | x19 => C0 x32 | x20 => C0 x33 | x21 => C0 x34 | x22 => C0 x35 | x23 => C0 x36 | x24 => C0 x37 | x25 => C0 x38 | x26 => C0 x39 | x27 => C0 x40 | x28 => C0 x41 | x29 => C0 x42 | x30 => C0 x43 | x31 => C0 x44 | x32 => C0 x45 | x33 => C0 x46 | x34 => C0 x47 | x35 => C0 x48 | x36 => C0 x49 | x37 => C0 x50 | x38 => C0 x51 | x39 => C0 x52 | x40 => C0 x53 | x41 => C0 x54 | x42 => C0 x55 | x43 => C0 x56 | x44 => C0 x57 | x45 => C0 x58 | x46 => C0 x59 | x47 => C0 x60 | x48 => C0 x61 | x49 => C0 x62 | x50 => C0 x63 | x51 => C1 x0 | x52 => C1 x1 | x53 => C1 x2 | x54 => C1 x3 | x55 => C1 x4 | x56 => C1 x5 | x57 => C1 x6 | x58 => C1 x7 | x59 => C1 x8 | x60 => C1 x9 | x61 => C1 x10 | x62 => C1 x11 | x63 => C1 x12 end
 | x13 => match y with x0 => C0 x14 | x1 => C0 x15 | x2 => C0 x16 | x3 => C0 x17 | x4 => C0 x18 | x5 => C0 x19 | x6 => C0 x20 | x7 => C0 x21 | x8 => C0 x22 | x9 => C0 x23 | x10 => C0 x24 | x11 => C0 x25 | x12 => C0 x26 | x13 => C0 x27 | x14 => C0 x28 | x15 => C0 x29 | x16 => C0 x30 | x17 => C0 x31 | x18 => C0 x32 | x19 => C0 x33 | x20 => C0 x34 | x21 => C0 x35 | x22 => C0 x36 | x23 => C0 x37 | x24 => C0 x38 | x25 => C0 x39 | x26 => C0 x40 | x27 => C0 x41 | x28 => C0 x42 | x29 => C0 x43 | x30 => C0 x44 | x31 => C0 x45 | x32 => C0 x46 | x33 => C0 x47 | x34 => C0 x48 | x35 => C0 x49 | x36 => C0 x50 | x37 => C0 x51 | x38 => C0 x52 | x39 => C0 x53 | x40 => C0 x54 | x41 => C0 x55 | x42 => C0 x56 | x43 => C0 x57 | x44 => C0 x58 | x45 => C0 x59 | x46 => C0 x60 | x47 => C0 x61 | x48 => C0 x62 | x49 => C0 x63 | x50 => C1 x0 | x51 => C1 x1 | x52 => C1 x2 | x53 => C1 x3 | x54 => C1 x4 | x55 => C1 x5 | x56 => C1 x6 | x57 => C1 x7 | x58 => C1 x8 | x59 => C1 x9 | x60 => C1 x10 | x61 => C1 x11 | x62 => C1 x12 | x63 => C1 x13 end
 | x14 => match y with x0 => C0 x15 | x1 => C0 x16 | x2 => C0 x17 | x3 => C0 x18 | x4 => C0 x19 | x5 => C0 x20 | x6 => C0 x21 | x7 => C0 x22 | x8 => C0 x23 | x9 => C0 x24 | x10 => C0 x25 | x11 => C0 x26 | x12 => C0 x27 | x13 => C0 x28 | x14 => C0 x29 | x15 => C0 x30 | x16 => C0 x31 | x17 => C0 x32 | x18 => C0 x33 | x19 => C0 x34 | x20 => C0 x35 | x21 => C0 x36 | x22 => C0 x37 | x23 => C0 x38 | x24 => C0 x39 | x25 => C0 x40 | x26 => C0 x41 | x27 => C0 x42 | x28 => C0 x43 | x29 => C0 x44 | x30 => C0 x45 | x31 => C0 x46 | x32 => C0 x47 | x33 => C0 x48 | x34 => C0 x49 | x35 => C0 x50 | x36 => C0 x51 | x37 => C0 x52 | x38 => C0 x53 | x39 => C0 x54 | x40 => C0 x55 | x41 => C0 x56 | x42 => C0 x57 | x43 => C0 x58 | x44 => C0 x59 | x45 => C0 x60 | x46 => C0 x61 | x47 => C0 x62 | x48 => C0 x63 | x49 => C1 x0 | x50 => C1 x1 | x51 => C1 x2 | x52 => C1 x3 | x53 => C1 x4 | x54 => C1 x5 | x55 => C1 x6 | x56 => C1 x7 | x57 => C1 x8 | x58 => C1 x9 | x59 => C1 x10 | x60 => C1 x11 | x61 => C1 x12 | x62 => C1 x13 | x63 => C1 x14 end
 | x15 => match y with x0 => C0 x16 | x1 => C0 x17 | x2 => C0 x18 | x3 => C0 x19 | x4 => C0 x20 | x5 => C0 x21 | x6 => C0 x22 | x7 => C0 x23 | x8 => C0 x24 | x9 => C0 x25 | x10 => C0 x26 | x11 => C0 x27 | x12 => C0 x28 | x13 => C0 x29 | x14 => C0 x30 | x15 => C0 x31 | x16 => C0 x32 | x17 => C0 x33 | x18 => C0 x34 | x19 => C0 x35 | x20 => C0 x36 | x21 => C0 x37 | x22 => C0 x38 | x23 => C0 x39 | x24 => C0 x40 | x25 => C0 x41 | x26 => C0 x42 | x27 => C0 x43 | x28 => C0 x44 | x29 => C0 x45 | x30 => C0 x46 | x31 => C0 x47 | x32 => C0 x48 | x33 => C0 x49 | x34 => C0 x50 | x35 => C0 x51 | x36 => C0 x52 | x37 => C0 x53 | x38 => C0 x54 | x39 => C0 x55 | x40 => C0 x56 | x41 => C0 x57 | x42 => C0 x58 | x43 => C0 x59 | x44 => C0 x60 | x45 => C0 x61 | x46 => C0 x62 | x47 => C0 x63 | x48 => C1 x0 | x49 => C1 x1 | x50 => C1 x2 | x51 => C1 x3 | x52 => C1 x4 | x53 => C1 x5 | x54 => C1 x6 | x55 => C1 x7 | x56 => C1 x8 | x57 => C1 x9 | x58 => C1 x10 | x59 => C1 x11 | x60 => C1 x12 | x61 => C1 x13 | x62 => C1 x14 | x63 => C1 x15 end
 | x16 => match y with x0 => C0 x17 | x1 => C0 x18 | x2 => C0 x19 | x3 => C0 x20 | x4 => C0 x21 | x5 => C0 x22 | x6 => C0 x23 | x7 => C0 x24 | x8 => C0 x25 | x9 => C0 x26 | x10 => C0 x27 | x11 => C0 x28 | x12 => C0 x29 | x13 => C0 x30 | x14 => C0 x31 | x15 => C0 x32 | x16 => C0 x33 | x17 => C0 x34 | x18 => C0 x35 | x19 => C0 x36 | x20 => C0 x37 | x21 => C0 x38 | x22 => C0 x39 | x23 => C0 x40 | x24 => C0 x41 | x25 => C0 x42 | x26 => C0 x43 | x27 => C0 x44 | x28 => C0 x45 | x29 => C0 x46 | x30 => C0 x47 | x31 => C0 x48 | x32 => C0 x49 | x33 => C0 x50 | x34 => C0 x51 | x35 => C0 x52 | x36 => C0 x53 | x37 => C0 x54 | x38 => C0 x55 | x39 => C0 x56 | x40 => C0 x57 | x41 => C0 x58 | x42 => C0 x59 | x43 => C0 x60 | x44 => C0 x61 | x45 => C0 x62 | x46 => C0 x63 | x47 => C1 x0 | x48 => C1 x1 | x49 => C1 x2 | x50 => C1 x3 | x51 => C1 x4 | x52 => C1 x5 | x53 => C1 x6 | x54 => C1 x7 | x55 => C1 x8 | x56 => C1 x9 | x57 => C1 x10 | x58 => C1 x11 | x59 => C1 x12 | x60 => C1 x13 | x61 => C1 x14 | x62 => C1 x15 | x63 => C1 x16 end
 | x17 => match y with x0 => C0 x18 | x1 => C0 x19 | x2 => C0 x20 | x3 => C0 x21 | x4 => C0 x22 | x5 => C0 x23 | x6 => C0 x24 | x7 => C0 x25 | x8 => C0 x26 | x9 => C0 x27 | x10 => C0 x28 | x11 => C0 x29 | x12 => C0 x30 | x13 => C0 x31 | x14 => C0 x32 | x15 => C0 x33 | x16 => C0 x34 | x17 => C0 x35 | x18 => C0 x36 | x19 => C0 x37 | x20 => C0 x38 | x21 => C0 x39 | x22 => C0 x40 | x23 => C0 x41 | x24 => C0 x42 | x25 => C0 x43 | x26 => C0 x44 | x27 => C0 x45 | x28 => C0 x46 | x29 => C0 x47 | x30 => C0 x48 | x31 => C0 x49 | x32 => C0 x50 | x33 => C0 x51 | x34 => C0 x52 | x35 => C0 x53 | x36 => C0 x54 | x37 => C0 x55 | x38 => C0 x56 | x39 => C0 x57 | x40 => C0 x58 | x41 => C0 x59 | x42 => C0 x60 | x43 => C0 x61 | x44 => C0 x62 | x45 => C0 x63 | x46 => C1 x0 | x47 => C1 x1 | x48 => C1 x2 | x49 => C1 x3 | x50 => C1 x4 | x51 => C1 x5 | x52 => C1 x6 | x53 => C1 x7 | x54 => C1 x8 | x55 => C1 x9 | x56 => C1 x10 | x57 => C1 x11 | x58 => C1 x12 | x59 => C1 x13 | x60 => C1 x14 | x61 => C1 x15 | x62 => C1 x16 | x63 => C1 x17 end
 | x18 => match y with x0 => C0 x19 | x1 => C0 x20 | x2 => C0 x21 | x3 => C0 x22 | x4 => C0 x23 | x5 => C0 x24 | x6 => C0 x25 | x7 => C0 x26 | x8 => C0 x27 | x9 => C0 x28 | x10 => C0 x29 | x11 => C0 x30 | x12 => C0 x31 | x13 => C0 x32 | x14 => C0 x33 | x15 => C0 x34 | x16 => C0 x35 | x17 => C0 x36 | x18 => C0 x37 | x19 => C0 x38 | x20 => C0 x39 | x21 => C0 x40 | x22 => C0 x41 | x23 => C0 x42 | x24 => C0 x43 | x25 => C0 x44 | x26 => C0 x45 | x27 => C0 x46 | x28 => C0 x47 | x29 => C0 x48 | x30 => C0 x49 | x31 => C0 x50 | x32 => C0 x51 | x33 => C0 x52 | x34 => C0 x53 | x35 => C0 x54 | x36 => C0 x55 | x37 => C0 x56 | x38 => C0 x57 | x39 => C0 x58 | x40 => C0 x59 | x41 => C0 x60 | x42 => C0 x61 | x43 => C0 x62 | x44 => C0 x63 | x45 => C1 x0 | x46 => C1 x1 | x47 => C1 x2 | x48 => C1 x3 | x49 => C1 x4 | x50 => C1 x5 | x51 => C1 x6 | x52 => C1 x7 | x53 => C1 x8 | x54 => C1 x9 | x55 => C1 x10 | x56 => C1 x11 | x57 => C1 x12 | x58 => C1 x13 | x59 => C1 x14 | x60 => C1 x15 | x61 => C1 x16 | x62 => C1 x17 | x63 => C1 x18 end
 | x19 => match y with x0 => C0 x20 | x1 => C0 x21 | x2 => C0 x22 | x3 => C0 x23 | x4 => C0 x24 | x5 => C0 x25 | x6 => C0 x26 | x7 => C0 x27 | x8 => C0 x28 | x9 => C0 x29 | x10 => C0 x30 | x11 => C0 x31 | x12 => C0 x32 | x13 => C0 x33 | x14 => C0 x34 | x15 => C0 x35 | x16 => C0 x36 | x17 => C0 x37 | x18 => C0 x38 | x19 => C0 x39 | x20 => C0 x40 | x21 => C0 x41 | x22 => C0 x42 | x23 => C0 x43 | x24 => C0 x44 | x25 => C0 x45 | x26 => C0 x46 | x27 => C0 x47 | x28 => C0 x48 | x29 => C0 x49 | x30 => C0 x50 | x31 => C0 x51 | x32 => C0 x52 | x33 => C0 x53 | x34 => C0 x54 | x35 => C0 x55 | x36 => C0 x56 | x37 => C0 x57 | x38 => C0 x58 | x39 => C0 x59 | x40 => C0 x60 | x41 => C0 x61 | x42 => C0 x62 | x43 => C0 x63 | x44 => C1 x0 | x45 => C1 x1 | x46 => C1 x2 | x47 => C1 x3 | x48 => C1 x4 | x49 => C1 x5 | x50 => C1 x6 | x51 => C1 x7 | x52 => C1 x8 | x53 => C1 x9 | x54 => C1 x10 | x55 => C1 x11 | x56 => C1 x12 | x57 => C1 x13 | x58 => C1 x14 | x59 => C1 x15 | x60 => C1 x16 | x61 => C1 x17 | x62 => C1 x18 | x63 => C1 x19 end
 | x20 => match y with x0 => C0 x21 | x1 => C0 x22 | x2 => C0 x23 | x3 => C0 x24 | x4 => C0 x25 | x5 => C0 x26 | x6 => C0 x27 | x7 => C0 x28 | x8 => C0 x29 | x9 => C0 x30 | x10 => C0 x31 | x11 => C0 x32 | x12 => C0 x33 | x13 => C0 x34 | x14 => C0 x35 | x15 => C0 x36 | x16 => C0 x37 | x17 => C0 x38 | x18 => C0 x39 | x19 => C0 x40 | x20 => C0 x41 | x21 => C0 x42 | x22 => C0 x43 | x23 => C0 x44 | x24 => C0 x45 | x25 => C0 x46 | x26 => C0 x47 | x27 => C0 x48 | x28 => C0 x49 | x29 => C0 x50 | x30 => C0 x51 | x31 => C0 x52 | x32 => C0 x53 | x33 => C0 x54 | x34 => C0 x55 | x35 => C0 x56 | x36 => C0 x57 | x37 => C0 x58 | x38 => C0 x59 | x39 => C0 x60 | x40 => C0 x61 | x41 => C0 x62 | x42 => C0 x63 | x43 => C1 x0 | x44 => C1 x1 | x45 => C1 x2 | x46 => C1 x3 | x47 => C1 x4 | x48 => C1 x5 | x49 => C1 x6 | x50 => C1 x7 | x51 => C1 x8 | x52 => C1 x9 | x53 => C1 x10 | x54 => C1 x11 | x55 => C1 x12 | x56 => C1 x13 | x57 => C1 x14 | x58 => C1 x15 | x59 => C1 x16 | x60 => C1 x17 | x61 => C1 x18 | x62 => C1 x19 | x63 => C1 x20 end
 | x21 => match y with x0 => C0 x22 | x1 => C0 x23 | x2 => C0 x24 | x3 => C0 x25 | x4 => C0 x26 | x5 => C0 x27 | x6 => C0 x28 | x7 => C0 x29 | x8 => C0 x30 | x9 => C0 x31 | x10 => C0 x32 | x11 => C0 x33 | x12 => C0 x34 | x13 => C0 x35 | x14 => C0 x36 | x15 => C0 x37 | x16 => C0 x38 | x17 => C0 x39 | x18 => C0 x40 | x19 => C0 x41 | x20 => C0 x42 | x21 => C0 x43 | x22 => C0 x44 | x23 => C0 x45 | x24 => C0 x46 | x25 => C0 x47 | x26 => C0 x48 | x27 => C0 x49 | x28 => C0 x50 | x29 => C0 x51 | x30 => C0 x52 | x31 => C0 x53 | x32 => C0 x54 | x33 => C0 x55 | x34 => C0 x56 | x35 => C0 x57 | x36 => C0 x58 | x37 => C0 x59 | x38 => C0 x60 | x39 => C0 x61 | x40 => C0 x62 | x41 => C0 x63 | x42 => C1 x0 | x43 => C1 x1 | x44 => C1 x2 | x45 => C1 x3 | x46 => C1 x4 | x47 => C1 x5 | x48 => C1 x6 | x49 => C1 x7 | x50 => C1 x8 | x51 => C1 x9 | x52 => C1 x10 | x53 => C1 x11 | x54 => C1 x12 | x55 => C1 x13 | x56 => C1 x14 | x57 => C1 x15 | x58 => C1 x16 | x59 => C1 x17 | x60 => C1 x18 | x61 => C1 x19 | x62 => C1 x20 | x63 => C1 x21 end
 | x22 => match y with x0 => C0 x23 | x1 => C0 x24 | x2 => C0 x25 | x3 => C0 x26 | x4 => C0 x27 | x5 => C0 x28 | x6 => C0 x29 | x7 => C0 x30 | x8 => C0 x31 | x9 => C0 x32 | x10 => C0 x33 | x11 => C0 x34 | x12 => C0 x35 | x13 => C0 x36 | x14 => C0 x37 | x15 => C0 x38 | x16 => C0 x39 | x17 => C0 x40 | x18 => C0 x41 | x19 => C0 x42 | x20 => C0 x43 | x21 => C0 x44 | x22 => C0 x45 | x23 => C0 x46 | x24 => C0 x47 | x25 => C0 x48 | x26 => C0 x49 | x27 => C0 x50 | x28 => C0 x51 | x29 => C0 x52 | x30 => C0 x53 | x31 => C0 x54 | x32 => C0 x55 | x33 => C0 x56 | x34 => C0 x57 | x35 => C0 x58 | x36 => C0 x59 | x37 => C0 x60 | x38 => C0 x61 | x39 => C0 x62 | x40 => C0 x63 | x41 => C1 x0 | x42 => C1 x1 | x43 => C1 x2 | x44 => C1 x3 | x45 => C1 x4 | x46 => C1 x5 | x47 => C1 x6 | x48 => C1 x7 | x49 => C1 x8 | x50 => C1 x9 | x51 => C1 x10 | x52 => C1 x11 | x53 => C1 x12 | x54 => C1 x13 | x55 => C1 x14 | x56 => C1 x15 | x57 => C1 x16 | x58 => C1 x17 | x59 => C1 x18 | x60 => C1 x19 | x61 => C1 x20 | x62 => C1 x21 | x63 => C1 x22 end
 | x23 => match y with x0 => C0 x24 | x1 => C0 x25 | x2 => C0 x26 | x3 => C0 x27 | x4 => C0 x28 | x5 => C0 x29 | x6 => C0 x30 | x7 => C0 x31 | x8 => C0 x32 | x9 => C0 x33 | x10 => C0 x34 | x11 => C0 x35 | x12 => C0 x36 | x13 => C0 x37 | x14 => C0 x38 | x15 => C0 x39 | x16 => C0 x40 | x17 => C0 x41 | x18 => C0 x42 | x19 => C0 x43 | x20 => C0 x44 | x21 => C0 x45 | x22 => C0 x46 | x23 => C0 x47 | x24 => C0 x48 | x25 => C0 x49 | x26 => C0 x50 | x27 => C0 x51 | x28 => C0 x52 | x29 => C0 x53 | x30 => C0 x54 | x31 => C0 x55 | x32 => C0 x56 | x33 => C0 x57 | x34 => C0 x58 | x35 => C0 x59 | x36 => C0 x60 | x37 => C0 x61 | x38 => C0 x62 | x39 => C0 x63 | x40 => C1 x0 | x41 => C1 x1 | x42 => C1 x2 | x43 => C1 x3 | x44 => C1 x4 | x45 => C1 x5 | x46 => C1 x6 | x47 => C1 x7 | x48 => C1 x8 | x49 => C1 x9 | x50 => C1 x10 | x51 => C1 x11 | x52 => C1 x12 | x53 => C1 x13 | x54 => C1 x14 | x55 => C1 x15 | x56 => C1 x16 | x57 => C1 x17 | x58 => C1 x18 | x59 => C1 x19 | x60 => C1 x20 | x61 => C1 x21 | x62 => C1 x22 | x63 => C1 x23 end
 | x24 => match y with x0 => C0 x25 | x1 => C0 x26 | x2 => C0 x27 | x3 => C0 x28 | x4 => C0 x29 | x5 => C0 x30 | x6 => C0 x31 | x7 => C0 x32 | x8 => C0 x33 | x9 => C0 x34 | x10 => C0 x35 | x11 => C0 x36 | x12 => C0 x37 | x13 => C0 x38 | x14 => C0 x39 | x15 => C0 x40 | x16 => C0 x41 | x17 => C0 x42 | x18 => C0 x43 | x19 => C0 x44 | x20 => C0 x45 | x21 => C0 x46 | x22 => C0 x47 | x23 => C0 x48 | x24 => C0 x49 | x25 => C0 x50 | x26 => C0 x51 | x27 => C0 x52 | x28 => C0 x53 | x29 => C0 x54 | x30 => C0 x55 | x31 => C0 x56 | x32 => C0 x57 | x33 => C0 x58 | x34 => C0 x59 | x35 => C0 x60 | x36 => C0 x61 | x37 => C0 x62 | x38 => C0 x63 | x39 => C1 x0 | x40 => C1 x1 | x41 => C1 x2 | x42 => C1 x3 | x43 => C1 x4 | x44 => C1 x5 | x45 => C1 x6 | x46 => C1 x7 | x47 => C1 x8 | x48 => C1 x9 | x49 => C1 x10 | x50 => C1 x11 | x51 => C1 x12 | x52 => C1 x13 | x53 => C1 x14 | x54 => C1 x15 | x55 => C1 x16 | x56 => C1 x17 | x57 => C1 x18 | x58 => C1 x19 | x59 => C1 x20 | x60 => C1 x21 | x61 => C1 x22 | x62 => C1 x23 | x63 => C1 x24 end
 | x25 => match y with x0 => C0 x26 | x1 => C0 x27 | x2 => C0 x28 | x3 => C0 x29 | x4 => C0 x30 | x5 => C0 x31 | x6 => C0 x32 | x7 => C0 x33 | x8 => C0 x34 | x9 => C0 x35 | x10 => C0 x36 | x11 => C0 x37 | x12 => C0 x38 | x13 => C0 x39 | x14 => C0 x40 | x15 => C0 x41 | x16 => C0 x42 | x17 => C0 x43 | x18 => C0 x44 | x19 => C0 x45 | x20 => C0 x46 | x21 => C0 x47 | x22 => C0 x48 | x23 => C0 x49 | x24 => C0 x50 | x25 => C0 x51 | x26 => C0 x52 | x27 => C0 x53 | x28 => C0 x54 | x29 => C0 x55 | x30 => C0 x56 | x31 => C0 x57 | x32 => C0 x58 | x33 => C0 x59 | x34 => C0 x60 | x35 => C0 x61 | x36 => C0 x62 | x37 => C0 x63 | x38 => C1 x0 | x39 => C1 x1 | x40 => C1 x2 | x41 => C1 x3 | x42 => C1 x4 | x43 => C1 x5 | x44 => C1 x6 | x45 => C1 x7 | x46 => C1 x8 | x47 => C1 x9 | x48 => C1 x10 | x49 => C1 x11 | x50 => C1 x12 | x51 => C1 x13 | x52 => C1 x14 | x53 => C1 x15 | x54 => C1 x16 | x55 => C1 x17 | x56 => C1 x18 | x57 => C1 x19 | x58 => C1 x20 | x59 => C1 x21 | x60 => C1 x22 | x61 => C1 x23 | x62 => C1 x24 | x63 => C1 x25 end
 | x26 => match y with x0 => C0 x27 | x1 => C0 x28 | x2 => C0 x29 | x3 => C0 x30 | x4 => C0 x31 | x5 => C0 x32 | x6 => C0 x33 | x7 => C0 x34 | x8 => C0 x35 | x9 => C0 x36 | x10 => C0 x37 | x11 => C0 x38 | x12 => C0 x39 | x13 => C0 x40 | x14 => C0 x41 | x15 => C0 x42 | x16 => C0 x43 | x17 => C0 x44 | x18 => C0 x45 | x19 => C0 x46 | x20 => C0 x47 | x21 => C0 x48 | x22 => C0 x49 | x23 => C0 x50 | x24 => C0 x51 | x25 => C0 x52 | x26 => C0 x53 | x27 => C0 x54 | x28 => C0 x55 | x29 => C0 x56 | x30 => C0 x57 | x31 => C0 x58 | x32 => C0 x59 | x33 => C0 x60 | x34 => C0 x61 | x35 => C0 x62 | x36 => C0 x63 | x37 => C1 x0 | x38 => C1 x1 | x39 => C1 x2 | x40 => C1 x3 | x41 => C1 x4 | x42 => C1 x5 | x43 => C1 x6 | x44 => C1 x7 | x45 => C1 x8 | x46 => C1 x9 | x47 => C1 x10 | x48 => C1 x11 | x49 => C1 x12 | x50 => C1 x13 | x51 => C1 x14 | x52 => C1 x15 | x53 => C1 x16 | x54 => C1 x17 | x55 => C1 x18 | x56 => C1 x19 | x57 => C1 x20 | x58 => C1 x21 | x59 => C1 x22 | x60 => C1 x23 | x61 => C1 x24 | x62 => C1 x25 | x63 => C1 x26 end
 | x27 => match y with x0 => C0 x28 | x1 => C0 x29 | x2 => C0 x30 | x3 => C0 x31 | x4 => C0 x32 | x5 => C0 x33 | x6 => C0 x34 | x7 => C0 x35 | x8 => C0 x36 | x9 => C0 x37 | x10 => C0 x38 | x11 => C0 x39 | x12 => C0 x40 | x13 => C0 x41 | x14 => C0 x42 | x15 => C0 x43 | x16 => C0 x44 | x17 => C0 x45 | x18 => C0 x46 | x19 => C0 x47 | x20 => C0 x48 | x21 => C0 x49 | x22 => C0 x50 | x23 => C0 x51 | x24 => C0 x52 | x25 => C0 x53 | x26 => C0 x54 | x27 => C0 x55 | x28 => C0 x56 | x29 => C0 x57 | x30 => C0 x58 | x31 => C0 x59 | x32 => C0 x60 | x33 => C0 x61 | x34 => C0 x62 | x35 => C0 x63 | x36 => C1 x0 | x37 => C1 x1 | x38 => C1 x2 | x39 => C1 x3 | x40 => C1 x4 | x41 => C1 x5 | x42 => C1 x6 | x43 => C1 x7 | x44 => C1 x8 | x45 => C1 x9 | x46 => C1 x10 | x47 => C1 x11 | x48 => C1 x12 | x49 => C1 x13 | x50 => C1 x14 | x51 => C1 x15 | x52 => C1 x16 | x53 => C1 x17 | x54 => C1 x18 | x55 => C1 x19 | x56 => C1 x20 | x57 => C1 x21 | x58 => C1 x22 | x59 => C1 x23 | x60 => C1 x24 | x61 => C1 x25 | x62 => C1 x26 | x63 => C1 x27 end
 | x28 => match y with x0 => C0 x29 | x1 => C0 x30 | x2 => C0 x31 | x3 => C0 x32 | x4 => C0 x33 | x5 => C0 x34 | x6 => C0 x35 | x7 => C0 x36 | x8 => C0 x37 | x9 => C0 x38 | x10 => C0 x39 | x11 => C0 x40 | x12 => C0 x41 | x13 => C0 x42 | x14 => C0 x43 | x15 => C0 x44 | x16 => C0 x45 | x17 => C0 x46 | x18 => C0 x47 | x19 => C0 x48 | x20 => C0 x49 | x21 => C0 x50 | x22 => C0 x51 | x23 => C0 x52 | x24 => C0 x53 | x25 => C0 x54 | x26 => C0 x55 | x27 => C0 x56 | x28 => C0 x57 | x29 => C0 x58 | x30 => C0 x59 | x31 => C0 x60 | x32 => C0 x61 | x33 => C0 x62 | x34 => C0 x63 | x35 => C1 x0 | x36 => C1 x1 | x37 => C1 x2 | x38 => C1 x3 | x39 => C1 x4 | x40 => C1 x5 | x41 => C1 x6 | x42 => C1 x7 | x43 => C1 x8 | x44 => C1 x9 | x45 => C1 x10 | x46 => C1 x11 | x47 => C1 x12 | x48 => C1 x13 | x49 => C1 x14 | x50 => C1 x15 | x51 => C1 x16 | x52 => C1 x17 | x53 => C1 x18 | x54 => C1 x19 | x55 => C1 x20 | x56 => C1 x21 | x57 => C1 x22 | x58 => C1 x23 | x59 => C1 x24 | x60 => C1 x25 | x61 => C1 x26 | x62 => C1 x27 | x63 => C1 x28 end
 | x29 => match y with x0 => C0 x30 | x1 => C0 x31 | x2 => C0 x32 | x3 => C0 x33 | x4 => C0 x34 | x5 => C0 x35 | x6 => C0 x36 | x7 => C0 x37 | x8 => C0 x38 | x9 => C0 x39 | x10 => C0 x40 | x11 => C0 x41 | x12 => C0 x42 | x13 => C0 x43 | x14 => C0 x44 | x15 => C0 x45 | x16 => C0 x46 | x17 => C0 x47 | x18 => C0 x48 | x19 => C0 x49 | x20 => C0 x50 | x21 => C0 x51 | x22 => C0 x52 | x23 => C0 x53 | x24 => C0 x54 | x25 => C0 x55 | x26 => C0 x56 | x27 => C0 x57 | x28 => C0 x58 | x29 => C0 x59 | x30 => C0 x60 | x31 => C0 x61 | x32 => C0 x62 | x33 => C0 x63 | x34 => C1 x0 | x35 => C1 x1 | x36 => C1 x2 | x37 => C1 x3 | x38 => C1 x4 | x39 => C1 x5 | x40 => C1 x6 | x41 => C1 x7 | x42 => C1 x8 | x43 => C1 x9 | x44 => C1 x10 | x45 => C1 x11 | x46 => C1 x12 | x47 => C1 x13 | x48 => C1 x14 | x49 => C1 x15 | x50 => C1 x16 | x51 => C1 x17 | x52 => C1 x18 | x53 => C1 x19 | x54 => C1 x20 | x55 => C1 x21 | x56 => C1 x22 | x57 => C1 x23 | x58 => C1 x24 | x59 => C1 x25 | x60 => C1 x26 | x61 => C1 x27 | x62 => C1 x28 | x63 => C1 x29 end
 | x30 => match y with x0 => C0 x31 | x1 => C0 x32 | x2 => C0 x33 | x3 => C0 x34 | x4 => C0 x35 | x5 => C0 x36 | x6 => C0 x37 | x7 => C0 x38 | x8 => C0 x39 | x9 => C0 x40 | x10 => C0 x41 | x11 => C0 x42 | x12 => C0 x43 | x13 => C0 x44 | x14 => C0 x45 | x15 => C0 x46 | x16 => C0 x47 | x17 => C0 x48 | x18 => C0 x49 | x19 => C0 x50 | x20 => C0 x51 | x21 => C0 x52 | x22 => C0 x53 | x23 => C0 x54 | x24 => C0 x55 | x25 => C0 x56 | x26 => C0 x57 | x27 => C0 x58 | x28 => C0 x59 | x29 => C0 x60 | x30 => C0 x61 | x31 => C0 x62 | x32 => C0 x63 | x33 => C1 x0 | x34 => C1 x1 | x35 => C1 x2 | x36 => C1 x3 | x37 => C1 x4 | x38 => C1 x5 | x39 => C1 x6 | x40 => C1 x7 | x41 => C1 x8 | x42 => C1 x9 | x43 => C1 x10 | x44 => C1 x11 | x45 => C1 x12 | x46 => C1 x13 | x47 => C1 x14 | x48 => C1 x15 | x49 => C1 x16 | x50 => C1 x17 | x51 => C1 x18 | x52 => C1 x19 | x53 => C1 x20 | x54 => C1 x21 | x55 => C1 x22 | x56 => C1 x23 | x57 => C1 x24 | x58 => C1 x25 | x59 => C1 x26 | x60 => C1 x27 | x61 => C1 x28 | x62 => C1 x29 | x63 => C1 x30 end
 | x31 => match y with x0 => C0 x32 | x1 => C0 x33 | x2 => C0 x34 | x3 => C0 x35 | x4 => C0 x36 | x5 => C0 x37 | x6 => C0 x38 | x7 => C0 x39 | x8 => C0 x40 | x9 => C0 x41 | x10 => C0 x42 | x11 => C0 x43 | x12 => C0 x44 | x13 => C0 x45 | x14 => C0 x46 | x15 => C0 x47 | x16 => C0 x48 | x17 => C0 x49 | x18 => C0 x50 | x19 => C0 x51 | x20 => C0 x52 | x21 => C0 x53 | x22 => C0 x54 | x23 => C0 x55 | x24 => C0 x56 | x25 => C0 x57 | x26 => C0 x58 | x27 => C0 x59 | x28 => C0 x60 | x29 => C0 x61 | x30 => C0 x62 | x31 => C0 x63 | x32 => C1 x0 | x33 => C1 x1 | x34 => C1 x2 | x35 => C1 x3 | x36 => C1 x4 | x37 => C1 x5 | x38 => C1 x6 | x39 => C1 x7 | x40 => C1 x8 | x41 => C1 x9 | x42 => C1 x10 | x43 => C1 x11 | x44 => C1 x12 | x45 => C1 x13 | x46 => C1 x14 | x47 => C1 x15 | x48 => C1 x16 | x49 => C1 x17 | x50 => C1 x18 | x51 => C1 x19 | x52 => C1 x20 | x53 => C1 x21 | x54 => C1 x22 | x55 => C1 x23 | x56 => C1 x24 | x57 => C1 x25 | x58 => C1 x26 | x59 => C1 x27 | x60 => C1 x28 | x61 => C1 x29 | x62 => C1 x30 | x63 => C1 x31 end
 | x32 => match y with x0 => C0 x33 | x1 => C0 x34 | x2 => C0 x35 | x3 => C0 x36 | x4 => C0 x37 | x5 => C0 x38 | x6 => C0 x39 | x7 => C0 x40 | x8 => C0 x41 | x9 => C0 x42 | x10 => C0 x43 | x11 => C0 x44 | x12 => C0 x45 | x13 => C0 x46 | x14 => C0 x47 | x15 => C0 x48 | x16 => C0 x49 | x17 => C0 x50 | x18 => C0 x51 | x19 => C0 x52 | x20 => C0 x53 | x21 => C0 x54 | x22 => C0 x55 | x23 => C0 x56 | x24 => C0 x57 | x25 => C0 x58 | x26 => C0 x59 | x27 => C0 x60 | x28 => C0 x61 | x29 => C0 x62 | x30 => C0 x63 | x31 => C1 x0 | x32 => C1 x1 | x33 => C1 x2 | x34 => C1 x3 | x35 => C1 x4 | x36 => C1 x5 | x37 => C1 x6 | x38 => C1 x7 | x39 => C1 x8 | x40 => C1 x9 | x41 => C1 x10 | x42 => C1 x11 | x43 => C1 x12 | x44 => C1 x13 | x45 => C1 x14 | x46 => C1 x15 | x47 => C1 x16 | x48 => C1 x17 | x49 => C1 x18 | x50 => C1 x19 | x51 => C1 x20 | x52 => C1 x21 | x53 => C1 x22 | x54 => C1 x23 | x55 => C1 x24 | x56 => C1 x25 | x57 => C1 x26 | x58 => C1 x27 | x59 => C1 x28 | x60 => C1 x29 | x61 => C1 x30 | x62 => C1 x31 | x63 => C1 x32 end
 | x33 => match y with x0 => C0 x34 | x1 => C0 x35 | x2 => C0 x36 | x3 => C0 x37 | x4 => C0 x38 | x5 => C0 x39 | x6 => C0 x40 | x7 => C0 x41 | x8 => C0 x42 | x9 => C0 x43 | x10 => C0 x44 | x11 => C0 x45 | x12 => C0 x46 | x13 => C0 x47 | x14 => C0 x48 | x15 => C0 x49 | x16 => C0 x50 | x17 => C0 x51 | x18 => C0 x52 | x19 => C0 x53 | x20 => C0 x54 | x21 => C0 x55 | x22 => C0 x56 | x23 => C0 x57 | x24 => C0 x58 | x25 => C0 x59 | x26 => C0 x60 | x27 => C0 x61 | x28 => C0 x62 | x29 => C0 x63 | x30 => C1 x0 | x31 => C1 x1 | x32 => C1 x2 | x33 => C1 x3 | x34 => C1 x4 | x35 => C1 x5 | x36 => C1 x6 | x37 => C1 x7 | x38 => C1 x8 | x39 => C1 x9 | x40 => C1 x10 | x41 => C1 x11 | x42 => C1 x12 | x43 => C1 x13 | x44 => C1 x14 | x45 => C1 x15 | x46 => C1 x16 | x47 => C1 x17 | x48 => C1 x18 | x49 => C1 x19 | x50 => C1 x20 | x51 => C1 x21 | x52 => C1 x22 | x53 => C1 x23 | x54 => C1 x24 | x55 => C1 x25 | x56 => C1 x26 | x57 => C1 x27 | x58 => C1 x28 | x59 => C1 x29 | x60 => C1 x30 | x61 => C1 x31 | x62 => C1 x32 | x63 => C1 x33 end
 | x34 => match y with x0 => C0 x35 | x1 => C0 x36 | x2 => C0 x37 | x3 => C0 x38 | x4 => C0 x39 | x5 => C0 x40 | x6 => C0 x41 | x7 => C0 x42 | x8 => C0 x43 | x9 => C0 x44 | x10 => C0 x45 | x11 => C0 x46 | x12 => C0 x47 | x13 => C0 x48 | x14 => C0 x49 | x15 => C0 x50 | x16 => C0 x51 | x17 => C0 x52 | x18 => C0 x53 | x19 => C0 x54 | x20 => C0 x55 | x21 => C0 x56 | x22 => C0 x57 | x23 => C0 x58 | x24 => C0 x59 | x25 => C0 x60 | x26 => C0 x61 | x27 => C0 x62 | x28 => C0 x63 | x29 => C1 x0 | x30 => C1 x1 | x31 => C1 x2 | x32 => C1 x3 | x33 => C1 x4 | x34 => C1 x5 | x35 => C1 x6 | x36 => C1 x7 | x37 => C1 x8 | x38 => C1 x9 | x39 => C1 x10 | x40 => C1 x11 | x41 => C1 x12 | x42 => C1 x13 | x43 => C1 x14 | x44 => C1 x15 | x45 => C1 x16 | x46 => C1 x17 | x47 => C1 x18 | x48 => C1 x19 | x49 => C1 x20 | x50 => C1 x21 | x51 => C1 x22 | x52 => C1 x23 | x53 => C1 x24 | x54 => C1 x25 | x55 => C1 x26 | x56 => C1 x27 | x57 => C1 x28 | x58 => C1 x29 | x59 => C1 x30 | x60 => C1 x31 | x61 => C1 x32 | x62 => C1 x33 | x63 => C1 x34 end
 | x35 => match y with x0 => C0 x36 | x1 => C0 x37 | x2 => C0 x38 | x3 => C0 x39 | x4 => C0 x40 | x5 => C0 x41 | x6 => C0 x42 | x7 => C0 x43 | x8 => C0 x44 | x9 => C0 x45 | x10 => C0 x46 | x11 => C0 x47 | x12 => C0 x48 | x13 => C0 x49 | x14 => C0 x50 | x15 => C0 x51 | x16 => C0 x52 | x17 => C0 x53 | x18 => C0 x54 | x19 => C0 x55 | x20 => C0 x56 | x21 => C0 x57 | x22 => C0 x58 | x23 => C0 x59 | x24 => C0 x60 | x25 => C0 x61 | x26 => C0 x62 | x27 => C0 x63 | x28 => C1 x0 | x29 => C1 x1 | x30 => C1 x2 | x31 => C1 x3 | x32 => C1 x4 | x33 => C1 x5 | x34 => C1 x6 | x35 => C1 x7 | x36 => C1 x8 | x37 => C1 x9 | x38 => C1 x10 | x39 => C1 x11 | x40 => C1 x12 | x41 => C1 x13 | x42 => C1 x14 | x43 => C1 x15 | x44 => C1 x16 | x45 => C1 x17 | x46 => C1 x18 | x47 => C1 x19 | x48 => C1 x20 | x49 => C1 x21 | x50 => C1 x22 | x51 => C1 x23 | x52 => C1 x24 | x53 => C1 x25 | x54 => C1 x26 | x55 => C1 x27 | x56 => C1 x28 | x57 => C1 x29 | x58 => C1 x30 | x59 => C1 x31 | x60 => C1 x32 | x61 => C1 x33 | x62 => C1 x34 | x63 => C1 x35 end
 | x36 => match y with x0 => C0 x37 | x1 => C0 x38 | x2 => C0 x39 | x3 => C0 x40 | x4 => C0 x41 | x5 => C0 x42 | x6 => C0 x43 | x7 => C0 x44 | x8 => C0 x45 | x9 => C0 x46 | x10 => C0 x47 | x11 => C0 x48 | x12 => C0 x49 | x13 => C0 x50 | x14 => C0 x51 | x15 => C0 x52 | x16 => C0 x53 | x17 => C0 x54 | x18 => C0 x55 | x19 => C0 x56 | x20 => C0 x57 | x21 => C0 x58 | x22 => C0 x59 | x23 => C0 x60 | x24 => C0 x61 | x25 => C0 x62 | x26 => C0 x63 | x27 => C1 x0 | x28 => C1 x1 | x29 => C1 x2 | x30 => C1 x3 | x31 => C1 x4 | x32 => C1 x5 | x33 => C1 x6 | x34 => C1 x7 | x35 => C1 x8 | x36 => C1 x9 | x37 => C1 x10 | x38 => C1 x11 | x39 => C1 x12 | x40 => C1 x13 | x41 => C1 x14 | x42 => C1 x15 | x43 => C1 x16 | x44 => C1 x17 | x45 => C1 x18 | x46 => C1 x19 | x47 => C1 x20 | x48 => C1 x21 | x49 => C1 x22 | x50 => C1 x23 | x51 => C1 x24 | x52 => C1 x25 | x53 => C1 x26 | x54 => C1 x27 | x55 => C1 x28 | x56 => C1 x29 | x57 => C1 x30 | x58 => C1 x31 | x59 => C1 x32 | x60 => C1 x33 | x61 => C1 x34 | x62 => C1 x35 | x63 => C1 x36 end
 | x37 => match y with x0 => C0 x38 | x1 => C0 x39 | x2 => C0 x40 | x3 => C0 x41 | x4 => C0 x42 | x5 => C0 x43 | x6 => C0 x44 | x7 => C0 x45 | x8 => C0 x46 | x9 => C0 x47 | x10 => C0 x48 | x11 => C0 x49 | x12 => C0 x50 | x13 => C0 x51 | x14 => C0 x52 | x15 => C0 x53 | x16 => C0 x54 | x17 => C0 x55 | x18 => C0 x56 | x19 => C0 x57 | x20 => C0 x58 | x21 => C0 x59 | x22 => C0 x60 | x23 => C0 x61 | x24 => C0 x62 | x25 => C0 x63 | x26 => C1 x0 | x27 => C1 x1 | x28 => C1 x2 | x29 => C1 x3 | x30 => C1 x4 | x31 => C1 x5 | x32 => C1 x6 | x33 => C1 x7 | x34 => C1 x8 | x35 => C1 x9 | x36 => C1 x10 | x37 => C1 x11 | x38 => C1 x12 | x39 => C1 x13 | x40 => C1 x14 | x41 => C1 x15 | x42 => C1 x16 | x43 => C1 x17 | x44 => C1 x18 | x45 => C1 x19 | x46 => C1 x20 | x47 => C1 x21 | x48 => C1 x22 | x49 => C1 x23 | x50 => C1 x24 | x51 => C1 x25 | x52 => C1 x26 | x53 => C1 x27 | x54 => C1 x28 | x55 => C1 x29 | x56 => C1 x30 | x57 => C1 x31 | x58 => C1 x32 | x59 => C1 x33 | x60 => C1 x34 | x61 => C1 x35 | x62 => C1 x36 | x63 => C1 x37 end
 | x38 => match y with x0 => C0 x39 | x1 => C0 x40 | x2 => C0 x41 | x3 => C0 x42 | x4 => C0 x43 | x5 => C0 x44 | x6 => C0 x45 | x7 => C0 x46 | x8 => C0 x47 | x9 => C0 x48 | x10 => C0 x49 | x11 => C0 x50 | x12 => C0 x51 | x13 => C0 x52 | x14 => C0 x53 | x15 => C0 x54 | x16 => C0 x55 | x17 => C0 x56 | x18 => C0 x57 | x19 => C0 x58 | x20 => C0 x59 | x21 => C0 x60 | x22 => C0 x61 | x23 => C0 x62 | x24 => C0 x63 | x25 => C1 x0 | x26 => C1 x1 | x27 => C1 x2 | x28 => C1 x3 | x29 => C1 x4 | x30 => C1 x5 | x31 => C1 x6 | x32 => C1 x7 | x33 => C1 x8 | x34 => C1 x9 | x35 => C1 x10 | x36 => C1 x11 | x37 => C1 x12 | x38 => C1 x13 | x39 => C1 x14 | x40 => C1 x15 | x41 => C1 x16 | x42 => C1 x17 | x43 => C1 x18 | x44 => C1 x19 | x45 => C1 x20 | x46 => C1 x21 | x47 => C1 x22 | x48 => C1 x23 | x49 => C1 x24 | x50 => C1 x25 | x51 => C1 x26 | x52 => C1 x27 | x53 => C1 x28 | x54 => C1 x29 | x55 => C1 x30 | x56 => C1 x31 | x57 => C1 x32 | x58 => C1 x33 | x59 => C1 x34 | x60 => C1 x35 | x61 => C1 x36 | x62 => C1 x37 | x63 => C1 x38 end
 | x39 => match y with x0 => C0 x40 | x1 => C0 x41 | x2 => C0 x42 | x3 => C0 x43 | x4 => C0 x44 | x5 => C0 x45 | x6 => C0 x46 | x7 => C0 x47 | x8 => C0 x48 | x9 => C0 x49 | x10 => C0 x50 | x11 => C0 x51 | x12 => C0 x52 | x13 => C0 x53 | x14 => C0 x54 | x15 => C0 x55 | x16 => C0 x56 | x17 => C0 x57 | x18 => C0 x58 | x19 => C0 x59 | x20 => C0 x60 | x21 => C0 x61 | x22 => C0 x62 | x23 => C0 x63 | x24 => C1 x0 | x25 => C1 x1 | x26 => C1 x2 | x27 => C1 x3 | x28 => C1 x4 | x29 => C1 x5 | x30 => C1 x6 | x31 => C1 x7 | x32 => C1 x8 | x33 => C1 x9 | x34 => C1 x10 | x35 => C1 x11 | x36 => C1 x12 | x37 => C1 x13 | x38 => C1 x14 | x39 => C1 x15 | x40 => C1 x16 | x41 => C1 x17 | x42 => C1 x18 | x43 => C1 x19 | x44 => C1 x20 | x45 => C1 x21 | x46 => C1 x22 | x47 => C1 x23 | x48 => C1 x24 | x49 => C1 x25 | x50 => C1 x26 | x51 => C1 x27 | x52 => C1 x28 | x53 => C1 x29 | x54 => C1 x30 | x55 => C1 x31 | x56 => C1 x32 | x57 => C1 x33 | x58 => C1 x34 | x59 => C1 x35 | x60 => C1 x36 | x61 => C1 x37 | x62 => C1 x38 | x63 => C1 x39 end
 | x40 => match y with x0 => C0 x41 | x1 => C0 x42 | x2 => C0 x43 | x3 => C0 x44 | x4 => C0 x45 | x5 => C0 x46 | x6 => C0 x47 | x7 => C0 x48 | x8 => C0 x49 | x9 => C0 x50 | x10 => C0 x51 | x11 => C0 x52 | x12 => C0 x53 | x13 => C0 x54 | x14 => C0 x55 | x15 => C0 x56 | x16 => C0 x57 | x17 => C0 x58 | x18 => C0 x59 | x19 => C0 x60 | x20 => C0 x61 | x21 => C0 x62 | x22 => C0 x63 | x23 => C1 x0 | x24 => C1 x1 | x25 => C1 x2 | x26 => C1 x3 | x27 => C1 x4 | x28 => C1 x5 | x29 => C1 x6 | x30 => C1 x7 | x31 => C1 x8 | x32 => C1 x9 | x33 => C1 x10 | x34 => C1 x11 | x35 => C1 x12 | x36 => C1 x13 | x37 => C1 x14 | x38 => C1 x15 | x39 => C1 x16 | x40 => C1 x17 | x41 => C1 x18 | x42 => C1 x19 | x43 => C1 x20 | x44 => C1 x21 | x45 => C1 x22 | x46 => C1 x23 | x47 => C1 x24 | x48 => C1 x25 | x49 => C1 x26 | x50 => C1 x27 | x51 => C1 x28 | x52 => C1 x29 | x53 => C1 x30 | x54 => C1 x31 | x55 => C1 x32 | x56 => C1 x33 | x57 => C1 x34 | x58 => C1 x35 | x59 => C1 x36 | x60 => C1 x37 | x61 => C1 x38 | x62 => C1 x39 | x63 => C1 x40 end
 | x41 => match y with x0 => C0 x42 | x1 => C0 x43 | x2 => C0 x44 | x3 => C0 x45 | x4 => C0 x46 | x5 => C0 x47 | x6 => C0 x48 | x7 => C0 x49 | x8 => C0 x50 | x9 => C0 x51 | x10 => C0 x52 | x11 => C0 x53 | x12 => C0 x54 | x13 => C0 x55 | x14 => C0 x56 | x15 => C0 x57 | x16 => C0 x58 | x17 => C0 x59 | x18 => C0 x60 | x19 => C0 x61 | x20 => C0 x62 | x21 => C0 x63 | x22 => C1 x0 | x23 => C1 x1 | x24 => C1 x2 | x25 => C1 x3 | x26 => C1 x4 | x27 => C1 x5 | x28 => C1 x6 | x29 => C1 x7 | x30 => C1 x8 | x31 => C1 x9 | x32 => C1 x10 | x33 => C1 x11 | x34 => C1 x12 | x35 => C1 x13 | x36 => C1 x14 | x37 => C1 x15 | x38 => C1 x16 | x39 => C1 x17 | x40 => C1 x18 | x41 => C1 x19 | x42 => C1 x20 | x43 => C1 x21 | x44 => C1 x22 | x45 => C1 x23 | x46 => C1 x24 | x47 => C1 x25 | x48 => C1 x26 | x49 => C1 x27 | x50 => C1 x28 | x51 => C1 x29 | x52 => C1 x30 | x53 => C1 x31 | x54 => C1 x32 | x55 => C1 x33 | x56 => C1 x34 | x57 => C1 x35 | x58 => C1 x36 | x59 => C1 x37 | x60 => C1 x38 | x61 => C1 x39 | x62 => C1 x40 | x63 => C1 x41 end
 | x42 => match y with x0 => C0 x43 | x1 => C0 x44 | x2 => C0 x45 | x3 => C0 x46 | x4 => C0 x47 | x5 => C0 x48 | x6 => C0 x49 | x7 => C0 x50 | x8 => C0 x51 | x9 => C0 x52 | x10 => C0 x53 | x11 => C0 x54 | x12 => C0 x55 | x13 => C0 x56 | x14 => C0 x57 | x15 => C0 x58 | x16 => C0 x59 | x17 => C0 x60 | x18 => C0 x61 | x19 => C0 x62 | x20 => C0 x63 | x21 => C1 x0 | x22 => C1 x1 | x23 => C1 x2 | x24 => C1 x3 | x25 => C1 x4 | x26 => C1 x5 | x27 => C1 x6 | x28 => C1 x7 | x29 => C1 x8 | x30 => C1 x9 | x31 => C1 x10 | x32 => C1 x11 | x33 => C1 x12 | x34 => C1 x13 | x35 => C1 x14 | x36 => C1 x15 | x37 => C1 x16 | x38 => C1 x17 | x39 => C1 x18 | x40 => C1 x19 | x41 => C1 x20 | x42 => C1 x21 | x43 => C1 x22 | x44 => C1 x23 | x45 => C1 x24 | x46 => C1 x25 | x47 => C1 x26 | x48 => C1 x27 | x49 => C1 x28 | x50 => C1 x29 | x51 => C1 x30 | x52 => C1 x31 | x53 => C1 x32 | x54 => C1 x33 | x55 => C1 x34 | x56 => C1 x35 | x57 => C1 x36 | x58 => C1 x37 | x59 => C1 x38 | x60 => C1 x39 | x61 => C1 x40 | x62 => C1 x41 | x63 => C1 x42 end
 | x43 => match y with x0 => C0 x44 | x1 => C0 x45 | x2 => C0 x46 | x3 => C0 x47 | x4 => C0 x48 | x5 => C0 x49 | x6 => C0 x50 | x7 => C0 x51 | x8 => C0 x52 | x9 => C0 x53 | x10 => C0 x54 | x11 => C0 x55 | x12 => C0 x56 | x13 => C0 x57 | x14 => C0 x58 | x15 => C0 x59 | x16 => C0 x60 | x17 => C0 x61 | x18 => C0 x62 | x19 => C0 x63 | x20 => C1 x0 | x21 => C1 x1 | x22 => C1 x2 | x23 => C1 x3 | x24 => C1 x4 | x25 => C1 x5 | x26 => C1 x6 | x27 => C1 x7 | x28 => C1 x8 | x29 => C1 x9 | x30 => C1 x10 | x31 => C1 x11 | x32 => C1 x12 | x33 => C1 x13 | x34 => C1 x14 | x35 => C1 x15 | x36 => C1 x16 | x37 => C1 x17 | x38 => C1 x18 | x39 => C1 x19 | x40 => C1 x20 | x41 => C1 x21 | x42 => C1 x22 | x43 => C1 x23 | x44 => C1 x24 | x45 => C1 x25 | x46 => C1 x26 | x47 => C1 x27 | x48 => C1 x28 | x49 => C1 x29 | x50 => C1 x30 | x51 => C1 x31 | x52 => C1 x32 | x53 => C1 x33 | x54 => C1 x34 | x55 => C1 x35 | x56 => C1 x36 | x57 => C1 x37 | x58 => C1 x38 | x59 => C1 x39 | x60 => C1 x40 | x61 => C1 x41 | x62 => C1 x42 | x63 => C1 x43 end
 | x44 => match y with x0 => C0 x45 | x1 => C0 x46 | x2 => C0 x47 | x3 => C0 x48 | x4 => C0 x49 | x5 => C0 x50 | x6 => C0 x51 | x7 => C0 x52 | x8 => C0 x53 | x9 => C0 x54 | x10 => C0 x55 | x11 => C0 x56 | x12 => C0 x57 | x13 => C0 x58 | x14 => C0 x59 | x15 => C0 x60 | x16 => C0 x61 | x17 => C0 x62 | x18 => C0 x63 | x19 => C1 x0 | x20 => C1 x1 | x21 => C1 x2 | x22 => C1 x3 | x23 => C1 x4 | x24 => C1 x5 | x25 => C1 x6 | x26 => C1 x7 | x27 => C1 x8 | x28 => C1 x9 | x29 => C1 x10 | x30 => C1 x11 | x31 => C1 x12 | x32 => C1 x13 | x33 => C1 x14 | x34 => C1 x15 | x35 => C1 x16 | x36 => C1 x17 | x37 => C1 x18 | x38 => C1 x19 | x39 => C1 x20 | x40 => C1 x21 | x41 => C1 x22 | x42 => C1 x23 | x43 => C1 x24 | x44 => C1 x25 | x45 => C1 x26 | x46 => C1 x27 | x47 => C1 x28 | x48 => C1 x29 | x49 => C1 x30 | x50 => C1 x31 | x51 => C1 x32 | x52 => C1 x33 | x53 => C1 x34 | x54 => C1 x35 | x55 => C1 x36 | x56 => C1 x37 | x57 => C1 x38 | x58 => C1 x39 | x59 => C1 x40 | x60 => C1 x41 | x61 => C1 x42 | x62 => C1 x43 | x63 => C1 x44 end
 | x45 => match y with x0 => C0 x46 | x1 => C0 x47 | x2 => C0 x48 | x3 => C0 x49 | x4 => C0 x50 | x5 => C0 x51 | x6 => C0 x52 | x7 => C0 x53 | x8 => C0 x54 | x9 => C0 x55 | x10 => C0 x56 | x11 => C0 x57 | x12 => C0 x58 | x13 => C0 x59 | x14 => C0 x60 | x15 => C0 x61 | x16 => C0 x62 | x17 => C0 x63 | x18 => C1 x0 | x19 => C1 x1 | x20 => C1 x2 | x21 => C1 x3 | x22 => C1 x4 | x23 => C1 x5 | x24 => C1 x6 | x25 => C1 x7 | x26 => C1 x8 | x27 => C1 x9 | x28 => C1 x10 | x29 => C1 x11 | x30 => C1 x12 | x31 => C1 x13 | x32 => C1 x14 | x33 => C1 x15 | x34 => C1 x16 | x35 => C1 x17 | x36 => C1 x18 | x37 => C1 x19 | x38 => C1 x20 | x39 => C1 x21 | x40 => C1 x22 | x41 => C1 x23 | x42 => C1 x24 | x43 => C1 x25 | x44 => C1 x26 | x45 => C1 x27 | x46 => C1 x28 | x47 => C1 x29 | x48 => C1 x30 | x49 => C1 x31 | x50 => C1 x32 | x51 => C1 x33 | x52 => C1 x34 | x53 => C1 x35 | x54 => C1 x36 | x55 => C1 x37 | x56 => C1 x38 | x57 => C1 x39 | x58 => C1 x40 | x59 => C1 x41 | x60 => C1 x42 | x61 => C1 x43 | x62 => C1 x44 | x63 => C1 x45 end
 | x46 => match y with x0 => C0 x47 | x1 => C0 x48 | x2 => C0 x49 | x3 => C0 x50 | x4 => C0 x51 | x5 => C0 x52 | x6 => C0 x53 | x7 => C0 x54 | x8 => C0 x55 | x9 => C0 x56 | x10 => C0 x57 | x11 => C0 x58 | x12 => C0 x59 | x13 => C0 x60 | x14 => C0 x61 | x15 => C0 x62 | x16 => C0 x63 | x17 => C1 x0 | x18 => C1 x1 | x19 => C1 x2 | x20 => C1 x3 | x21 => C1 x4 | x22 => C1 x5 | x23 => C1 x6 | x24 => C1 x7 | x25 => C1 x8 | x26 => C1 x9 | x27 => C1 x10 | x28 => C1 x11 | x29 => C1 x12 | x30 => C1 x13 | x31 => C1 x14 | x32 => C1 x15 | x33 => C1 x16 | x34 => C1 x17 | x35 => C1 x18 | x36 => C1 x19 | x37 => C1 x20 | x38 => C1 x21 | x39 => C1 x22 | x40 => C1 x23 | x41 => C1 x24 | x42 => C1 x25 | x43 => C1 x26 | x44 => C1 x27 | x45 => C1 x28 | x46 => C1 x29 | x47 => C1 x30 | x48 => C1 x31 | x49 => C1 x32 | x50 => C1 x33 | x51 => C1 x34 | x52 => C1 x35 | x53 => C1 x36 | x54 => C1 x37 | x55 => C1 x38 | x56 => C1 x39 | x57 => C1 x40 | x58 => C1 x41 | x59 => C1 x42 | x60 => C1 x43 | x61 => C1 x44 | x62 => C1 x45 | x63 => C1 x46 end
 | x47 => match y with x0 => C0 x48 | x1 => C0 x49 | x2 => C0 x50 | x3 => C0 x51 | x4 => C0 x52 | x5 => C0 x53 | x6 => C0 x54 | x7 => C0 x55 | x8 => C0 x56 | x9 => C0 x57 | x10 => C0 x58 | x11 => C0 x59 | x12 => C0 x60 | x13 => C0 x61 | x14 => C0 x62 | x15 => C0 x63 | x16 => C1 x0 | x17 => C1 x1 | x18 => C1 x2 | x19 => C1 x3 | x20 => C1 x4 | x21 => C1 x5 | x22 => C1 x6 | x23 => C1 x7 | x24 => C1 x8 | x25 => C1 x9 | x26 => C1 x10 | x27 => C1 x11 | x28 => C1 x12 | x29 => C1 x13 | x30 => C1 x14 | x31 => C1 x15 | x32 => C1 x16 | x33 => C1 x17 | x34 => C1 x18 | x35 => C1 x19 | x36 => C1 x20 | x37 => C1 x21 | x38 => C1 x22 | x39 => C1 x23 | x40 => C1 x24 | x41 => C1 x25 | x42 => C1 x26 | x43 => C1 x27 | x44 => C1 x28 | x45 => C1 x29 | x46 => C1 x30 | x47 => C1 x31 | x48 => C1 x32 | x49 => C1 x33 | x50 => C1 x34 | x51 => C1 x35 | x52 => C1 x36 | x53 => C1 x37 | x54 => C1 x38 | x55 => C1 x39 | x56 => C1 x40 | x57 => C1 x41 | x58 => C1 x42 | x59 => C1 x43 | x60 => C1 x44 | x61 => C1 x45 | x62 => C1 x46 | x63 => C1 x47 end
 | x48 => match y with x0 => C0 x49 | x1 => C0 x50 | x2 => C0 x51 | x3 => C0 x52 | x4 => C0 x53 | x5 => C0 x54 | x6 => C0 x55 | x7 => C0 x56 | x8 => C0 x57 | x9 => C0 x58 | x10 => C0 x59 | x11 => C0 x60 | x12 => C0 x61 | x13 => C0 x62 | x14 => C0 x63 | x15 => C1 x0 | x16 => C1 x1 | x17 => C1 x2 | x18 => C1 x3 | x19 => C1 x4 | x20 => C1 x5 | x21 => C1 x6 | x22 => C1 x7 | x23 => C1 x8 | x24 => C1 x9 | x25 => C1 x10 | x26 => C1 x11 | x27 => C1 x12 | x28 => C1 x13 | x29 => C1 x14 | x30 => C1 x15 | x31 => C1 x16 | x32 => C1 x17 | x33 => C1 x18 | x34 => C1 x19 | x35 => C1 x20 | x36 => C1 x21 | x37 => C1 x22 | x38 => C1 x23 | x39 => C1 x24 | x40 => C1 x25 | x41 => C1 x26 | x42 => C1 x27 | x43 => C1 x28 | x44 => C1 x29 | x45 => C1 x30 | x46 => C1 x31 | x47 => C1 x32 | x48 => C1 x33 | x49 => C1 x34 | x50 => C1 x35 | x51 => C1 x36 | x52 => C1 x37 | x53 => C1 x38 | x54 => C1 x39 | x55 => C1 x40 | x56 => C1 x41 | x57 => C1 x42 | x58 => C1 x43 | x59 => C1 x44 | x60 => C1 x45 | x61 => C1 x46 | x62 => C1 x47 | x63 => C1 x48 end
 | x49 => match y with x0 => C0 x50 | x1 => C0 x51 | x2 => C0 x52 | x3 => C0 x53 | x4 => C0 x54 | x5 => C0 x55 | x6 => C0 x56 | x7 => C0 x57 | x8 => C0 x58 | x9 => C0 x59 | x10 => C0 x60 | x11 => C0 x61 | x12 => C0 x62 | x13 => C0 x63 | x14 => C1 x0 | x15 => C1 x1 | x16 => C1 x2 | x17 => C1 x3 | x18 => C1 x4 | x19 => C1 x5 | x20 => C1 x6 | x21 => C1 x7 | x22 => C1 x8 | x23 => C1 x9 | x24 => C1 x10 | x25 => C1 x11 | x26 => C1 x12 | x27 => C1 x13 | x28 => C1 x14 | x29 => C1 x15 | x30 => C1 x16 | x31 => C1 x17 | x32 => C1 x18 | x33 => C1 x19 | x34 => C1 x20 | x35 => C1 x21 | x36 => C1 x22 | x37 => C1 x23 | x38 => C1 x24 | x39 => C1 x25 | x40 => C1 x26 | x41 => C1 x27 | x42 => C1 x28 | x43 => C1 x29 | x44 => C1 x30 | x45 => C1 x31 | x46 => C1 x32 | x47 => C1 x33 | x48 => C1 x34 | x49 => C1 x35 | x50 => C1 x36 | x51 => C1 x37 | x52 => C1 x38 | x53 => C1 x39 | x54 => C1 x40 | x55 => C1 x41 | x56 => C1 x42 | x57 => C1 x43 | x58 => C1 x44 | x59 => C1 x45 | x60 => C1 x46 | x61 => C1 x47 | x62 => C1 x48 | x63 => C1 x49 end
 | x50 => match y with x0 => C0 x51 | x1 => C0 x52 | x2 => C0 x53 | x3 => C0 x54 | x4 => C0 x55 | x5 => C0 x56 | x6 => C0 x57 | x7 => C0 x58 | x8 => C0 x59 | x9 => C0 x60 | x10 => C0 x61 | x11 => C0 x62 | x12 => C0 x63 | x13 => C1 x0 | x14 => C1 x1 | x15 => C1 x2 | x16 => C1 x3 | x17 => C1 x4 | x18 => C1 x5 | x19 => C1 x6 | x20 => C1 x7 | x21 => C1 x8 | x22 => C1 x9 | x23 => C1 x10 | x24 => C1 x11 | x25 => C1 x12 | x26 => C1 x13 | x27 => C1 x14 | x28 => C1 x15 | x29 => C1 x16 | x30 => C1 x17 | x31 => C1 x18 | x32 => C1 x19 | x33 => C1 x20 | x34 => C1 x21 | x35 => C1 x22 | x36 => C1 x23 | x37 => C1 x24 | x38 => C1 x25 | x39 => C1 x26 | x40 => C1 x27 | x41 => C1 x28 | x42 => C1 x29 | x43 => C1 x30 | x44 => C1 x31 | x45 => C1 x32 | x46 => C1 x33 | x47 => C1 x34 | x48 => C1 x35 | x49 => C1 x36 | x50 => C1 x37 | x51 => C1 x38 | x52 => C1 x39 | x53 => C1 x40 | x54 => C1 x41 | x55 => C1 x42 | x56 => C1 x43 | x57 => C1 x44 | x58 => C1 x45 | x59 => C1 x46 | x60 => C1 x47 | x61 => C1 x48 | x62 => C1 x49 | x63 => C1 x50 end
 | x51 => match y with x0 => C0 x52 | x1 => C0 x53 | x2 => C0 x54 | x3 => C0 x55 | x4 => C0 x56 | x5 => C0 x57 | x6 => C0 x58 | x7 => C0 x59 | x8 => C0 x60 | x9 => C0 x61 | x10 => C0 x62 | x11 => C0 x63 | x12 => C1 x0 | x13 => C1 x1 | x14 => C1 x2 | x15 => C1 x3 | x16 => C1 x4 | x17 => C1 x5 | x18 => C1 x6 | x19 => C1 x7 | x20 => C1 x8 | x21 => C1 x9 | x22 => C1 x10 | x23 => C1 x11 | x24 => C1 x12 | x25 => C1 x13 | x26 => C1 x14 | x27 => C1 x15 | x28 => C1 x16 | x29 => C1 x17 | x30 => C1 x18 | x31 => C1 x19 | x32 => C1 x20 | x33 => C1 x21 | x34 => C1 x22 | x35 => C1 x23 | x36 => C1 x24 | x37 => C1 x25 | x38 => C1 x26 | x39 => C1 x27 | x40 => C1 x28 | x41 => C1 x29 | x42 => C1 x30 | x43 => C1 x31 | x44 => C1 x32 | x45 => C1 x33 | x46 => C1 x34 | x47 => C1 x35 | x48 => C1 x36 | x49 => C1 x37 | x50 => C1 x38 | x51 => C1 x39 | x52 => C1 x40 | x53 => C1 x41 | x54 => C1 x42 | x55 => C1 x43 | x56 => C1 x44 | x57 => C1 x45 | x58 => C1 x46 | x59 => C1 x47 | x60 => C1 x48 | x61 => C1 x49 | x62 => C1 x50 | x63 => C1 x51 end
 | x52 => match y with x0 => C0 x53 | x1 => C0 x54 | x2 => C0 x55 | x3 => C0 x56 | x4 => C0 x57 | x5 => C0 x58 | x6 => C0 x59 | x7 => C0 x60 | x8 => C0 x61 | x9 => C0 x62 | x10 => C0 x63 | x11 => C1 x0 | x12 => C1 x1 | x13 => C1 x2 | x14 => C1 x3 | x15 => C1 x4 | x16 => C1 x5 | x17 => C1 x6 | x18 => C1 x7 | x19 => C1 x8 | x20 => C1 x9 | x21 => C1 x10 | x22 => C1 x11 | x23 => C1 x12 | x24 => C1 x13 | x25 => C1 x14 | x26 => C1 x15 | x27 => C1 x16 | x28 => C1 x17 | x29 => C1 x18 | x30 => C1 x19 | x31 => C1 x20 | x32 => C1 x21 | x33 => C1 x22 | x34 => C1 x23 | x35 => C1 x24 | x36 => C1 x25 | x37 => C1 x26 | x38 => C1 x27 | x39 => C1 x28 | x40 => C1 x29 | x41 => C1 x30 | x42 => C1 x31 | x43 => C1 x32 | x44 => C1 x33 | x45 => C1 x34 | x46 => C1 x35 | x47 => C1 x36 | x48 => C1 x37 | x49 => C1 x38 | x50 => C1 x39 | x51 => C1 x40 | x52 => C1 x41 | x53 => C1 x42 | x54 => C1 x43 | x55 => C1 x44 | x56 => C1 x45 | x57 => C1 x46 | x58 => C1 x47 | x59 => C1 x48 | x60 => C1 x49 | x61 => C1 x50 | x62 => C1 x51 | x63 => C1 x52 end
 | x53 => match y with x0 => C0 x54 | x1 => C0 x55 | x2 => C0 x56 | x3 => C0 x57 | x4 => C0 x58 | x5 => C0 x59 | x6 => C0 x60 | x7 => C0 x61 | x8 => C0 x62 | x9 => C0 x63 | x10 => C1 x0 | x11 => C1 x1 | x12 => C1 x2 | x13 => C1 x3 | x14 => C1 x4 | x15 => C1 x5 | x16 => C1 x6 | x17 => C1 x7 | x18 => C1 x8 | x19 => C1 x9 | x20 => C1 x10 | x21 => C1 x11 | x22 => C1 x12 | x23 => C1 x13 | x24 => C1 x14 | x25 => C1 x15 | x26 => C1 x16 | x27 => C1 x17 | x28 => C1 x18 | x29 => C1 x19 | x30 => C1 x20 | x31 => C1 x21 | x32 => C1 x22 | x33 => C1 x23 | x34 => C1 x24 | x35 => C1 x25 | x36 => C1 x26 | x37 => C1 x27 | x38 => C1 x28 | x39 => C1 x29 | x40 => C1 x30 | x41 => C1 x31 | x42 => C1 x32 | x43 => C1 x33 | x44 => C1 x34 | x45 => C1 x35 | x46 => C1 x36 | x47 => C1 x37 | x48 => C1 x38 | x49 => C1 x39 | x50 => C1 x40 | x51 => C1 x41 | x52 => C1 x42 | x53 => C1 x43 | x54 => C1 x44 | x55 => C1 x45 | x56 => C1 x46 | x57 => C1 x47 | x58 => C1 x48 | x59 => C1 x49 | x60 => C1 x50 | x61 => C1 x51 | x62 => C1 x52 | x63 => C1 x53 end
 | x54 => match y with x0 => C0 x55 | x1 => C0 x56 | x2 => C0 x57 | x3 => C0 x58 | x4 => C0 x59 | x5 => C0 x60 | x6 => C0 x61 | x7 => C0 x62 | x8 => C0 x63 | x9 => C1 x0 | x10 => C1 x1 | x11 => C1 x2 | x12 => C1 x3 | x13 => C1 x4 | x14 => C1 x5 | x15 => C1 x6 | x16 => C1 x7 | x17 => C1 x8 | x18 => C1 x9 | x19 => C1 x10 | x20 => C1 x11 | x21 => C1 x12 | x22 => C1 x13 | x23 => C1 x14 | x24 => C1 x15 | x25 => C1 x16 | x26 => C1 x17 | x27 => C1 x18 | x28 => C1 x19 | x29 => C1 x20 | x30 => C1 x21 | x31 => C1 x22 | x32 => C1 x23 | x33 => C1 x24 | x34 => C1 x25 | x35 => C1 x26 | x36 => C1 x27 | x37 => C1 x28 | x38 => C1 x29 | x39 => C1 x30 | x40 => C1 x31 | x41 => C1 x32 | x42 => C1 x33 | x43 => C1 x34 | x44 => C1 x35 | x45 => C1 x36 | x46 => C1 x37 | x47 => C1 x38 | x48 => C1 x39 | x49 => C1 x40 | x50 => C1 x41 | x51 => C1 x42 | x52 => C1 x43 | x53 => C1 x44 | x54 => C1 x45 | x55 => C1 x46 | x56 => C1 x47 | x57 => C1 x48 | x58 => C1 x49 | x59 => C1 x50 | x60 => C1 x51 | x61 => C1 x52 | x62 => C1 x53 | x63 => C1 x54 end
 | x55 => match y with x0 => C0 x56 | x1 => C0 x57 | x2 => C0 x58 | x3 => C0 x59 | x4 => C0 x60 | x5 => C0 x61 | x6 => C0 x62 | x7 => C0 x63 | x8 => C1 x0 | x9 => C1 x1 | x10 => C1 x2 | x11 => C1 x3 | x12 => C1 x4 | x13 => C1 x5 | x14 => C1 x6 | x15 => C1 x7 | x16 => C1 x8 | x17 => C1 x9 | x18 => C1 x10 | x19 => C1 x11 | x20 => C1 x12 | x21 => C1 x13 | x22 => C1 x14 | x23 => C1 x15 | x24 => C1 x16 | x25 => C1 x17 | x26 => C1 x18 | x27 => C1 x19 | x28 => C1 x20 | x29 => C1 x21 | x30 => C1 x22 | x31 => C1 x23 | x32 => C1 x24 | x33 => C1 x25 | x34 => C1 x26 | x35 => C1 x27 | x36 => C1 x28 | x37 => C1 x29 | x38 => C1 x30 | x39 => C1 x31 | x40 => C1 x32 | x41 => C1 x33 | x42 => C1 x34 | x43 => C1 x35 | x44 => C1 x36 | x45 => C1 x37 | x46 => C1 x38 | x47 => C1 x39 | x48 => C1 x40 | x49 => C1 x41 | x50 => C1 x42 | x51 => C1 x43 | x52 => C1 x44 | x53 => C1 x45 | x54 => C1 x46 | x55 => C1 x47 | x56 => C1 x48 | x57 => C1 x49 | x58 => C1 x50 | x59 => C1 x51 | x60 => C1 x52 | x61 => C1 x53 | x62 => C1 x54 | x63 => C1 x55 end
 | x56 => match y with x0 => C0 x57 | x1 => C0 x58 | x2 => C0 x59 | x3 => C0 x60 | x4 => C0 x61 | x5 => C0 x62 | x6 => C0 x63 | x7 => C1 x0 | x8 => C1 x1 | x9 => C1 x2 | x10 => C1 x3 | x11 => C1 x4 | x12 => C1 x5 | x13 => C1 x6 | x14 => C1 x7 | x15 => C1 x8 | x16 => C1 x9 | x17 => C1 x10 | x18 => C1 x11 | x19 => C1 x12 | x20 => C1 x13 | x21 => C1 x14 | x22 => C1 x15 | x23 => C1 x16 | x24 => C1 x17 | x25 => C1 x18 | x26 => C1 x19 | x27 => C1 x20 | x28 => C1 x21 | x29 => C1 x22 | x30 => C1 x23 | x31 => C1 x24 | x32 => C1 x25 | x33 => C1 x26 | x34 => C1 x27 | x35 => C1 x28 | x36 => C1 x29 | x37 => C1 x30 | x38 => C1 x31 | x39 => C1 x32 | x40 => C1 x33 | x41 => C1 x34 | x42 => C1 x35 | x43 => C1 x36 | x44 => C1 x37 | x45 => C1 x38 | x46 => C1 x39 | x47 => C1 x40 | x48 => C1 x41 | x49 => C1 x42 | x50 => C1 x43 | x51 => C1 x44 | x52 => C1 x45 | x53 => C1 x46 | x54 => C1 x47 | x55 => C1 x48 | x56 => C1 x49 | x57 => C1 x50 | x58 => C1 x51 | x59 => C1 x52 | x60 => C1 x53 | x61 => C1 x54 | x62 => C1 x55 | x63 => C1 x56 end
 | x57 => match y with x0 => C0 x58 | x1 => C0 x59 | x2 => C0 x60 | x3 => C0 x61 | x4 => C0 x62 | x5 => C0 x63 | x6 => C1 x0 | x7 => C1 x1 | x8 => C1 x2 | x9 => C1 x3 | x10 => C1 x4 | x11 => C1 x5 | x12 => C1 x6 | x13 => C1 x7 | x14 => C1 x8 | x15 => C1 x9 | x16 => C1 x10 | x17 => C1 x11 | x18 => C1 x12 | x19 => C1 x13 | x20 => C1 x14 | x21 => C1 x15 | x22 => C1 x16 | x23 => C1 x17 | x24 => C1 x18 | x25 => C1 x19 | x26 => C1 x20 | x27 => C1 x21 | x28 => C1 x22 | x29 => C1 x23 | x30 => C1 x24 | x31 => C1 x25 | x32 => C1 x26 | x33 => C1 x27 | x34 => C1 x28 | x35 => C1 x29 | x36 => C1 x30 | x37 => C1 x31 | x38 => C1 x32 | x39 => C1 x33 | x40 => C1 x34 | x41 => C1 x35 | x42 => C1 x36 | x43 => C1 x37 | x44 => C1 x38 | x45 => C1 x39 | x46 => C1 x40 | x47 => C1 x41 | x48 => C1 x42 | x49 => C1 x43 | x50 => C1 x44 | x51 => C1 x45 | x52 => C1 x46 | x53 => C1 x47 | x54 => C1 x48 | x55 => C1 x49 | x56 => C1 x50 | x57 => C1 x51 | x58 => C1 x52 | x59 => C1 x53 | x60 => C1 x54 | x61 => C1 x55 | x62 => C1 x56 | x63 => C1 x57 end
 | x58 => match y with x0 => C0 x59 | x1 => C0 x60 | x2 => C0 x61 | x3 => C0 x62 | x4 => C0 x63 | x5 => C1 x0 | x6 => C1 x1 | x7 => C1 x2 | x8 => C1 x3 | x9 => C1 x4 | x10 => C1 x5 | x11 => C1 x6 | x12 => C1 x7 | x13 => C1 x8 | x14 => C1 x9 | x15 => C1 x10 | x16 => C1 x11 | x17 => C1 x12 | x18 => C1 x13 | x19 => C1 x14 | x20 => C1 x15 | x21 => C1 x16 | x22 => C1 x17 | x23 => C1 x18 | x24 => C1 x19 | x25 => C1 x20 | x26 => C1 x21 | x27 => C1 x22 | x28 => C1 x23 | x29 => C1 x24 | x30 => C1 x25 | x31 => C1 x26 | x32 => C1 x27 | x33 => C1 x28 | x34 => C1 x29 | x35 => C1 x30 | x36 => C1 x31 | x37 => C1 x32 | x38 => C1 x33 | x39 => C1 x34 | x40 => C1 x35 | x41 => C1 x36 | x42 => C1 x37 | x43 => C1 x38 | x44 => C1 x39 | x45 => C1 x40 | x46 => C1 x41 | x47 => C1 x42 | x48 => C1 x43 | x49 => C1 x44 | x50 => C1 x45 | x51 => C1 x46 | x52 => C1 x47 | x53 => C1 x48 | x54 => C1 x49 | x55 => C1 x50 | x56 => C1 x51 | x57 => C1 x52 | x58 => C1 x53 | x59 => C1 x54 | x60 => C1 x55 | x61 => C1 x56 | x62 => C1 x57 | x63 => C1 x58 end
 | x59 => match y with x0 => C0 x60 | x1 => C0 x61 | x2 => C0 x62 | x3 => C0 x63 | x4 => C1 x0 | x5 => C1 x1 | x6 => C1 x2 | x7 => C1 x3 | x8 => C1 x4 | x9 => C1 x5 | x10 => C1 x6 | x11 => C1 x7 | x12 => C1 x8 | x13 => C1 x9 | x14 => C1 x10 | x15 => C1 x11 | x16 => C1 x12 | x17 => C1 x13 | x18 => C1 x14 | x19 => C1 x15 | x20 => C1 x16 | x21 => C1 x17 | x22 => C1 x18 | x23 => C1 x19 | x24 => C1 x20 | x25 => C1 x21 | x26 => C1 x22 | x27 => C1 x23 | x28 => C1 x24 | x29 => C1 x25 | x30 => C1 x26 | x31 => C1 x27 | x32 => C1 x28 | x33 => C1 x29 | x34 => C1 x30 | x35 => C1 x31 | x36 => C1 x32 | x37 => C1 x33 | x38 => C1 x34 | x39 => C1 x35 | x40 => C1 x36 | x41 => C1 x37 | x42 => C1 x38 | x43 => C1 x39 | x44 => C1 x40 | x45 => C1 x41 | x46 => C1 x42 | x47 => C1 x43 | x48 => C1 x44 | x49 => C1 x45 | x50 => C1 x46 | x51 => C1 x47 | x52 => C1 x48 | x53 => C1 x49 | x54 => C1 x50 | x55 => C1 x51 | x56 => C1 x52 | x57 => C1 x53 | x58 => C1 x54 | x59 => C1 x55 | x60 => C1 x56 | x61 => C1 x57 | x62 => C1 x58 | x63 => C1 x59 end
 | x60 => match y with x0 => C0 x61 | x1 => C0 x62 | x2 => C0 x63 | x3 => C1 x0 | x4 => C1 x1 | x5 => C1 x2 | x6 => C1 x3 | x7 => C1 x4 | x8 => C1 x5 | x9 => C1 x6 | x10 => C1 x7 | x11 => C1 x8 | x12 => C1 x9 | x13 => C1 x10 | x14 => C1 x11 | x15 => C1 x12 | x16 => C1 x13 | x17 => C1 x14 | x18 => C1 x15 | x19 => C1 x16 | x20 => C1 x17 | x21 => C1 x18 | x22 => C1 x19 | x23 => C1 x20 | x24 => C1 x21 | x25 => C1 x22 | x26 => C1 x23 | x27 => C1 x24 | x28 => C1 x25 | x29 => C1 x26 | x30 => C1 x27 | x31 => C1 x28 | x32 => C1 x29 | x33 => C1 x30 | x34 => C1 x31 | x35 => C1 x32 | x36 => C1 x33 | x37 => C1 x34 | x38 => C1 x35 | x39 => C1 x36 | x40 => C1 x37 | x41 => C1 x38 | x42 => C1 x39 | x43 => C1 x40 | x44 => C1 x41 | x45 => C1 x42 | x46 => C1 x43 | x47 => C1 x44 | x48 => C1 x45 | x49 => C1 x46 | x50 => C1 x47 | x51 => C1 x48 | x52 => C1 x49 | x53 => C1 x50 | x54 => C1 x51 | x55 => C1 x52 | x56 => C1 x53 | x57 => C1 x54 | x58 => C1 x55 | x59 => C1 x56 | x60 => C1 x57 | x61 => C1 x58 | x62 => C1 x59 | x63 => C1 x60 end
 | x61 => match y with x0 => C0 x62 | x1 => C0 x63 | x2 => C1 x0 | x3 => C1 x1 | x4 => C1 x2 | x5 => C1 x3 | x6 => C1 x4 | x7 => C1 x5 | x8 => C1 x6 | x9 => C1 x7 | x10 => C1 x8 | x11 => C1 x9 | x12 => C1 x10 | x13 => C1 x11 | x14 => C1 x12 | x15 => C1 x13 | x16 => C1 x14 | x17 => C1 x15 | x18 => C1 x16 | x19 => C1 x17 | x20 => C1 x18 | x21 => C1 x19 | x22 => C1 x20 | x23 => C1 x21 | x24 => C1 x22 | x25 => C1 x23 | x26 => C1 x24 | x27 => C1 x25 | x28 => C1 x26 | x29 => C1 x27 | x30 => C1 x28 | x31 => C1 x29 | x32 => C1 x30 | x33 => C1 x31 | x34 => C1 x32 | x35 => C1 x33 | x36 => C1 x34 | x37 => C1 x35 | x38 => C1 x36 | x39 => C1 x37 | x40 => C1 x38 | x41 => C1 x39 | x42 => C1 x40 | x43 => C1 x41 | x44 => C1 x42 | x45 => C1 x43 | x46 => C1 x44 | x47 => C1 x45 | x48 => C1 x46 | x49 => C1 x47 | x50 => C1 x48 | x51 => C1 x49 | x52 => C1 x50 | x53 => C1 x51 | x54 => C1 x52 | x55 => C1 x53 | x56 => C1 x54 | x57 => C1 x55 | x58 => C1 x56 | x59 => C1 x57 | x60 => C1 x58 | x61 => C1 x59 | x62 => C1 x60 | x63 => C1 x61 end
 | x62 => match y with x0 => C0 x63 | x1 => C1 x0 | x2 => C1 x1 | x3 => C1 x2 | x4 => C1 x3 | x5 => C1 x4 | x6 => C1 x5 | x7 => C1 x6 | x8 => C1 x7 | x9 => C1 x8 | x10 => C1 x9 | x11 => C1 x10 | x12 => C1 x11 | x13 => C1 x12 | x14 => C1 x13 | x15 => C1 x14 | x16 => C1 x15 | x17 => C1 x16 | x18 => C1 x17 | x19 => C1 x18 | x20 => C1 x19 | x21 => C1 x20 | x22 => C1 x21 | x23 => C1 x22 | x24 => C1 x23 | x25 => C1 x24 | x26 => C1 x25 | x27 => C1 x26 | x28 => C1 x27 | x29 => C1 x28 | x30 => C1 x29 | x31 => C1 x30 | x32 => C1 x31 | x33 => C1 x32 | x34 => C1 x33 | x35 => C1 x34 | x36 => C1 x35 | x37 => C1 x36 | x38 => C1 x37 | x39 => C1 x38 | x40 => C1 x39 | x41 => C1 x40 | x42 => C1 x41 | x43 => C1 x42 | x44 => C1 x43 | x45 => C1 x44 | x46 => C1 x45 | x47 => C1 x46 | x48 => C1 x47 | x49 => C1 x48 | x50 => C1 x49 | x51 => C1 x50 | x52 => C1 x51 | x53 => C1 x52 | x54 => C1 x53 | x55 => C1 x54 | x56 => C1 x55 | x57 => C1 x56 | x58 => C1 x57 | x59 => C1 x58 | x60 => C1 x59 | x61 => C1 x60 | x62 => C1 x61 | x63 => C1 x62 end
 | x63 => match y with x0 => C1 x0 | x1 => C1 x1 | x2 => C1 x2 | x3 => C1 x3 | x4 => C1 x4 | x5 => C1 x5 | x6 => C1 x6 | x7 => C1 x7 | x8 => C1 x8 | x9 => C1 x9 | x10 => C1 x10 | x11 => C1 x11 | x12 => C1 x12 | x13 => C1 x13 | x14 => C1 x14 | x15 => C1 x15 | x16 => C1 x16 | x17 => C1 x17 | x18 => C1 x18 | x19 => C1 x19 | x20 => C1 x20 | x21 => C1 x21 | x22 => C1 x22 | x23 => C1 x23 | x24 => C1 x24 | x25 => C1 x25 | x26 => C1 x26 | x27 => C1 x27 | x28 => C1 x28 | x29 => C1 x29 | x30 => C1 x30 | x31 => C1 x31 | x32 => C1 x32 | x33 => C1 x33 | x34 => C1 x34 | x35 => C1 x35 | x36 => C1 x36 | x37 => C1 x37 | x38 => C1 x38 | x39 => C1 x39 | x40 => C1 x40 | x41 => C1 x41 | x42 => C1 x42 | x43 => C1 x43 | x44 => C1 x44 | x45 => C1 x45 | x46 => C1 x46 | x47 => C1 x47 | x48 => C1 x48 | x49 => C1 x49 | x50 => C1 x50 | x51 => C1 x51 | x52 => C1 x52 | x53 => C1 x53 | x54 => C1 x54 | x55 => C1 x55 | x56 => C1 x56 | x57 => C1 x57 | x58 => C1 x58 | x59 => C1 x59 | x60 => C1 x60 | x61 => C1 x61 | x62 => C1 x62 | x63 => C1 x63 end
 end.
(** x + 1. *)
Definition inc (x : dig) : cd := match x with x0 => C0 x1 | x1 => C0 x2 | x2 => C0 x3 | x3 => C0 x4 | x4 => C0 x5 | x5 => C0 x6 | x6 => C0 x7 | x7 => C0 x8 | x8 => C0 x9 | x9 => C0 x10 | x10 => C0 x11 | x11 => C0 x12 | x12 => C0 x13 | x13 => C0 x14 | x14 => C0 x15 | x15 => C0 x16 | x16 => C0 x17 | x17 => C0 x18 | x18 => C0 x19 | x19 => C0 x20 | x20 => C0 x21 | x21 => C0 x22 | x22 => C0 x23 | x23 => C0 x24 | x24 => C0 x25 | x25 => C0 x26 | x26 => C0 x27 | x27 => C0 x28 | x28 => C0 x29 | x29 => C0 x30 | x30 => C0 x31 | x31 => C0 x32 | x32 => C0 x33 | x33 => C0 x34 | x34 => C0 x35 | x35 => C0 x36 | x36 => C0 x37 | x37 => C0 x38 | x38 => C0 x39 | x39 => C0 x40 | x40 => C0 x41 | x41 => C0 x42 | x42 => C0 x43 | x43 => C0 x44 | x44 => C0 x45 | x45 => C0 x46 | x46 => C0 x47 | x47 => C0 x48 | x48 => C0 x49 | x49 => C0 x50 | x50 => C0 x51 | x51 => C0 x52 | x52 => C0 x53 | x53 => C0 x54 | x54 => C0 x55 | x55 => C0 x56 | x56 => C0 x57 | x57 => C0 x58 | x58 => C0 x59 | x59 => C0 x60 | x60 => C0 x61 | x61 => C0 x62 | x62 => C0 x63 | x63 => C1 x0 end.
(** x - y: borrow and digit. *)
Definition sbb0 (x y : dig) : cd := match x with
 | x0 => match y with x0 => C0 x0 | x1 => C1 x63 | x2 => C1 x62 | x3 => C1 x61 | x4 => C1 x60 | x5 => C1 x59 | x6 => C1 x58 | x7 => C1 x57 | x8 => C1 x56 | x9 => C1 x55 | x10 => C1 x54 | x11 => C1 x53 | x12 => C1 x52 | x13 => C1 x51 | x14 => C1 x50 | x15 => C1 x49 | x16 => C1 x48 | x17 => C1 x47 | x18 => C1 x46 | x19 => C1 x45 | x20 => C1 x44 | x21 => C1 x43 | x22 => C1 x42 | x23 => C1 x41 | x24 => C1 x40 | x25 => C1 x39 | x26 => C1 x38 | x27 => C1 x37 | x28 => C1 x36 | x29 => C1 x35 | x30 => C1 x34 | x31 => C1 x33 | x32 => C1 x32 | x33 => C1 x31 | x34 => C1 x30 | x35 => C1 x29 | x36 => C1 x28 | x37 => C1 x27 | x38 => C1 x26 | x39 => C1 x25 | x40 => C1 x24 | x41 => C1 x23 | x42 => C1 x22 | x43 => C1 x21 | x44 => C1 x20 | x45 => C1 x19 | x46 => C1 x18 | x47 => C1 x17 | x48 => C1 x16 | x49 => C1 x15 | x50 => C1 x14 | x51 => C1 x13 | x52 => C1 x12 | x53 => C1 x11 | x54 => C1 x10 | x55 => C1 x9 | x56 => C1 x8 | x57 => C1 x7 | x58 => C1 x6 | x59 => C1 x5 | x60 => C1 x4 | x61 => C1 x3 | x62 => C1 x2 | x63 => C1 x1 end
 | x1 => match y with x0 => C0 x1 | x1 => C0 x0 | x2 => C1 x63 | x3 => C1 x62 | x4 => C1 x61 | x5 => C1 x60 | x6 => C1 x59 | x7 => C1 x58 | x8 => C1 x57 | x9 => C1 x56 | x10 => C1 x55 | x11 => C1 x54 | x12 => C1 x53 | x13 => C1 x52 | x14 => C1 x51 | x15 => C1 x50 | x16 => C1 x49 | x17 => C1 x48 | x18 => C1 x47 | x19 => C1 x46 | x20 => C1 x45 | x21 => C1 x44 | x22 => C1 x43 | x23 => C1 x42 | x24 => C1 x41 | x25 => C1 x40 | x26 => C1 x39 | x27 => C1 x38 | x28 => C1 x37 | x29 => C1 x36 | x30 => C1 x35 | x31 => C1 x34 | x32 => C1 x33 | x33 => C1 x32 | x34 => C1 x31 | x35 => C1 x30 | x36 => C1 x29 | x37 => C1 x28 | x38 => C1 x27 | x39 => C1 x26 | x40 => C1 x25 | x41 => C1 x24 | x42 => C1 x23 | x43 => C1 x22 | x44 => C1 x21 | x45 => C1 x20 | x46 => C1 x19 | x47 => C1 x18 | x48 => C1 x17 | x49 => C1 x16 | x50 => C1 x15 | x51 => C1 x14 | x52 => C1 x13 | x53 => C1 x12 | x54 => C1 x11 | x55 => C1 x10 | x56 => C1 x9 | x57 => C1 x8 | x58 => C1 x7 | x59 => C1 x6 | x60 => C1 x5 | x61 => C1 x4 | x62 => C1 x3 | x63 => C1 x2 end
 | x2 => match y with x0 => C0 x2 | x1 => C0 x1 | x2 => C0 x0 | x3 => C1 x63 | x4 => C1 x62 | x5 => C1 x61 | x6 => C1 x60 | x7 => C1 x59 | x8 => C1 x58 | x9 => C1 x57 | x10 => C1 x56 | x11 => C1 x55 | x12 => C1 x54 | x13 => C1 x53 | x14 => C1 x52 | x15 => C1 x51 | x16 => C1 x50 | x17 => C1 x49 | x18 => C1 x48 | x19 => C1 x47 | x20 => C1 x46 | x21 => C1 x45 | x22 => C1 x44 | x23 => C1 x43 | x24 => C1 x42 | x25 => C1 x41 | x26 => C1 x40 | x27 => C1 x39 | x28 => C1 x38 | x29 => C1 x37 | x30 => C1 x36 | x31 => C1 x35 | x32 => C1 x34 | x33 => C1 x33 | x34 => C1 x32 | x35 => C1 x31 | x36 => C1 x30 | x37 => C1 x29 | x38 => C1 x28 | x39 => C1 x27 | x40 => C1 x26 | x41 => C1 x25 | x42 => C1 x24 | x43 => C1 x23 | x44 => C1 x22 | x45 => C1 x21 | x46 => C1 x20 | x47 => C1 x19 | x48 => C1 x18 | x49 => C1 x17 | x50 => C1 x16 | x51 => C1 x15 | x52 => C1 x14 | x53 => C1 x13 | x54 => C1 x12 | x55 => C1 x11 | x56 => C1 x10 | x57 => C1 x9 | x58 => C1 x8 | x59 => C1 x7 | x60 => C1 x6 | x61 => C1 x5 | x62 => C1 x4 | x63 => C1 x3 end
 | x3 => match y with x0 => C0 x3 | x1 => C0 x2 | x2 => C0 x1 | x3 => C0 x0 | x4 => C1 x63 | x5 => C1 x62 | x6 => C1 x61 | x7 => C1 x60 | x8 => C1 x59 | x9 => C1 x58 | x10 => C1 x57 | x11 => C1 x56 | x12 => C1 x55 | x13 => C1 x54 | x14 => C1 x53 | x15 => C1 x52 | x16 => C1 x51 | x17 => C1 x50 | x18 => C1 x49 | x19 => C1 x48 | x20 => C1 x47 | x21 => C1 x46 | x22 => C1 x45 | x23 => C1 x44 | x24 => C1 x43 | x25 => C1 x42 | x26 => C1 x41 | x27 => C1 x40 | x28 => C1 x39 | x29 => C1 x38 | x30 => C1 x37 | x31 => C1 x36 | x32 => C1 x35 | x33 => C1 x34 | x34 => C1 x33 | x35 => C1 x32 | x36 => C1 x31 | x37 => C1 x30 | x38 => C1 x29 | x39 => C1 x28 | x40 => C1 x27 | x41 => C1 x26 | x42 => C1 x25 | x43 => C1 x24 | x44 => C1 x23 | x45 => C1 x22 | x46 => C1 x21 | x47 => C1 x20 | x48 => C1 x19 | x49 => C1 x18 | x50 => C1 x17 | x51 => C1 x16 | x52 => C1 x15 | x53 => C1 x14 | x54 => C1 x13 | x55 => C1 x12 | x56 => C1 x11 | x57 => C1 x10 | x58 => C1 x9 | x59 => C1 x8 | x60 => C1 x7 | x61 => C1 x6 | x62 => C1 x5 | x63 => C1 x4 end
 | x4 => match y with x0 => C0 x4 | x1 => C0 x3 | x2 => C0 x2 | x3 => C0 x1 | x4 => C0 x0 | x5 => C1 x63 | x6 => C1 x62 | x7 => C1 x61 | x8 => C1 x60 | x9 => C1 x59 | x10 => C1 x58 | x11 => C1 x57 | x12 => C1 x56 | x13 => C1 x55 | x14 => C1 x54 | x15 => C1 x53 | x16 => C1 x52 | x17 => C1 x51 | x18 => C1 x50 | x19 => C1 x49 | x20 => C1 x48 | x21 => C1 x47 | x22 => C1 x46 | x23 => C1 x45 | x24 => C1 x44 | x25 => C1 x43 | x26 => C1 x42 | x27 => C1 x41 | x28 => C1 x40 | x29 => C1 x39 | x30 => C1 x38 | x31 => C1 x37 | x32 => C1 x36 | x33 => C1 x35 | x34 => C1 x34 | x35 => C1 x33 | x36 => C1 x32 | x37 => C1 x31 | x38 => C1 x30 | x39 => C1 x29 | x40 => C1 x28 | x41 => C1 x27 | x42 => C1 x26 | x43 => C1 x25 | x44 => C1 x24 | x45 => C1 x23 | x46 => C1 x22 | x47 => C1 x21 | x48 => C1 x20 | x49 => C1 x19 | x50 => C1 x18 | x51 => C1 x17 | x52 => C1 x16 | x53 => C1 x15 | x54 => C1 x14 | x55 => C1 x13 | x56 => C1 x12 | x57 => C1 x11 | x58 => C1 x10 | x59 => C1 x9 | x60 => C1 x8 | x61 => C1 x7 | x62 => C1 x6 | x63 => C1 x5 end
 | x5 => match y with x0 => C0 x5 | x1 => C0 x4 | x2 => C0 x3 | x3 => C0 x2 | x4 => C0 x1 | x5 => C0 x0 | x6 => C1 x63 | x7 => C1 x62 | x8 => C1 x61 | x9 => C1 x60 | x10 => C1 x59 | x11 => C1 x58 | x12 => C1 x57 | x13 => C1 x56 | x14 => C1 x55 | x15 => C1 x54 | x16 => C1 x53 | x17 => C1 x52 | x18 => C1 x51 | x19 => C1 x50 | x20 => C1 x49 | x21 => C1 x48 | x22 => C1 x47 | x23 => C1 x46 | x24 => C1 x45 | x25 => C1 x44 | x26 => C1 x43 | x27 => C1 x42 | x28 => C1 x41 | x29 => C1 x40 | x30 => C1 x39 | x31 => C1 x38 | x32 => C1 x37 | x33 => C1 x36 | x34 => C1 x35 | x35 => C1 x34 | x36 => C1 x33 | x37 => C1 x32 | x38 => C1 x31 | x39 => C1 x30 | x40 => C1 x29 | x41 => C1 x28 | x42 => C1 x27 | x43 => C1 x26 | x44 => C1 x25 | x45 => C1 x24 | x46 => C1 x23 | x47 => C1 x22 | x48 => C1 x21 | x49 => C1 x20 | x50 => C1 x19 | x51 => C1 x18 | x52 => C1 x17 | x53 => C1 x16 | x54 => C1 x15 | x55 => C1 x14 | x56 => C1 x13 | x57 => C1 x12 | x58 => C1 x11 | x59 => C1 x10 | x60 => C1 x9 | x61 => C1 x8 | x62 => C1 x7 | x63 => C1 x6 end
 | x6 => match y with x0 => C0 x6 | x1 => C0 x5 | x2 => C0 x4 | x3 => C0 x3 | x4 => C0 x2 | x5 => C0 x1 | x6 => C0 x0 | x7 => C1 x63 | x8 => C1 x62 | x9 => C1 x61 | x10 => C1 x60 | x11 => C1 x59 | x12 => C1 x58 | x13 => C1 x57 | x14 => C1 x56 | x15 => C1 x55 | x16 => C1 x54 | x17 => C1 x53 | x18 => C1 x52 | x19 => C1 x51 | x20 => C1 x50 | x21 => C1 x49 | x22 => C1 x48 | x23 => C1 x47 | x24 => C1 x46 | x25 => C1 x45 | x26 => C1 x44 | x27 => C1 x43 | x28 => C1 x42 | x29 => C1 x41 | x30 => C1 x40 | x31 => C1 x39 | x32 => C1 x38 | x33 => C1 x37 | x34 => C1 x36 | x35 => C1 x35 | x36 => C1 x34 | x37 => C1 x33 | x38 => C1 x32 | x39 => C1 x31 | x40 => C1 x30 | x41 => C1 x29 | x42 => C1 x28 | x43 => C1 x27 | x44 => C1 x26 | x45 => C1 x25 | x46 => C1 x24 | x47 => C1 x23 | x48 => C1 x22 | x49 => C1 x21 | x50 => C1 x20 | x51 => C1 x19 | x52 => C1 x18 | x53 => C1 x17 | x54 => C1 x16 | x55 => C1 x15 | x56 => C1 x14 | x57 => C1 x13 | x58 => C1 x12 | x59 => C1 x11 | x60 => C1 x10 | x61 => C1 x9 | x62 => C1 x8 | x63 => C1 x7 end
 | x7 => match y with x0 => C0 x7 | x1 => C0 x6 | x2 => C0 x5 | x3 => C0 x4 | x4 => C0 x3 | x5 => C0 x2 | x6 => C0 x1 | x7 => C0 x0 | x8 => C1 x63 | x9 => C1 x62 | x10 => C1 x61 | x11 => C1 x60 | x12 => C1 x59 | x13 => C1 x58 | x14 => C1 x57 | x15 => C1 x56 | x16 => C1 x55 | x17 => C1 x54 | x18 => C1 x53 | x19 => C1 x52 | x20 => C1 x51 | x21 => C1 x50 | x22 => C1 x49 | x23 => C1 x48 | x24 => C1 x47 | x25 => C1 x46 | x26 => C1 x45 | x27 => C1 x44 | x28 => C1 x43 | x29 => C1 x42 | x30 => C1 x41 | x31 => C1 x40 | x32 => C1 x39 | x33 => C1 x38 | x34 => C1 x37 | x35 => C1 x36 | x36 => C1 x35 | x37 => C1 x34 | x38 => C1 x33 | x39 => C1 x32 | x40 => C1 x31 | x41 => C1 x30 | x42 => C1 x29 | x43 => C1 x28 | x44 => C1 x27 | x45 => C1 x26 | x46 => C1 x25 | x47 => C1 x24 | x48 => C1 x23 | x49 => C1 x22 | x50 => C1 x21 | x51 => C1 x20 | x52 => C1 x19 | x53 => C1 x18 | x54 => C1 x17 | x55 => C1 x16 | x56 => C1 x15 | x57 => C1 x14 | x58 => C1 x13 | x59 => C1 x12 | x60 => C1 x11 | x61 => C1 x10 | x62 => C1 x9 | x63 => C1 x8 end
 | x8 => match y with x0 => C0 x8 | x1 => C0 x7 | x2 => C0 x6 | x3 => C0 x5 | x4 => C0 x4 | x5 => C0 x3 | x6 => C0 x2 | x7 => C0 x1 | x8 => C0 x0 | x9 => C1 x63 | x10 => C1 x62 | x11 => C1 x61 | x12 => C1 x60 | x13 => C1 x59 | x14 => C1 x58 | x15 => C1 x57 | x16 => C1 x56 | x17 => C1 x55 | x18 => C1 x54 | x19 => C1 x53 | x20 => C1 x52 | x21 => C1 x51 | x22 => C1 x50 | x23 => C1 x49 | x24 => C1 x48 | x25 => C1 x47 | x26 => C1 x46 | x27 => C1 x45 | x28 => C1 x44 | x29 => C1 x43 | x30 => C1 x42 | x31 => C1 x41 | x32 => C1 x40 | x33 => C1 x39 | x34 => C1 x38 | x35 => C1 x37 | x36 => C1 x36 | x37 => C1 x35 | x38 => C1 x34 | x39 => C1 x33 | x40 => C1 x32 | x41 => C1 x31 | x42 => C1 x30 | x43 => C1 x29 | x44 => C1 x28 | x45 => C1 x27 | x46 => C1 x26 | x47 => C1 x25 | x48 => C1 x24 | x49 => C1 x23 | x50 => C1 x22 | x51 => C1 x21 | x52 => C1 x20 | x53 => C1 x19 | x54 => C1 x18 | x55 => C1 x17 | x56 => C1 x16 | x57 => C1 x15 | x58 => C1 x14 | x59 => C1 x13 | x60 => C1 x12 | x61 => C1 x11 | x62 => C1 x10 | x63 => C1 x9 end
 | x9 => match y with x0 => C0 x9 | x1 => C0 x8 | x2 => C0 x7 | x3 => C0 x6 | x4 => C0 x5 | x5 => C0 x4 | x6 => C0 x3 | x7 => C0 x2 | x8 => C0 x1 | x9 => C0 x0 | x10 => C1 x63 | x11 => C1 x62 | x12 => C1 x61 | x13 => C1 x60 | x14 => C1 x59 | x15 => C1 x58 | x16 => C1 x57 | x17 => C1 x56 | x18 => C1 x55 | x19 => C1 x54 | x20 => C1 x53 | x21 => C1 x52 | x22 => C1 x51 | x23 => C1 x50 | x24 => C1 x49 | x25 => C1 x48 | x26 => C1 x47 | x27 => C1 x46 | x28 => C1 x45 | x29 => C1 x44 | x30 => C1 x43 | x31 => C1 x42 | x32 => C1 x41 | x33 => C1 x40 | x34 => C1 x39 | x35 => C1 x38 | x36 => C1 x37 | x37 => C1 x36 | x38 => C1 x35 | x39 => C1 x34 | x40 => C1 x33 | x41 => C1 x32 | x42 => C1 x31 | x43 => C1 x30 | x44 => C1 x29 | x45 => C1 x28 | x46 => C1 x27 | x47 => C1 x26 | x48 => C1 x25 | x49 => C1 x24 | x50 => C1 x23 | x51 => C1 x22 | x52 => C1 x21 | x53 => C1 x20 | x54 => C1 x19 | x55 => C1 x18 | x56 => C1 x17 | x57 => C1 x16 | x58 => C1 x15 | x59 => C1 x14 | x60 => C1 x13 | x61 => C1 x12 | x62 => C1 x11 | x63 => C1 x10 end
 | x10 => match y with x0 => C0 x10 | x1 => C0 x9 | x2 => C0 x8 | x3 => C0 x7 | x4 => C0 x6 | x5 => C0 x5 | x6 => C0 x4 | x7 => C0 x3 | x8 => C0 x2 | x9 => C0 x1 | x10 => C0 x0 | x11 => C1 x63 | x12 => C1 x62 | x13 => C1 x61 | x14 => C1 x60 | x15 => C1 x59 | x16 => C1 x58 | x17 => C1 x57 | x18 => C1 x56 | x19 => C1 x55 | x20 => C1 x54 | x21 => C1 x53 | x22 => C1 x52 | x23 => C1 x51 | x24 => C1 x50 | x25 => C1 x49 | x26 => C1 x48 | x27 => C1 x47 | x28 => C1 x46 | x29 => C1 x45 | x30 => C1 x44 | x31 => C1 x43 | x32 => C1 x42 | x33 => C1 x41 | x34 => C1 x40 | x35 => C1 x39 | x36 => C1 x38 | x37 => C1 x37 | x38 => C1 x36 | x39 => C1 x35 | x40 => C1 x34 | x41 => C1 x33 | x42 => C1 x32 | x43 => C1 x31 | x44 => C1 x30 | x45 => C1 x29 | x46 => C1 x28 | x47 => C1 x27 | x48 => C1 x26 | x49 => C1 x25 | x50 => C1 x24 | x51 => C1 x23 | x52 => C1 x22 | x53 => C1 x21 | x54 => C1 x20 | x55 => C1 x19 | x56 => C1 x18 | x57 => C1 x17 | x58 => C1 x16 | x59 => C1 x15 | x60 => C1 x14 | x61 => C1 x13 | x62 => C1 x12 | x63 => C1 x11 end
 | x11 => match y with x0 => C0 x11 | x1 => C0 x10 | x2 => C0 x9 | x3 => C0 x8 | x4 => C0 x7 | x5 => C0 x6 | x6 => C0 x5 | x7 => C0 x4 | x8 => C0 x3 | x9 => C0 x2 | x10 => C0 x1 | x11 => C0 x0 | x12 => C1 x63 | x13 => C1 x62 | x14 => C1 x61 | x15 => C1 x60 | x16 => C1 x59 | x17 => C1 x58 | x18 => C1 x57 | x19 => C1 x56 | x20 => C1 x55 | x21 => C1 x54 | x22 => C1 x53 | x23 => C1 x52 | x24 => C1 x51 | x25 => C1 x50 | x26 => C1 x49 | x27 => C1 x48 | x28 => C1 x47 | x29 => C1 x46 | x30 => C1 x45 | x31 => C1 x44 | x32 => C1 x43 | x33 => C1 x42 | x34 => C1 x41 | x35 => C1 x40 | x36 => C1 x39 | x37 => C1 x38 | x38 => C1 x37 | x39 => C1 x36 | x40 => C1 x35 | x41 => C1 x34 | x42 => C1 x33 | x43 => C1 x32 | x44 => C1 x31 | x45 => C1 x30 | x46 => C1 x29 | x47 => C1 x28 | x48 => C1 x27 | x49 => C1 x26 | x50 => C1 x25 | x51 => C1 x24 | x52 => C1 x23 | x53 => C1 x22 | x54 => C1 x21 | x55 => C1 x20 | x56 => C1 x19 | x57 => C1 x18 | x58 => C1 x17 | x59 => C1 x16 | x60 => C1 x15 | x61 => C1 x14 | x62 => C1 x13 | x63 => C1 x12 end
 | x12 => match y with x0 => C0 x12 | x1 => C0 x11 | x2 => C0 x10 | x3 => C0 x9 | x4 => C0 x8 | x5 => C0 x7 | x6 => C0 x6 | x7 => C0 x5 | x8 => C0 x4 | x9 => C0 x3 | x10 => C0 x2 | x11 => C0 x1 | x12 => C0 x0 | x13 => C1 x63 | x14 => C1 x62 | x15 => C1 x61 | x16 => C1 x60 | x17 => C1 x59 | x18 => C1 x58 | x19 => C1 x57 | x20 => C1 x56 | x21 => C1 x55 | x22 => C1 x54 | x23 => C1 x53 | x24 => C1 x52 | x25 => C1 x51 | x26 => C1 x50 | x27 => C1 x49 | x28 => C1 x48 | x29 => C1 x47 | x30 => C1 x46 | x31 => C1 x45 | x32 => C1 x44 | x33 => C1 x43 | x34 => C1 x42 | x35 => C1 x41 | x36 => C1 x40 | x37 => C1 x39 | x38 => C1 x38 | x39 => C1 x37 | x40 => C1 x36 | x41 => C1 x35 | x42 => C1 x34 | x43 => C1 x33 | x44 => C1 x32 | x45 => C1 x31 | x46 => C1 x30 | x47 => C1 x29 | x48 => C1 x28 | x49 => C1 x27 | x50 => C1 x26 | x51 => C1 x25 | x52 => C1 x24 | x53 => C1 x23 | x54 => C1 x22 | x55 => C1 x21 | x56 => C1 x20 | x57 => C1 x19 | x58 => C1 x18 | x59 => C1 x17 | x60 => C1 x16 | x61 => C1 x15 | x62 => C1 x14 | x63 => C1 x13 end
 | x13 => match y with x0 => C0 x13 | x1 => C0 x12 | x2 => C0 x11 | x3 => C0 x10 | x4 => C0 x9 | x5 => C0 x8 | x6 => C0 x7 | x7 => C0 x6 | x8 => C0 x5 | x9 => C0 x4 | x10 => C0 x3 | x11 => C0 x2 | x12 => C0 x1 | x13 => C0 x0 | x14 => C1 x63 | x15 => C1 x62 | x16 => C1 x61 | x17 => C1 x60 | x18 => C1 x59 | x19 => C1 x58 | x20 => C1 x57 | x21 => C1 x56 | x22 => C1 x55 | x23 => C1 x54 | x24 => C1 x53 | x25 => C1 x52 | x26 => C1 x51 | x27 => C1 x50 | x28 => C1 x49 | x29 => C1 x48 | x30 => C1 x47 | x31 => C1 x46 | x32 => C1 x45 | x33 => C1 x44 | x34 => C1 x43 | x35 => C1 x42 | x36 => C1 x41 | x37 => C1 x40 | x38 => C1 x39 | x39 => C1 x38 | x40 => C1 x37 | x41 => C1 x36 | x42 => C1 x35 | x43 => C1 x34 | x44 => C1 x33 | x45 => C1 x32 | x46 => C1 x31 | x47 => C1 x30 | x48 => C1 x29 | x49 => C1 x28 | x50 => C1 x27 | x51 => C1 x26 | x52 => C1 x25 | x53 => C1 x24 | x54 => C1 x23 | x55 => C1 x22 | x56 => C1 x21 | x57 => C1 x20 | x58 => C1 x19 | x59 => C1 x18 | x60 => C1 x17 | x61 => C1 x16 | x62 => C1 x15 | x63 => C1 x14 end
 | x14 => match y with x0 => C0 x14 | x1 => C0 x13 | x2 => C0 x12 | x3 => C0 x11 | x4 => C0 x10 | x5 => C0 x9 | x6 => C0 x8 | x7 => C0 x7 | x8 => C0 x6 | x9 => C0 x5 | x10 => C0 x4 | x11 => C0 x3 | x12 => C0 x2 | x13 => C0 x1 | x14 => C0 x0 | x15 => C1 x63 | x16 => C1 x62 | x17 => C1 x61 | x18 => C1 x60 | x19 => C1 x59 | x20 => C1 x58 | x21 => C1 x57 | x22 => C1 x56 | x23 => C1 x55 | x24 => C1 x54 | x25 => C1 x53 | x26 => C1 x52 | x27 => C1 x51 | x28 => C1 x50 | x29 => C1 x49 | x30 => C1 x48 | x31 => C1 x47 | x32 => C1 x46 | x33 => C1 x45 | x34 => C1 x44 | x35 => C1 x43 | x36 => C1 x42 | x37 => C1 x41 | x38 => C1 x40 | x39 => C1 x39 | x40 => C1 x38 | x41 => C1 x37 | x42 => C1 x36 | x43 => C1 x35 | x44 => C1 x34 | x45 => C1 x33 | x46 => C1 x32 | x47 => C1 x31 | x48 => C1 x30 | x49 => C1 x29 | x50 => C1 x28 | x51 => C1 x27 | x52 => C1 x26 | x53 => C1 x25 | x54 => C1 x24 | x55 => C1 x23 | x56 => C1 x22 | x57 => C1 x21 | x58 => C1 x20 | x59 => C1 x19 | x60 => C1 x18 | x61 => C1 x17 | x62 => C1 x16 | x63 => C1 x15 end
 | x15 => match y with x0 => C0 x15 | x1 => C0 x14 | x2 => C0 x13 | x3 => C0 x12 | x4 => C0 x11 | x5 => C0 x10 | x6 => C0 x9 | x7 => C0 x8 | x8 => C0 x7 | x9 => C0 x6 | x10 => C0 x5 | x11 => C0 x4 | x12 => C0 x3 | x13 => C0 x2 | x14 => C0 x1 | x15 => C0 x0 | x16 => C1 x63 | x17 => C1 x62 | x18 => C1 x61 | x19 => C1 x60 | x20 => C1 x59 | x21 => C1 x58 | x22 => C1 x57 | x23 => C1 x56 | x24 => C1 x55 | x25 => C1 x54 | x26 => C1 x53 | x27 => C1 x52 | x28 => C1 x51 | x29 => C1 x50 | x30 => C1 x49 | x31 => C1 x48 | x32 => C1 x47 | x33 => C1 x46 | x34 => C1 x45 | x35 => C1 x44 | x36 => C1 x43 | x37 => C1 x42 | x38 => C1 x41 | x39 => C1 x40 | x40 => C1 x39 | x41 => C1 x38 | x42 => C1 x37 | x43 => C1 x36 | x44 => C1 x35 | x45 => C1 x34 | x46 => C1 x33 | x47 => C1 x32 | x48 => C1 x31 | x49 => C1 x30 | x50 => C1 x29 | x51 => C1 x28 | x52 => C1 x27 | x53 => C1 x26 | x54 => C1 x25 | x55 => C1 x24 | x56 => C1 x23 | x57 => C1 x22 | x58 => C1 x21 | x59 => C1 x20 | x60 => C1 x19 | x61 => C1 x18 | x62 => C1 x17 | x63 => C1 x16 end
 | x16 => match y with x0 => C0 x16 | x1 => C0 x15 | x2 => C0 x14 | x3 => C0 x13 | x4 => C0 x12 | x5 => C0 x11 | x6 => C0 x10 | x7 => C0 x9 | x8 => C0 x8 | x9 => C0 x7 | x10 => C0 x6 | x11 => C0 x5 | x12 => C0 x4 | x13 => C0 x3 | x14 => C0 x2 | x15 => C0 x1 | x16 => C0 x0 | x17 => C1 x63 | x18 => C1 x62 | x19 => C1 x61 | x20 => C1 x60 | x21 => C1 x59 | x22 => C1 x58 | x23 => C1 x57 | x24 => C1 x56 | x25 => C1 x55 | x26 => C1 x54 | x27 => C1 x53 | x28 => C1 x52 | x29 => C1 x51 | x30 => C1 x50 | x31 => C1 x49 | x32 => C1 x48 | x33 => C1 x47 | x34 => C1 x46 | x35 => C1 x45 | x36 => C1 x44 | x37 => C1 x43 | x38 => C1 x42 | x39 => C1 x41 | x40 => C1 x40 | x41 => C1 x39 | x42 => C1 x38 | x43 => C1 x37 | x44 => C1 x36 | x45 => C1 x35 | x46 => C1 x34 | x47 => C1 x33 | x48 => C1 x32 | x49 => C1 x31 | x50 => C1 x30 | x51 => C1 x29 | x52 => C1 x28 | x53 => C1 x27 | x54 => C1 x26 | x55 => C1 x25 | x56 => C1 x24 | x57 => C1 x23 | x58 => C1 x22 | x59 => C1 x21 | x60 => C1 x20 | x61 => C1 x19 | x62 => C1 x18 | x63 => C1 x17 end
 | x17 => match y with x0 => C0 x17 | x1 => C0 x16 | x2 => C0 x15 | x3 => C0 x14 | x4 => C0 x13 | x5 => C0 x12 | x6 => C0 x11 | x7 => C0 x10 | x8 => C0 x9 | x9 => C0 x8 | x10 => C0 x7 | x11 => C0 x6 | x12 => C0 x5 | x13 => C0 x4 | x14 => C0 x3 | x15 => C0 x2 | x16 => C0 x1 | x17 => C0 x0 | x18 => C1 x63 | x19 => C1 x62 | x20 => C1 x61 | x21 => C1 x60 | x22 => C1 x59 | x23 => C1 x58 | x24 => C1 x57 | x25 => C1 x56 | x26 => C1 x55 | x27 => C1 x54 | x28 => C1 x53 | x29 => C1 x52 | x30 => C1 x51 | x31 => C1 x50 | x32 => C1 x49 | x33 => C1 x48 | x34 => C1 x47 | x35 => C1 x46 | x36 => C1 x45 | x37 => C1 x44 | x38 => C1 x43 | x39 => C1 x42 | x40 => C1 x41 | x41 => C1 x40 | x42 => C1 x39 | x43 => C1 x38 | x44 => C1 x37 | x45 => C1 x36 | x46 => C1 x35 | x47 => C1 x34 | x48 => C1 x33 | x49 => C1 x32 | x50 => C1 x31 | x51 => C1 x30 | x52 => C1 x29 | x53 => C1 x28 | x54 => C1 x27 | x55 => C1 x26 | x56 => C1 x25 | x57 => C1 x24 | x58 => C1 x23 | x59 => C1 x22 | x60 => C1 x21 | x61 => C1 x20 | x62 => C1 x19 | x63 => C1 x18 end
 | x18 => match y with x0 => C0 x18 | x1 => C0 x17 | x2 => C0 x16 | x3 => C0 x15 | x4 => C0 x14 | x5 => C0 x13 | x6 => C0 x12 | x7 => C0 x11 | x8 => C0 x10 | x9 => C0 x9 | x10 => C0 x8 | x11 => C0 x7 | x12 => C0 x6 | x13 => C0 x5 | x14 => C0 x4 | x15 => C0 x3 | x16 => C0 x2 | x17 => C0 x1 | x18 => C0 x0 | x19 => C1 x63 | x20 => C1 x62 | x21 => C1 x61 | x22 => C1 x60 | x23 => C1 x59 | x24 => C1 x58 | x25 => C1 x57 | x26 => C1 x56 | x27 => C1 x55 | x28 => C1 x54 | x29 => C1 x53 | x30 => C1 x52 | x31 => C1 x51 | x32 => C1 x50 | x33 => C1 x49 | x34 => C1 x48 | x35 => C1 x47 | x36 => C1 x46 | x37 => C1 x45 | x38 => C1 x44 | x39 => C1 x43 | x40 => C1 x42 | x41 => C1 x41 | x42 => C1 x40 | x43 => C1 x39 | x44 => C1 x38 | x45 => C1 x37 | x46 => C1 x36 | x47 => C1 x35 | x48 => C1 x34 | x49 => C1 x33 | x50 => C1 x32 | x51 => C1 x31 | x52 => C1 x30 | x53 => C1 x29 | x54 => C1 x28 | x55 => C1 x27 | x56 => C1 x26 | x57 => C1 x25 | x58 => C1 x24 | x59 => C1 x23 | x60 => C1 x22 | x61 => C1 x21 | x62 => C1 x20 | x63 => C1 x19 end
 | x19 => match y with x0 => C0 x19 | x1 => C0 x18 | x2 => C0 x17 | x3 => C0 x16 | x4 => C0 x15 | x5 => C0 x14 | x6 => C0 x13 | x7 => C0 x12 | x8 => C0 x11 | x9 => C0 x10 | x10 => C0 x9 | x11 => C0 x8 | x12 => C0 x7 | x13 => C0 x6 | x14 => C0 x5 | x15 => C0 x4 | x16 => C0 x3 | x17 => C0 x2 | x18 => C0 x1 | x19 => C0 x0 | x20 => C1 x63 | x21 => C1 x62 | x22 => C1 x61 | x23 => C1 x60 | x24 => C1 x59 | x25 => C1 x58 | x26 => C1 x57 | x27 => C1 x56 | x28 => C1 x55 | x29 => C1 x54 | x30 => C1 x53 | x31 => C1 x52 | x32 => C1 x51 | x33 => C1 x50 | x34 => C1 x49 | x35 => C1 x48 | x36 => C1 x47 | x37 => C1 x46 | x38 => C1 x45 | x39 => C1 x44 | x40 => C1 x43 | x41 => C1 x42 | x42 => C1 x41 | x43 => C1 x40 | x44 => C1 x39 | x45 => C1 x38 | x46 => C1 x37 | x47 => C1 x36 | x48 => C1 x35 | x49 => C1 x34 | x50 => C1 x33 | x51 => C1 x32 | x52 => C1 x31 | x53 => C1 x30 | x54 => C1 x29 | x55 => C1 x28 | x56 => C1 x27 | x57 => C1 x26 | x58 => C1 x25 | x59 => C1 x24 | x60 => C1 x23 | x61 => C1 x22 | x62 => C1 x21 | x63 => C1 x20 end
 | x20 => match y with x0 => C0 x20 | x1 => C0 x19 | x2 => C0 x18 | x3 => C0 x17 | x4 => C0 x16 | x5 => C0 x15 | x6 => C0 x14 | x7 => C0 x13 | x8 => C0 x12 | x9 => C0 x11 | x10 => C0 x10 | x11 => C0 x9 | x12 => C0 x8 | x13 => C0 x7 | x14 => C0 x6 | x15 => C0 x5 | x16 => C0 x4 | x17 => C0 x3 | x18 => C0 x2 | x19 => C0 x1 | x20 => C0 x0 | x21 => C1 x63 | x22 => C1 x62 | x23 => C1 x61 | x24 => C1 x60 | x25 => C1 x59 | x26 => C1 x58 | x27 => C1 x57 | x28 => C1 x56 | x29 => C1 x55 | x30 => C1 x54 | x31 => C1 x53 | x32 => C1 x52 | x33 => C1 x51 | x34 => C1 x50 | x35 => C1 x49 | x36 => C1 x48 | x37 => C1 x47 | x38 => C1 x46 | x39 => C1 x45 | x40 => C1 x44 | x41 => C1 x43 | x42 => C1 x42 | x43 => C1 x41 | x44 => C1 x40 | x45 => C1 x39 | x46 => C1 x38 | x47 => C1 x37 | x48 => C1 x36 | x49 => C1 x35 | x50 => C1 x34 | x51 => C1 x33 | x52 => C1 x32 | x53 => C1 x31 | x54 => C1 x30 | x55 => C1 x29 | x56 => C1 x28 | x57 => C1 x27 | x58 => C1 x26 | x59 => C1 x25 | x60 => C1 x24 | x61 => C1 x23 | x62 => C1 x22 | x63 => C1 x21 end
 | x21 => match y with x0 => C0 x21 | x1 => C0 x20 | x2 => C0 x19 | x3 => C0 x18 | x4 => C0 x17 | x5 => C0 x16 | x6 => C0 x15 | x7 => C0 x14 | x8 => C0 x13 | x9 => C0 x12 | x10 => C0 x11 | x11 => C0 x10 | x12 => C0 x9 | x13 => C0 x8 | x14 => C0 x7 | x15 => C0 x6 | x16 => C0 x5 | x17 => C0 x4 | x18 => C0 x3 | x19 => C0 x2 | x20 => C0 x1 | x21 => C0 x0 | x22 => C1 x63 | x23 => C1 x62 | x24 => C1 x61 | x25 => C1 x60 | x26 => C1 x59 | x27 => C1 x58 | x28 => C1 x57 | x29 => C1 x56 | x30 => C1 x55 | x31 => C1 x54 | x32 => C1 x53 | x33 => C1 x52 | x34 => C1 x51 | x35 => C1 x50 | x36 => C1 x49 | x37 => C1 x48 | x38 => C1 x47 | x39 => C1 x46 | x40 => C1 x45 | x41 => C1 x44 | x42 => C1 x43 | x43 => C1 x42 | x44 => C1 x41 | x45 => C1 x40 | x46 => C1 x39 | x47 => C1 x38 | x48 => C1 x37 | x49 => C1 x36 | x50 => C1 x35 | x51 => C1 x34 | x52 => C1 x33 | x53 => C1 x32 | x54 => C1 x31 | x55 => C1 x30 | x56 => C1 x29 | x57 => C1 x28 | x58 => C1 x27 | x59 => C1 x26 | x60 => C1 x25 | x61 => C1 x24 | x62 => C1 x23 | x63 => C1 x22 end
 | x22 => match y with x0 => C0 x22 | x1 => C0 x21 | x2 => C0 x20 | x3 => C0 x19 | x4 => C0 x18 | x5 => C0 x17 | x6 => C0 x16 | x7 => C0 x15 | x8 => C0 x14 | x9 => C0 x13 | x10 => C0 x12 | x11 => C0 x11 | x12 => C0 x10 | x13 => C0 x9 | x14 => C0 x8 | x15 => C0 x7 | x16 => C0 x6 | x17 => C0 x5 | x18 => C0 x4 | x19 => C0 x3 | x20 => C0 x2 | x21 => C0 x1 | x22 => C0 x0 | x23 => C1 x63 | x24 => C1 x62 | x25 => C1 x61 | x26 => C1 x60 | x27 => C1 x59 | x28 => C1 x58 | x29 => C1 x57 | x30 => C1 x56 | x31 => C1 x55 | x32 => C1 x54 | x33 => C1 x53 | x34 => C1 x52 | x35 => C1 x51 | x36 => C1 x50 | x37 => C1 x49 | x38 => C1 x48 | x39 => C1 x47 | x40 => C1 x46 | x41 => C1 x45 | x42 => C1 x44 | x43 => C1 x43 | x44 => C1 x42 | x45 => C1 x41 | x46 => C1 x40 | x47 => C1 x39 | x48 => C1 x38 | x49 => C1 x37 | x50 => C1 x36 | x51 => C1 x35 | x52 => C1 x34 | x53 => C1 x33 | x54 => C1 x32 | x55 => C1 x31 | x56 => C1 x30 | x57 => C1 x29 | x58 => C1 x28 | x59 => C1 x27 | x60 => C1 x26 | x61 => C1 x25 | x62 => C1 x24 | x63 => C1 x23 end
 | x23 => match y with x0 => C0 x23 | x1 => C0 x22 | x2 => C0 x21 | x3 => C0 x20 | x4 => C0 x19 | x5 => C0 x18 | x6 => C0 x17 | x7 => C0 x16 | x8 => C0 x15 | x9 => C0 x14 | x10 => C0 x13 | x11 => C0 x12 | x12 => C0 x11 | x13 => C0 x10 | x14 => C0 x9 | x15 => C0 x8 | x16 => C0 x7 | x17 => C0 x6 | x18 => C0 x5 | x19 => C0 x4 | x20 => C0 x3 | x21 => C0 x2 | x22 => C0 x1 | x23 => C0 x0 | x24 => C1 x63 | x25 => C1 x62 | x26 => C1 x61 | x27 => C1 x60 | x28 => C1 x59 | x29 => C1 x58 | x30 => C1 x57 | x31 => C1 x56 | x32 => C1 x55 | x33 => C1 x54 | x34 => C1 x53 | x35 => C1 x52 | x36 => C1 x51 | x37 => C1 x50 | x38 => C1 x49 | x39 => C1 x48 | x40 => C1 x47 | x41 => C1 x46 | x42 => C1 x45 | x43 => C1 x44 | x44 => C1 x43 | x45 => C1 x42 | x46 => C1 x41 | x47 => C1 x40 | x48 => C1 x39 | x49 => C1 x38 | x50 => C1 x37 | x51 => C1 x36 | x52 => C1 x35 | x53 => C1 x34 | x54 => C1 x33 | x55 => C1 x32 | x56 => C1 x31 | x57 => C1 x30 | x58 => C1 x29 | x59 => C1 x28 | x60 => C1 x27 | x61 => C1 x26 | x62 => C1 x25 | x63 => C1 x24 end
 | x24 => match y with x0 => C0 x24 | x1 => C0 x23 | x2 => C0 x22 | x3 => C0 x21 | x4 => C0 x20 | x5 => C0 x19 | x6 => C0 x18 | x7 => C0 x17 | x8 => C0 x16 | x9 => C0 x15 | x10 => C0 x14 | x11 => C0 x13 | x12 => C0 x12 | x13 => C0 x11 | x14 => C0 x10 | x15 => C0 x9 | x16 => C0 x8 | x17 => C0 x7 | x18 => C0 x6 | x19 => C0 x5 | x20 => C0 x4 | x21 => C0 x3 | x22 => C0 x2 | x23 => C0 x1 | x24 => C0 x0 | x25 => C1 x63 | x26 => C1 x62 | x27 => C1 x61 | x28 => C1 x60 | x29 => C1 x59 | x30 => C1 x58 | x31 => C1 x57 | x32 => C1 x56 | x33 => C1 x55 | x34 => C1 x54 | x35 => C1 x53 | x36 => C1 x52 | x37 => C1 x51 | x38 => C1 x50 | x39 => C1 x49 | x40 => C1 x48 | x41 => C1 x47 | x42 => C1 x46 | x43 => C1 x45 | x44 => C1 x44 | x45 => C1 x43 | x46 => C1 x42 | x47 => C1 x41 | x48 => C1 x40 | x49 => C1 x39 | x50 => C1 x38 | x51 => C1 x37 | x52 => C1 x36 | x53 => C1 x35 | x54 => C1 x34 | x55 => C1 x33 | x56 => C1 x32 | x57 => C1 x31 | x58 => C1 x30 | x59 => C1 x29 | x60 => C1 x28 | x61 => C1 x27 | x62 => C1 x26 | x63 => C1 x25 end
 | x25 => match y with x0 => C0 x25 | x1 => C0 x24 | x2 => C0 x23 | x3 => C0 x22 | x4 => C0 x21 | x5 => C0 x20 | x6 => C0 x19 | x7 => C0 x18 | x8 => C0 x17 | x9 => C0 x16 | x10 => C0 x15 | x11 => C0 x14 | x12 => C0 x13 | x13 => C0 x12 | x14 => C0 x11 | x15 => C0 x10 | x16 => C0 x9 | x17 => C0 x8 | x18 => C0 x7 | x19 => C0 x6 | x20 => C0 x5 | x21 => C0 x4 | x22 => C0 x3 | x23 => C0 x2 | x24 => C0 x1 | x25 => C0 x0 | x26 => C1 x63 | x27 => C1 x62 | x28 => C1 x61 | x29 => C1 x60 | x30 => C1 x59 | x31 => C1 x58 | x32 => C1 x57 | x33 => C1 x56 | x34 => C1 x55 | x35 => C1 x54 | x36 => C1 x53 | x37 => C1 x52 | x38 => C1 x51 | x39 => C1 x50 | x40 => C1 x49 | x41 => C1 x48 | x42 => C1 x47 | x43 => C1 x46 | x44 => C1 x45 | x45 => C1 x44 | x46 => C1 x43 | x47 => C1 x42 | x48 => C1 x41 | x49 => C1 x40 | x50 => C1 x39 | x51 => C1 x38 | x52 => C1 x37 | x53 => C1 x36 | x54 => C1 x35 | x55 => C1 x34 | x56 => C1 x33 | x57 => C1 x32 | x58 => C1 x31 | x59 => C1 x30 | x60 => C1 x29 | x61 => C1 x28 | x62 => C1 x27 | x63 => C1 x26 end
 | x26 => match y with x0 => C0 x26 | x1 => C0 x25 | x2 => C0 x24 | x3 => C0 x23 | x4 => C0 x22 | x5 => C0 x21 | x6 => C0 x20 | x7 => C0 x19 | x8 => C0 x18 | x9 => C0 x17 | x10 => C0 x16 | x11 => C0 x15 | x12 => C0 x14 | x13 => C0 x13 | x14 => C0 x12 | x15 => C0 x11 | x16 => C0 x10 | x17 => C0 x9 | x18 => C0 x8 | x19 => C0 x7 | x20 => C0 x6 | x21 => C0 x5 | x22 => C0 x4 | x23 => C0 x3 | x24 => C0 x2 | x25 => C0 x1 | x26 => C0 x0 | x27 => C1 x63 | x28 => C1 x62 | x29 => C1 x61 | x30 => C1 x60 | x31 => C1 x59 | x32 => C1 x58 | x33 => C1 x57 | x34 => C1 x56 | x35 => C1 x55 | x36 => C1 x54 | x37 => C1 x53 | x38 => C1 x52 | x39 => C1 x51 | x40 => C1 x50 | x41 => C1 x49 | x42 => C1 x48 | x43 => C1 x47 | x44 => C1 x46 | x45 => C1 x45 | x46 => C1 x44 | x47 => C1 x43 | x48 => C1 x42 | x49 => C1 x41 | x50 => C1 x40 | x51 => C1 x39 | x52 => C1 x38 | x53 => C1 x37 | x54 => C1 x36 | x55 => C1 x35 | x56 => C1 x34 | x57 => C1 x33 | x58 => C1 x32 | x59 => C1 x31 | x60 => C1 x30 | x61 => C1 x29 | x62 => C1 x28 | x63 => C1 x27 end
 | x27 => match y with x0 => C0 x27 | x1 => C0 x26 | x2 => C0 x25 | x3 => C0 x24 | x4 => C0 x23 | x5 => C0 x22 | x6 => C0 x21 | x7 => C0 x20 | x8 => C0 x19 | x9 => C0 x18 | x10 => C0 x17 | x11 => C0 x16 | x12 => C0 x15 | x13 => C0 x14 | x14 => C0 x13 | x15 => C0 x12 | x16 => C0 x11 | x17 => C0 x10 | x18 => C0 x9 | x19 => C0 x8 | x20 => C0 x7 | x21 => C0 x6 | x22 => C0 x5 | x23 => C0 x4 | x24 => C0 x3 | x25 => C0 x2 | x26 => C0 x1 | x27 => C0 x0 | x28 => C1 x63 | x29 => C1 x62 | x30 => C1 x61 | x31 => C1 x60 | x32 => C1 x59 | x33 => C1 x58 | x34 => C1 x57 | x35 => C1 x56 | x36 => C1 x55 | x37 => C1 x54 | x38 => C1 x53 | x39 => C1 x52 | x40 => C1 x51 | x41 => C1 x50 | x42 => C1 x49 | x43 => C1 x48 | x44 => C1 x47 | x45 => C1 x46 | x46 => C1 x45 | x47 => C1 x44 | x48 => C1 x43 | x49 => C1 x42 | x50 => C1 x41 | x51 => C1 x40 | x52 => C1 x39 | x53 => C1 x38 | x54 => C1 x37 | x55 => C1 x36 | x56 => C1 x35 | x57 => C1 x34 | x58 => C1 x33 | x59 => C1 x32 | x60 => C1 x31 | x61 => C1 x30 | x62 => C1 x29 | x63 => C1 x28 end
 | x28 => match y with x0 => C0 x28 | x1 => C0 x27 | x2 => C0 x26 | x3 => C0 x25 | x4 => C0 x24 | x5 => C0 x23 | x6 => C0 x22 | x7 => C0 x21 | x8 => C0 x20 | x9 => C0 x19 | x10 => C0 x18 | x11 => C0 x17 | x12 => C0 x16 | x13 => C0 x15 | x14 => C0 x14 | x15 => C0 x13 | x16 => C0 x12 | x17 => C0 x11 | x18 => C0 x10 | x19 => C0 x9 | x20 => C0 x8 | x21 => C0 x7 | x22 => C0 x6 | x23 => C0 x5 | x24 => C0 x4 | x25 => C0 x3 | x26 => C0 x2 | x27 => C0 x1 | x28 => C0 x0 | x29 => C1 x63 | x30 => C1 x62 | x31 => C1 x61 | x32 => C1 x60 | x33 => C1 x59 | x34 => C1 x58 | x35 => C1 x57 | x36 => C1 x56 | x37 => C1 x55 | x38 => C1 x54 | x39 => C1 x53 | x40 => C1 x52 | x41 => C1 x51 | x42 => C1 x50 | x43 => C1 x49 | x44 => C1 x48 | x45 => C1 x47 | x46 => C1 x46 | x47 => C1 x45 | x48 => C1 x44 | x49 => C1 x43 | x50 => C1 x42 | x51 => C1 x41 | x52 => C1 x40 | x53 => C1 x39 | x54 => C1 x38 | x55 => C1 x37 | x56 => C1 x36 | x57 => C1 x35 | x58 => C1 x34 | x59 => C1 x33 | x60 => C1 x32 | x61 => C1 x31 | x62 => C1 x30 | x63 => C1 x29 end
 | x29 => match y with x0 => C0 x29 | x1 => C0 x28 | x2 => C0 x27 | x3 => C0 x26 | x4 => C0 x25 | x5 => C0 x24 | x6 => C0 x23 | x7 => C0 x22 | x8 => C0 x21 | x9 => C0 x20 | x10 => C0 x19 | x11 => C0 x18 | x12 => C0 x17 | x13 => C0 x16 | x14 => C0 x15 | x15 => C0 x14 | x16 => C0 x13 | x17 => C0 x12 | x18 => C0 x11 | x19 => C0 x10 | x20 => C0 x9 | x21 => C0 x8 | x22 => C0 x7 | x23 => C0 x6 | x24 => C0 x5 | x25 => C0 x4 | x26 => C0 x3 | x27 => C0 x2 | x28 => C0 x1 | x29 => C0 x0 | x30 => C1 x63 | x31 => C1 x62 | x32 => C1 x61 | x33 => C1 x60 | x34 => C1 x59 | x35 => C1 x58 | x36 => C1 x57 | x37 => C1 x56 | x38 => C1 x55 | x39 => C1 x54 | x40 => C1 x53 | x41 => C1 x52 | x42 => C1 x51 | x43 => C1 x50 | x44 => C1 x49 | x45 => C1 x48 | x46 => C1 x47 | x47 => C1 x46 | x48 => C1 x45 | x49 => C1 x44 | x50 => C1 x43 | x51 => C1 x42 | x52 => C1 x41 | x53 => C1 x40 | x54 => C1 x39 | x55 => C1 x38 | x56 => C1 x37 | x57 => C1 x36 | x58 => C1 x35 | x59 => C1 x34 | x60 => C1 x33 | x61 => C1 x32 | x62 => C1 x31 | x63 => C1 x30 end
 | x30 => match y with x0 => C0 x30 | x1 => C0 x29 | x2 => C0 x28 | x3 => C0 x27 | x4 => C0 x26 | x5 => C0 x25 | x6 => C0 x24 | x7 => C0 x23 | x8 => C0 x22 | x9 => C0 x21 | x10 => C0 x20 | x11 => C0 x19 | x12 => C0 x18 | x13 => C0 x17 | x14 => C0 x16 | x15 => C0 x15 | x16 => C0 x14 | x17 => C0 x13 | x18 => C0 x12 | x19 => C0 x11 | x20 => C0 x10 | x21 => C0 x9 | x22 => C0 x8 | x23 => C0 x7 | x24 => C0 x6 | x25 => C0 x5 | x26 => C0 x4 | x27 => C0 x3 | x28 => C0 x2 | x29 => C0 x1 | x30 => C0 x0 | x31 => C1 x63 | x32 => C1 x62 | x33 => C1 x61 | x34 => C1 x60 | x35 => C1 x59 | x36 => C1 x58 | x37 => C1 x57 | x38 => C1 x56 | x39 => C1 x55 | x40 => C1 x54 | x41 => C1 x53 | x42 => C1 x52 | x43 => C1 x51 | x44 => C1 x50 | x45 => C1 x49 | x46 => C1 x48 | x47 => C1 x47 | x48 => C1 x46 | x49 => C1 x45 | x50 => C1 x44 | x51 => C1 x43 | x52 => C1 x42 | x53 => C1 x41 | x54 => C1 x40 | x55 => C1 x39 | x56 => C1 x38 | x57 => C1 x37 | x58 => C1 x36 | x59 => C1 x35 | x60 => C1 x34 | x61 => C1 x33 | x62 => C1 x32 | x63 => C1 x31 end
 | x31 => match y with x0 => C0 x31 | x1 => C0 x30 | x2 => C0 x29 | x3 => C0 x28 | x4 => C0 x27 | x5 => C0 x26 | x6 => C0 x25 | x7 => C0 x24 | x8 => C0 x23 | x9 => C0 x22 | x10 => C0 x21 | x11 => C0 x20 | x12 => C0 x19 | x13 => C0 x18 | x14 => C0 x17 | x15 => C0 x16 | x16 => C0 x15 | x17 => C0 x14 | x18 => C0 x13 | x19 => C0 x12 | x20 => C0 x11 | x21 => C0 x10 | x22 => C0 x9 | x23 => C0 x8 | x24 => C0 x7 | x25 => C0 x6 | x26 => C0 x5 | x27 => C0 x4 | x28 => C0 x3 | x29 => C0 x2 | x30 => C0 x1 | x31 => C0 x0 | x32 => C1 x63 | x33 => C1 x62 | x34 => C1 x61 | x35 => C1 x60 | x36 => C1 x59 | x37 => C1 x58 | x38 => C1 x57 | x39 => C1 x56 | x40 => C1 x55 | x41 => C1 x54 | x42 => C1 x53 | x43 => C1 x52 | x44 => C1 x51 | x45 => C1 x50 | x46 => C1 x49 | x47 => C1 x48 | x48 => C1 x47 | x49 => C1 x46 | x50 => C1 x45 | x51 => C1 x44 | x52 => C1 x43 | x53 => C1 x42 | x54 => C1 x41 | x55 => C1 x40 | x56 => C1 x39 | x57 => C1 x38 | x58 => C1 x37 | x59 => C1 x36 | x60 => C1 x35 | x61 => C1 x34 | x62 => C1 x33 | x63 => C1 x32 end
 | x32 => match y with x0 => C0 x32 | x1 => C0 x31 | x2 => C0 x30 | x3 => C0 x29 | x4 => C0 x28 | x5 => C0 x27 | x6 => C0 x26 | x7 => C0 x25 | x8 => C0 x24 | x9 => C0 x23 | x10 => C0 x22 | x11 => C0 x21 | x12 => C0 x20 | x13 => C0 x19 | x14 => C0 x18 | x15 => C0 x17 | x16 => C0 x16 | x17 => C0 x15 | x18 => C0 x14 | x19 => C0 x13 | x20 => C0 x12 | x21 => C0 x11 | x22 => C0 x10 | x23 => C0 x9 | x24 => C0 x8 | x25 => C0 x7 | x26 => C0 x6 | x27 => C0 x5 | x28 => C0 x4 | x29 => C0 x3 | x30 => C0 x2 | x31 => C0 x1 | x32 => C0 x0 | x33 => C1 x63 | x34 => C1 x62 | x35 => C1 x61 | x36 => C1 x60 | x37 => C1 x59 | x38 => C1 x58 | x39 => C1 x57 | x40 => C1 x56 | x41 => C1 x55 | x42 => C1 x54 | x43 => C1 x53 | x44 => C1 x52 | x45 => C1 x51 | x46 => C1 x50 | x47 => C1 x49 | x48 => C1 x48 | x49 => C1 x47 | x50 => C1 x46 | x51 => C1 x45 | x52 => C1 x44 | x53 => C1 x43 | x54 => C1 x42 | x55 => C1 x41 | x56 => C1 x40 | x57 => C1 x39 | x58 => C1 x38 | x59 => C1 x37 | x60 => C1 x36 | x61 => C1 x35 | x62 => C1 x34 | x63 => C1 x33 end
 | x33 => match y with x0 => C0 x33 | x1 => C0 x32 | x2 => C0 x31 | x3 => C0 x30 | x4 => C0 x29 | x5 => C0 x28 | x6 => C0 x27 | x7 => C0 x26 | x8 => C0 x25 | x9 => C0 x24 | x10 => C0 x23 | x11 => C0 x22 | x12 => C0 x21 | x13 => C0 x20 | x14 => C0 x19 | x15 => C0 x18 | x16 => C0 x17 | x17 => C0 x16 | x18 => C0 x15 | x19 => C0 x14 | x20 => C0 x13 | x21 => C0 x12 | x22 => C0 x11 | x23 => C0 x10 | x24 => C0 x9 | x25 => C0 x8 | x26 => C0 x7 | x27 => C0 x6 | x28 => C0 x5 | x29 => C0 x4 | x30 => C0 x3 | x31 => C0 x2 | x32 => C0 x1 | x33 => C0 x0 | x34 => C1 x63 | x35 => C1 x62 | x36 => C1 x61 | x37 => C1 x60 | x38 => C1 x59 | x39 => C1 x58 | x40 => C1 x57 | x41 => C1 x56 | x42 => C1 x55 | x43 => C1 x54 | x44 => C1 x53 | x45 => C1 x52 | x46 => C1 x51 | x47 => C1 x50 | x48 => C1 x49 | x49 => C1 x48 | x50 => C1 x47 | x51 => C1 x46 | x52 => C1 x45 | x53 => C1 x44 | x54 => C1 x43 | x55 => C1 x42 | x56 => C1 x41 | x57 => C1 x40 | x58 => C1 x39 | x59 => C1 x38 | x60 => C1 x37 | x61 => C1 x36 | x62 => C1 x35 | x63 => C1 x34 end
 | x34 => match y with x0 => C0 x34 | x1 => C0 x33 | x2 => C0 x32 | x3 => C0 x31 | x4 => C0 x30 | x5 => C0 x29 | x6 => C0 x28 | x7 => C0 x27 | x8 => C0 x26 | x9 => C0 x25 | x10 => C0 x24 | x11 => C0 x23 | x12 => C0 x22 | x13 => C0 x21 | x14 => C0 x20 | x15 => C0 x19 | x16 => C0 x18 | x17 => C0 x17 | x18 => C0 x16 | x19 => C0 x15 | x20 => C0 x14 | x21 => C0 x13 | x22 => C0 x12 | x23 => C0 x11 | x24 => C0 x10 | x25 => C0 x9 | x26 => C0 x8 | x27 => C0 x7 | x28 => C0 x6 | x29 => C0 x5 | x30 => C0 x4 | x31 => C0 x3 | x32 => C0 x2 | x33 => C0 x1 | x34 => C0 x0 | x35 => C1 x63 | x36 => C1 x62 | x37 => C1 x61 | x38 => C1 x60 | x39 => C1 x59 | x40 => C1 x58 | x41 => C1 x57 | x42 => C1 x56 | x43 => C1 x55 | x44 => C1 x54 | x45 => C1 x53 | x46 => C1 x52 | x47 => C1 x51 | x48 => C1 x50 | x49 => C1 x49 | x50 => C1 x48 | x51 => C1 x47 | x52 => C1 x46 | x53 => C1 x45 | x54 => C1 x44 | x55 => C1 x43 | x56 => C1 x42 | x57 => C1 x41 | x58 => C1 x40 | x59 => C1 x39 | x60 => C1 x38 | x61 => C1 x37 | x62 => C1 x36 | x63 => C1 x35 end
 | x35 => match y with x0 => C0 x35 | x1 => C0 x34 | x2 => C0 x33 | x3 => C0 x32 | x4 => C0 x31 | x5 => C0 x30 | x6 => C0 x29 | x7 => C0 x28 | x8 => C0 x27 | x9 => C0 x26 | x10 => C0 x25 | x11 => C0 x24 | x12 => C0 x23 | x13 => C0 x22 | x14 => C0 x21 | x15 => C0 x20 | x16 => C0 x19 | x17 => C0 x18 | x18 => C0 x17 | x19 => C0 x16 | x20 => C0 x15 | x21 => C0 x14 | x22 => C0 x13 | x23 => C0 x12 | x24 => C0 x11 | x25 => C0 x10 | x26 => C0 x9 | x27 => C0 x8 | x28 => C0 x7 | x29 => C0 x6 | x30 => C0 x5 | x31 => C0 x4 | x32 => C0 x3 | x33 => C0 x2 | x34 => C0 x1 | x35 => C0 x0 | x36 => C1 x63 | x37 => C1 x62 | x38 => C1 x61 | x39 => C1 x60 | x40 => C1 x59 | x41 => C1 x58 | x42 => C1 x57 | x43 => C1 x56 | x44 => C1 x55 | x45 => C1 x54 | x46 => C1 x53 | x47 => C1 x52 | x48 => C1 x51 | x49 => C1 x50 | x50 => C1 x49 | x51 => C1 x48 | x52 => C1 x47 | x53 => C1 x46 | x54 => C1 x45 | x55 => C1 x44 | x56 => C1 x43 | x57 => C1 x42 | x58 => C1 x41 | x59 => C1 x40 | x60 => C1 x39 | x61 => C1 x38 | x62 => C1 x37 | x63 => C1 x36 end
 | x36 => match y with x0 => C0 x36 | x1 => C0 x35 | x2 => C0 x34 | x3 => C0 x33 | x4 => C0 x32 | x5 => C0 x31 | x6 => C0 x30 | x7 => C0 x29 | x8 => C0 x28 | x9 => C0 x27 | x10 => C0 x26 | x11 => C0 x25 | x12 => C0 x24 | x13 => C0 x23 | x14 => C0 x22 | x15 => C0 x21 | x16 => C0 x20 | x17 => C0 x19 | x18 => C0 x18 | x19 => C0 x17 | x20 => C0 x16 | x21 => C0 x15 | x22 => C0 x14 | x23 => C0 x13 | x24 => C0 x12 | x25 => C0 x11 | x26 => C0 x10 | x27 => C0 x9 | x28 => C0 x8 | x29 => C0 x7 | x30 => C0 x6 | x31 => C0 x5 | x32 => C0 x4 | x33 => C0 x3 | x34 => C0 x2 | x35 => C0 x1 | x36 => C0 x0 | x37 => C1 x63 | x38 => C1 x62 | x39 => C1 x61 | x40 => C1 x60 | x41 => C1 x59 | x42 => C1 x58 | x43 => C1 x57 | x44 => C1 x56 | x45 => C1 x55 | x46 => C1 x54 | x47 => C1 x53 | x48 => C1 x52 | x49 => C1 x51 | x50 => C1 x50 | x51 => C1 x49 | x52 => C1 x48 | x53 => C1 x47 | x54 => C1 x46 | x55 => C1 x45 | x56 => C1 x44 | x57 => C1 x43 | x58 => C1 x42 | x59 => C1 x41 | x60 => C1 x40 | x61 => C1 x39 | x62 => C1 x38 | x63 => C1 x37 end
 | x37 => match y with x0 => C0 x37 | x1 => C0 x36 | x2 => C0 x35 | x3 => C0 x34 | x4 => C0 x33 | x5 => C0 x32 | x6 => C0 x31 | x7 => C0 x30 | x8 => C0 x29 | x9 => C0 x28 | x10 => C0 x27 | x11 => C0 x26 | x12 => C0 x25 | x13 => C0 x24 | x14 => C0 x23 | x15 => C0 x22 | x16 => C0 x21 | x17 => C0 x20 | x18 => C0 x19 | x19 => C0 x18 | x20 => C0 x17 | x21 => C0 x16 | x22 => C0 x15 | x23 => C0 x14 | x24 => C0 x13 | x25 => C0 x12 | x26 => C0 x11 | x27 => C0 x10 | x28 => C0 x9 | x29 => C0 x8 | x30 => C0 x7 | x31 => C0 x6 | x32 => C0 x5 | x33 => C0 x4 | x34 => C0 x3 | x35 => C0 x2 | x36 => C0 x1 | x37 => C0 x0 | x38 => C1 x63 | x39 => C1 x62 | x40 => C1 x61 | x41 => C1 x60 | x42 => C1 x59 | x43 => C1 x58 | x44 => C1 x57 | x45 => C1 x56 | x46 => C1 x55 | x47 => C1 x54 | x48 => C1 x53 | x49 => C1 x52 | x50 => C1 x51 | x51 => C1 x50 | x52 => C1 x49 | x53 => C1 x48 | x54 => C1 x47 | x55 => C1 x46 | x56 => C1 x45 | x57 => C1 x44 | x58 => C1 x43 | x59 => C1 x42 | x60 => C1 x41 | x61 => C1 x40 | x62 => C1 x39 | x63 => C1 x38 end
 | x38 => match y with x0 => C0 x38 | x1 => C0 x37 | x2 => C0 x36 | x3 => C0 x35 | x4 => C0 x34 | x5 => C0 x33 | x6 => C0 x32 | x7 => C0 x31 | x8 => C0 x30 | x9 => C0 x29 | x10 => C0 x28 | x11 => C0 x27 | x12 => C0 x26 | x13 => C0 x25 | x14 => C0 x24 | x15 => C0 x23 | x16 => C0 x22 | x17 => C0 x21 | x18 => C0 x20 | x19 => C0 x19 | x20 => C0 x18 | x21 => C0 x17 | x22 => C0 x16 | x23 => C0 x15 | x24 => C0 x14 | x25 => C0 x13 | x26 => C0 x12 | x27 => C0 x11 | x28 => C0 x10 | x29 => C0 x9 | x30 => C0 x8 | x31 => C0 x7 | x32 => C0 x6 | x33 => C0 x5 | x34 => C0 x4 | x35 => C0 x3 | x36 => C0 x2 | x37 => C0 x1 | x38 => C0 x0 | x39 => C1 x63 | x40 => C1 x62 | x41 => C1 x61 | x42 => C1 x60 | x43 => C1 x59 | x44 => C1 x58 | x45 => C1 x57 | x46 => C1 x56 | x47 => C1 x55 | x48 => C1 x54 | x49 => C1 x53 | x50 => C1 x52 | x51 => C1 x51 | x52 => C1 x50 | x53 => C1 x49 | x54 => C1 x48 | x55 => C1 x47 | x56 => C1 x46 | x57 => C1 x45 | x58 => C1 x44 | x59 => C1 x43 | x60 => C1 x42 | x61 => C1 x41 | x62 => C1 x40 | x63 => C1 x39 end
 | x39 => match y with x0 => C0 x39 | x1 => C0 x38 | x2 => C0 x37 | x3 => C0 x36 | x4 => C0 x35 | x5 => C0 x34 | x6 => C0 x33 | x7 => C0 x32 | x8 => C0 x31 | x9 => C0 x30 | x10 => C0 x29 | x11 => C0 x28 | x12 => C0 x27 | x13 => C0 x26 | x14 => C0 x25 | x15 => C0 x24 | x16 => C0 x23 | x17 => C0 x22 | x18 => C0 x21 | x19 => C0 x20 | x20 => C0 x19 | x21 => C0 x18 | x22 => C0 x17 | x23 => C0 x16 | x24 => C0 x15 | x25 => C0 x14 | x26 => C0 x13 | x27 => C0 x12 | x28 => C0 x11 | x29 => C0 x10 | x30 => C0 x9 | x31 => C0 x8 | x32 => C0 x7 | x33 => C0 x6 | x34 => C0 x5 | x35 => C0 x4 | x36 => C0 x3 | x37 => C0 x2 | x38 => C0 x1 | x39 => C0 x0 | x40 => C1 x63 | x41 => C1 x62 | x42 => C1 x61 | x43 => C1 x60 | x44 => C1 x59 | x45 => C1 x58 | x46 => C1 x57 | x47 => C1 x56 | x48 => C1 x55 | x49 => C1 x54 | x50 => C1 x53 | x51 => C1 x52 | x52 => C1 x51 | x53 => C1 x50 | x54 => C1 x49 | x55 => C1 x48 | x56 => C1 x47 | x57 => C1 x46 | x58 => C1 x45 | x59 => C1 x44 | x60 => C1 x43 | x61 => C1 x42 | x62 => C1 x41 | x63 => C1 x40 end
 | x40 => match y with x0 => C0 x40 | x1 => C0 x39 | x2 => C0 x38 | x3 => C0 x37 | x4 => C0 x36 | x5 => C0 x35 | x6 => C0 x34 | x7 => C0 x33 | x8 => C0 x32 | x9 => C0 x31 | x10 => C0 x30 | x11 => C0 x29 | x12 => C0 x28 | x13 => C0 x27 | x14 => C0 x26 | x15 => C0 x25 | x16 => C0 x24 | x17 => C0 x23 | x18 => C0 x22 | x19 => C0 x21 | x20 => C0 x20 | x21 => C0 x19 | x22 => C0 x18 | x23 => C0 x17 | x24 => C0 x16 | x25 => C0 x15 | x26 => C0 x14 | x27 => C0 x13 | x28 => C0 x12 | x29 => C0 x11 | x30 => C0 x10 | x31 => C0 x9 | x32 => C0 x8 | x33 => C0 x7 | x34 => C0 x6 | x35 => C0 x5 | x36 => C0 x4 | x37 => C0 x3 | x38 => C0 x2 | x39 => C0 x1 | x40 => C0 x0 | x41 => C1 x63 | x42 => C1 x62 | x43 => C1 x61 | x44 => C1 x60 | x45 => C1 x59 | x46 => C1 x58 | x47 => C1 x57 | x48 => C1 x56 | x49 => C1 x55 | x50 => C1 x54 | x51 => C1 x53 | x52 => C1 x52 | x53 => C1 x51 | x54 => C1 x50 | x55 => C1 x49 | x56 => C1 x48 | x57 => C1 x47 | x58 => C1 x46 | x59 => C1 x45 | x60 => C1 x44 | x61 => C1 x43 | x62 => C1 x42 | x63 => C1 x41 end
 | x41 => match y with x0 => C0 x41 | x1 => C0 x40 | x2 => C0 x39 | x3 => C0 x38 | x4 => C0 x37 | x5 => C0 x36 | x6 => C0 x35 | x7 => C0 x34 | x8 => C0 x33 | x9 => C0 x32 | x10 => C0 x31 | x11 => C0 x30 | x12 => C0 x29 | x13 => C0 x28 | x14 => C0 x27 | x15 => C0 x26 | x16 => C0 x25 | x17 => C0 x24 | x18 => C0 x23 | x19 => C0 x22 | x20 => C0 x21 | x21 => C0 x20 | x22 => C0 x19 | x23 => C0 x18 | x24 => C0 x17 | x25 => C0 x16 | x26 => C0 x15 | x27 => C0 x14 | x28 => C0 x13 | x29 => C0 x12 | x30 => C0 x11 | x31 => C0 x10 | x32 => C0 x9 | x33 => C0 x8 | x34 => C0 x7 | x35 => C0 x6 | x36 => C0 x5 | x37 => C0 x4 | x38 => C0 x3 | x39 => C0 x2 | x40 => C0 x1 | x41 => C0 x0 | x42 => C1 x63 | x43 => C1 x62 | x44 => C1 x61 | x45 => C1 x60 | x46 => C1 x59 | x47 => C1 x58 | x48 => C1 x57 | x49 => C1 x56 | x50 => C1 x55 | x51 => C1 x54 | x52 => C1 x53 | x53 => C1 x52 | x54 => C1 x51 | x55 => C1 x50 | x56 => C1 x49 | x57 => C1 x48 | x58 => C1 x47 | x59 => C1 x46 | x60 => C1 x45 | x61 => C1 x44 | x62 => C1 x43 | x63 => C1 x42 end
 | x42 => match y with x0 => C0 x42 | x1 => C0 x41 | x2 => C0 x40 | x3 => C0 x39 | x4 => C0 x38 | x5 => C0 x37 | x6 => C0 x36 | x7 => C0 x35 | x8 => C0 x34 | x9 => C0 x33 | x10 => C0 x32 | x11 => C0 x31 | x12 => C0 x30 | x13 => C0 x29 | x14 => C0 x28 | x15 => C0 x27 | x16 => C0 x26 | x17 => C0 x25 | x18 => C0 x24 | x19 => C0 x23 | x20 => C0 x22 | x21 => C0 x21 | x22 => C0 x20 | x23 => C0 x19 | x24 => C0 x18 | x25 => C0 x17 | x26 => C0 x16 | x27 => C0 x15 | x28 => C0 x14 | x29 => C0 x13 | x30 => C0 x12 | x31 => C0 x11 | x32 => C0 x10 | x33 => C0 x9 | x34 => C0 x8 | x35 => C0 x7 | x36 => C0 x6 | x37 => C0 x5 | x38 => C0 x4 | x39 => C0 x3 | x40 => C0 x2 | x41 => C0 x1 | x42 => C0 x0 | x43 => C1 x63 | x44 => C1 x62 | x45 => C1 x61 | x46 => C1 x60 | x47 => C1 x59 | x48 => C1 x58 | x49 => C1 x57 | x50 => C1 x56 | x51 => C1 x55 | x52 => C1 x54 | x53 => C1 x53 | x54 => C1 x52 | x55 => C1 x51 | x56 => C1 x50 | x57 => C1 x49 | x58 => C1 x48 | x59 => C1 x47 | x60 => C1 x46 | x61 => C1 x45 | x62 => C1 x44 | x63 => C1 x43 end
 | x43 => match y with x0 => C0 x43 | x1 => C0 x42 | x2 => C0 x41 | x3 => C0 x40 | x4 => C0 x39 | x5 => C0 x38 | x6 => C0 x37 | x7 => C0 x36 | x8 => C0 x35 | x9 => C0 x34 | x10 => C0 x33 | x11 => C0 x32 | x12 => C0 x31 | x13 => C0 x30 | x14 => C0 x29 | x15 => C0 x28 | x16 => C0 x27 | x17 => C0 x26 | x18 => C0 x25 | x19 => C0 x24 | x20 => C0 x23 | x21 => C0 x22 | x22 => C0 x21 | x23 => C0 x20 | x24 => C0 x19 | x25 => C0 x18 | x26 => C0 x17 | x27 => C0 x16 | x28 => C0 x15 | x29 => C0 x14 | x30 => C0 x13 | x31 => C0 x12 | x32 => C0 x11 | x33 => C0 x10 | x34 => C0 x9 | x35 => C0 x8 | x36 => C0 x7 | x37 => C0 x6 | x38 => C0 x5 | x39 => C0 x4 | x40 => C0 x3 | x41 => C0 x2 | x42 => C0 x1 | x43 => C0 x0 | x44 => C1 x63 | x45 => C1 x62 | x46 => C1 x61 | x47 => C1 x60 | x48 => C1 x59 | x49 => C1 x58 | x50 => C1 x57 | x51 => C1 x56 | x52 => C1 x55 | x53 => C1 x54 | x54 => C1 x53 | x55 => C1 x52 | x56 => C1 x51 | x57 => C1 x50 | x58 => C1 x49 | x59 => C1 x48 | x60 => C1 x47 | x61 => C1 x46 | x62 => C1 x45 | x63 => C1 x44 end
 | x44 => match y with x0 => C0 x44 | x1 => C0 x43 | x2 => C0 x42 | x3 => C0 x41 | x4 => C0 x40 | x5 => C0 x39 | x6 => C0 x38 | x7 => C0 x37 | x8 => C0 x36 | x9 => C0 x35 | x10 => C0 x34 | x11 => C0 x33 | x12 => C0 x32 | x13 => C0 x31 | x14 => C0 x30 | x15 => C0 x29 | x16 => C0 x28 | x17 => C0 x27 | x18 => C0 x26 | x19 => C0 x25 | x20 => C0 x24 | x21 => C0 x23 | x22 => C0 x22 | x23 => C0 x21 | x24 => C0 x20 | x25 => C0 x19 | x26 => C0 x18 | x27 => C0 x17 | x28 => C0 x16 | x29 => C0 x15 | x30 => C0 x14 | x31 => C0 x13 | x32 => C0 x12 | x33 => C0 x11 | x34 => C0 x10 | x35 => C0 x9 | x36 => C0 x8 | x37 => C0 x7 | x38 => C0 x6 | x39 => C0 x5 | x40 => C0 x4 | x41 => C0 x3 | x42 => C0 x2 | x43 => C0 x1 | x44 => C0 x0 | x45 => C1 x63 | x46 => C1 x62 | x47 => C1 x61 | x48 => C1 x60 | x49 => C1 x59 | x50 => C1 x58 | x51 => C1 x57 | x52 => C1 x56 | x53 => C1 x55 | x54 => C1 x54 | x55 => C1 x53 | x56 => C1 x52 | x57 => C1 x51 | x58 => C1 x50 | x59 => C1 x49 | x60 => C1 x48 | x61 => C1 x47 | x62 => C1 x46 | x63 => C1 x45 end
 | x45 => match y with x0 => C0 x45 | x1 => C0 x44 | x2 => C0 x43 | x3 => C0 x42 | x4 => C0 x41 | x5 => C0 x40 | x6 => C0 x39 | x7 => C0 x38 | x8 => C0 x37 | x9 => C0 x36 | x10 => C0 x35 | x11 => C0 x34 | x12 => C0 x33 | x13 => C0 x32 | x14 => C0 x31 | x15 => C0 x30 | x16 => C0 x29 | x17 => C0 x28 | x18 => C0 x27 | x19 => C0 x26 | x20 => C0 x25 | x21 => C0 x24 | x22 => C0 x23 | x23 => C0 x22 | x24 => C0 x21 | x25 => C0 x20 | x26 => C0 x19 | x27 => C0 x18 | x28 => C0 x17 | x29 => C0 x16 | x30 => C0 x15 | x31 => C0 x14 | x32 => C0 x13 | x33 => C0 x12 | x34 => C0 x11 | x35 => C0 x10 | x36 => C0 x9 | x37 => C0 x8 | x38 => C0 x7 | x39 => C0 x6 | x40 => C0 x5 | x41 => C0 x4 | x42 => C0 x3 | x43 => C0 x2 | x44 => C0 x1 | x45 => C0 x0 | x46 => C1 x63 | x47 => C1 x62 | x48 => C1 x61 | x49 => C1 x60 | x50 => C1 x59 | x51 => C1 x58 | x52 => C1 x57 | x53 => C1 x56 | x54 => C1 x55 | x55 => C1 x54 | x56 => C1 x53 | x57 => C1 x52 | x58 => C1 x51 | x59 => C1 x50 | x60 => C1 x49 | x61 => C1 x48 | x62 => C1 x47 | x63 => C1 x46 end
 | x46 => match y with x0 => C0 x46 | x1 => C0 x45 | x2 => C0 x44 | x3 => C0 x43 | x4 => C0 x42 | x5 => C0 x41 | x6 => C0 x40 | x7 => C0 x39 | x8 => C0 x38 | x9 => C0 x37 | x10 => C0 x36 | x11 => C0 x35 | x12 => C0 x34 | x13 => C0 x33 | x14 => C0 x32 | x15 => C0 x31 | x16 => C0 x30 | x17 => C0 x29 | x18 => C0 x28 | x19 => C0 x27 | x20 => C0 x26 | x21 => C0 x25 | x22 => C0 x24 | x23 => C0 x23 | x24 => C0 x22 | x25 => C0 x21 | x26 => C0 x20 | x27 => C0 x19 | x28 => C0 x18 | x29 => C0 x17 | x30 => C0 x16 | x31 => C0 x15 | x32 => C0 x14 | x33 => C0 x13 | x34 => C0 x12 | x35 => C0 x11 | x36 => C0 x10 | x37 => C0 x9 | x38 => C0 x8 | x39 => C0 x7 | x40 => C0 x6 | x41 => C0 x5 | x42 => C0 x4 | x43 => C0 x3 | x44 => C0 x2 | x45 => C0 x1 | x46 => C0 x0 | x47 => C1 x63 | x48 => C1 x62 | x49 => C1 x61 | x50 => C1 x60 | x51 => C1 x59 | x52 => C1 x58 | x53 => C1 x57 | x54 => C1 x56 | x55 => C1 x55 | x56 => C1 x54 | x57 => C1 x53 | x58 => C1 x52 | x59 => C1 x51 | x60 => C1 x50 | x61 => C1 x49 | x62 => C1 x48 | x63 => C1 x47 end
 | x47 => match y with x0 => C0 x47 | x1 => C0 x46 | x2 => C0 x45 | x3 => C0 x44 | x4 => C0 x43 | x5 => C0 x42 | x6 => C0 x41 | x7 => C0 x40 | x8 => C0 x39 | x9 => C0 x38 | x10 => C0 x37 | x11 => C0 x36 | x12 => C0 x35 | x13 => C0 x34 | x14 => C0 x33 | x15 => C0 x32 | x16 => C0 x31 | x17 => C0 x30 | x18 => C0 x29 | x19 => C0 x28 | x20 => C0 x27 | x21 => C0 x26 | x22 => C0 x25 | x23 => C0 x24 | x24 => C0 x23 | x25 => C0 x22 | x26 => C0 x21 | x27 => C0 x20 | x28 => C0 x19 | x29 => C0 x18 | x30 => C0 x17 | x31 => C0 x16 | x32 => C0 x15 | x33 => C0 x14 | x34 => C0 x13 | x35 => C0 x12 | x36 => C0 x11 | x37 => C0 x10 | x38 => C0 x9 | x39 => C0 x8 | x40 => C0 x7 | x41 => C0 x6 | x42 => C0 x5 | x43 => C0 x4 | x44 => C0 x3 | x45 => C0 x2 | x46 => C0 x1 | x47 => C0 x0 | x48 => C1 x63 | x49 => C1 x62 | x50 => C1 x61 | x51 => C1 x60 | x52 => C1 x59 | x53 => C1 x58 | x54 => C1 x57 | x55 => C1 x56 | x56 => C1 x55 | x57 => C1 x54 | x58 => C1 x53 | x59 => C1 x52 | x60 => C1 x51 | x61 => C1 x50 | x62 => C1 x49 | x63 => C1 x48 end
 | x48 => match y with x0 => C0 x48 | x1 => C0 x47 | x2 => C0 x46 | x3 => C0 x45 | x4 => C0 x44 | x5 => C0 x43 | x6 => C0 x42 | x7 => C0 x41 | x8 => C0 x40 | x9 => C0 x39 | x10 => C0 x38 | x11 => C0 x37 | x12 => C0 x36 | x13 => C0 x35 | x14 => C0 x34 | x15 => C0 x33 | x16 => C0 x32 | x17 => C0 x31 | x18 => C0 x30 | x19 => C0 x29 | x20 => C0 x28 | x21 => C0 x27 | x22 => C0 x26 | x23 => C0 x25 | x24 => C0 x24 | x25 => C0 x23 | x26 => C0 x22 | x27 => C0 x21 | x28 => C0 x20 | x29 => C0 x19 | x30 => C0 x18 | x31 => C0 x17 | x32 => C0 x16 | x33 => C0 x15 | x34 => C0 x14 | x35 => C0 x13 | x36 => C0 x12 | x37 => C0 x11 | x38 => C0 x10 | x39 => C0 x9 | x40 => C0 x8 | x41 => C0 x7 | x42 => C0 x6 | x43 => C0 x5 | x44 => C0 x4 | x45 => C0 x3 | x46 => C0 x2 | x47 => C0 x1 | x48 => C0 x0 | x49 => C1 x63 | x50 => C1 x62 | x51 => C1 x61 | x52 => C1 x60 | x53 => C1 x59 | x54 => C1 x58 | x55 => C1 x57 | x56 => C1 x56 | x57 => C1 x55 | x58 => C1 x54 | x59 => C1 x53 | x60 => C1 x52 | x61 => C1 x51 | x62 => C1 x50 | x63 => C1 x49 end
 | x49 => match y with x0 => C0 x49 | x1 => C0 x48 | x2 => C0 x47 | x3 => C0 x46 | x4 => C0 x45 | x5 => C0 x44 | x6 => C0 x43 | x7 => C0 x42 | x8 => C0 x41 | x9 => C0 x40 | x10 => C0 x39 | x11 => C0 x38 | x12 => C0 x37 | x13 => C0 x36 | x14 => C0 x35 | x15 => C0 x34 | x16 => C0 x33 | x17 => C0 x32 | x18 => C0 x31 | x19 => C0 x30 | x20 => C0 x29 | x21 => C0 x28 | x22 => C0 x27 | x23 => C0 x26 | x24 => C0 x25 | x25 => C0 x24 | x26 => C0 x23 | x27 => C0 x22 | x28 => C0 x21 | x29 => C0 x20 | x30 => C0 x19 | x31 => C0 x18 | x32 => C0 x17 | x33 => C0 x16 | x34 => C0 x15 | x35 => C0 x14 | x36 => C0 x13 | x37 => C0 x12 | x38 => C0 x11 | x39 => C0 x10 | x40 => C0 x9 | x41 => C0 x8 | x42 => C0 x7 | x43 => C0 x6 | x44 => C0 x5 | x45 => C0 x4 | x46 => C0 x3 | x47 => C0 x2 | x48 => C0 x1 | x49 => C0 x0 | x50 => C1 x63 | x51 => C1 x62 | x52 => C1 x61 | x53 => C1 x60 | x54 => C1 x59 | x55 => C1 x58 | x56 => C1 x57 | x57 => C1 x56 | x58 => C1 x55 | x59 => C1 x54 | x60 => C1 x53 | x61 => C1 x52 | x62 => C1 x51 | x63 => C1 x50 end
 | x50 => match y with x0 => C0 x50 | x1 => C0 x49 | x2 => C0 x48 | x3 => C0 x47 | x4 => C0 x46 | x5 => C0 x45 | x6 => C0 x44 | x7 => C0 x43 | x8 => C0 x42 | x9 => C0 x41 | x10 => C0 x40 | x11 => C0 x39 | x12 => C0 x38 | x13 => C0 x37 | x14 => C0 x36 | x15 => C0 x35 | x16 => C0 x34 | x17 => C0 x33 | x18 => C0 x32 | x19 => C0 x31 | x20 => C0 x30 | x21 => C0 x29 | x22 => C0 x28 | x23 => C0 x27 | x24 => C0 x26 | x25 => C0 x25 | x26 => C0 x24 | x27 => C0 x23 | x28 => C0 x22 | x29 => C0 x21 | x30 => C0 x20 | x31 => C0 x19 | x32 => C0 x18 | x33 => C0 x17 | x34 => C0 x16 | x35 => C0 x15 | x36 => C0 x14 | x37 => C0 x13 | x38 => C0 x12 | x39 => C0 x11 | x40 => C0 x10 | x41 => C0 x9 | x42 => C0 x8 | x43 => C0 x7 | x44 => C0 x6 | x45 => C0 x5 | x46 => C0 x4 | x47 => C0 x3 | x48 => C0 x2 | x49 => C0 x1 | x50 => C0 x0 | x51 => C1 x63 | x52 => C1 x62 | x53 => C1 x61 | x54 => C1 x60 | x55 => C1 x59 | x56 => C1 x58 | x57 => C1 x57 | x58 => C1 x56 | x59 => C1 x55 | x60 => C1 x54 | x61 => C1 x53 | x62 => C1 x52 | x63 => C1 x51 end
 | x51 => match y with x0 => C0 x51 | x1 => C0 x50 | x2 => C0 x49 | x3 => C0 x48 | x4 => C0 x47 | x5 => C0 x46 | x6 => C0 x45 | x7 => C0 x44 | x8 => C0 x43 | x9 => C0 x42 | x10 => C0 x41 | x11 => C0 x40 | x12 => C0 x39 | x13 => C0 x38 | x14 => C0 x37 | x15 => C0 x36 | x16 => C0 x35 | x17 => C0 x34 | x18 => C0 x33 | x19 => C0 x32 | x20 => C0 x31 | x21 => C0 x30 | x22 => C0 x29 | x23 => C0 x28 | x24 => C0 x27 | x25 => C0 x26 | x26 => C0 x25 | x27 => C0 x24 | x28 => C0 x23 | x29 => C0 x22 | x30 => C0 x21 | x31 => C0 x20 | x32 => C0 x19 | x33 => C0 x18 | x34 => C0 x17 | x35 => C0 x16 | x36 => C0 x15 | x37 => C0 x14 | x38 => C0 x13 | x39 => C0 x12 | x40 => C0 x11 | x41 => C0 x10 | x42 => C0 x9 | x43 => C0 x8 | x44 => C0 x7 | x45 => C0 x6 | x46 => C0 x5 | x47 => C0 x4 | x48 => C0 x3 | x49 => C0 x2 | x50 => C0 x1 | x51 => C0 x0 | x52 => C1 x63 | x53 => C1 x62 | x54 => C1 x61 | x55 => C1 x60 | x56 => C1 x59 | x57 => C1 x58 | x58 => C1 x57 | x59 => C1 x56 | x60 => C1 x55 | x61 => C1 x54 | x62 => C1 x53 | x63 => C1 x52 end
 | x52 => match y with x0 => C0 x52 | x1 => C0 x51 | x2 => C0 x50 | x3 => C0 x49 | x4 => C0 x48 | x5 => C0 x47 | x6 => C0 x46 | x7 => C0 x45 | x8 => C0 x44 | x9 => C0 x43 | x10 => C0 x42 | x11 => C0 x41 | x12 => C0 x40 | x13 => C0 x39 | x14 => C0 x38 | x15 => C0 x37 | x16 => C0 x36 | x17 => C0 x35 | x18 => C0 x34 | x19 => C0 x33 | x20 => C0 x32 | x21 => C0 x31 | x22 => C0 x30 | x23 => C0 x29 | x24 => C0 x28 | x25 => C0 x27 | x26 => C0 x26 | x27 => C0 x25 | x28 => C0 x24 | x29 => C0 x23 | x30 => C0 x22 | x31 => C0 x21 | x32 => C0 x20 | x33 => C0 x19 | x34 => C0 x18 | x35 => C0 x17 | x36 => C0 x16 | x37 => C0 x15 | x38 => C0 x14 | x39 => C0 x13 | x40 => C0 x12 | x41 => C0 x11 | x42 => C0 x10 | x43 => C0 x9 | x44 => C0 x8 | x45 => C0 x7 | x46 => C0 x6 | x47 => C0 x5 | x48 => C0 x4 | x49 => C0 x3 | x50 => C0 x2 | x51 => C0 x1 | x52 => C0 x0 | x53 => C1 x63 | x54 => C1 x62 | x55 => C1 x61 | x56 => C1 x60 | x57 => C1 x59 | x58 => C1 x58 | x59 => C1 x57 | x60 => C1 x56 | x61 => C1 x55 | x62 => C1 x54 | x63 => C1 x53 end
 | x53 => match y with x0 => C0 x53 | x1 => C0 x52 | x2 => C0 x51 | x3 => C0 x50 | x4 => C0 x49 | x5 => C0 x48 | x6 => C0 x47 | x7 => C0 x46 | x8 => C0 x45 | x9 => C0 x44 | x10 => C0 x43 | x11 => C0 x42 | x12 => C0 x41 | x13 => C0 x40 | x14 => C0 x39 | x15 => C0 x38 | x16 => C0 x37 | x17 => C0 x36 | x18 => C0 x35 | x19 => C0 x34 | x20 => C0 x33 | x21 => C0 x32 | x22 => C0 x31 | x23 => C0 x30 | x24 => C0 x29 | x25 => C0 x28 | x26 => C0 x27 | x27 => C0 x26 | x28 => C0 x25 | x29 => C0 x24 | x30 => C0 x23 | x31 => C0 x22 | x32 => C0 x21 | x33 => C0 x20 | x34 => C0 x19 | x35 => C0 x18 | x36 => C0 x17 | x37 => C0 x16 | x38 => C0 x15 | x39 => C0 x14 | x40 => C0 x13 | x41 => C0 x12 | x42 => C0 x11 | x43 => C0 x10 | x44 => C0 x9 | x45 => C0 x8 | x46 => C0 x7 | x47 => C0 x6 | x48 => C0 x5 | x49 => C0 x4 | x50 => C0 x3 | x51 => C0 x2 | x52 => C0 x1 | x53 => C0 x0 | x54 => C1 x63 | x55 => C1 x62 | x56 => C1 x61 | x57 => C1 x60 | x58 => C1 x59 | x59 => C1 x58 | x60 => C1 x57 | x61 => C1 x56 | x62 => C1 x55 | x63 => C1 x54 end
 | x54 => match y with x0 => C0 x54 | x1 => C0 x53 | x2 => C0 x52 | x3 => C0 x51 | x4 => C0 x50 | x5 => C0 x49 | x6 => C0 x48 | x7 => C0 x47 | x8 => C0 x46 | x9 => C0 x45 | x10 => C0 x44 | x11 => C0 x43 | x12 => C0 x42 | x13 => C0 x41 | x14 => C0 x40 | x15 => C0 x39 | x16 => C0 x38 | x17 => C0 x37 | x18 => C0 x36 | x19 => C0 x35 | x20 => C0 x34 | x21 => C0 x33 | x22 => C0 x32 | x23 => C0 x31 | x24 => C0 x30 | x25 => C0 x29 | x26 => C0 x28 | x27 => C0 x27 | x28 => C0 x26 | x29 => C0 x25 | x30 => C0 x24 | x31 => C0 x23 | x32 => C0 x22 | x33 => C0 x21 | x34 => C0 x20 | x35 => C0 x19 | x36 => C0 x18 | x37 => C0 x17 | x38 => C0 x16 | x39 => C0 x15 | x40 => C0 x14 | x41 => C0 x13 | x42 => C0 x12 | x43 => C0 x11 | x44 => C0 x10 | x45 => C0 x9 | x46 => C0 x8 | x47 => C0 x7 | x48 => C0 x6 | x49 => C0 x5 | x50 => C0 x4 | x51 => C0 x3 | x52 => C0 x2 | x53 => C0 x1 | x54 => C0 x0 | x55 => C1 x63 | x56 => C1 x62 | x57 => C1 x61 | x58 => C1 x60 | x59 => C1 x59 | x60 => C1 x58 | x61 => C1 x57 | x62 => C1 x56 | x63 => C1 x55 end
 | x55 => match y with x0 => C0 x55 | x1 => C0 x54 | x2 => C0 x53 | x3 => C0 x52 | x4 => C0 x51 | x5 => C0 x50 | x6 => C0 x49 | x7 => C0 x48 | x8 => C0 x47 | x9 => C0 x46 | x10 => C0 x45 | x11 => C0 x44 | x12 => C0 x43 | x13 => C0 x42 | x14 => C0 x41 | x15 => C0 x40 | x16 => C0 x39 | x17 => C0 x38 | x18 => C0 x37 | x19 => C0 x36 | x20 => C0 x35 | x21 => C0 x34 | x22 => C0 x33 | x23 => C0 x32 | x24 => C0 x31 | x25 => C0 x30 | x26 => C0 x29 | x27 => C0 x28 | x28 => C0 x27 | x29 => C0 x26 | x30 => C0 x25 | x31 => C0 x24 | x32 => C0 x23 | x33 => C0 x22 | x34 => C0 x21 | x35 => C0 x20 | x36 => C0 x19 | x37 => C0 x18 | x38 => C0 x17 | x39 => C0 x16 | x40 => C0 x15 | x41 => C0 x14 | x42 => C0 x13 | x43 => C0 x12 | x44 => C0 x11 | x45 => C0 x10 | x46 => C0 x9 | x47 => C0 x8 | x48 => C0 x7 | x49 => C0 x6 | x50 => C0 x5 | x51 => C0 x4 | x52 => C0 x3 | x53 => C0 x2 | x54 => C0 x1 | x55 => C0 x0 | x56 => C1 x63 | x57 => C1 x62 | x58 => C1 x61 | x59 => C1 x60 | x60 => C1 x59 | x61 => C1 x58 | x62 => C1 x57 | x63 => C1 x56 end
 | x56 => match y with x0 => C0 x56 | x1 => C0 x55 | x2 => C0 x54 | x3 => C0 x53 | x4 => C0 x52 | x5 => C0 x51 | x6 => C0 x50 | x7 => C0 x49 | x8 => C0 x48 | x9 => C0 x47 | x10 => C0 x46 | x11 => C0 x45 | x12 => C0 x44 | x13 => C0 x43 | x14 => C0 x42 | x15 => C0 x41 | x16 => C0 x40 | x17 => C0 x39 | x18 => C0 x38 | x19 => C0 x37 | x20 => C0 x36 | x21 => C0 x35 | x22 => C0 x34 | x23 => C0 x33 | x24 => C0 x32 | x25 => C0 x31 | x26 => C0 x30 | x27 => C0 x29 | x28 => C0 x28 | x29 => C0 x27 | x30 => C0 x26 | x31 => C0 x25 | x32 => C0 x24 | x33 => C0 x23 | x34 => C0 x22 | x35 => C0 x21 | x36 => C0 x20 | x37 => C0 x19 | x38 => C0 x18 | x39 => C0 x17 | x40 => C0 x16 | x41 => C0 x15 | x42 => C0 x14 | x43 => C0 x13 | x44 => C0 x12 | x45 => C0 x11 | x46 => C0 x10 | x47 => C0 x9 | x48 => C0 x8 | x49 => C0 x7 | x50 => C0 x6 | x51 => C0 x5 | x52 => C0 x4 | x53 => C0 x3 | x54 => C0 x2 | x55 => C0 x1 | x56 => C0 x0 | x57 => C1 x63 | x58 => C1 x62 | x59 => C1 x61 | x60 => C1 x60 | x61 => C1 x59 | x62 => C1 x58 | x63 => C1 x57 end
 | x57 => match y with x0 => C0 x57 | x1 => C0 x56 | x2 => C0 x55 | x3 => C0 x54 | x4 => C0 x53 | x5 => C0 x52 | x6 => C0 x51 | x7 => C0 x50 | x8 => C0 x49 | x9 => C0 x48 | x10 => C0 x47 | x11 => C0 x46 | x12 => C0 x45 | x13 => C0 x44 | x14 => C0 x43 | x15 => C0 x42 | x16 => C0 x41 | x17 => C0 x40 | x18 => C0 x39 | x19 => C0 x38 | x20 => C0 x37 | x21 => C0 x36 | x22 => C0 x35 | x23 => C0 x34 | x24 => C0 x33 | x25 => C0 x32 | x26 => C0 x31 | x27 => C0 x30 | x28 => C0 x29 | x29 => C0 x28 | x30 => C0 x27 | x31 => C0 x26 | x32 => C0 x25 | x33 => C0 x24 | x34 => C0 x23 | x35 => C0 x22 | x36 => C0 x21 | x37 => C0 x20 | x38 => C0 x19 | x39 => C0 x18 | x40 => C0 x17 | x41 => C0 x16 | x42 => C0 x15 | x43 => C0 x14 | x44 => C0 x13 | x45 => C0 x12 | x46 => C0 x11 | x47 => C0 x10 | x48 => C0 x9 | x49 => C0 x8 | x50 => C0 x7 | x51 => C0 x6 | x52 => C0 x5 | x53 => C0 x4 | x54 => C0 x3 | x55 => C0 x2 | x56 => C0 x1 | x57 => C0 x0 | x58 => C1 x63 | x59 => C1 x62 | x60 => C1 x61 | x61 => C1 x60 | x62 => C1 x59 | x63 => C1 x58 end
 | x58 => match y with x0 => C0 x58 | x1 => C0 x57 | x2 => C0 x56 | x3 => C0 x55 | x4 => C0 x54 | x5 => C0 x53 | x6 => C0 x52 | x7 => C0 x51 | x8 => C0 x50 | x9 => C0 x49 | x10 => C0 x48 | x11 => C0 x47 | x12 => C0 x46 | x13 => C0 x45 | x14 => C0 x44 | x15 => C0 x43 | x16 => C0 x42 | x17 => C0 x41 | x18 => C0 x40 | x19 => C0 x39 | x20 => C0 x38 | x21 => C0 x37 | x22 => C0 x36 | x23 => C0 x35 | x24 => C0 x34 | x25 => C0 x33 | x26 => C0 x32 | x27 => C0 x31 | x28 => C0 x30 | x29 => C0 x29 | x30 => C0 x28 | x31 => C0 x27 | x32 => C0 x26 | x33 => C0 x25 | x34 => C0 x24 | x35 => C0 x23 | x36 => C0 x22 | x37 => C0 x21 | x38 => C0 x20 | x39 => C0 x19 | x40 => C0 x18 | x41 => C0 x17 | x42 => C0 x16 | x43 => C0 x15 | x44 => C0 x14 | x45 => C0 x13 | x46 => C0 x12 | x47 => C0 x11 | x48 => C0 x10 | x49 => C0 x9 | x50 => C0 x8 | x51 => C0 x7 | x52 => C0 x6 | x53 => C0 x5 | x54 => C0 x4 | x55 => C0 x3 | x56 => C0 x2 | x57 => C0 x1 | x58 => C0 x0 | x59 => C1 x63 | x60 => C1 x62 | x61 => C1 x61 | x62 => C1 x60 | x63 => C1 x59 end
 | x59 => match y with x0 => C0 x59 | x1 => C0 x58 | x2 => C0 x57 | x3 => C0 x56 | x4 => C0 x55 | x5 => C0 x54 | x6 => C0 x53 | x7 => C0 x52 | x8 => C0 x51 | x9 => C0 x50 | x10 => C0 x49 | x11 => C0 x48 | x12 => C0 x47 | x13 => C0 x46 | x14 => C0 x45 | x15 => C0 x44 | x16 => C0 x43 | x17 => C0 x42 | x18 => C0 x41 | x19 => C0 x40 | x20 => C0 x39 | x21 => C0 x38 | x22 => C0 x37 | x23 => C0 x36 | x24 => C0 x35 | x25 => C0 x34 | x26 => C0 x33 | x27 => C0 x32 | x28 => C0 x31 | x29 => C0 x30 | x30 => C0 x29 | x31 => C0 x28 | x32 => C0 x27 | x33 => C0 x26 | x34 => C0 x25 | x35 => C0 x24 | x36 => C0 x23 | x37 => C0 x22 | x38 => C0 x21 | x39 => C0 x20 | x40 => C0 x19 | x41 => C0 x18 | x42 => C0 x17 | x43 => C0 x16 | x44 => C0 x15 | x45 => C0 x14 | x46 => C0 x13 | x47 => C0 x12 | x48 => C0 x11 | x49 => C0 x10 | x50 => C0 x9 | x51 => C0 x8 | x52 => C0 x7 | x53 => C0 x6 | x54 => C0 x5 | x55 => C0 x4 | x56 => C0 x3 | x57 => C0 x2 | x58 => C0 x1 | x59 => C0 x0 | x60 => C1 x63 | x61 => C1 x62 | x62 => C1 x61 | x63 => C1 x60 end
 | x60 => match y with x0 => C0 x60 | x1 => C0 x59 | x2 => C0 x58 | x3 => C0 x57 | x4 => C0 x56 | x5 => C0 x55 | x6 => C0 x54 | x7 => C0 x53 | x8 => C0 x52 | x9 => C0 x51 | x10 => C0 x50 | x11 => C0 x49 | x12 => C0 x48 | x13 => C0 x47 | x14 => C0 x46 | x15 => C0 x45 | x16 => C0 x44 | x17 => C0 x43 | x18 => C0 x42 | x19 => C0 x41 | x20 => C0 x40 | x21 => C0 x39 | x22 => C0 x38 | x23 => C0 x37 | x24 => C0 x36 | x25 => C0 x35 | x26 => C0 x34 | x27 => C0 x33 | x28 => C0 x32 | x29 => C0 x31 | x30 => C0 x30 | x31 => C0 x29 | x32 => C0 x28 | x33 => C0 x27 | x34 => C0 x26 | x35 => C0 x25 | x36 => C0 x24 | x37 => C0 x23 | x38 => C0 x22 | x39 => C0 x21 | x40 => C0 x20 | x41 => C0 x19 | x42 => C0 x18 | x43 => C0 x17 | x44 => C0 x16 | x45 => C0 x15 | x46 => C0 x14 | x47 => C0 x13 | x48 => C0 x12 | x49 => C0 x11 | x50 => C0 x10 | x51 => C0 x9 | x52 => C0 x8 | x53 => C0 x7 | x54 => C0 x6 | x55 => C0 x5 | x56 => C0 x4 | x57 => C0 x3 | x58 => C0 x2 | x59 => C0 x1 | x60 => C0 x0 | x61 => C1 x63 | x62 => C1 x62 | x63 => C1 x61 end
 | x61 => match y with x0 => C0 x61 | x1 => C0 x60 | x2 => C0 x59 | x3 => C0 x58 | x4 => C0 x57 | x5 => C0 x56 | x6 => C0 x55 | x7 => C0 x54 | x8 => C0 x53 | x9 => C0 x52 | x10 => C0 x51 | x11 => C0 x50 | x12 => C0 x49 | x13 => C0 x48 | x14 => C0 x47 | x15 => C0 x46 | x16 => C0 x45 | x17 => C0 x44 | x18 => C0 x43 | x19 => C0 x42 | x20 => C0 x41 | x21 => C0 x40 | x22 => C0 x39 | x23 => C0 x38 | x24 => C0 x37 | x25 => C0 x36 | x26 => C0 x35 | x27 => C0 x34 | x28 => C0 x33 | x29 => C0 x32 | x30 => C0 x31 | x31 => C0 x30 | x32 => C0 x29 | x33 => C0 x28 | x34 => C0 x27 | x35 => C0 x26 | x36 => C0 x25 | x37 => C0 x24 | x38 => C0 x23 | x39 => C0 x22 | x40 => C0 x21 | x41 => C0 x20 | x42 => C0 x19 | x43 => C0 x18 | x44 => C0 x17 | x45 => C0 x16 | x46 => C0 x15 | x47 => C0 x14 | x48 => C0 x13 | x49 => C0 x12 | x50 => C0 x11 | x51 => C0 x10 | x52 => C0 x9 | x53 => C0 x8 | x54 => C0 x7 | x55 => C0 x6 | x56 => C0 x5 | x57 => C0 x4 | x58 => C0 x3 | x59 => C0 x2 | x60 => C0 x1 | x61 => C0 x0 | x62 => C1 x63 | x63 => C1 x62 end
 | x62 => match y with x0 => C0 x62 | x1 => C0 x61 | x2 => C0 x60 | x3 => C0 x59 | x4 => C0 x58 | x5 => C0 x57 | x6 => C0 x56 | x7 => C0 x55 | x8 => C0 x54 | x9 => C0 x53 | x10 => C0 x52 | x11 => C0 x51 | x12 => C0 x50 | x13 => C0 x49 | x14 => C0 x48 | x15 => C0 x47 | x16 => C0 x46 | x17 => C0 x45 | x18 => C0 x44 | x19 => C0 x43 | x20 => C0 x42 | x21 => C0 x41 | x22 => C0 x40 | x23 => C0 x39 | x24 => C0 x38 | x25 => C0 x37 | x26 => C0 x36 | x27 => C0 x35 | x28 => C0 x34 | x29 => C0 x33 | x30 => C0 x32 | x31 => C0 x31 | x32 => C0 x30 | x33 => C0 x29 | x34 => C0 x28 | x35 => C0 x27 | x36 => C0 x26 | x37 => C0 x25 | x38 => C0 x24 | x39 => C0 x23 | x40 => C0 x22 | x41 => C0 x21 | x42 => C0 x20 | x43 => C0 x19 | x44 => C0 x18 | x45 => C0 x17 | x46 => C0 x16 | x47 => C0 x15 | x48 => C0 x14 | x49 => C0 x13 | x50 => C0 x12 | x51 => C0 x11 | x52 => C0 x10 | x53 => C0 x9 | x54 => C0 x8 | x55 => C0 x7 | x56 => C0 x6 | x57 => C0 x5 | x58 => C0 x4 | x59 => C0 x3 | x60 => C0 x2 | x61 => C0 x1 | x62 => C0 x0 | x63 => C1 x63 end
 | x63 => match y with x0 => C0 x63 | x1 => C0 x62 | x2 => C0 x61 | x3 => C0 x60 | x4 => C0 x59 | x5 => C0 x58 | x6 => C0 x57 | x7 => C0 x56 | x8 => C0 x55 | x9 => C0 x54 | x10 => C0 x53 | x11 => C0 x52 | x12 => C0 x51 | x13 => C0 x50 | x14 => C0 x49 | x15 => C0 x48 | x16 => C0 x47 | x17 => C0 x46 | x18 => C0 x45 | x19 => C0 x44 | x20 => C0 x43 | x21 => C0 x42 | x22 => C0 x41 | x23 => C0 x40 | x24 => C0 x39 | x25 => C0 x38 | x26 => C0 x37 | x27 => C0 x36 | x28 => C0 x35 | x29 => C0 x34 | x30 => C0 x33 | x31 => C0 x32 | x32 => C0 x31 | x33 => C0 x30 | x34 => C0 x29 | x35 => C0 x28 | x36 => C0 x27 | x37 => C0 x26 | x38 => C0 x25 | x39 => C0 x24 | x40 => C0 x23 | x41 => C0 x22 | x42 => C0 x21 | x43 => C0 x20 | x44 => C0 x19 | x45 => C0 x18 | x46 => C0 x17 | x47 => C0 x16 | x48 => C0 x15 | x49 => C0 x14 | x50 => C0 x13 | x51 => C0 x12 | x52 => C0 x11 | x53 => C0 x10 | x54 => C0 x9 | x55 => C0 x8 | x56 => C0 x7 | x57 => C0 x6 | x58 => C0 x5 | x59 => C0 x4 | x60 => C0 x3 | x61 => C0 x2 | x62 => C0 x1 | x63 => C0 x0 end
 end.
(** x - y - 1: borrow and digit. *)
Definition sbb1 (x y : dig) : cd := match x with
 | x0 => match y with x0 => C1 x63 | x1 => C1 x62 | x2 => C1 x61 | x3 => C1 x60 | x4 => C1 x59 | x5 => C1 x58 | x6 => C1 x57 | x7 => C1 x56 | x8 => C1 x55 | x9 => C1 x54 | x10 => C1 x53 | x11 => C1 x52 | x12 => C1 x51 | x13 => C1 x50 | x14 => C1 x49 | x15 => C1 x48 | x16 => C1 x47 | x17 => C1 x46 | x18 => C1 x45 | x19 => C1 x44 | x20 => C1 x43 | x21 => C1 x42 | x22 => C1 x41 | x23 => C1 x40 | x24 => C1 x39 | x25 => C1 x38 | x26 => C1 x37 | x27 => C1 x36 | x28 => C1 x35 | x29 => C1 x34 | x30 => C1 x33 | x31 => C1 x32 | x32 => C1 x31 | x33 => C1 x30 | x34 => C1 x29 | x35 => C1 x28 | x36 => C1 x27 | x37 => C1 x26 | x38 => C1 x25 | x39 => C1 x24 | x40 => C1 x23 | x41 => C1 x22 | x42 => C1 x21 | x43 => C1 x20 | x44 => C1 x19 | x45 => C1 x18 | x46 => C1 x17 | x47 => C1 x16 | x48 => C1 x15 | x49 => C1 x14 | x50 => C1 x13 | x51 => C1 x12 | x52 => C1 x11 | x53 => C1 x10 | x54 => C1 x9 | x55 => C1 x8 | x56 => C1 x7 | x57 => C1 x6 | x58 => C1 x5 | x59 => C1 x4 | x60 => C1 x3 | x61 => C1 x2 | x62 => C1 x1 | x63 => C1 x0 end
 | x1 => match y with x0 => C0 x0 | x1 => C1 x63 | x2 => C1 x62 | x3 => C1 x61 | x4 => C1 x60 | x5 => C1 x59 | x6 => C1 x58 | x7 => C1 x57 | x8 => C1 x56 | x9 => C1 x55 | x10 => C1 x54 | x11 => C1 x53 | x12 => C1 x52 | x13 => C1 x51 | x14 => C1 x50 | x15 => C1 x49 | x16 => C1 x48 | x17 => C1 x47 | x18 => C1 x46 | x19 => C1 x45 | x20 => C1 x44 | x21 => C1 x43 | x22 => C1 x42 | x23 => C1 x41 | x24 => C1 x40 | x25 => C1 x39 | x26 => C1 x38 | x27 => C1 x37 | x28 => C1 x36 | x29 => C1 x35 | x30 => C1 x34 | x31 => C1 x33 | x32 => C1 x32 | x33 => C1 x31 | x34 => C1 x30 | x35 => C1 x29 | x36 => C1 x28 | x37 => C1 x27 | x38 => C1 x26 | x39 => C1 x25 | x40 => C1 x24 | x41 => C1 x23 | x42 => C1 x22 | x43 => C1 x21 | x44 => C1 x20 | x45 => C1 x19 | x46 => C1 x18 | x47 => C1 x17 | x48 => C1 x16 | x49 => C1 x15 | x50 => C1 x14 | x51 => C1 x13 | x52 => C1 x12 | x53 => C1 x11 | x54 => C1 x10 | x55 => C1 x9 | x56 => C1 x8 | x57 => C1 x7 | x58 => C1 x6 | x59 => C1 x5 | x60 => C1 x4 | x61 => C1 x3 | x62 => C1 x2 | x63 => C1 x1 end
 | x2 => match y with x0 => C0 x1 | x1 => C0 x0 | x2 => C1 x63 | x3 => C1 x62 | x4 => C1 x61 | x5 => C1 x60 | x6 => C1 x59 | x7 => C1 x58 | x8 => C1 x57 | x9 => C1 x56 | x10 => C1 x55 | x11 => C1 x54 | x12 => C1 x53 | x13 => C1 x52 | x14 => C1 x51 | x15 => C1 x50 | x16 => C1 x49 | x17 => C1 x48 | x18 => C1 x47 | x19 => C1 x46 | x20 => C1 x45 | x21 => C1 x44 | x22 => C1 x43 | x23 => C1 x42 | x24 => C1 x41 | x25 => C1 x40 | x26 => C1 x39 | x27 => C1 x38 | x28 => C1 x37 | x29 => C1 x36 | x30 => C1 x35 | x31 => C1 x34 | x32 => C1 x33 | x33 => C1 x32 | x34 => C1 x31 | x35 => C1 x30 | x36 => C1 x29 | x37 => C1 x28 | x38 => C1 x27 | x39 => C1 x26 | x40 => C1 x25 | x41 => C1 x24 | x42 => C1 x23 | x43 => C1 x22 | x44 => C1 x21 | x45 => C1 x20 | x46 => C1 x19 | x47 => C1 x18 | x48 => C1 x17 | x49 => C1 x16 | x50 => C1 x15 | x51 => C1 x14 | x52 => C1 x13 | x53 => C1 x12 | x54 => C1 x11 | x55 => C1 x10 | x56 => C1 x9 | x57 => C1 x8 | x58 => C1 x7 | x59 => C1 x6 | x60 => C1 x5 | x61 => C1 x4 | x62 => C1 x3 | x63 => C1 x2 end
 | x3 => match y with x0 => C0 x2 | x1 => C0 x1 | x2 => C0 x0 | x3 => C1 x63 | x4 => C1 x62 | x5 => C1 x61 | x6 => C1 x60 | x7 => C1 x59 | x8 => C1 x58 | x9 => C1 x57 | x10 => C1 x56 | x11 => C1 x55 | x12 => C1 x54 | x13 => C1 x53 | x14 => C1 x52 | x15 => C1 x51 | x16 => C1 x50 | x17 => C1 x49 | x18 => C1 x48 | x19 => C1 x47 | x20 => C1 x46 | x21 => C1 x45 | x22 => C1 x44 | x23 => C1 x43 | x24 => C1 x42 | x25 => C1 x41 | x26 => C1 x40 | x27 => C1 x39 | x28 => C1 x38 | x29 => C1 x37 | x30 => C1 x36 | x31 => C1 x35 | x32 => C1 x34 | x33 => C1 x33 | x34 => C1 x32 | x35 => C1 x31 | x36 => C1 x30 | x37 => C1 x29 | x38 => C1 x28 | x39 => C1 x27 | x40 => C1 x26 | x41 => C1 x25 | x42 => C1 x24 | x43 => C1 x23 | x44 => C1 x22 | x45 => C1 x21 | x46 => C1 x20 | x47 => C1 x19 | x48 => C1 x18 | x49 => C1 x17 | x50 => C1 x16 | x51 => C1 x15 | x52 => C1 x14 | x53 => C1 x13 | x54 => C1 x12 | x55 => C1 x11 | x56 => C1 x10 | x57 => C1 x9 | x58 => C1 x8 | x59 => C1 x7 | x60 => C1 x6 | x61 => C1 x5 | x62 => C1 x4 | x63 => C1 x3 end
 | x4 => match y with x0 => C0 x3 | x1 => C0 x2 | x2 => C0 x1 | x3 => C0 x0 | x4 => C1 x63 | x5 => C1 x62 | x6 => C1 x61 | x7 => C1 x60 | x8 => C1 x59 | x9 => C1 x58 | x10 => C1 x57 | x11 => C1 x56 | x12 => C1 x55 | x13 => C1 x54 | x14 => C1 x53 | x15 => C1 x52 | x16 => C1 x51 | x17 => C1 x50 | x18 => C1 x49 | x19 => C1 x48 | x20 => C1 x47 | x21 => C1 x46 | x22 => C1 x45 | x23 => C1 x44 | x24 => C1 x43 | x25 => C1 x42 | x26 => C1 x41 | x27 => C1 x40 | x28 => C1 x39 | x29 => C1 x38 | x30 => C1 x37 | x31 => C1 x36 | x32 => C1 x35 | x33 => C1 x34 | x34 => C1 x33 | x35 => C1 x32 | x36 => C1 x31 | x37 => C1 x30 | x38 => C1 x29 | x39 => C1 x28 | x40 => C1 x27 | x41 => C1 x26 | x42 => C1 x25 | x43 => C1 x24 | x44 => C1 x23 | x45 => C1 x22 | x46 => C1 x21 | x47 => C1 x20 | x48 => C1 x19 | x49 => C1 x18 | x50 => C1 x17 | x51 => C1 x16 | x52 => C1 x15 | x53 => C1 x14 | x54 => C1 x13 | x55 => C1 x12 | x56 => C1 x11 | x57 => C1 x10 | x58 => C1 x9 | x59 => C1 x8 | x60 => C1 x7 | x61 => C1 x6 | x62 => C1 x5 | x63 => C1 x4 end
 | x5 => match y with x0 => C0 x4 | x1 => C0 x3 | x2 => C0 x2 | x3 => C0 x1 | x4 => C0 x0 | x5 => C1 x63 | x6 => C1 x62 | x7 => C1 x61 | x8 => C1 x60 | x9 => C1 x59 | x10 => C1 x58 | x11 => C1 x57 | x12 => C1 x56 | x13 => C1 x55 | x14 => C1 x54 | x15 => C1 x53 | x16 => C1 x52 | x17 => C1 x51 | x18 => C1 x50 | x19 => C1 x49 | x20 => C1 x48 | x21 => C1 x47 | x22 => C1 x46 | x23 => C1 x45 | x24 => C1 x44 | x25 => C1 x43 | x26 => C1 x42 | x27 => C1 x41 | x28 => C1 x40 | x29 => C1 x39 | x30 => C1 x38 | x31 => C1 x37 | x32 => C1 x36 | x33 => C1 x35 | x34 => C1 x34 | x35 => C1 x33 | x36 => C1 x32 | x37 => C1 x31 | x38 => C1 x30 | x39 => C1 x29 | x40 => C1 x28 | x41 => C1 x27 | x42 => C1 x26 | x43 => C1 x25 | x44 => C1 x24 | x45 => C1 x23 | x46 => C1 x22 | x47 => C1 x21 | x48 => C1 x20 | x49 => C1 x19 | x50 => C1 x18 | x51 => C1 x17 | x52 => C1 x16 | x53 => C1 x15 | x54 => C1 x14 | x55 => C1 x13 | x56 => C1 x12 | x57 => C1 x11 | x58 => C1 x10 | x59 => C1 x9 | x60 => C1 x8 | x61 => C1 x7 | x62 => C1 x6 | x63 => C1 x5 end
 | x6 => match y with x0 => C0 x5 | x1 => C0 x4 | x2 => C0 x3 | x3 => C0 x2 | x4 => C0 x1 | x5 => C0 x0 | x6 => C1 x63 | x7 => C1 x62 | x8 => C1 x61 | x9 => C1 x60 | x10 => C1 x59 | x11 => C1 x58 | x12 => C1 x57 | x13 => C1 x56 | x14 => C1 x55 | x15 => C1 x54 | x16 => C1 x53 | x17 => C1 x52 | x18 => C1 x51 | x19 => C1 x50 | x20 => C1 x49 | x21 => C1 x48 | x22 => C1 x47 | x23 => C1 x46 | x24 => C1 x45 | x25 => C1 x44 | x26 => C1 x43 | x27 => C1 x42 | x28 => C1 x41 | x29 => C1 x40 | x30 => C1 x39 | x31 => C1 x38 | x32 => C1 x37 | x33 => C1 x36 | x34 => C1 x35 | x35 => C1 x34 | x36 => C1 x33 | x37 => C1 x32 | x38 => C1 x31 | x39 => C1 x30 | x40 => C1 x29 | x41 => C1 x28 | x42 => C1 x27 | x43 => C1 x26 | x44 => C1 x25 | x45 => C1 x24 | x46 => C1 x23 | x47 => C1 x22 | x48 => C1 x21 | x49 => C1 x20 | x50 => C1 x19 | x51 => C1 x18 | x52 => C1 x17 | x53 => C1 x16 | x54 => C1 x15 | x55 => C1 x14 | x56 => C1 x13 | x57 => C1 x12 | x58 => C1 x11 | x59 => C1 x10 | x60 => C1 x9 | x61 => C1 x8 | x62 => C1 x7 | x63 => C1 x6 end
 | x7 => match y with x0 => C0 x6 | x1 => C0 x5 | x2 => C0 x4 | x3 => C0 x3 | x4 => C0 x2 | x5 => C0 x1 | x6 => C0 x0 | x7 => C1 x63 | x8 => C1 x62 | x9 => C1 x61 | x10 => C1 x60 | x11 => C1 x59 | x12 => C1 x58 | x13 => C1 x57 | x14 => C1 x56 | x15 => C1 x55 | x16 => C1 x54 | x17 => C1 x53 | x18 => C1 x52 | x19 => C1 x51 | x20 => C1 x50 | x21 => C1 x49 | x22 => C1 x48 | x23 => C1 x47 | x24 => C1 x46 | x25 => C1 x45 | x26 => C1 x44 | x27 => C1 x43 | x28 => C1 x42 | x29 => C1 x41 | x30 => C1 x40 | x31 => C1 x39 | x32 => C1 x38 | x33 => C1 x37 | x34 => C1 x36 | x35 => C1 x35 | x36 => C1 x34 | x37 => C1 x33 | x38 => C1 x32 | x39 => C1 x31 | x40 => C1 x30 | x41 => C1 x29 | x42 => C1 x28 | x43 => C1 x27 | x44 => C1 x26 | x45 => C1 x25 | x46 => C1 x24 | x47 => C1 x23 | x48 => C1 x22 | x49 => C1 x21 | x50 => C1 x20 | x51 => C1 x19 | x52 => C1 x18 | x53 => C1 x17 | x54 => C1 x16 | x55 => C1 x15 | x56 => C1 x14 | x57 => C1 x13 | x58 => C1 x12 | x59 => C1 x11 | x60 => C1 x10 | x61 => C1 x9 | x62 => C1 x8 | x63 => C1 x7 end
 | x8 => match y with x0 => C0 x7 | x1 => C0 x6 | x2 => C0 x5 | x3 => C0 x4 | x4 => C0 x3 | x5 => C0 x2 | x6 => C0 x1 | x7 => C0 x0 | x8 => C1 x63 | x9 => C1 x62 | x10 => C1 x61 | x11 => C1 x60 | x12 => C1 x59 | x13 => C1 x58 | x14 => C1 x57 | x15 => C1 x56 | x16 => C1 x55 | x17 => C1 x54 | x18 => C1 x53 | x19 => C1 x52 | x20 => C1 x51 | x21 => C1 x50 | x22 => C1 x49 | x23 => C1 x48 | x24 => C1 x47 | x25 => C1 x46 | x26 => C1 x45 | x27 => C1 x44 | x28 => C1 x43 | x29 => C1 x42 | x30 => C1 x41 | x31 => C1 x40 | x32 => C1 x39 | x33 => C1 x38 | x34 => C1 x37 | x35 => C1 x36 | x36 => C1 x35 | x37 => C1 x34 | x38 => C1 x33 | x39 => C1 x32 | x40 => C1 x31 | x41 => C1 x30 | x42 => C1 x29 | x43 => C1 x28 | x44 => C1 x27 | x45 => C1 x26 | x46 => C1 x25 | x47 => C1 x24 | x48 => C1 x23 | x49 => C1 x22 | x50 => C1 x21 | x51 => C1 x20 | x52 => C1 x19 | x53 => C1 x18 | x54 => C1 x17 | x55 => C1 x16 | x56 => C1 x15 | x57 => C1 x14 | x58 => C1 x13 | x59 => C1 x12 | x60 => C1 x11 | x61 => C1 x10 | x62 => C1 x9 | x63 => C1 x8 end
 | x9 => match y with x0 => C0 x8 | x1 => C0 x7 | x2 => C0 x6 | x3 => C0 x5 | x4 => C0 x4 | x5 => C0 x3 | x6 => C0 x2 | x7 => C0 x1 | x8 => C0 x0 | x9 => C1 x63 | x10 => C1 x62 | x11 => C1 x61 | x12 => C1 x60 | x13 => C1 x59 | x14 => C1 x58 | x15 => C1 x57 | x16 => C1 x56 | x17 => C1 x55 | x18 => C1 x54 | x19 => C1 x53 | x20 => C1 x52 | x21 => C1 x51 | x22 => C1 x50 | x23 => C1 x49 | x24 => C1 x48 | x25 => C1 x47 | x26 => C1 x46 | x27 => C1 x45 | x28 => C1 x44 | x29 => C1 x43 | x30 => C1 x42 | x31 => C1 x41 | x32 => C1 x40 | x33 => C1 x39 | x34 => C1 x38 | x35 => C1 x37 | x36 => C1 x36 | x37 => C1 x35 | x38 => C1 x34 | x39 => C1 x33 | x40 => C1 x32 | x41 => C1 x31 | x42 => C1 x30 | x43 => C1 x29 | x44 => C1 x28 | x45 => C1 x27 | x46 => C1 x26 | x47 => C1 x25 | x48 => C1 x24 | x49 => C1 x23 | x50 => C1 x22 | x51 => C1 x21 | x52 => C1 x20 | x53 => C1 x19 | x54 => C1 x18 | x55 => C1 x17 | x56 => C1 x16 | x57 => C1 x15 | x58 => C1 x14 | x59 => C1 x13 | x60 => C1 x12 | x61 => C1 x11 | x62 => C1 x10 | x63 => C1 x9 end
 | x10 => match y with x0 => C0 x9 | x1 => C0 x8 | x2 => C0 x7 | x3 => C0 x6 | x4 => C0 x5 | x5 => C0 x4 | x6 => C0 x3 | x7 => C0 x2 | x8 => C0 x1 | x9 => C0 x0 | x10 => C1 x63 | x11 => C1 x62 | x12 => C1 x61 | x13 => C1 x60 | x14 => C1 x59 | x15 => C1 x58 | x16 => C1 x57 | x17 => C1 x56 | x18 => C1 x55 | x19 => C1 x54 | x20 => C1 x53 | x21 => C1 x52 | x22 => C1 x51 | x23 => C1 x50 | x24 => C1 x49 | x25 => C1 x48 | x26 => C1 x47 | x27 => C1 x46 | x28 => C1 x45 | x29 => C1 x44 | x30 => C1 x43 | x31 => C1 x42 | x32 => C1 x41 | x33 => C1 x40 | x34 => C1 x39 | x35 => C1 x38 | x36 => C1 x37 | x37 => C1 x36 | x38 => C1 x35 | x39 => C1 x34 | x40 => C1 x33 | x41 => C1 x32 | x42 => C1 x31 | x43 => C1 x30 | x44 => C1 x29 | x45 => C1 x28 | x46 => C1 x27 | x47 => C1 x26 | x48 => C1 x25 | x49 => C1 x24 | x50 => C1 x23 | x51 => C1 x22 | x52 => C1 x21 | x53 => C1 x20 | x54 => C1 x19 | x55 => C1 x18 | x56 => C1 x17 | x57 => C1 x16 | x58 => C1 x15 | x59 => C1 x14 | x60 => C1 x13 | x61 => C1 x12 | x62 => C1 x11 | x63 => C1 x10 end
 | x11 => match y with x0 => C0 x10 | x1 => C0 x9 | x2 => C0 x8 | x3 => C0 x7 | x4 => C0 x6 | x5 => C0 x5 | x6 => C0 x4 | x7 => C0 x3 | x8 => C0 x2 | x9 => C0 x1 | x10 => C0 x0 | x11 => C1 x63 | x12 => C1 x62 | x13 => C1 x61 | x14 => C1 x60 | x15 => C1 x59 | x16 => C1 x58 | x17 => C1 x57 | x18 => C1 x56 | x19 => C1 x55 | x20 => C1 x54 | x21 => C1 x53 | x22 => C1 x52 | x23 => C1 x51 | x24 => C1 x50 | x25 => C1 x49 | x26 => C1 x48 | x27 => C1 x47 | x28 => C1 x46 | x29 => C1 x45 | x30 => C1 x44 | x31 => C1 x43 | x32 => C1 x42 | x33 => C1 x41 | x34 => C1 x40 | x35 => C1 x39 | x36 => C1 x38 | x37 => C1 x37 | x38 => C1 x36 | x39 => C1 x35 | x40 => C1 x34 | x41 => C1 x33 | x42 => C1 x32 | x43 => C1 x31 | x44 => C1 x30 | x45 => C1 x29 | x46 => C1 x28 | x47 => C1 x27 | x48 => C1 x26 | x49 => C1 x25 | x50 => C1 x24 | x51 => C1 x23 | x52 => C1 x22 | x53 => C1 x21 | x54 => C1 x20 | x55 => C1 x19 | x56 => C1 x18 | x57 => C1 x17 | x58 => C1 x16 | x59 => C1 x15 | x60 => C1 x14 | x61 => C1 x13 | x62 => C1 x12 | x63 => C1 x11 end
 | x12 => match y with x0 => C0 x11 | x1 => C0 x10 | x2 => C0 x9 | x3 => C0 x8 | x4 => C0 x7 | x5 => C0 x6 | x6 => C0 x5 | x7 => C0 x4 | x8 => C0 x3 | x9 => C0 x2 | x10 => C0 x1 | x11 => C0 x0 | x12 => C1 x63 | x13 => C1 x62 | x14 => C1 x61 | x15 => C1 x60 | x16 => C1 x59 | x17 => C1 x58 | x18 => C1 x57 | x19 => C1 x56 | x20 => C1 x55 | x21 => C1 x54 | x22 => C1 x53 | x23 => C1 x52 | x24 => C1 x51 | x25 => C1 x50 | x26 => C1 x49 | x27 => C1 x48 | x28 => C1 x47 | x29 => C1 x46 | x30 => C1 x45 | x31 => C1 x44 | x32 => C1 x43 | x33 => C1 x42 | x34 => C1 x41 | x35 => C1 x40 | x36 => C1 x39 | x37 => C1 x38 | x38 => C1 x37 | x39 => C1 x36 | x40 => C1 x35 | x41 => C1 x34 | x42 => C1 x33 | x43 => C1 x32 | x44 => C1 x31 | x45 => C1 x30 | x46 => C1 x29 | x47 => C1 x28 | x48 => C1 x27 | x49 => C1 x26 | x50 => C1 x25 | x51 => C1 x24 | x52 => C1 x23 | x53 => C1 x22 | x54 => C1 x21 | x55 => C1 x20 | x56 => C1 x19 | x57 => C1 x18 | x58 => C1 x17 | x59 => C1 x16 | x60 => C1 x15 | x61 => C1 x14 | x62 => C1 x13 | x63 => C1 x12 end
 | x13 => match y with x0 => C0 x12 | x1 => C0 x11 | x2 => C0 x10 | x3 => C0 x9 | x4 => C0 x8 | x5 => C0 x7 | x6 => C0 x6 | x7 => C0 x5 | x8 => C0 x4 | x9 => C0 x3 | x10 => C0 x2 | x11 => C0 x1 | x12 => C0 x0 | x13 => C1 x63 | x14 => C1 x62 | x15 => C1 x61 | x16 => C1 x60 | x17 => C1 x59 | x18 => C1 x58 | x19 => C1 x57 | x20 => C1 x56 | x21 => C1 x55 | x22 => C1 x54 | x23 => C1 x53 | x24 => C1 x52 | x25 => C1 x51 | x26 => C1 x50 | x27 => C1 x49 | x28 => C1 x48 | x29 => C1 x47 | x30 => C1 x46 | x31 => C1 x45 | x32 => C1 x44 | x33 => C1 x43 | x34 => C1 x42 | x35 => C1 x41 | x36 => C1 x40 | x37 => C1 x39 | x38 => C1 x38 | x39 => C1 x37 | x40 => C1 x36 | x41 => C1 x35 | x42 => C1 x34 | x43 => C1 x33 | x44 => C1 x32 | x45 => C1 x31 | x46 => C1 x30 | x47 => C1 x29 | x48 => C1 x28 | x49 => C1 x27 | x50 => C1 x26 | x51 => C1 x25 | x52 => C1 x24 | x53 => C1 x23 | x54 => C1 x22 | x55 => C1 x21 | x56 => C1 x20 | x57 => C1 x19 | x58 => C1 x18 | x59 => C1 x17 | x60 => C1 x16 | x61 => C1 x15 | x62 => C1 x14 | x63 => C1 x13 end
 | x14 => match y with x0 => C0 x13 | x1 => C0 x12 | x2 => C0 x11 | x3 => C0 x10 | x4 => C0 x9 | x5 => C0 x8 | x6 => C0 x7 | x7 => C0 x6 | x8 => C0 x5 | x9 => C0 x4 | x10 => C0 x3 | x11 => C0 x2 | x12 => C0 x1 | x13 => C0 x0 | x14 => C1 x63 | x15 => C1 x62 | x16 => C1 x61 | x17 => C1 x60 | x18 => C1 x59 | x19 => C1 x58 | x20 => C1 x57 | x21 => C1 x56 | x22 => C1 x55 | x23 => C1 x54 | x24 => C1 x53 | x25 => C1 x52 | x26 => C1 x51 | x27 => C1 x50 | x28 => C1 x49 | x29 => C1 x48 | x30 => C1 x47 | x31 => C1 x46 | x32 => C1 x45 | x33 => C1 x44 | x34 => C1 x43 | x35 => C1 x42 | x36 => C1 x41 | x37 => C1 x40 | x38 => C1 x39 | x39 => C1 x38 | x40 => C1 x37 | x41 => C1 x36 | x42 => C1 x35 | x43 => C1 x34 | x44 => C1 x33 | x45 => C1 x32 | x46 => C1 x31 | x47 => C1 x30 | x48 => C1 x29 | x49 => C1 x28 | x50 => C1 x27 | x51 => C1 x26 | x52 => C1 x25 | x53 => C1 x24 | x54 => C1 x23 | x55 => C1 x22 | x56 => C1 x21 | x57 => C1 x20 | x58 => C1 x19 | x59 => C1 x18 | x60 => C1 x17 | x61 => C1 x16 | x62 => C1 x15 | x63 => C1 x14 end
 | x15 => match y with x0 => C0 x14 | x1 => C0 x13 | x2 => C0 x12 | x3 => C0 x11 | x4 => C0 x10 | x5 => C0 x9 | x6 => C0 x8 | x7 => C0 x7 | x8 => C0 x6 | x9 => C0 x5 | x10 => C0 x4 | x11 => C0 x3 | x12 => C0 x2 | x13 => C0 x1 | x14 => C0 x0 | x15 => C1 x63 | x16 => C1 x62 | x17 => C1 x61 | x18 => C1 x60 | x19 => C1 x59 | x20 => C1 x58 | x21 => C1 x57 | x22 => C1 x56 | x23 => C1 x55 | x24 => C1 x54 | x25 => C1 x53 | x26 => C1 x52 | x27 => C1 x51 | x28 => C1 x50 | x29 => C1 x49 | x30 => C1 x48 | x31 => C1 x47 | x32 => C1 x46 | x33 => C1 x45 | x34 => C1 x44 | x35 => C1 x43 | x36 => C1 x42 | x37 => C1 x41 | x38 => C1 x40 | x39 => C1 x39 | x40 => C1 x38 | x41 => C1 x37 | x42 => C1 x36 | x43 => C1 x35 | x44 => C1 x34 | x45 => C1 x33 | x46 => C1 x32 | x47 => C1 x31 | x48 => C1 x30 | x49 => C1 x29 | x50 => C1 x28 | x51 => C1 x27 | x52 => C1 x26 | x53 => C1 x25 | x54 => C1 x24 | x55 => C1 x23 | x56 => C1 x22 | x57 => C1 x21 | x58 => C1 x20 | x59 => C1 x19 | x60 => C1 x18 | x61 => C1 x17 | x62 => C1 x16 | x63 => C1 x15 end
 | x16 => match y with x0 => C0 x15 | x1 => C0 x14 | x2 => C0 x13 | x3 => C0 x12 | x4 => C0 x11 | x5 => C0 x10 | x6 => C0 x9 | x7 => C0 x8 | x8 => C0 x7 | x9 => C0 x6 | x10 => C0 x5 | x11 => C0 x4 | x12 => C0 x3 | x13 => C0 x2 | x14 => C0 x1 | x15 => C0 x0 | x16 => C1 x63 | x17 => C1 x62 | x18 => C1 x61 | x19 => C1 x60 | x20 => C1 x59 | x21 => C1 x58 | x22 => C1 x57 | x23 => C1 x56 | x24 => C1 x55 | x25 => C1 x54 | x26 => C1 x53 | x27 => C1 x52 | x28 => C1 x51 | x29 => C1 x50 | x30 => C1 x49 | x31 => C1 x48 | x32 => C1 x47 | x33 => C1 x46 | x34 => C1 x45 | x35 => C1 x44 | x36 => C1 x43 | x37 => C1 x42 | x38 => C1 x41 | x39 => C1 x40 | x40 => C1 x39 | x41 => C1 x38 | x42 => C1 x37 | x43 => C1 x36 | x44 => C1 x35 | x45 => C1 x34 | x46 => C1 x33 | x47 => C1 x32 | x48 => C1 x31 | x49 => C1 x30 | x50 => C1 x29 | x51 => C1 x28 | x52 => C1 x27 | x53 => C1 x26 | x54 => C1 x25 | x55 => C1 x24 | x56 => C1 x23 | x57 => C1 x22 | x58 => C1 x21 | x59 => C1 x20 | x60 => C1 x19 | x61 => C1 x18 | x62 => C1 x17 | x63 => C1 x16 end
 | x17 => match y with x0 => C0 x16 | x1 => C0 x15 | x2 => C0 x14 | x3 => C0 x13 | x4 => C0 x12 | x5 => C0 x11 | x6 => C0 x10 | x7 => C0 x9 | x8 => C0 x8 | x9 => C0 x7 | x10 => C0 x6 | x11 => C0 x5 | x12 => C0 x4 | x13 => C0 x3 | x14 => C0 x2 | x15 => C0 x1 | x16 => C0 x0 | x17 => C1 x63 | x18 => C1 x62 | x19 => C1 x61 | x20 => C1 x60 | x21 => C1 x59 | x22 => C1 x58 | x23 => C1 x57 | x24 => C1 x56 | x25 => C1 x55 | x26 => C1 x54 | x27 => C1 x53 | x28 => C1 x52 | x29 => C1 x51 | x30 => C1 x50 | x31 => C1 x49 | x32 => C1 x48 | x33 => C1 x47 | x34 => C1 x46 | x35 => C1 x45 | x36 => C1 x44 | x37 => C1 x43 | x38 => C1 x42 | x39 => C1 x41 | x40 => C1 x40 | x41 => C1 x39 | x42 => C1 x38 | x43 => C1 x37 | x44 => C1 x36 | x45 => C1 x35 | x46 => C1 x34 | x47 => C1 x33 | x48 => C1 x32 | x49 => C1 x31 | x50 => C1 x30 | x51 => C1 x29 | x52 => C1 x28 | x53 => C1 x27 | x54 => C1 x26 | x55 => C1 x25 | x56 => C1 x24 | x57 => C1 x23 | x58 => C1 x22 | x59 => C1 x21 | x60 => C1 x20 | x61 => C1 x19 | x62 => C1 x18 | x63 => C1 x17 end
 | x18 => match y with x0 => C0 x17 | x1 => C0 x16 | x2 => C0 x15 | x3 => C0 x14 | x4 => C0 x13 | x5 => C0 x12 | x6 => C0 x11 | x7 => C0 x10 | x8 => C0 x9 | x9 => C0 x8 | x10 => C0 x7 | x11 => C0 x6 | x12 => C0 x5 | x13 => C0 x4 | x14 => C0 x3 | x15 => C0 x2 | x16 => C0 x1 | x17 => C0 x0 | x18 => C1 x63 | x19 => C1 x62 | x20 => C1 x61 | x21 => C1 x60 | x22 => C1 x59 | x23 => C1 x58 | x24 => C1 x57 | x25 => C1 x56 | x26 => C1 x55 | x27 => C1 x54 | x28 => C1 x53 | x29 => C1 x52 | x30 => C1 x51 | x31 => C1 x50 | x32 => C1 x49 | x33 => C1 x48 | x34 => C1 x47 | x35 => C1 x46 | x36 => C1 x45 | x37 => C1 x44 | x38 => C1 x43 | x39 => C1 x42 | x40 => C1 x41 | x41 => C1 x40 | x42 => C1 x39 | x43 => C1 x38 | x44 => C1 x37 | x45 => C1 x36 | x46 => C1 x35 | x47 => C1 x34 | x48 => C1 x33 | x49 => C1 x32 | x50 => C1 x31 | x51 => C1 x30 | x52 => C1 x29 | x53 => C1 x28 | x54 => C1 x27 | x55 => C1 x26 | x56 => C1 x25 | x57 => C1 x24 | x58 => C1 x23 | x59 => C1 x22 | x60 => C1 x21 | x61 => C1 x20 | x62 => C1 x19 | x63 => C1 x18 end
 | x19 => match y with x0 => C0 x18 | x1 => C0 x17 | x2 => C0 x16 | x3 => C0 x15 | x4 => C0 x14 | x5 => C0 x13 | x6 => C0 x12 | x7 => C0 x11 | x8 => C0 x10 | x9 => C0 x9 | x10 => C0 x8 | x11 => C0 x7 | x12 => C0 x6 | x13 => C0 x5 | x14 => C0 x4 | x15 => C0 x3 | x16 => C0 x2 | x17 => C0 x1 | x18 => C0 x0 | x19 => C1 x63 | x20 => C1 x62 | x21 => C1 x61 | x22 => C1 x60 | x23 => C1 x59 | x24 => C1 x58 | x25 => C1 x57 | x26 => C1 x56 | x27 => C1 x55 | x28 => C1 x54 | x29 => C1 x53 | x30 => C1 x52 | x31 => C1 x51 | x32 => C1 x50 | x33 => C1 x49 | x34 => C1 x48 | x35 => C1 x47 | x36 => C1 x46 | x37 => C1 x45 | x38 => C1 x44 | x39 => C1 x43 | x40 => C1 x42 | x41 => C1 x41 | x42 => C1 x40 | x43 => C1 x39 | x44 => C1 x38 | x45 => C1 x37 | x46 => C1 x36 | x47 => C1 x35 | x48 => C1 x34 | x49 => C1 x33 | x50 => C1 x32 | x51 => C1 x31 | x52 => C1 x30 | x53 => C1 x29 | x54 => C1 x28 | x55 => C1 x27 | x56 => C1 x26 | x57 => C1 x25 | x58 => C1 x24 | x59 => C1 x23 | x60 => C1 x22 | x61 => C1 x21 | x62 => C1 x20 | x63 => C1 x19 end
 | x20 => match y with x0 => C0 x19 | x1 => C0 x18 | x2 => C0 x17 | x3 => C0 x16 | x4 => C0 x15 | x5 => C0 x14 | x6 => C0 x13 | x7 => C0 x12 | x8 => C0 x11 | x9 => C0 x10 | x10 => C0 x9 | x11 => C0 x8 | x12 => C0 x7 | x13 => C0 x6 | x14 => C0 x5 | x15 => C0 x4 | x16 => C0 x3 | x17 => C0 x2 | x18 => C0 x1 | x19 => C0 x0 | x20 => C1 x63 | x21 => C1 x62 | x22 => C1 x61 | x23 => C1 x60 | x24 => C1 x59 | x25 => C1 x58 | x26 => C1 x57 | x27 => C1 x56 | x28 => C1 x55 | x29 => C1 x54 | x30 => C1 x53 | x31 => C1 x52 | x32 => C1 x51 | x33 => C1 x50 | x34 => C1 x49 | x35 => C1 x48 | x36 => C1 x47 | x37 => C1 x46 | x38 => C1 x45 | x39 => C1 x44 | x40 => C1 x43 | x41 => C1 x42 | x42 => C1 x41 | x43 => C1 x40 | x44 => C1 x39 | x45 => C1 x38 | x46 => C1 x37 | x47 => C1 x36 | x48 => C1 x35 | x49 => C1 x34 | x50 => C1 x33 | x51 => C1 x32 | x52 => C1 x31 | x53 => C1 x30 | x54 => C1 x29 | x55 => C1 x28 | x56 => C1 x27 | x57 => C1 x26 | x58 => C1 x25 | x59 => C1 x24 | x60 => C1 x23 | x61 => C1 x22 | x62 => C1 x21 | x63 => C1 x20 end
 | x21 => match y with x0 => C0 x20 | x1 => C0 x19 | x2 => C0 x18 | x3 => C0 x17 | x4 => C0 x16 | x5 => C0 x15 | x6 => C0 x14 | x7 => C0 x13 | x8 => C0 x12 | x9 => C0 x11 | x10 => C0 x10 | x11 => C0 x9 | x12 => C0 x8 | x13 => C0 x7 | x14 => C0 x6 | x15 => C0 x5 | x16 => C0 x4 | x17 => C0 x3 | x18 => C0 x2 | x19 => C0 x1 | x20 => C0 x0 | x21 => C1 x63 | x22 => C1 x62 | x23 => C1 x61 | x24 => C1 x60 | x25 => C1 x59 | x26 => C1 x58 | x27 => C1 x57 | x28 => C1 x56 | x29 => C1 x55 | x30 => C1 x54 | x31 => C1 x53 | x32 => C1 x52 | x33 => C1 x51 | x34 => C1 x50 | x35 => C1 x49 | x36 => C1 x48 | x37 => C1 x47 | x38 => C1 x46 | x39 => C1 x45 | x40 => C1 x44 | x41 => C1 x43 | x42 => C1 x42 | x43 => C1 x41 | x44 => C1 x40 | x45 => C1 x39 | x46 => C1 x38 | x47 => C1 x37 | x48 => C1 x36 | x49 => C1 x35 | x50 => C1 x34 | x51 => C1 x33 | x52 => C1 x32 | x53 => C1 x31 | x54 => C1 x30 | x55 => C1 x29 | x56 => C1 x28 | x57 => C1 x27 | x58 => C1 x26 | x59 => C1 x25 | x60 => C1 x24 | x61 => C1 x23 | x62 => C1 x22 | x63 => C1 x21 end
 | x22 => match y with x0 => C0 x21 | x1 => C0 x20 | x2 => C0 x19 | x3 => C0 x18 | x4 => C0 x17 | x5 => C0 x16 | x6 => C0 x15 | x7 => C0 x14 | x8 => C0 x13 | x9 => C0 x12 | x10 => C0 x11 | x11 => C0 x10 | x12 => C0 x9 | x13 => C0 x8 | x14 => C0 x7 | x15 => C0 x6 | x16 => C0 x5 | x17 => C0 x4 | x18 => C0 x3 | x19 => C0 x2 | x20 => C0 x1 | x21 => C0 x0 | x22 => C1 x63 | x23 => C1 x62 | x24 => C1 x61 | x25 => C1 x60 | x26 => C1 x59 | x27 => C1 x58 | x28 => C1 x57 | x29 => C1 x56 | x30 => C1 x55 | x31 => C1 x54 | x32 => C1 x53 | x33 => C1 x52 | x34 => C1 x51 | x35 => C1 x50 | x36 => C1 x49 | x37 => C1 x48 | x38 => C1 x47 | x39 => C1 x46 | x40 => C1 x45 | x41 => C1 x44 | x42 => C1 x43 | x43 => C1 x42 | x44 => C1 x41 | x45 => C1 x40 | x46 => C1 x39 | x47 => C1 x38 | x48 => C1 x37 | x49 => C1 x36 | x50 => C1 x35 | x51 => C1 x34 | x52 => C1 x33 | x53 => C1 x32 | x54 => C1 x31 | x55 => C1 x30 | x56 => C1 x29 | x57 => C1 x28 | x58 => C1 x27 | x59 => C1 x26 | x60 => C1 x25 | x61 => C1 x24 | x62 => C1 x23 | x63 => C1 x22 end
 | x23 => match y with x0 => C0 x22 | x1 => C0 x21 | x2 => C0 x20 | x3 => C0 x19 | x4 => C0 x18 | x5 => C0 x17 | x6 => C0 x16 | x7 => C0 x15 | x8 => C0 x14 | x9 => C0 x13 | x10 => C0 x12 | x11 => C0 x11 | x12 => C0 x10 | x13 => C0 x9 | x14 => C0 x8 | x15 => C0 x7 | x16 => C0 x6 | x17 => C0 x5 | x18 => C0 x4 | x19 => C0 x3 | x20 => C0 x2 | x21 => C0 x1 | x22 => C0 x0 | x23 => C1 x63 | x24 => C1 x62 | x25 => C1 x61 | x26 => C1 x60 | x27 => C1 x59 | x28 => C1 x58 | x29 => C1 x57 | x30 => C1 x56 | x31 => C1 x55 | x32 => C1 x54 | x33 => C1 x53 | x34 => C1 x52 | x35 => C1 x51 | x36 => C1 x50 | x37 => C1 x49 | x38 => C1 x48 | x39 => C1 x47 | x40 => C1 x46 | x41 => C1 x45 | x42 => C1 x44 | x43 => C1 x43 | x44 => C1 x42 | x45 => C1 x41 | x46 => C1 x40 | x47 => C1 x39 | x48 => C1 x38 | x49 => C1 x37 | x50 => C1 x36 | x51 => C1 x35 | x52 => C1 x34 | x53 => C1 x33 | x54 => C1 x32 | x55 => C1 x31 | x56 => C1 x30 | x57 => C1 x29 | x58 => C1 x28 | x59 => C1 x27 | x60 => C1 x26 | x61 => C1 x25 | x62 => C1 x24 | x63 => C1 x23 end
 | x24 => match y with x0 => C0 x23 | x1 => C0 x22 | x2 => C0 x21 | x3 => C0 x20 | x4 => C0 x19 | x5 => C0 x18 | x6 => C0 x17 | x7 => C0 x16 | x8 => C0 x15 | x9 => C0 x14 | x10 => C0 x13 | x11 => C0 x12 | x12 => C0 x11 | x13 => C0 x10 | x14 => C0 x9 | x15 => C0 x8 | x16 => C0 x7 | x17 => C0 x6 | x18 => C0 x5 | x19 => C0 x4 | x20 => C0 x3 | x21 => C0 x2 | x22 => C0 x1 | x23 => C0 x0 | x24 => C1 x63 | x25 => C1 x62 | x26 => C1 x61 | x27 => C1 x60 | x28 => C1 x59 | x29 => C1 x58 | x30 => C1 x57 | x31 => C1 x56 | x32 => C1 x55 | x33 => C1 x54 | x34 => C1 x53 | x35 => C1 x52 | x36 => C1 x51 | x37 => C1 x50 | x38 => C1 x49 | x39 => C1 x48 | x40 => C1 x47 | x41 => C1 x46 | x42 => C1 x45 | x43 => C1 x44 | x44 => C1 x43 | x45 => C1 x42 | x46 => C1 x41 | x47 => C1 x40 | x48 => C1 x39 | x49 => C1 x38 | x50 => C1 x37 | x51 => C1 x36 | x52 => C1 x35 | x53 => C1 x34 | x54 => C1 x33 | x55 => C1 x32 | x56 => C1 x31 | x57 => C1 x30 | x58 => C1 x29 | x59 => C1 x28 | x60 => C1 x27 | x61 => C1 x26 | x62 => C1 x25 | x63 => C1 x24 end
 | x25 => match y with x0 => C0 x24 | x1 => C0 x23 | x2 => C0 x22 | x3 => C0 x21 | x4 => C0 x20 | x5 => C0 x19 | x6 => C0 x18 | x7 => C0 x17 | x8 => C0 x16 | x9 => C0 x15 | x10 => C0 x14 | x11 => C0 x13 | x12 => C0 x12 | x13 => C0 x11 | x14 => C0 x10 | x15 => C0 x9 | x16 => C0 x8 | x17 => C0 x7 | x18 => C0 x6 | x19 => C0 x5 | x20 => C0 x4 | x21 => C0 x3 | x22 => C0 x2 | x23 => C0 x1 | x24 => C0 x0 | x25 => C1 x63 | x26 => C1 x62 | x27 => C1 x61 | x28 => C1 x60 | x29 => C1 x59 | x30 => C1 x58 | x31 => C1 x57 | x32 => C1 x56 | x33 => C1 x55 | x34 => C1 x54 | x35 => C1 x53 | x36 => C1 x52 | x37 => C1 x51 | x38 => C1 x50 | x39 => C1 x49 | x40 => C1 x48 | x41 => C1 x47 | x42 => C1 x46 | x43 => C1 x45 | x44 => C1 x44 | x45 => C1 x43 | x46 => C1 x42 | x47 => C1 x41 | x48 => C1 x40 | x49 => C1 x39 | x50 => C1 x38 | x51 => C1 x37 | x52 => C1 x36 | x53 => C1 x35 | x54 => C1 x34 | x55 => C1 x33 | x56 => C1 x32 | x57 => C1 x31 | x58 => C1 x30 | x59 => C1 x29 | x60 => C1 x28 | x61 => C1 x27 | x62 => C1 x26 | x63 => C1 x25 end
 | x26 => match y with x0 => C0 x25 | x1 => C0 x24 | x2 => C0 x23 | x3 => C0 x22 | x4 => C0 x21 | x5 => C0 x20 | x6 => C0 x19 | x7 => C0 x18 | x8 => C0 x17 | x9 => C0 x16 | x10 => C0 x15 | x11 => C0 x14 | x12 => C0 x13 | x13 => C0 x12 | x14 => C0 x11 | x15 => C0 x10 | x16 => C0 x9 | x17 => C0 x8 | x18 => C0 x7 | x19 => C0 x6 | x20 => C0 x5 | x21 => C0 x4 | x22 => C0 x3 | x23 => C0 x2 | x24 => C0 x1 | x25 => C0 x0 | x26 => C1 x63 | x27 => C1 x62 | x28 => C1 x61 | x29 => C1 x60 | x30 => C1 x59 | x31 => C1 x58 | x32 => C1 x57 | x33 => C1 x56 | x34 => C1 x55 | x35 => C1 x54 | x36 => C1 x53 | x37 => C1 x52 | x38 => C1 x51 | x39 => C1 x50 | x40 => C1 x49 | x41 => C1 x48 | x42 => C1 x47 | x43 => C1 x46 | x44 => C1 x45 | x45 => C1 x44 | x46 => C1 x43 | x47 => C1 x42 | x48 => C1 x41 | x49 => C1 x40 | x50 => C1 x39 | x51 => C1 x38 | x52 => C1 x37 | x53 => C1 x36 | x54 => C1 x35 | x55 => C1 x34 | x56 => C1 x33 | x57 => C1 x32 | x58 => C1 x31 | x59 => C1 x30 | x60 => C1 x29 | x61 => C1 x28 | x62 => C1 x27 | x63 => C1 x26 end
 | x27 => match y with x0 => C0 x26 | x1 => C0 x25 | x2 => C0 x24 | x3 => C0 x23 | x4 => C0 x22 | x5 => C0 x21 | x6 => C0 x20 | x7 => C0 x19 | x8 => C0 x18 | x9 => C0 x17 | x10 => C0 x16 | x11 => C0 x15 | x12 => C0 x14 | x13 => C0 x13 | x14 => C0 x12 | x15 => C0 x11 | x16 => C0 x10 | x17 => C0 x9 | x18 => C0 x8 | x19 => C0 x7 | x20 => C0 x6 | x21 => C0 x5 | x22 => C0 x4 | x23 => C0 x3 | x24 => C0 x2 | x25 => C0 x1 | x26 => C0 x0 | x27 => C1 x63 | x28 => C1 x62 | x29 => C1 x61 | x30 => C1 x60 | x31 => C1 x59 | x32 => C1 x58 | x33 => C1 x57 | x34 => C1 x56 | x35 => C1 x55 | x36 => C1 x54 | x37 => C1 x53 | x38 => C1 x52 | x39 => C1 x51 | x40 => C1 x50 | x41 => C1 x49 | x42 => C1 x48 | x43 => C1 x47 | x44 => C1 x46 | x45 => C1 x45 | x46 => C1 x44 | x47 => C1 x43 | x48 => C1 x42 | x49 => C1 x41 | x50 => C1 x40 | x51 => C1 x39 | x52 => C1 x38 | x53 => C1 x37 | x54 => C1 x36 | x55 => C1 x35 | x56 => C1 x34 | x57 => C1 x33 | x58 => C1 x32 | x59 => C1 x31 | x60 => C1 x30 | x61 => C1 x29 | x62 => C1 x28 | x63 => C1 x27 end
 | x28 => match y with x0 => C0 x27 | x1 => C0 x26 | x2 => C0 x25 | x3 => C0 x24 | x4 => C0 x23 | x5 => C0 x22 | x6 => C0 x21 | x7 => C0 x20 | x8 => C0 x19 | x9 => C0 x18 | x10 => C0 x17 | x11 => C0 x16 | x12 => C0 x15 | x13 => C0 x14 | x14 => C0 x13 | x15 => C0 x12 | x16 => C0 x11 | x17 => C0 x10 | x18 => C0 x9 | x19 => C0 x8 | x20 => C0 x7 | x21 => C0 x6 | x22 => C0 x5 | x23 => C0 x4 | x24 => C0 x3 | x25 => C0 x2 | x26 => C0 x1 | x27 => C0 x0 | x28 => C1 x63 | x29 => C1 x62 | x30 => C1 x61 | x31 => C1 x60 | x32 => C1 x59 | x33 => C1 x58 | x34 => C1 x57 | x35 => C1 x56 | x36 => C1 x55 | x37 => C1 x54 | x38 => C1 x53 | x39 => C1 x52 | x40 => C1 x51 | x41 => C1 x50 | x42 => C1 x49 | x43 => C1 x48 | x44 => C1 x47 | x45 => C1 x46 | x46 => C1 x45 | x47 => C1 x44 | x48 => C1 x43 | x49 => C1 x42 | x50 => C1 x41 | x51 => C1 x40 | x52 => C1 x39 | x53 => C1 x38 | x54 => C1 x37 | x55 => C1 x36 | x56 => C1 x35 | x57 => C1 x34 | x58 => C1 x33 | x59 => C1 x32 | x60 => C1 x31 | x61 => C1 x30 | x62 => C1 x29 | x63 => C1 x28 end
 | x29 => match y with x0 => C0 x28 | x1 => C0 x27 | x2 => C0 x26 | x3 => C0 x25 | x4 => C0 x24 | x5 => C0 x23 | x6 => C0 x22 | x7 => C0 x21 | x8 => C0 x20 | x9 => C0 x19 | x10 => C0 x18 | x11 => C0 x17 | x12 => C0 x16 | x13 => C0 x15 | x14 => C0 x14 | x15 => C0 x13 | x16 => C0 x12 | x17 => C0 x11 | x18 => C0 x10 | x19 => C0 x9 | x20 => C0 x8 | x21 => C0 x7 | x22 => C0 x6 | x23 => C0 x5 | x24 => C0 x4 | x25 => C0 x3 | x26 => C0 x2 | x27 => C0 x1 | x28 => C0 x0 | x29 => C1 x63 | x30 => C1 x62 | x31 => C1 x61 | x32 => C1 x60 | x33 => C1 x59 | x34 => C1 x58 | x35 => C1 x57 | x36 => C1 x56 | x37 => C1 x55 | x38 => C1 x54 | x39 => C1 x53 | x40 => C1 x52 | x41 => C1 x51 | x42 => C1 x50 | x43 => C1 x49 | x44 => C1 x48 | x45 => C1 x47 | x46 => C1 x46 | x47 => C1 x45 | x48 => C1 x44 | x49 => C1 x43 | x50 => C1 x42 | x51 => C1 x41 | x52 => C1 x40 | x53 => C1 x39 | x54 => C1 x38 | x55 => C1 x37 | x56 => C1 x36 | x57 => C1 x35 | x58 => C1 x34 | x59 => C1 x33 | x60 => C1 x32 | x61 => C1 x31 | x62 => C1 x30 | x63 => C1 x29 end
 | x30 => match y with x0 => C0 x29 | x1 => C0 x28 | x2 => C0 x27 | x3 => C0 x26 | x4 => C0 x25 | x5 => C0 x24 | x6 => C0 x23 | x7 => C0 x22 | x8 => C0 x21 | x9 => C0 x20 | x10 => C0 x19 | x11 => C0 x18 | x12 => C0 x17 | x13 => C0 x16 | x14 => C0 x15 | x15 => C0 x14 | x16 => C0 x13 | x17 => C0 x12 | x18 => C0 x11 | x19 => C0 x10 | x20 => C0 x9 | x21 => C0 x8 | x22 => C0 x7 | x23 => C0 x6 | x24 => C0 x5 | x25 => C0 x4 | x26 => C0 x3 | x27 => C0 x2 | x28 => C0 x1 | x29 => C0 x0 | x30 => C1 x63 | x31 => C1 x62 | x32 => C1 x61 | x33 => C1 x60 | x34 => C1 x59 | x35 => C1 x58 | x36 => C1 x57 | x37 => C1 x56 | x38 => C1 x55 | x39 => C1 x54 | x40 => C1 x53 | x41 => C1 x52 | x42 => C1 x51 | x43 => C1 x50 | x44 => C1 x49 | x45 => C1 x48 | x46 => C1 x47 | x47 => C1 x46 | x48 => C1 x45 | x49 => C1 x44 | x50 => C1 x43 | x51 => C1 x42 | x52 => C1 x41 | x53 => C1 x40 | x54 => C1 x39 | x55 => C1 x38 | x56 => C1 x37 | x57 => C1 x36 | x58 => C1 x35 | x59 => C1 x34 | x60 => C1 x33 | x61 => C1 x32 | x62 => C1 x31 | x63 => C1 x30 end
 | x31 => match y with x0 => C0 x30 | x1 => C0 x29 | x2 => C0 x28 | x3 => C0 x27 | x4 => C0 x26 | x5 => C0 x25 | x6 => C0 x24 | x7 => C0 x23 | x8 => C0 x22 | x9 => C0 x21 | x10 => C0 x20 | x11 => C0 x19 | x12 => C0 x18 | x13 => C0 x17 | x14 => C0 x16 | x15 => C0 x15 | x16 => C0 x14 | x17 => C0 x13 | x18 => C0 x12 | x19 => C0 x11 | x20 => C0 x10 | x21 => C0 x9 | x22 => C0 x8 | x23 => C0 x7 | x24 => C0 x6 | x25 => C0 x5 | x26 => C0 x4 | x27 => C0 x3 | x28 => C0 x2 | x29 => C0 x1 | x30 => C0 x0 | x31 => C1 x63 | x32 => C1 x62 | x33 => C1 x61 | x34 => C1 x60 | x35 => C1 x59 | x36 => C1 x58 | x37 => C1 x57 | x38 => C1 x56 | x39 => C1 x55 | x40 => C1 x54 | x41 => C1 x53 | x42 => C1 x52 | x43 => C1 x51 | x44 => C1 x50 | x45 => C1 x49 | x46 => C1 x48 | x47 => C1 x47 | x48 => C1 x46 | x49 => C1 x45 | x50 => C1 x44 | x51 => C1 x43 | x52 => C1 x42 | x53 => C1 x41 | x54 => C1 x40 | x55 => C1 x39 | x56 => C1 x38 | x57 => C1 x37 | x58 => C1 x36 | x59 => C1 x35 | x60 => C1 x34 | x61 => C1 x33 | x62 => C1 x32 | x63 => C1 x31 end
 | x32 => match y with x0 => C0 x31 | x1 => C0 x30 | x2 => C0 x29 | x3 => C0 x28 | x4 => C0 x27 | x5 => C0 x26 | x6 => C0 x25 | x7 => C0 x24 | x8 => C0 x23 | x9 => C0 x22 | x10 => C0 x21 | x11 => C0 x20 | x12 => C0 x19 | x13 => C0 x18 | x14 => C0 x17 | x15 => C0 x16 | x16 => C0 x15 | x17 => C0 x14 | x18 => C0 x13 | x19 => C0 x12 | x20 => C0 x11 | x21 => C0 x10 | x22 => C0 x9 | x23 => C0 x8 | x24 => C0 x7 | x25 => C0 x6 | x26 => C0 x5 | x27 => C0 x4 | x28 => C0 x3 | x29 => C0 x2 | x30 => C0 x1 | x31 => C0 x0 | x32 => C1 x63 | x33 => C1 x62 | x34 => C1 x61 | x35 => C1 x60 | x36 => C1 x59 | x37 => C1 x58 | x38 => C1 x57 | x39 => C1 x56 | x40 => C1 x55 | x41 => C1 x54 | x42 => C1 x53 | x43 => C1 x52 | x44 => C1 x51 | x45 => C1 x50 | x46 => C1 x49 | x47 => C1 x48 | x48 => C1 x47 | x49 => C1 x46 | x50 => C1 x45 | x51 => C1 x44 | x52 => C1 x43 | x53 => C1 x42 | x54 => C1 x41 | x55 => C1 x40 | x56 => C1 x39 | x57 => C1 x38 | x58 => C1 x37 | x59 => C1 x36 | x60 => C1 x35 | x61 => C1 x34 | x62 => C1 x33 | x63 => C1 x32 end
 | x33 => match y with x0 => C0 x32 | x1 => C0 x31 | x2 => C0 x30 | x3 => C0 x29 | x4 => C0 x28 | x5 => C0 x27 | x6 => C0 x26 | x7 => C0 x25 | x8 => C0 x24 | x9 => C0 x23 | x10 => C0 x22 | x11 => C0 x21 | x12 => C0 x20 | x13 => C0 x19 | x14 => C0 x18 | x15 => C0 x17 | x16 => C0 x16 | x17 => C0 x15 | x18 => C0 x14 | x19 => C0 x13 | x20 => C0 x12 | x21 => C0 x11 | x22 => C0 x10 | x23 => C0 x9 | x24 => C0 x8 | x25 => C0 x7 | x26 => C0 x6 | x27 => C0 x5 | x28 => C0 x4 | x29 => C0 x3 | x30 => C0 x2 | x31 => C0 x1 | x32 => C0 x0 | x33 => C1 x63 | x34 => C1 x62 | x35 => C1 x61 | x36 => C1 x60 | x37 => C1 x59 | x38 => C1 x58 | x39 => C1 x57 | x40 => C1 x56 | x41 => C1 x55 | x42 => C1 x54 | x43 => C1 x53 | x44 => C1 x52 | x45 => C1 x51 | x46 => C1 x50 | x47 => C1 x49 | x48 => C1 x48 | x49 => C1 x47 | x50 => C1 x46 | x51 => C1 x45 | x52 => C1 x44 | x53 => C1 x43 | x54 => C1 x42 | x55 => C1 x41 | x56 => C1 x40 | x57 => C1 x39 | x58 => C1 x38 | x59 => C1 x37 | x60 => C1 x36 | x61 => C1 x35 | x62 => C1 x34 | x63 => C1 x33 end
 | x34 => match y with x0 => C0 x33 | x1 => C0 x32 | x2 => C0 x31 | x3 => C0 x30 | x4 => C0 x29 | x5 => C0 x28 | x6 => C0 x27 | x7 => C0 x26 | x8 => C0 x25 | x9 => C0 x24 | x10 => C0 x23 | x11 => C0 x22 | x12 => C0 x21 | x13 => C0 x20 | x14 => C0 x19 | x15 => C0 x18 | x16 => C0 x17 | x17 => C0 x16 | x18 => C0 x15 | x19 => C0 x14 | x20 => C0 x13 | x21 => C0 x12 | x22 => C0 x11 | x23 => C0 x10 | x24 => C0 x9 | x25 => C0 x8 | x26 => C0 x7 | x27 => C0 x6 | x28 => C0 x5 | x29 => C0 x4 | x30 => C0 x3 | x31 => C0 x2 | x32 => C0 x1 | x33 => C0 x0 | x34 => C1 x63 | x35 => C1 x62 | x36 => C1 x61 | x37 => C1 x60 | x38 => C1 x59 | x39 => C1 x58 | x40 => C1 x57 | x41 => C1 x56 | x42 => C1 x55 | x43 => C1 x54 | x44 => C1 x53 | x45 => C1 x52 | x46 => C1 x51 | x47 => C1 x50 | x48 => C1 x49 | x49 => C1 x48 | x50 => C1 x47 | x51 => C1 x46 | x52 => C1 x45 | x53 => C1 x44 | x54 => C1 x43 | x55 => C1 x42 | x56 => C1 x41 | x57 => C1 x40 | x58 => C1 x39 | x59 => C1 x38 | x60 => C1 x37 | x61 => C1 x36 | x62 => C1 x35 | x63 => C1 x34 end
 | x35 => match y with x0 => C0 x34 | x1 => C0 x33 | x2 => C0 x32 | x3 => C0 x31 | x4 => C0 x30 | x5 => C0 x29 | x6 => C0 x28 | x7 => C0 x27 | x8 => C0 x26 | x9 => C0 x25 | x10 => C0 x24 | x11 => C0 x23 | x12 => C0 x22 | x13 => C0 x21 | x14 => C0 x20 | x15 => C0 x19 | x16 => C0 x18 | x17 => C0 x17 | x18 => C0 x16 | x19 => C0 x15 | x20 => C0 x14 | x21 => C0 x13 | x22 => C0 x12 | x23 => C0 x11 | x24 => C0 x10 | x25 => C0 x9 | x26 => C0 x8 | x27 => C0 x7 | x28 => C0 x6 | x29 => C0 x5 | x30 => C0 x4 | x31 => C0 x3 | x32 => C0 x2 | x33 => C0 x1 | x34 => C0 x0 | x35 => C1 x63 | x36 => C1 x62 | x37 => C1 x61 | x38 => C1 x60 | x39 => C1 x59 | x40 => C1 x58 | x41 => C1 x57 | x42 => C1 x56 | x43 => C1 x55 | x44 => C1 x54 | x45 => C1 x53 | x46 => C1 x52 | x47 => C1 x51 | x48 => C1 x50 | x49 => C1 x49 | x50 => C1 x48 | x51 => C1 x47 | x52 => C1 x46 | x53 => C1 x45 | x54 => C1 x44 | x55 => C1 x43 | x56 => C1 x42 | x57 => C1 x41 | x58 => C1 x40 | x59 => C1 x39 | x60 => C1 x38 | x61 => C1 x37 | x62 => C1 x36 | x63 => C1 x35 end
 | x36 => match y with x0 => C0 x35 | x1 => C0 x34 | x2 => C0 x33 | x3 => C0 x32 | x4 => C0 x31 | x5 => C0 x30 | x6 => C0 x29 | x7 => C0 x28 | x8 => C0 x27 | x9 => C0 x26 | x10 => C0 x25 | x11 => C0 x24 | x12 => C0 x23 | x13 => C0 x22 | x14 => C0 x21 | x15 => C0 x20 | x16 => C0 x19 | x17 => C0 x18 | x18 => C0 x17 | x19 => C0 x16 | x20 => C0 x15 | x21 => C0 x14 | x22 => C0 x13 | x23 => C0 x12 | x24 => C0 x11 | x25 => C0 x10 | x26 => C0 x9 | x27 => C0 x8 | x28 => C0 x7 | x29 => C0 x6 | x30 => C0 x5 | x31 => C0 x4 | x32 => C0 x3 | x33 => C0 x2 | x34 => C0 x1 | x35 => C0 x0 | x36 => C1 x63 | x37 => C1 x62 | x38 => C1 x61 | x39 => C1 x60 | x40 => C1 x59 | x41 => C1 x58 | x42 => C1 x57 | x43 => C1 x56 | x44 => C1 x55 | x45 => C1 x54 | x46 => C1 x53 | x47 => C1 x52 | x48 => C1 x51 | x49 => C1 x50 | x50 => C1 x49 | x51 => C1 x48 | x52 => C1 x47 | x53 => C1 x46 | x54 => C1 x45 | x55 => C1 x44 | x56 => C1 x43 | x57 => C1 x42 | x58 => C1 x41 | x59 => C1 x40 | x60 => C1 x39 | x61 => C1 x38 | x62 => C1 x37 | x63 => C1 x36 end
 | x37 => match y with x0 => C0 x36 | x1 => C0 x35 | x2 => C0 x34 | x3 => C0 x33 | x4 => C0 x32 | x5 => C0 x31 | x6 => C0 x30 | x7 => C0 x29 | x8 => C0 x28 | x9 => C0 x27 | x10 => C0 x26 | x11 => C0 x25 | x12 => C0 x24 | x13 => C0 x23 | x14 => C0 x22 | x15 => C0 x21 | x16 => C0 x20 | x17 => C0 x19 | x18 => C0 x18 | x19 => C0 x17 | x20 => C0 x16 | x21 => C0 x15 | x22 => C0 x14 | x23 => C0 x13 | x24 => C0 x12 | x25 => C0 x11 | x26 => C0 x10 | x27 => C0 x9 | x28 => C0 x8 | x29 => C0 x7 | x30 => C0 x6 | x31 => C0 x5 | x32 => C0 x4 | x33 => C0 x3 | x34 => C0 x2 | x35 => C0 x1 | x36 => C0 x0 | x37 => C1 x63 | x38 => C1 x62 | x39 => C1 x61 | x40 => C1 x60 | x41 => C1 x59 | x42 => C1 x58 | x43 => C1 x57 | x44 => C1 x56 | x45 => C1 x55 | x46 => C1 x54 | x47 => C1 x53 | x48 => C1 x52 | x49 => C1 x51 | x50 => C1 x50 | x51 => C1 x49 | x52 => C1 x48 | x53 => C1 x47 | x54 => C1 x46 | x55 => C1 x45 | x56 => C1 x44 | x57 => C1 x43 | x58 => C1 x42 | x59 => C1 x41 | x60 => C1 x40 | x61 => C1 x39 | x62 => C1 x38 | x63 => C1 x37 end
 | x38 => match y with x0 => C0 x37 | x1 => C0 x36 | x2 => C0 x35 | x3 => C0 x34 | x4 => C0 x33 | x5 => C0 x32 | x6 => C0 x31 | x7 => C0 x30 | x8 => C0 x29 | x9 => C0 x28 | x10 => C0 x27 | x11 => C0 x26 | x12 => C0 x25 | x13 => C0 x24 | x14 => C0 x23 | x15 => C0 x22 | x16 => C0 x21 | x17 => C0 x20 | x18 => C0 x19 | x19 => C0 x18 | x20 => C0 x17 | x21 => C0 x16 | x22 => C0 x15 | x23 => C0 x14 | x24 => C0 x13 | x25 => C0 x12 | x26 => C0 x11 | x27 => C0 x10 | x28 => C0 x9 | x29 => C0 x8 | x30 => C0 x7 | x31 => C0 x6 | x32 => C0 x5 | x33 => C0 x4 | x34 => C0 x3 | x35 => C0 x2 | x36 => C0 x1 | x37 => C0 x0 | x38 => C1 x63 | x39 => C1 x62 | x40 => C1 x61 | x41 => C1 x60 | x42 => C1 x59 | x43 => C1 x58 | x44 => C1 x57 | x45 => C1 x56 | x46 => C1 x55 | x47 => C1 x54 | x48 => C1 x53 | x49 => C1 x52 | x50 => C1 x51 | x51 => C1 x50 | x52 => C1 x49 | x53 => C1 x48 | x54 => C1 x47 | x55 => C1 x46 | x56 => C1 x45 | x57 => C1 x44 | x58 => C1 x43 | x59 => C1 x42 | x60 => C1 x41 | x61 => C1 x40 | x62 => C1 x39 | x63 => C1 x38 end
 | x39 => match y with x0 => C0 x38 | x1 => C0 x37 | x2 => C0 x36 | x3 => C0 x35 | x4 => C0 x34 | x5 => C0 x33 | x6 => C0 x32 | x7 => C0 x31 | x8 => C0 x30 | x9 => C0 x29 | x10 => C0 x28 | x11 => C0 x27 | x12 => C0 x26 | x13 => C0 x25 | x14 => C0 x24 | x15 => C0 x23 | x16 => C0 x22 | x17 => C0 x21 | x18 => C0 x20 | x19 => C0 x19 | x20 => C0 x18 | x21 => C0 x17 | x22 => C0 x16 | x23 => C0 x15 | x24 => C0 x14 | x25 => C0 x13 | x26 => C0 x12 | x27 => C0 x11 | x28 => C0 x10 | x29 => C0 x9 | x30 => C0 x8 | x31 => C0 x7 | x32 => C0 x6 | x33 => C0 x5 | x34 => C0 x4 | x35 => C0 x3 | x36 => C0 x2 | x37 => C0 x1 | x38 => C0 x0 | x39 => C1 x63 | x40 => C1 x62 | x41 => C1 x61 | x42 => C1 x60 | x43 => C1 x59 | x44 => C1 x58 | x45 => C1 x57 | x46 => C1 x56 | x47 => C1 x55 | x48 => C1 x54 | x49 => C1 x53 | x50 => C1 x52 | x51 => C1 x51 | x52 => C1 x50 | x53 => C1 x49 | x54 => C1 x48 | x55 => C1 x47 | x56 => C1 x46 | x57 => C1 x45 | x58 => C1 x44 | x59 => C1 x43 | x60 => C1 x42 | x61 => C1 x41 | x62 => C1 x40 | x63 => C1 x39 end
 | x40 => match y with x0 => C0 x39 | x1 => C0 x38 | x2 => C0 x37 | x3 => C0 x36 | x4 => C0 x35 | x5 => C0 x34 | x6 => C0 x33 | x7 => C0 x32 | x8 => C0 x31 | x9 => C0 x30 | x10 => C0 x29 | x11 => C0 x28 | x12 => C0 x27 | x13 => C0 x26 | x14 => C0 x25 | x15 => C0 x24 | x16 => C0 x23 | x17 => C0 x22 | x18 => C0 x21 | x19 => C0 x20 | x20 => C0 x19 | x21 => C0 x18 | x22 => C0 x17 | x23 => C0 x16 | x24 => C0 x15 | x25 => C0 x14 | x26 => C0 x13 | x27 => C0 x12 | x28 => C0 x11 | x29 => C0 x10 | x30 => C0 x9 | x31 => C0 x8 | x32 => C0 x7 | x33 => C0 x6 | x34 => C0 x5 | x35 => C0 x4 | x36 => C0 x3 | x37 => C0 x2 | x38 => C0 x1 | x39 => C0 x0 | x40 => C1 x63 | x41 => C1 x62 | x42 => C1 x61 | x43 => C1 x60 | x44 => C1 x59 | x45 => C1 x58 | x46 => C1 x57 | x47 => C1 x56 | x48 => C1 x55 | x49 => C1 x54 | x50 => C1 x53 | x51 => C1 x52 | x52 => C1 x51 | x53 => C1 x50 | x54 => C1 x49 | x55 => C1 x48 | x56 => C1 x47 | x57 => C1 x46 | x58 => C1 x45 | x59 => C1 x44 | x60 => C1 x43 | x61 => C1 x42 | x62 => C1 x41 | x63 => C1 x40 end
 | x41 => match y with x0 => C0 x40 | x1 => C0 x39 | x2 => C0 x38 | x3 => C0 x37 | x4 => C0 x36 | x5 => C0 x35 | x6 => C0 x34 | x7 => C0 x33 | x8 => C0 x32 | x9 => C0 x31 | x10 => C0 x30 | x11 => C0 x29 | x12 => C0 x28 | x13 => C0 x27 | x14 => C0 x26 | x15 => C0 x25 | x16 => C0 x24 | x17 => C0 x23 | x18 => C0 x22 | x19 => C0 x21 | x20 => C0 x20 | x21 => C0 x19 | x22 => C0 x18 | x23 => C0 x17 | x24 => C0 x16 | x25 => C0 x15 | x26 => C0 x14 | x27 => C0 x13 | x28 => C0 x12 | x29 => C0 x11 | x30 => C0 x10 | x31 => C0 x9 | x32 => C0 x8 | x33 => C0 x7 | x34 => C0 x6 | x35 => C0 x5 | x36 => C0 x4 | x37 => C0 x3 | x38 => C0 x2 | x39 => C0 x1 | x40 => C0 x0 | x41 => C1 x63 | x42 => C1 x62 | x43 => C1 x61 | x44 => C1 x60 | x45 => C1 x59 | x46 => C1 x58 | x47 => C1 x57 | x48 => C1 x56 | x49 => C1 x55 | x50 => C1 x54 | x51 => C1 x53 | x52 => C1 x52 | x53 => C1 x51 | x54 => C1 x50 | x55 => C1 x49 | x56 => C1 x48 | x57 => C1 x47 | x58 => C1 x46 | x59 => C1 x45 | x60 => C1 x44 | x61 => C1 x43 | x62 => C1 x42 | x63 => C1 x41 end
 | x42 => match y with x0 => C0 x41 | x1 => C0 x40 | x2 => C0 x39 | x3 => C0 x38 | x4 => C0 x37 | x5 => C0 x36 | x6 => C0 x35 | x7 => C0 x34 | x8 => C0 x33 | x9 => C0 x32 | x10 => C0 x31 | x11 => C0 x30 | x12 => C0 x29 | x13 => C0 x28 | x14 => C0 x27 | x15 => C0 x26 | x16 => C0 x25 | x17 => C0 x24 | x18 => C0 x23 | x19 => C0 x22 | x20 => C0 x21 | x21 => C0 x20 | x22 => C0 x19 | x23 => C0 x18 | x24 => C0 x17 | x25 => C0 x16 | x26 => C0 x15 | x27 => C0 x14 | x28 => C0 x13 | x29 => C0 x12 | x30 => C0 x11 | x31 => C0 x10 | x32 => C0 x9 | x33 => C0 x8 | x34 => C0 x7 | x35 => C0 x6 | x36 => C0 x5 | x37 => C0 x4 | x38 => C0 x3 | x39 => C0 x2 | x40 => C0 x1 | x41 => C0 x0 | x42 => C1 x63 | x43 => C1 x62 | x44 => C1 x61 | x45 => C1 x60 | x46 => C1 x59 | x47 => C1 x58 | x48 => C1 x57 | x49 => C1 x56 | x50 => C1 x55 | x51 => C1 x54 | x52 => C1 x53 | x53 => C1 x52 | x54 => C1 x51 | x55 => C1 x50 | x56 => C1 x49 | x57 => C1 x48 | x58 => C1 x47 | x59 => C1 x46 | x60 => C1 x45 | x61 => C1 x44 | x62 => C1 x43 | x63 => C1 x42 end
 | x43 => match y with x0 => C0 x42 | x1 => C0 x41 | x2 => C0 x40 | x3 => C0 x39 | x4 => C0 x38 | x5 => C0 x37 | x6 => C0 x36 | x7 => C0 x35 | x8 => C0 x34 | x9 => C0 x33 | x10 => C0 x32 | x11 => C0 x31 | x12 => C0 x30 | x13 => C0 x29 | x14 => C0 x28 | x15 => C0 x27 | x16 => C0 x26 | x17 => C0 x25 | x18 => C0 x24 | x19 => C0 x23 | x20 => C0 x22 | x21 => C0 x21 | x22 => C0 x20 | x23 => C0 x19 | x24 => C0 x18 | x25 => C0 x17 | x26 => C0 x16 | x27 => C0 x15 | x28 => C0 x14 | x29 => C0 x13 | x30 => C0 x12 | x31 => C0 x11 | x32 => C0 x10 | x33 => C0 x9 | x34 => C0 x8 | x35 => C0 x7 | x36 => C0 x6 | x37 => C0 x5 | x38 => C0 x4 | x39 => C0 x3 | x40 => C0 x2 | x41 => C0 x1 | x42 => C0 x0 | x43 => C1 x63 | x44 => C1 x62 | x45 => C1 x61 | x46 => C1 x60 | x47 => C1 x59 | x48 => C1 x58 | x49 => C1 x57 | x50 => C1 x56 | x51 => C1 x55 | x52 => C1 x54 | x53 => C1 x53 | x54 => C1 x52 | x55 => C1 x51 | x56 => C1 x50 | x57 => C1 x49 | x58 => C1 x48 | x59 => C1 x47 | x60 => C1 x46 | x61 => C1 x45 | x62 => C1 x44 | x63 => C1 x43 end
 | x44 => match y with x0 => C0 x43 | x1 => C0 x42 | x2 => C0 x41 | x3 => C0 x40 | x4 => C0 x39 | x5 => C0 x38 | x6 => C0 x37 | x7 => C0 x36 | x8 => C0 x35 | x9 => C0 x34 | x10 => C0 x33 | x11 => C0 x32 | x12 => C0 x31 | x13 => C0 x30 | x14 => C0 x29 | x15 => C0 x28 | x16 => C0 x27 | x17 => C0 x26 | x18 => C0 x25 | x19 => C0 x24 | x20 => C0 x23 | x21 => C0 x22 | x22 => C0 x21 | x23 => C0 x20 | x24 => C0 x19 | x25 => C0 x18 | x26 => C0 x17 | x27 => C0 x16 | x28 => C0 x15 | x29 => C0 x14 | x30 => C0 x13 | x31 => C0 x12 | x32 => C0 x11 | x33 => C0 x10 | x34 => C0 x9 | x35 => C0 x8 | x36 => C0 x7 | x37 => C0 x6 | x38 => C0 x5 | x39 => C0 x4 | x40 => C0 x3 | x41 => C0 x2 | x42 => C0 x1 | x43 => C0 x0 | x44 => C1 x63 | x45 => C1 x62 | x46 => C1 x61 | x47 => C1 x60 | x48 => C1 x59 | x49 => C1 x58 | x50 => C1 x57 | x51 => C1 x56 | x52 => C1 x55 | x53 => C1 x54 | x54 => C1 x53 | x55 => C1 x52 | x56 => C1 x51 | x57 => C1 x50 | x58 => C1 x49 | x59 => C1 x48 | x60 => C1 x47 | x61 => C1 x46 | x62 => C1 x45 | x63 => C1 x44 end
 | x45 => match y with x0 => C0 x44 | x1 => C0 x43 | x2 => C0 x42 | x3 => C0 x41 | x4 => C0 x40 | x5 => C0 x39 | x6 => C0 x38 | x7 => C0 x37 | x8 => C0 x36 | x9 => C0 x35 | x10 => C0 x34 | x11 => C0 x33 | x12 => C0 x32 | x13 => C0 x31 | x14 => C0 x30 | x15 => C0 x29 | x16 => C0 x28 | x17 => C0 x27 | x18 => C0 x26 | x19 => C0 x25 | x20 => C0 x24 | x21 => C0 x23 | x22 => C0 x22 | x23 => C0 x21 | x24 => C0 x20 | x25 => C0 x19 | x26 => C0 x18 | x27 => C0 x17 | x28 => C0 x16 | x29 => C0 x15 | x30 => C0 x14 | x31 => C0 x13 | x32 => C0 x12 | x33 => C0 x11 | x34 => C0 x10 | x35 => C0 x9 | x36 => C0 x8 | x37 => C0 x7 | x38 => C0 x6 | x39 => C0 x5 | x40 => C0 x4 | x41 => C0 x3 | x42 => C0 x2 | x43 => C0 x1 | x44 => C0 x0 | x45 => C1 x63 | x46 => C1 x62 | x47 => C1 x61 | x48 => C1 x60 | x49 => C1 x59 | x50 => C1 x58 | x51 => C1 x57 | x52 => C1 x56 | x53 => C1 x55 | x54 => C1 x54 | x55 => C1 x53 | x56 => C1 x52 | x57 => C1 x51 | x58 => C1 x50 | x59 => C1 x49 | x60 => C1 x48 | x61 => C1 x47 | x62 => C1 x46 | x63 => C1 x45 end
 | x46 => match y with x0 => C0 x45 | x1 => C0 x44 | x2 => C0 x43 | x3 => C0 x42 | x4 => C0 x41 | x5 => C0 x40 | x6 => C0 x39 | x7 => C0 x38 | x8 => C0 x37 | x9 => C0 x36 | x10 => C0 x35 | x11 => C0 x34 | x12 => C0 x33 | x13 => C0 x32 | x14 => C0 x31 | x15 => C0 x30 | x16 => C0 x29 | x17 => C0 x28 | x18 => C0 x27 | x19 => C0 x26 | x20 => C0 x25 | x21 => C0 x24 | x22 => C0 x23 | x23 => C0 x22 | x24 => C0 x21 | x25 => C0 x20 | x26 => C0 x19 | x27 => C0 x18 | x28 => C0 x17 | x29 => C0 x16 | x30 => C0 x15 | x31 => C0 x14 | x32 => C0 x13 | x33 => C0 x12 | x34 => C0 x11 | x35 => C0 x10 | x36 => C0 x9 | x37 => C0 x8 | x38 => C0 x7 | x39 => C0 x6 | x40 => C0 x5 | x41 => C0 x4 | x42 => C0 x3 | x43 => C0 x2 | x44 => C0 x1 | x45 => C0 x0 | x46 => C1 x63 | x47 => C1 x62 | x48 => C1 x61 | x49 => C1 x60 | x50 => C1 x59 | x51 => C1 x58 | x52 => C1 x57 | x53 => C1 x56 | x54 => C1 x55 | x55 => C1 x54 | x56 => C1 x53 | x57 => C1 x52 | x58 => C1 x51 | x59 => C1 x50 | x60 => C1 x49 | x61 => C1 x48 | x62 => C1 x47 | x63 => C1 x46 end
 | x47 => match y with x0 => C0 x46 | x1 => C0 x45 | x2 => C0 x44 | x3 => C0 x43 | x4 => C0 x42 | x5 => C0 x41 | x6 => C0 x40 | x7 => C0 x39 | x8 => C0 x38 | x9 => C0 x37 | x10 => C0 x36 | x11 => C0 x35 | x12 => C0 x34 | x13 => C0 x33 | x14 => C0 x32 | x15 => C0 x31 | x16 => C0 x30 | x17 => C0 x29 | x18 => C0 x28 | x19 => C0 x27 | x20 => C0 x26 | x21 => C0 x25 | x22 => C0 x24 | x23 => C0 x23 | x24 => C0 x22 | x25 => C0 x21 | x26 => C0 x20 | x27 => C0 x19 | x28 => C0 x18 | x29 => C0 x17 | x30 => C0 x16 | x31 => C0 x15 | x32 => C0 x14 | x33 => C0 x13 | x34 => C0 x12 | x35 => C0 x11 | x36 => C0 x10 | x37 => C0 x9 | x38 => C0 x8 | x39 => C0 x7 | x40 => C0 x6 | x41 => C0 x5 | x42 => C0 x4 | x43 => C0 x3 | x44 => C0 x2 | x45 => C0 x1 | x46 => C0 x0 | x47 => C1 x63 | x48 => C1 x62 | x49 => C1 x61 | x50 => C1 x60 | x51 => C1 x59 | x52 => C1 x58 | x53 => C1 x57 | x54 => C1 x56 | x55 => C1 x55 | x56 => C1 x54 | x57 => C1 x53 | x58 => C1 x52 | x59 => C1 x51 | x60 => C1 x50 | x61 => C1 x49 | x62 => C1 x48 | x63 => C1 x47 end
 | x48 => match y with x0 => C0 x47 | x1 => C0 x46 | x2 => C0 x45 | x3 => C0 x44 | x4 => C0 x43 | x5 => C0 x42 | x6 => C0 x41 | x7 => C0 x40 | x8 => C0 x39 | x9 => C0 x38 | x10 => C0 x37 | x11 => C0 x36 | x12 => C0 x35 | x13 => C0 x34 | x14 => C0 x33 | x15 => C0 x32 | x16 => C0 x31 | x17 => C0 x30 | x18 => C0 x29 | x19 => C0 x28 | x20 => C0 x27 | x21 => C0 x26 | x22 => C0 x25 | x23 => C0 x24 | x24 => C0 x23 | x25 => C0 x22 | x26 => C0 x21 | x27 => C0 x20 | x28 => C0 x19 | x29 => C0 x18 | x30 => C0 x17 | x31 => C0 x16 | x32 => C0 x15 | x33 => C0 x14 | x34 => C0 x13 | x35 => C0 x12 | x36 => C0 x11 | x37 => C0 x10 | x38 => C0 x9 | x39 => C0 x8 | x40 => C0 x7 | x41 => C0 x6 | x42 => C0 x5 | x43 => C0 x4 | x44 => C0 x3 | x45 => C0 x2 | x46 => C0 x1 | x47 => C0 x0 | x48 => C1 x63 | x49 => C1 x62 | x50 => C1 x61 | x51 => C1 x60 | x52 => C1 x59 | x53 => C1 x58 | x54 => C1 x57 | x55 => C1 x56 | x56 => C1 x55 | x57 => C1 x54 | x58 => C1 x53 | x59 => C1 x52 | x60 => C1 x51 | x61 => C1 x50 | x62 => C1 x49 | x63 => C1 x48 end
 | x49 => match y with x0 => C0 x48 | x1 => C0 x47 | x2 => C0 x46 | x3 => C0 x45 | x4 => C0 x44 | x5 => C0 x43 | x6 => C0 x42 | x7 => C0 x41 | x8 => C0 x40 | x9 => C0 x39 | x10 => C0 x38 | x11 => C0 x37 | x12 => C0 x36 | x13 => C0 x35 | x14 => C0 x34 | x15 => C0 x33 | x16 => C0 x32 | x17 => C0 x31 | x18 => C0 x30 | x19 => C0 x29 | x20 => C0 x28 | x21 => C0 x27 | x22 => C0 x26 | x23 => C0 x25 | x24 => C0 x24 | x25 => C0 x23 | x26 => C0 x22 | x27 => C0 x21 | x28 => C0 x20 | x29 => C0 x19 | x30 => C0 x18 | x31 => C0 x17 | x32 => C0 x16 | x33 => C0 x15 | x34 => C0 x14 | x35 => C0 x13 | x36 => C0 x12 | x37 => C0 x11 | x38 => C0 x10 | x39 => C0 x9 | x40 => C0 x8 | x41 => C0 x7 | x42 => C0 x6 | x43 => C0 x5 | x44 => C0 x4 | x45 => C0 x3 | x46 => C0 x2 | x47 => C0 x1 | x48 => C0 x0 | x49 => C1 x63 | x50 => C1 x62 | x51 => C1 x61 | x52 => C1 x60 | x53 => C1 x59 | x54 => C1 x58 | x55 => C1 x57 | x56 => C1 x56 | x57 => C1 x55 | x58 => C1 x54 | x59 => C1 x53 | x60 => C1 x52 | x61 => C1 x51 | x62 => C1 x50 | x63 => C1 x49 end
 | x50 => match y with x0 => C0 x49 | x1 => C0 x48 | x2 => C0 x47 | x3 => C0 x46 | x4 => C0 x45 | x5 => C0 x44 | x6 => C0 x43 | x7 => C0 x42 | x8 => C0 x41 | x9 => C0 x40 | x10 => C0 x39 | x11 => C0 x38 | x12 => C0 x37 | x13 => C0 x36 | x14 => C0 x35 | x15 => C0 x34 | x16 => C0 x33 | x17 => C0 x32 | x18 => C0 x31 | x19 => C0 x30 | x20 => C0 x29 | x21 => C0 x28 | x22 => C0 x27 | x23 => C0 x26 | x24 => C0 x25 | x25 => C0 x24 | x26 => C0 x23 | x27 => C0 x22 | x28 => C0 x21 | x29 => C0 x20 | x30 => C0 x19 | x31 => C0 x18 | x32 => C0 x17 | x33 => C0 x16 | x34 => C0 x15 | x35 => C0 x14 | x36 => C0 x13 | x37 => C0 x12 | x38 => C0 x11 | x39 => C0 x10 | x40 => C0 x9 | x41 => C0 x8 | x42 => C0 x7 | x43 => C0 x6 | x44 => C0 x5 | x45 => C0 x4 | x46 => C0 x3 | x47 => C0 x2 | x48 => C0 x1 | x49 => C0 x0 | x50 => C1 x63 | x51 => C1 x62 | x52 => C1 x61 | x53 => C1 x60 | x54 => C1 x59 | x55 => C1 x58 | x56 => C1 x57 | x57 => C1 x56 | x58 => C1 x55 | x59 => C1 x54 | x60 => C1 x53 | x61 => C1 x52 | x62 => C1 x51 | x63 => C1 x50 end
 | x51 => match y with x0 => C0 x50 | x1 => C0 x49 | x2 => C0 x48 | x3 => C0 x47 | x4 => C0 x46 | x5 => C0 x45 | x6 => C0 x44 | x7 => C0 x43 | x8 => C0 x42 | x9 => C0 x41 | x10 => C0 x40 | x11 => C0 x39 | x12 => C0 x38 | x13 => C0 x37 | x14 => C0 x36 | x15 => C0 x35 | x16 => C0 x34 | x17 => C0 x33 | x18 => C0 x32 | x19 => C0 x31 | x20 => C0 x30 | x21 => C0 x29 | x22 => C0 x28 | x23 => C0 x27 | x24 => C0 x26 | x25 => C0 x25 | x26 => C0 x24 | x27 => C0 x23 | x28 => C0 x22 | x29 => C0 x21 | x30 => C0 x20 | x31 => C0 x19 | x32 => C0 x18 | x33 => C0 x17 | x34 => C0 x16 | x35 => C0 x15 | x36 => C0 x14 | x37 => C0 x13 | x38 => C0 x12 | x39 => C0 x11 | x40 => C0 x10 | x41 => C0 x9 | x42 => C0 x8 | x43 => C0 x7 | x44 => C0 x6 | x45 => C0 x5 | x46 => C0 x4 | x47 => C0 x3 | x48 => C0 x2 | x49 => C0 x1 | x50 => C0 x0 | x51 => C1 x63 | x52 => C1 x62 | x53 => C1 x61 | x54 => C1 x60 | x55 => C1 x59 | x56 => C1 x58 | x57 => C1 x57 | x58 => C1 x56 | x59 => C1 x55 | x60 => C1 x54 | x61 => C1 x53 | x62 => C1 x52 | x63 => C1 x51 end
 | x52 => match y with x0 => C0 x51 | x1 => C0 x50 | x2 => C0 x49 | x3 => C0 x48 | x4 => C0 x47 | x5 => C0 x46 | x6 => C0 x45 | x7 => C0 x44 | x8 => C0 x43 | x9 => C0 x42 | x10 => C0 x41 | x11 => C0 x40 | x12 => C0 x39 | x13 => C0 x38 | x14 => C0 x37 | x15 => C0 x36 | x16 => C0 x35 | x17 => C0 x34 | x18 => C0 x33 | x19 => C0 x32 | x20 => C0 x31 | x21 => C0 x30 | x22 => C0 x29 | x23 => C0 x28 | x24 => C0 x27 | x25 => C0 x26 | x26 => C0 x25 | x27 => C0 x24 | x28 => C0 x23 | x29 => C0 x22 | x30 => C0 x21 | x31 => C0 x20 | x32 => C0 x19 | x33 => C0 x18 | x34 => C0 x17 | x35 => C0 x16 | x36 => C0 x15 | x37 => C0 x14 | x38 => C0 x13 | x39 => C0 x12 | x40 => C0 x11 | x41 => C0 x10 | x42 => C0 x9 | x43 => C0 x8 | x44 => C0 x7 | x45 => C0 x6 | x46 => C0 x5 | x47 => C0 x4 | x48 => C0 x3 | x49 => C0 x2 | x50 => C0 x1 | x51 => C0 x0 | x52 => C1 x63 | x53 => C1 x62 | x54 => C1 x61 | x55 => C1 x60 | x56 => C1 x59 | x57 => C1 x58 | x58 => C1 x57 | x59 => C1 x56 | x60 => C1 x55 | x61 => C1 x54 | x62 => C1 x53 | x63 => C1 x52 end
 | x53 => match y with x0 => C0 x52 | x1 => C0 x51 | x2 => C0 x50 | x3 => C0 x49 | x4 => C0 x48 | x5 => C0 x47 | x6 => C0 x46 | x7 => C0 x45 | x8 => C0 x44 | x9 => C0 x43 | x10 => C0 x42 | x11 => C0 x41 | x12 => C0 x40 | x13 => C0 x39 | x14 => C0 x38 | x15 => C0 x37 | x16 => C0 x36 | x17 => C0 x35 | x18 => C0 x34 | x19 => C0 x33 | x20 => C0 x32 | x21 => C0 x31 | x22 => C0 x30 | x23 => C0 x29 | x24 => C0 x28 | x25 => C0 x27 | x26 => C0 x26 | x27 => C0 x25 | x28 => C0 x24 | x29 => C0 x23 | x30 => C0 x22 | x31 => C0 x21 | x32 => C0 x20 | x33 => C0 x19 | x34 => C0 x18 | x35 => C0 x17 | x36 => C0 x16 | x37 => C0 x15 | x38 => C0 x14 | x39 => C0 x13 | x40 => C0 x12 | x41 => C0 x11 | x42 => C0 x10 | x43 => C0 x9 | x44 => C0 x8 | x45 => C0 x7 | x46 => C0 x6 | x47 => C0 x5 | x48 => C0 x4 | x49 => C0 x3 | x50 => C0 x2 | x51 => C0 x1 | x52 => C0 x0 | x53 => C1 x63 | x54 => C1 x62 | x55 => C1 x61 | x56 => C1 x60 | x57 => C1 x59 | x58 => C1 x58 | x59 => C1 x57 | x60 => C1 x56 | x61 => C1 x55 | x62 => C1 x54 | x63 => C1 x53 end
 | x54 => match y with x0 => C0 x53 | x1 => C0 x52 | x2 => C0 x51 | x3 => C0 x50 | x4 => C0 x49 | x5 => C0 x48 | x6 => C0 x47 | x7 => C0 x46 | x8 => C0 x45 | x9 => C0 x44 | x10 => C0 x43 | x11 => C0 x42 | x12 => C0 x41 | x13 => C0 x40 | x14 => C0 x39 | x15 => C0 x38 | x16 => C0 x37 | x17 => C0 x36 | x18 => C0 x35 | x19 => C0 x34 | x20 => C0 x33 | x21 => C0 x32 | x22 => C0 x31 | x23 => C0 x30 | x24 => C0 x29 | x25 => C0 x28 | x26 => C0 x27 | x27 => C0 x26 | x28 => C0 x25 | x29 => C0 x24 | x30 => C0 x23 | x31 => C0 x22 | x32 => C0 x21 | x33 => C0 x20 | x34 => C0 x19 | x35 => C0 x18 | x36 => C0 x17 | x37 => C0 x16 | x38 => C0 x15 | x39 => C0 x14 | x40 => C0 x13 | x41 => C0 x12 | x42 => C0 x11 | x43 => C0 x10 | x44 => C0 x9 | x45 => C0 x8 | x46 => C0 x7 | x47 => C0 x6 | x48 => C0 x5 | x49 => C0 x4 | x50 => C0 x3 | x51 => C0 x2 | x52 => C0 x1 | x53 => C0 x0 | x54 => C1 x63 | x55 => C1 x62 | x56 => C1 x61 | x57 => C1 x60 | x58 => C1 x59 | x59 => C1 x58 | x60 => C1 x57 | x61 => C1 x56 | x62 => C1 x55 | x63 => C1 x54 end
 | x55 => match y with x0 => C0 x54 | x1 => C0 x53 | x2 => C0 x52 | x3 => C0 x51 | x4 => C0 x50 | x5 => C0 x49 | x6 => C0 x48 | x7 => C0 x47 | x8 => C0 x46 | x9 => C0 x45 | x10 => C0 x44 | x11 => C0 x43 | x12 => C0 x42 | x13 => C0 x41 | x14 => C0 x40 | x15 => C0 x39 | x16 => C0 x38 | x17 => C0 x37 | x18 => C0 x36 | x19 => C0 x35 | x20 => C0 x34 | x21 => C0 x33 | x22 => C0 x32 | x23 => C0 x31 | x24 => C0 x30 | x25 => C0 x29 | x26 => C0 x28 | x27 => C0 x27 | x28 => C0 x26 | x29 => C0 x25 | x30 => C0 x24 | x31 => C0 x23 | x32 => C0 x22 | x33 => C0 x21 | x34 => C0 x20 | x35 => C0 x19 | x36 => C0 x18 | x37 => C0 x17 | x38 => C0 x16 | x39 => C0 x15 | x40 => C0 x14 | x41 => C0 x13 | x42 => C0 x12 | x43 => C0 x11 | x44 => C0 x10 | x45 => C0 x9 | x46 => C0 x8 | x47 => C0 x7 | x48 => C0 x6 | x49 => C0 x5 | x50 => C0 x4 | x51 => C0 x3 | x52 => C0 x2 | x53 => C0 x1 | x54 => C0 x0 | x55 => C1 x63 | x56 => C1 x62 | x57 => C1 x61 | x58 => C1 x60 | x59 => C1 x59 | x60 => C1 x58 | x61 => C1 x57 | x62 => C1 x56 | x63 => C1 x55 end
 | x56 => match y with x0 => C0 x55 | x1 => C0 x54 | x2 => C0 x53 | x3 => C0 x52 | x4 => C0 x51 | x5 => C0 x50 | x6 => C0 x49 | x7 => C0 x48 | x8 => C0 x47 | x9 => C0 x46 | x10 => C0 x45 | x11 => C0 x44 | x12 => C0 x43 | x13 => C0 x42 | x14 => C0 x41 | x15 => C0 x40 | x16 => C0 x39 | x17 => C0 x38 | x18 => C0 x37 | x19 => C0 x36 | x20 => C0 x35 | x21 => C0 x34 | x22 => C0 x33 | x23 => C0 x32 | x24 => C0 x31 | x25 => C0 x30 | x26 => C0 x29 | x27 => C0 x28 | x28 => C0 x27 | x29 => C0 x26 | x30 => C0 x25 | x31 => C0 x24 | x32 => C0 x23 | x33 => C0 x22 | x34 => C0 x21 | x35 => C0 x20 | x36 => C0 x19 | x37 => C0 x18 | x38 => C0 x17 | x39 => C0 x16 | x40 => C0 x15 | x41 => C0 x14 | x42 => C0 x13 | x43 => C0 x12 | x44 => C0 x11 | x45 => C0 x10 | x46 => C0 x9 | x47 => C0 x8 | x48 => C0 x7 | x49 => C0 x6 | x50 => C0 x5 | x51 => C0 x4 | x52 => C0 x3 | x53 => C0 x2 | x54 => C0 x1 | x55 => C0 x0 | x56 => C1 x63 | x57 => C1 x62 | x58 => C1 x61 | x59 => C1 x60 | x60 => C1 x59 | x61 => C1 x58 | x62 => C1 x57 | x63 => C1 x56 end
 | x57 => match y with x0 => C0 x56 | x1 => C0 x55 | x2 => C0 x54 | x3 => C0 x53 | x4 => C0 x52 | x5 => C0 x51 | x6 => C0 x50 | x7 => C0 x49 | x8 => C0 x48 | x9 => C0 x47 | x10 => C0 x46 | x11 => C0 x45 | x12 => C0 x44 | x13 => C0 x43 | x14 => C0 x42 | x15 => C0 x41 | x16 => C0 x40 | x17 => C0 x39 | x18 => C0 x38 | x19 => C0 x37 | x20 => C0 x36 | x21 => C0 x35 | x22 => C0 x34 | x23 => C0 x33 | x24 => C0 x32 | x25 => C0 x31 | x26 => C0 x30 | x27 => C0 x29 | x28 => C0 x28 | x29 => C0 x27 | x30 => C0 x26 | x31 => C0 x25 | x32 => C0 x24 | x33 => C0 x23 | x34 => C0 x22 | x35 => C0 x21 | x36 => C0 x20 | x37 => C0 x19 | x38 => C0 x18 | x39 => C0 x17 | x40 => C0 x16 | x41 => C0 x15 | x42 => C0 x14 | x43 => C0 x13 | x44 => C0 x12 | x45 => C0 x11 | x46 => C0 x10 | x47 => C0 x9 | x48 => C0 x8 | x49 => C0 x7 | x50 => C0 x6 | x51 => C0 x5 | x52 => C0 x4 | x53 => C0 x3 | x54 => C0 x2 | x55 => C0 x1 | x56 => C0 x0 | x57 => C1 x63 | x58 => C1 x62 | x59 => C1 x61 | x60 => C1 x60 | x61 => C1 x59 | x62 => C1 x58 | x63 => C1 x57 end
 | x58 => match y with x0 => C0 x57 | x1 => C0 x56 | x2 => C0 x55 | x3 => C0 x54 | x4 => C0 x53 | x5 => C0 x52 | x6 => C0 x51 | x7 => C0 x50 | x8 => C0 x49 | x9 => C0 x48 | x10 => C0 x47 | x11 => C0 x46 | x12 => C0 x45 | x13 => C0 x44 | x14 => C0 x43 | x15 => C0 x42 | x16 => C0 x41 | x17 => C0 x40 | x18 => C0 x39 | x19 => C0 x38 | x20 => C0 x37 | x21 => C0 x36 | x22 => C0 x35 | x23 => C0 x34 | x24 => C0 x33 | x25 => C0 x32 | x26 => C0 x31 | x27 => C0 x30 | x28 => C0 x29 | x29 => C0 x28 | x30 => C0 x27 | x31 => C0 x26 | x32 => C0 x25 | x33 => C0 x24 | x34 => C0 x23 | x35 => C0 x22 | x36 => C0 x21 | x37 => C0 x20 | x38 => C0 x19 | x39 => C0 x18 | x40 => C0 x17 | x41 => C0 x16 | x42 => C0 x15 | x43 => C0 x14 | x44 => C0 x13 | x45 => C0 x12 | x46 => C0 x11 | x47 => C0 x10 | x48 => C0 x9 | x49 => C0 x8 | x50 => C0 x7 | x51 => C0 x6 | x52 => C0 x5 | x53 => C0 x4 | x54 => C0 x3 | x55 => C0 x2 | x56 => C0 x1 | x57 => C0 x0 | x58 => C1 x63 | x59 => C1 x62 | x60 => C1 x61 | x61 => C1 x60 | x62 => C1 x59 | x63 => C1 x58 end
 | x59 => match y with x0 => C0 x58 | x1 => C0 x57 | x2 => C0 x56 | x3 => C0 x55 | x4 => C0 x54 | x5 => C0 x53 | x6 => C0 x52 | x7 => C0 x51 | x8 => C0 x50 | x9 => C0 x49 | x10 => C0 x48 | x11 => C0 x47 | x12 => C0 x46 | x13 => C0 x45 | x14 => C0 x44 | x15 => C0 x43 | x16 => C0 x42 | x17 => C0 x41 | x18 => C0 x40 | x19 => C0 x39 | x20 => C0 x38 | x21 => C0 x37 | x22 => C0 x36 | x23 => C0 x35 | x24 => C0 x34 | x25 => C0 x33 | x26 => C0 x32 | x27 => C0 x31 | x28 => C0 x30 | x29 => C0 x29 | x30 => C0 x28 | x31 => C0 x27 | x32 => C0 x26 | x33 => C0 x25 | x34 => C0 x24 | x35 => C0 x23 | x36 => C0 x22 | x37 => C0 x21 | x38 => C0 x20 | x39 => C0 x19 | x40 => C0 x18 | x41 => C0 x17 | x42 => C0 x16 | x43 => C0 x15 | x44 => C0 x14 | x45 => C0 x13 | x46 => C0 x12 | x47 => C0 x11 | x48 => C0 x10 | x49 => C0 x9 | x50 => C0 x8 | x51 => C0 x7 | x52 => C0 x6 | x53 => C0 x5 | x54 => C0 x4 | x55 => C0 x3 | x56 => C0 x2 | x57 => C0 x1 | x58 => C0 x0 | x59 => C1 x63 | x60 => C1 x62 | x61 => C1 x61 | x62 => C1 x60 | x63 => C1 x59 end
 | x60 => match y with x0 => C0 x59 | x1 => C0 x58 | x2 => C0 x57 | x3 => C0 x56 | x4 => C0 x55 | x5 => C0 x54 | x6 => C0 x53 | x7 => C0 x52 | x8 => C0 x51 | x9 => C0 x50 | x10 => C0 x49 | x11 => C0 x48 | x12 => C0 x47 | x13 => C0 x46 | x14 => C0 x45 | x15 => C0 x44 | x16 => C0 x43 | x17 => C0 x42 | x18 => C0 x41 | x19 => C0 x40 | x20 => C0 x39 | x21 => C0 x38 | x22 => C0 x37 | x23 => C0 x36 | x24 => C0 x35 | x25 => C0 x34 | x26 => C0 x33 | x27 => C0 x32 | x28 => C0 x31 | x29 => C0 x30 | x30 => C0 x29 | x31 => C0 x28 | x32 => C0 x27 | x33 => C0 x26 | x34 => C0 x25 | x35 => C0 x24 | x36 => C0 x23 | x37 => C0 x22 | x38 => C0 x21 | x39 => C0 x20 | x40 => C0 x19 | x41 => C0 x18 | x42 => C0 x17 | x43 => C0 x16 | x44 => C0 x15 | x45 => C0 x14 | x46 => C0 x13 | x47 => C0 x12 | x48 => C0 x11 | x49 => C0 x10 | x50 => C0 x9 | x51 => C0 x8 | x52 => C0 x7 | x53 => C0 x6 | x54 => C0 x5 | x55 => C0 x4 | x56 => C0 x3 | x57 => C0 x2 | x58 => C0 x1 | x59 => C0 x0 | x60 => C1 x63 | x61 => C1 x62 | x62 => C1 x61 | x63 => C1 x60 end
 | x61 => match y with x0 => C0 x60 | x1 => C0 x59 | x2 => C0 x58 | x3 => C0 x57 | x4 => C0 x56 | x5 => C0 x55 | x6 => C0 x54 | x7 => C0 x53 | x8 => C0 x52 | x9 => C0 x51 | x10 => C0 x50 | x11 => C0 x49 | x12 => C0 x48 | x13 => C0 x47 | x14 => C0 x46 | x15 => C0 x45 | x16 => C0 x44 | x17 => C0 x43 | x18 => C0 x42 | x19 => C0 x41 | x20 => C0 x40 | x21 => C0 x39 | x22 => C0 x38 | x23 => C0 x37 | x24 => C0 x36 | x25 => C0 x35 | x26 => C0 x34 | x27 => C0 x33 | x28 => C0 x32 | x29 => C0 x31 | x30 => C0 x30 | x31 => C0 x29 | x32 => C0 x28 | x33 => C0 x27 | x34 => C0 x26 | x35 => C0 x25 | x36 => C0 x24 | x37 => C0 x23 | x38 => C0 x22 | x39 => C0 x21 | x40 => C0 x20 | x41 => C0 x19 | x42 => C0 x18 | x43 => C0 x17 | x44 => C0 x16 | x45 => C0 x15 | x46 => C0 x14 | x47 => C0 x13 | x48 => C0 x12 | x49 => C0 x11 | x50 => C0 x10 | x51 => C0 x9 | x52 => C0 x8 | x53 => C0 x7 | x54 => C0 x6 | x55 => C0 x5 | x56 => C0 x4 | x57 => C0 x3 | x58 => C0 x2 | x59 => C0 x1 | x60 => C0 x0 | x61 => C1 x63 | x62 => C1 x62 | x63 => C1 x61 end
 | x62 => match y with x0 => C0 x61 | x1 => C0 x60 | x2 => C0 x59 | x3 => C0 x58 | x4 => C0 x57 | x5 => C0 x56 | x6 => C0 x55 | x7 => C0 x54 | x8 => C0 x53 | x9 => C0 x52 | x10 => C0 x51 | x11 => C0 x50 | x12 => C0 x49 | x13 => C0 x48 | x14 => C0 x47 | x15 => C0 x46 | x16 => C0 x45 | x17 => C0 x44 | x18 => C0 x43 | x19 => C0 x42 | x20 => C0 x41 | x21 => C0 x40 | x22 => C0 x39 | x23 => C0 x38 | x24 => C0 x37 | x25 => C0 x36 | x26 => C0 x35 | x27 => C0 x34 | x28 => C0 x33 | x29 => C0 x32 | x30 => C0 x31 | x31 => C0 x30 | x32 => C0 x29 | x33 => C0 x28 | x34 => C0 x27 | x35 => C0 x26 | x36 => C0 x25 | x37 => C0 x24 | x38 => C0 x23 | x39 => C0 x22 | x40 => C0 x21 | x41 => C0 x20 | x42 => C0 x19 | x43 => C0 x18 | x44 => C0 x17 | x45 => C0 x16 | x46 => C0 x15 | x47 => C0 x14 | x48 => C0 x13 | x49 => C0 x12 | x50 => C0 x11 | x51 => C0 x10 | x52 => C0 x9 | x53 => C0 x8 | x54 => C0 x7 | x55 => C0 x6 | x56 => C0 x5 | x57 => C0 x4 | x58 => C0 x3 | x59 => C0 x2 | x60 => C0 x1 | x61 => C0 x0 | x62 => C1 x63 | x63 => C1 x62 end
 | x63 => match y with x0 => C0 x62 | x1 => C0 x61 | x2 => C0 x60 | x3 => C0 x59 | x4 => C0 x58 | x5 => C0 x57 | x6 => C0 x56 | x7 => C0 x55 | x8 => C0 x54 | x9 => C0 x53 | x10 => C0 x52 | x11 => C0 x51 | x12 => C0 x50 | x13 => C0 x49 | x14 => C0 x48 | x15 => C0 x47 | x16 => C0 x46 | x17 => C0 x45 | x18 => C0 x44 | x19 => C0 x43 | x20 => C0 x42 | x21 => C0 x41 | x22 => C0 x40 | x23 => C0 x39 | x24 => C0 x38 | x25 => C0 x37 | x26 => C0 x36 | x27 => C0 x35 | x28 => C0 x34 | x29 => C0 x33 | x30 => C0 x32 | x31 => C0 x31 | x32 => C0 x30 | x33 => C0 x29 | x34 => C0 x28 | x35 => C0 x27 | x36 => C0 x26 | x37 => C0 x25 | x38 => C0 x24 | x39 => C0 x23 | x40 => C0 x22 | x41 => C0 x21 | x42 => C0 x20 | x43 => C0 x19 | x44 => C0 x18 | x45 => C0 x17 | x46 => C0 x16 | x47 => C0 x15 | x48 => C0 x14 | x49 => C0 x13 | x50 => C0 x12 | x51 => C0 x11 | x52 => C0 x10 | x53 => C0 x9 | x54 => C0 x8 | x55 => C0 x7 | x56 => C0 x6 | x57 => C0 x5 | x58 => C0 x4 | x59 => C0 x3 | x60 => C0 x2 | x61 => C0 x1 | x62 => C0 x0 | x63 => C1 x63 end
 end.

Definition dv (d : dig) : Z :=
  match d with x0 => 0 | x1 => 1 | x2 => 2 | x3 => 3 | x4 => 4 | x5 => 5 | x6 => 6 | x7 => 7 | x8 => 8 | x9 => 9 | x10 => 10 | x11 => 11 | x12 => 12 | x13 => 13 | x14 => 14 | x15 => 15 | x16 => 16 | x17 => 17 | x18 => 18 | x19 => 19 | x20 => 20 | x21 => 21 | x22 => 22 | x23 => 23 | x24 => 24 | x25 => 25 | x26 => 26 | x27 => 27 | x28 => 28 | x29 => 29 | x30 => 30 | x31 => 31 | x32 => 32 | x33 => 33 | x34 => 34 | x35 => 35 | x36 => 36 | x37 => 37 | x38 => 38 | x39 => 39 | x40 => 40 | x41 => 41 | x42 => 42 | x43 => 43 | x44 => 44 | x45 => 45 | x46 => 46 | x47 => 47 | x48 => 48 | x49 => 49 | x50 => 50 | x51 => 51 | x52 => 52 | x53 => 53 | x54 => 54 | x55 => 55 | x56 => 56 | x57 => 57 | x58 => 58 | x59 => 59 | x60 => 60 | x61 => 61 | x62 => 62 | x63 => 63 end.
Definition sv (d : sum2) : Z :=
  match d with s0 => 0 | s1 => 1 | s2 => 2 | s3 => 3 | s4 => 4 | s5 => 5 | s6 => 6 | s7 => 7 | s8 => 8 | s9 => 9 | s10 => 10 | s11 => 11 | s12 => 12 | s13 => 13 | s14 => 14 | s15 => 15 | s16 => 16 | s17 => 17 | s18 => 18 | s19 => 19 | s20 => 20 | s21 => 21 | s22 => 22 | s23 => 23 | s24 => 24 | s25 => 25 | s26 => 26 | s27 => 27 | s28 => 28 | s29 => 29 | s30 => 30 | s31 => 31 | s32 => 32 | s33 => 33 | s34 => 34 | s35 => 35 | s36 => 36 | s37 => 37 | s38 => 38 | s39 => 39 | s40 => 40 | s41 => 41 | s42 => 42 | s43 => 43 | s44 => 44 | s45 => 45 | s46 => 46 | s47 => 47 | s48 => 48 | s49 => 49 | s50 => 50 | s51 => 51 | s52 => 52 | s53 => 53 | s54 => 54 | s55 => 55 | s56 => 56 | s57 => 57 | s58 => 58 | s59 => 59 | s60 => 60 | s61 => 61 | s62 => 62 | s63 => 63 | s64 => 64 | s65 => 65 | s66 => 66 | s67 => 67 | s68 => 68 | s69 => 69 | s70 => 70 | s71 => 71 | s72 => 72 | s73 => 73 | s74 => 74 | s75 => 75 | s76 => 76 | s77 => 77 | s78 => 78 | s79 => 79 | s80 => 80 | s81 => 81 | s82 => 82 | s83 => 83 | s84 => 84 | s85 => 85 | s86 => 86 | s87 => 87 | s88 => 88 | s89 => 89 | s90 => 90 | s91 => 91 | s92 => 92 | s93 => 93 | s94 => 94 | s95 => 95 | s96 => 96 | s97 => 97 | s98 => 98 | s99 => 99 | s100 => 100 | s101 => 101 | s102 => 102 | s103 => 103 | s104 => 104 | s105 => 105 | s106 => 106 | s107 => 107 | s108 => 108 | s109 => 109 | s110 => 110 | s111 => 111 | s112 => 112 | s113 => 113 | s114 => 114 | s115 => 115 | s116 => 116 | s117 => 117 | s118 => 118 | s119 => 119 | s120 => 120 | s121 => 121 | s122 => 122 | s123 => 123 | s124 => 124 | s125 => 125 | s126 => 126 end.
Definition digs : list dig := [x0; x1; x2; x3; x4; x5; x6; x7; x8; x9; x10; x11; x12; x13; x14; x15; x16; x17; x18; x19; x20; x21; x22; x23; x24; x25; x26; x27; x28; x29; x30; x31; x32; x33; x34; x35; x36; x37; x38; x39; x40; x41; x42; x43; x44; x45; x46; x47; x48; x49; x50; x51; x52; x53; x54; x55; x56; x57; x58; x59; x60; x61; x62; x63].
Definition sums : list sum2 := [s0; s1; s2; s3; s4; s5; s6; s7; s8; s9; s10; s11; s12; s13; s14; s15; s16; s17; s18; s19; s20; s21; s22; s23; s24; s25; s26; s27; s28; s29; s30; s31; s32; s33; s34; s35; s36; s37; s38; s39; s40; s41; s42; s43; s44; s45; s46; s47; s48; s49; s50; s51; s52; s53; s54; s55; s56; s57; s58; s59; s60; s61; s62; s63; s64; s65; s66; s67; s68; s69; s70; s71; s72; s73; s74; s75; s76; s77; s78; s79; s80; s81; s82; s83; s84; s85; s86; s87; s88; s89; s90; s91; s92; s93; s94; s95; s96; s97; s98; s99; s100; s101; s102; s103; s104; s105; s106; s107; s108; s109; s110; s111; s112; s113; s114; s115; s116; s117; s118; s119; s120; s121; s122; s123; s124; s125; s126].
Definition cdv (c : cd) : Z := match c with C0 d => dv d | C1 d => dv d + 64 end.
Fixpoint ev (l : num) : Z := match l with NE => 0 | NC d l => dv d + 64 * ev l end.

Lemma in_digs d : In d digs.
Proof. destruct d; cbn; tauto. Qed.
Lemma in_sums d : In d sums.
Proof. destruct d; cbn; tauto. Qed.
Lemma dv_range d : 0 <= dv d < 64.
Proof. destruct d; cbn; lia. Qed.
Lemma all_digs (f : dig -> bool) : forallb f digs = true -> forall d, f d = true.
Proof. intros H d. rewrite forallb_forall in H. apply H. apply in_digs. Qed.
Lemma all_sums (f : sum2 -> bool) : forallb f sums = true -> forall d, f d = true.
Proof. intros H d. rewrite forallb_forall in H. apply H. apply in_sums. Qed.
Lemma mac_ok x y c : let 'DD h l := mac x y c in dv l + 64 * dv h = dv x * dv y + sv c.
Proof.
  assert (forallb (fun x => forallb (fun y => forallb (fun c => let 'DD h l := mac x y c in dv l + 64 * dv h =? dv x * dv y + sv c) sums) digs) digs = true) as H by (vm_compute; reflexivity).
  pose proof (all_digs _ H x) as H1. pose proof (all_digs _ H1 y) as H2. pose proof (all_sums _ H2 c) as H3. cbv beta in H3. destruct (mac x y c) as [h l]. now apply Z.eqb_eq in H3.
Qed.
Lemma two_digs (f : dig -> dig -> Z) (g : dig -> dig -> Z) : forallb (fun x => forallb (fun y => f x y =? g x y) digs) digs = true -> forall x y, f x y = g x y.
Proof. intros H x y. pose proof (all_digs _ H x) as H1. pose proof (all_digs _ H1 y) as H2. now apply Z.eqb_eq in H2. Qed.
Lemma ad_ok : forall x y, sv (ad x y) = dv x + dv y.
Proof. apply two_digs. vm_compute. reflexivity. Qed.
Lemma ad0_ok x : sv (ad0 x) = dv x.
Proof. destruct x; reflexivity. Qed.
Lemma adc0_ok : forall x y, cdv (adc0 x y) = dv x + dv y.
Proof. apply two_digs. vm_compute. reflexivity. Qed.
Lemma adc1_ok : forall x y, cdv (adc1 x y) = dv x + dv y + 1.
Proof. apply two_digs. vm_compute. reflexivity. Qed.
Lemma inc_ok x : cdv (inc x) = dv x + 1.
Proof. destruct x; reflexivity. Qed.
Definition bdv (c : cd) : Z := match c with C0 d => dv d | C1 d => dv d - 64 end.
Lemma sbb0_ok : forall x y, bdv (sbb0 x y) = dv x - dv y.
Proof. apply two_digs. vm_compute. reflexivity. Qed.
Lemma sbb1_ok : forall x y, bdv (sbb1 x y) = dv x - dv y - 1.
Proof. apply two_digs. vm_compute. reflexivity. Qed.

(** ** Numbers *)
(** t + 1. *)
Fixpoint incl (t : num) : num := match t with NE => NC x1 NE | NC d t => match inc d with C0 s => NC s t | C1 s => NC s (incl t) end end.
(** t + c. *)
Definition prop (t : num) (c : dig) : num :=
  match t with
  | NE => match c with x0 => NE | _ => NC c NE end
  | NC d t => match adc0 c d with C0 s => NC s t | C1 s => NC s (incl t) end
  end.
(** t + x * y + c; f multiplies by x. *)
Section Row.
  Variable f : dig -> sum2 -> dd.
  Fixpoint row (y t : num) (c : dig) : num :=
    match y with
    | NE => prop t c
    | NC e y' =>
        match t with
        | NE => match f e (ad0 c) with DD h l => NC l (row y' NE h) end
        | NC d t' => match f e (ad c d) with DD h l => NC l (row y' t' h) end
        end
    end.
End Row.
Fixpoint mull (x y : num) : num :=
  match x with
  | NE => NE
  | NC d x' => row (mac d) y (NC x0 (mull x' y)) x0
  end.
(** x + y, and x + y + 1. *)
Fixpoint addl (x y : num) : num :=
  match x with
  | NE => y
  | NC d x' => match y with NE => x | NC e y' => match adc0 d e with C0 s => NC s (addl x' y') | C1 s => NC s (addl1 x' y') end end
  end
with addl1 (x y : num) : num :=
  match x with
  | NE => incl y
  | NC d x' => match y with NE => incl x | NC e y' => match adc1 d e with C0 s => NC s (addl x' y') | C1 s => NC s (addl1 x' y') end end
  end.
(** A difference. *)
Inductive diff : Set := Neg | Dif (n : num).
Definition dcons (d : dig) (r : diff) : diff := match r with Neg => Neg | Dif n => Dif (NC d n) end.
Fixpoint decl (t : num) : diff := match t with NE => Neg | NC d t => match sbb1 d x0 with C0 s => Dif (NC s t) | C1 s => dcons s (decl t) end end.
(** x - y, and x - y - 1, unless negative or y is longer. *)
Fixpoint subl (x y : num) : diff :=
  match y with
  | NE => Dif x
  | NC e y' => match x with NE => Neg | NC d x' => match sbb0 d e with C0 s => dcons s (subl x' y') | C1 s => dcons s (subl1 x' y') end end
  end
with subl1 (x y : num) : diff :=
  match y with
  | NE => decl x
  | NC e y' => match x with NE => Neg | NC d x' => match sbb1 d e with C0 s => dcons s (subl x' y') | C1 s => dcons s (subl1 x' y') end end
  end.
Lemma incl_ok t : ev (incl t) = ev t + 1.
Proof. induction t as [|d t IH]; [reflexivity|]. cbn [incl]. pose proof (inc_ok d) as I. destruct (inc d) as [s|s]; cbn [ev cdv] in *; lia. Qed.
Lemma prop_ok t c : ev (prop t c) = ev t + dv c.
Proof.
  destruct t as [|d t]; cbn [prop].
  - assert (ev (match c with x0 => NE | _ => NC c NE end) = ev (NC c NE)) as -> by (destruct c; reflexivity). cbn [ev]. lia.
  - pose proof (adc0_ok c d) as A. destruct (adc0 c d) as [s|s]; cbn [ev cdv] in *; rewrite ?incl_ok; lia.
Qed.
Lemma row_ok x y : forall t c, ev (row (mac x) y t c) = ev t + dv x * ev y + dv c.
Proof.
  induction y as [|e y IH]; intros t c; cbn [row]; [rewrite prop_ok; cbn [ev]; lia|]. destruct t as [|d t].
  - pose proof (mac_ok x e (ad0 c)) as M. rewrite ad0_ok in M. destruct (mac x e (ad0 c)) as [h l]. cbn [ev] in *. rewrite IH. cbn [ev]. nia.
  - pose proof (mac_ok x e (ad c d)) as M. rewrite ad_ok in M. destruct (mac x e (ad c d)) as [h l]. cbn [ev] in *. rewrite IH. nia.
Qed.
Lemma mull_ok x y : ev (mull x y) = ev x * ev y.
Proof. induction x as [|d x IH]; [reflexivity|]. cbn [mull]. rewrite row_ok. cbn [ev dv]. rewrite IH. ring. Qed.
Lemma addl_both x : forall y, ev (addl x y) = ev x + ev y /\ ev (addl1 x y) = ev x + ev y + 1.
Proof.
  induction x as [|d x IH]; intro y; cbn [addl addl1]; [rewrite incl_ok; cbn [ev]; lia|]. destruct y as [|e y]; [rewrite incl_ok; cbn [ev]; lia|].
  pose proof (adc0_ok d e) as A. pose proof (adc1_ok d e) as A1. destruct (IH y) as [I J]. split; [destruct (adc0 d e)|destruct (adc1 d e)]; cbn [ev cdv] in *; lia.
Qed.
Lemma addl_ok x y : ev (addl x y) = ev x + ev y.
Proof. apply addl_both. Qed.
Lemma decl_ok t : forall l, decl t = Dif l -> ev l = ev t - 1.
Proof.
  induction t as [|d t IH]; intros l H; [discriminate|]. cbn [decl] in H. pose proof (sbb1_ok d x0) as A. destruct (sbb1 d x0) as [s|s]; cbn [bdv dv] in A.
  - injection H as <-. cbn [ev]. lia.
  - destruct (decl t) as [|n]; [discriminate|]. injection H as <-. cbn [ev]. rewrite (IH n eq_refl). lia.
Qed.
Lemma subl_both x : forall y l, (subl x y = Dif l -> ev l = ev x - ev y) /\ (subl1 x y = Dif l -> ev l = ev x - ev y - 1).
Proof.
  induction x as [|d x IH]; intros y l.
  - destruct y as [|e y]; cbn [subl subl1]; split; intro H; try discriminate. injection H as <-. reflexivity.
  - destruct y as [|e y].
    + cbn [subl subl1]. split; intro H; [injection H as <-; cbn [ev]; lia|]. apply decl_ok in H. cbn [ev] in *. lia.
    + cbn [subl subl1]. pose proof (sbb0_ok d e) as A. pose proof (sbb1_ok d e) as A1.
      split; intro H; [destruct (sbb0 d e) as [s|s]|destruct (sbb1 d e) as [s|s]]; cbn [bdv] in *;
        (destruct (subl x y) as [|n] eqn:S, (subl1 x y) as [|n'] eqn:S1; try discriminate; injection H as <-; cbn [ev];
         try (pose proof (proj1 (IH y _) S)); try (pose proof (proj2 (IH y _) S1)); lia).
Qed.
Lemma subl_ok x y l : subl x y = Dif l -> ev l = ev x - ev y.
Proof. apply subl_both. Qed.
Lemma ev_nonneg l : 0 <= ev l.
Proof. induction l as [|d l IH]; cbn [ev]; [lia|]. pose proof (dv_range d). lia. Qed.
Fixpoint low (k : nat) (l : num) : num := match k with O => NE | S k => match l with NE => NE | NC d l => NC d (low k l) end end.
Fixpoint high (k : nat) (l : num) : num := match k with O => l | S k => match l with NE => NE | NC d l => high k l end end.
Definition ntl (l : num) : num := match l with NE => NE | NC _ l => l end.
Definition nhd (l : num) : dig := match l with NE => x0 | NC d _ => d end.
Lemma ev_split k l : ev l = ev (low k l) + 64 ^ Z.of_nat k * ev (high k l).
Proof.
  revert l. induction k as [|k IH]; intro l; [cbn [low high ev]; lia|]. destruct l as [|d l]; [cbn; lia|].
  cbn [low high ev]. rewrite (IH l) at 1. rewrite Nat2Z.inj_succ, Z.pow_succ_r by lia. lia.
Qed.
(** Digits of a number. *)
Definition bits (a b c d e f : bool) : dig :=
  (if f then (if e then (if d then (if c then (if b then (if a then x63 else x62) else (if a then x61 else x60)) else (if b then (if a then x59 else x58) else (if a then x57 else x56))) else (if c then (if b then (if a then x55 else x54) else (if a then x53 else x52)) else (if b then (if a then x51 else x50) else (if a then x49 else x48)))) else (if d then (if c then (if b then (if a then x47 else x46) else (if a then x45 else x44)) else (if b then (if a then x43 else x42) else (if a then x41 else x40))) else (if c then (if b then (if a then x39 else x38) else (if a then x37 else x36)) else (if b then (if a then x35 else x34) else (if a then x33 else x32))))) else (if e then (if d then (if c then (if b then (if a then x31 else x30) else (if a then x29 else x28)) else (if b then (if a then x27 else x26) else (if a then x25 else x24))) else (if c then (if b then (if a then x23 else x22) else (if a then x21 else x20)) else (if b then (if a then x19 else x18) else (if a then x17 else x16)))) else (if d then (if c then (if b then (if a then x15 else x14) else (if a then x13 else x12)) else (if b then (if a then x11 else x10) else (if a then x9 else x8))) else (if c then (if b then (if a then x7 else x6) else (if a then x5 else x4)) else (if b then (if a then x3 else x2) else (if a then x1 else x0)))))).
Fixpoint pbits (p : positive) : list bool := match p with xH => [true] | xO p => false :: pbits p | xI p => true :: pbits p end.
Fixpoint bdigs (l : list bool) : num :=
  match l with
  | a :: b :: c :: d :: e :: f :: l' => NC (bits a b c d e f) (bdigs l')
  | [] => NE
  | [a] => NC (bits a false false false false false) NE
  | [a; b] => NC (bits a b false false false false) NE
  | [a; b; c] => NC (bits a b c false false false) NE
  | [a; b; c; d] => NC (bits a b c d false false) NE
  | [a; b; c; d; e] => NC (bits a b c d e false) NE
  end.
Definition zdigs (z : Z) : num := match z with Zpos p => bdigs (pbits p) | _ => NE end.
Fixpoint bev (l : list bool) : Z := match l with [] => 0 | b :: l => Z.b2z b + 2 * bev l end.
Lemma bits_ok a b c d e f : dv (bits a b c d e f) = Z.b2z a + 2 * Z.b2z b + 4 * Z.b2z c + 8 * Z.b2z d + 16 * Z.b2z e + 32 * Z.b2z f.
Proof. destruct a, b, c, d, e, f; reflexivity. Qed.
Lemma bdigs_ok n : forall l, (List.length l <= n)%nat -> ev (bdigs l) = bev l.
Proof.
  induction n as [|n IH]; intros l H; [destruct l; [reflexivity|cbn in H; lia]|].
  destruct l as [|a [|b [|c [|d [|e [|f l]]]]]]; try reflexivity; cbn [bdigs ev bev]; rewrite ?bits_ok; cbn [Z.b2z]; try lia.
  rewrite IH by (cbn in H; lia). lia.
Qed.
Lemma zdigs_ok z : 0 <= z -> ev (zdigs z) = z.
Proof.
  intro H. destruct z as [|p|p]; [reflexivity| |lia]. cbn [zdigs]. rewrite (bdigs_ok (List.length (pbits p))) by lia. clear H.
  induction p as [p IH|p IH|]; cbn [pbits bev]; [rewrite IH; change (Z.b2z true) with 1|rewrite IH; change (Z.b2z false) with 0|reflexivity]; lia.
Qed.
(** Karatsuba's multiplication, with the places where numbers are split. *)
Fixpoint addat (h : nat) (z m : num) : num :=
  match h with
  | O => addl z m
  | S h => match z with NE => NC x0 (addat h NE m) | NC d z => NC d (addat h z m) end
  end.
Fixpoint kmul (hs : list nat) (x y : num) : num :=
  match hs with
  | [] => mull x y
  | h :: hs =>
      let xl := low h x in let xh := high h x in let yl := low h y in let yh := high h y in
      let z0 := kmul hs xl yl in let z2 := kmul hs xh yh in
      match subl (kmul hs (addl xl xh) (addl yl yh)) (addl z0 z2) with
      | Dif m => addat h z0 (addat h m z2)
      | Neg => mull x y
      end
  end.
Lemma addat_ok h : forall z m, ev (addat h z m) = ev z + 64 ^ Z.of_nat h * ev m.
Proof.
  induction h as [|h IH]; intros z m; [cbn [addat]; rewrite addl_ok; change (64 ^ Z.of_nat 0) with 1; lia|].
  rewrite Nat2Z.inj_succ, Z.pow_succ_r by lia. destruct z as [|d z]; cbn [addat ev dv]; rewrite IH; cbn [ev]; lia.
Qed.
Lemma kmul_ok hs : forall x y, ev (kmul hs x y) = ev x * ev y.
Proof.
  induction hs as [|h hs IH]; intros x y; [apply mull_ok|]. cbn [kmul]. cbv zeta. destruct (subl _ _) as [|m] eqn:S; [apply mull_ok|].
  apply subl_ok in S. rewrite !addat_ok, S, !IH, !addl_ok, !IH. rewrite (ev_split h x), (ev_split h y). ring.
Qed.

(** ** Modular multiplication *)
(** [ev (mul x y) * R] is [ev x * ev y] modulo n. *)
Definition mul_ok (n R : Z) (mul : num -> num -> num) : Prop :=
  rel_prime R n /\ forall x y, (n | ev (mul x y) * R - ev x * ev y).
(** For n = 64^k - c: the digits above k are multiplied by c. *)
Fixpoint red (fuel k : nat) (c l : num) : num :=
  match fuel with
  | O => l
  | S f => match high k l with NE => l | h => red f k c (addl (low k l) (mull c h)) end
  end.
Definition pm_mul (hs : list nat) (k : nat) (c x y : num) : num := red 12 k c (kmul hs x y).
Lemma red_ok n k c fuel : (n | 64 ^ Z.of_nat k - ev c) -> forall l, (n | ev (red fuel k c l) - ev l).
Proof.
  intro H. induction fuel as [|f IH]; intro l; cbn [red]; [exists 0; lia|]. destruct (high k l) as [|d h] eqn:Eh; [exists 0; lia|].
  specialize (IH (addl (low k l) (mull c (NC d h)))). rewrite addl_ok, mull_ok in IH. rewrite (ev_split k l), Eh.
  replace (ev (red f k c (addl (low k l) (mull c (NC d h)))) - (ev (low k l) + 64 ^ Z.of_nat k * ev (NC d h)))
    with (ev (red f k c (addl (low k l) (mull c (NC d h)))) - (ev (low k l) + ev c * ev (NC d h)) - (64 ^ Z.of_nat k - ev c) * ev (NC d h)) by ring.
  apply Z.divide_sub_r; [exact IH|]. now apply Z.divide_mul_l.
Qed.
Lemma pm_ok n hs k c : (64 ^ Z.of_nat k - ev c) mod n = 0 -> n <> 0 -> mul_ok n 1 (pm_mul hs k c).
Proof.
  intros H N. split; [apply rel_prime_1|]. intros x y. rewrite Z.mul_1_r, <- (kmul_ok hs). apply red_ok. now apply Zmod_divide.
Qed.
(** Montgomery's reduction, for any odd n. *)
Fixpoint mont (mf : dig -> dig) (nd : num) (k : nat) (t : num) : num :=
  match k with
  | O => t
  | S k' => mont mf nd k' (ntl (row (mac (mf (nhd t))) nd t x0))
  end.
Definition mf_ok (n : Z) (mf : dig -> dig) : bool := forallb (fun d => (dv d + dv (mf d) * n) mod 64 =? 0) digs.
(** The multiples of n that clear a digit, by the lowest digit of n. *)
Definition mf_1 (d : dig) : dig := match d with x0 => x0 | x1 => x63 | x2 => x62 | x3 => x61 | x4 => x60 | x5 => x59 | x6 => x58 | x7 => x57 | x8 => x56 | x9 => x55 | x10 => x54 | x11 => x53 | x12 => x52 | x13 => x51 | x14 => x50 | x15 => x49 | x16 => x48 | x17 => x47 | x18 => x46 | x19 => x45 | x20 => x44 | x21 => x43 | x22 => x42 | x23 => x41 | x24 => x40 | x25 => x39 | x26 => x38 | x27 => x37 | x28 => x36 | x29 => x35 | x30 => x34 | x31 => x33 | x32 => x32 | x33 => x31 | x34 => x30 | x35 => x29 | x36 => x28 | x37 => x27 | x38 => x26 | x39 => x25 | x40 => x24 | x41 => x23 | x42 => x22 | x43 => x21 | x44 => x20 | x45 => x19 | x46 => x18 | x47 => x17 | x48 => x16 | x49 => x15 | x50 => x14 | x51 => x13 | x52 => x12 | x53 => x11 | x54 => x10 | x55 => x9 | x56 => x8 | x57 => x7 | x58 => x6 | x59 => x5 | x60 => x4 | x61 => x3 | x62 => x2 | x63 => x1 end.
Definition mf_3 (d : dig) : dig := match d with x0 => x0 | x1 => x21 | x2 => x42 | x3 => x63 | x4 => x20 | x5 => x41 | x6 => x62 | x7 => x19 | x8 => x40 | x9 => x61 | x10 => x18 | x11 => x39 | x12 => x60 | x13 => x17 | x14 => x38 | x15 => x59 | x16 => x16 | x17 => x37 | x18 => x58 | x19 => x15 | x20 => x36 | x21 => x57 | x22 => x14 | x23 => x35 | x24 => x56 | x25 => x13 | x26 => x34 | x27 => x55 | x28 => x12 | x29 => x33 | x30 => x54 | x31 => x11 | x32 => x32 | x33 => x53 | x34 => x10 | x35 => x31 | x36 => x52 | x37 => x9 | x38 => x30 | x39 => x51 | x40 => x8 | x41 => x29 | x42 => x50 | x43 => x7 | x44 => x28 | x45 => x49 | x46 => x6 | x47 => x27 | x48 => x48 | x49 => x5 | x50 => x26 | x51 => x47 | x52 => x4 | x53 => x25 | x54 => x46 | x55 => x3 | x56 => x24 | x57 => x45 | x58 => x2 | x59 => x23 | x60 => x44 | x61 => x1 | x62 => x22 | x63 => x43 end.
Definition mf_5 (d : dig) : dig := match d with x0 => x0 | x1 => x51 | x2 => x38 | x3 => x25 | x4 => x12 | x5 => x63 | x6 => x50 | x7 => x37 | x8 => x24 | x9 => x11 | x10 => x62 | x11 => x49 | x12 => x36 | x13 => x23 | x14 => x10 | x15 => x61 | x16 => x48 | x17 => x35 | x18 => x22 | x19 => x9 | x20 => x60 | x21 => x47 | x22 => x34 | x23 => x21 | x24 => x8 | x25 => x59 | x26 => x46 | x27 => x33 | x28 => x20 | x29 => x7 | x30 => x58 | x31 => x45 | x32 => x32 | x33 => x19 | x34 => x6 | x35 => x57 | x36 => x44 | x37 => x31 | x38 => x18 | x39 => x5 | x40 => x56 | x41 => x43 | x42 => x30 | x43 => x17 | x44 => x4 | x45 => x55 | x46 => x42 | x47 => x29 | x48 => x16 | x49 => x3 | x50 => x54 | x51 => x41 | x52 => x28 | x53 => x15 | x54 => x2 | x55 => x53 | x56 => x40 | x57 => x27 | x58 => x14 | x59 => x1 | x60 => x52 | x61 => x39 | x62 => x26 | x63 => x13 end.
Definition mf_7 (d : dig) : dig := match d with x0 => x0 | x1 => x9 | x2 => x18 | x3 => x27 | x4 => x36 | x5 => x45 | x6 => x54 | x7 => x63 | x8 => x8 | x9 => x17 | x10 => x26 | x11 => x35 | x12 => x44 | x13 => x53 | x14 => x62 | x15 => x7 | x16 => x16 | x17 => x25 | x18 => x34 | x19 => x43 | x20 => x52 | x21 => x61 | x22 => x6 | x23 => x15 | x24 => x24 | x25 => x33 | x26 => x42 | x27 => x51 | x28 => x60 | x29 => x5 | x30 => x14 | x31 => x23 | x32 => x32 | x33 => x41 | x34 => x50 | x35 => x59 | x36 => x4 | x37 => x13 | x38 => x22 | x39 => x31 | x40 => x40 | x41 => x49 | x42 => x58 | x43 => x3 | x44 => x12 | x45 => x21 | x46 => x30 | x47 => x39 | x48 => x48 | x49 => x57 | x50 => x2 | x51 => x11 | x52 => x20 | x53 => x29 | x54 => x38 | x55 => x47 | x56 => x56 | x57 => x1 | x58 => x10 | x59 => x19 | x60 => x28 | x61 => x37 | x62 => x46 | x63 => x55 end.
Definition mf_9 (d : dig) : dig := match d with x0 => x0 | x1 => x7 | x2 => x14 | x3 => x21 | x4 => x28 | x5 => x35 | x6 => x42 | x7 => x49 | x8 => x56 | x9 => x63 | x10 => x6 | x11 => x13 | x12 => x20 | x13 => x27 | x14 => x34 | x15 => x41 | x16 => x48 | x17 => x55 | x18 => x62 | x19 => x5 | x20 => x12 | x21 => x19 | x22 => x26 | x23 => x33 | x24 => x40 | x25 => x47 | x26 => x54 | x27 => x61 | x28 => x4 | x29 => x11 | x30 => x18 | x31 => x25 | x32 => x32 | x33 => x39 | x34 => x46 | x35 => x53 | x36 => x60 | x37 => x3 | x38 => x10 | x39 => x17 | x40 => x24 | x41 => x31 | x42 => x38 | x43 => x45 | x44 => x52 | x45 => x59 | x46 => x2 | x47 => x9 | x48 => x16 | x49 => x23 | x50 => x30 | x51 => x37 | x52 => x44 | x53 => x51 | x54 => x58 | x55 => x1 | x56 => x8 | x57 => x15 | x58 => x22 | x59 => x29 | x60 => x36 | x61 => x43 | x62 => x50 | x63 => x57 end.
Definition mf_11 (d : dig) : dig := match d with x0 => x0 | x1 => x29 | x2 => x58 | x3 => x23 | x4 => x52 | x5 => x17 | x6 => x46 | x7 => x11 | x8 => x40 | x9 => x5 | x10 => x34 | x11 => x63 | x12 => x28 | x13 => x57 | x14 => x22 | x15 => x51 | x16 => x16 | x17 => x45 | x18 => x10 | x19 => x39 | x20 => x4 | x21 => x33 | x22 => x62 | x23 => x27 | x24 => x56 | x25 => x21 | x26 => x50 | x27 => x15 | x28 => x44 | x29 => x9 | x30 => x38 | x31 => x3 | x32 => x32 | x33 => x61 | x34 => x26 | x35 => x55 | x36 => x20 | x37 => x49 | x38 => x14 | x39 => x43 | x40 => x8 | x41 => x37 | x42 => x2 | x43 => x31 | x44 => x60 | x45 => x25 | x46 => x54 | x47 => x19 | x48 => x48 | x49 => x13 | x50 => x42 | x51 => x7 | x52 => x36 | x53 => x1 | x54 => x30 | x55 => x59 | x56 => x24 | x57 => x53 | x58 => x18 | x59 => x47 | x60 => x12 | x61 => x41 | x62 => x6 | x63 => x35 end.
Definition mf_13 (d : dig) : dig := match d with x0 => x0 | x1 => x59 | x2 => x54 | x3 => x49 | x4 => x44 | x5 => x39 | x6 => x34 | x7 => x29 | x8 => x24 | x9 => x19 | x10 => x14 | x11 => x9 | x12 => x4 | x13 => x63 | x14 => x58 | x15 => x53 | x16 => x48 | x17 => x43 | x18 => x38 | x19 => x33 | x20 => x28 | x21 => x23 | x22 => x18 | x23 => x13 | x24 => x8 | x25 => x3 | x26 => x62 | x27 => x57 | x28 => x52 | x29 => x47 | x30 => x42 | x31 => x37 | x32 => x32 | x33 => x27 | x34 => x22 | x35 => x17 | x36 => x12 | x37 => x7 | x38 => x2 | x39 => x61 | x40 => x56 | x41 => x51 | x42 => x46 | x43 => x41 | x44 => x36 | x45 => x31 | x46 => x26 | x47 => x21 | x48 => x16 | x49 => x11 | x50 => x6 | x51 => x1 | x52 => x60 | x53 => x55 | x54 => x50 | x55 => x45 | x56 => x40 | x57 => x35 | x58 => x30 | x59 => x25 | x60 => x20 | x61 => x15 | x62 => x10 | x63 => x5 end.
Definition mf_15 (d : dig) : dig := match d with x0 => x0 | x1 => x17 | x2 => x34 | x3 => x51 | x4 => x4 | x5 => x21 | x6 => x38 | x7 => x55 | x8 => x8 | x9 => x25 | x10 => x42 | x11 => x59 | x12 => x12 | x13 => x29 | x14 => x46 | x15 => x63 | x16 => x16 | x17 => x33 | x18 => x50 | x19 => x3 | x20 => x20 | x21 => x37 | x22 => x54 | x23 => x7 | x24 => x24 | x25 => x41 | x26 => x58 | x27 => x11 | x28 => x28 | x29 => x45 | x30 => x62 | x31 => x15 | x32 => x32 | x33 => x49 | x34 => x2 | x35 => x19 | x36 => x36 | x37 => x53 | x38 => x6 | x39 => x23 | x40 => x40 | x41 => x57 | x42 => x10 | x43 => x27 | x44 => x44 | x45 => x61 | x46 => x14 | x47 => x31 | x48 => x48 | x49 => x1 | x50 => x18 | x51 => x35 | x52 => x52 | x53 => x5 | x54 => x22 | x55 => x39 | x56 => x56 | x57 => x9 | x58 => x26 | x59 => x43 | x60 => x60 | x61 => x13 | x62 => x30 | x63 => x47 end.
Definition mf_17 (d : dig) : dig := match d with x0 => x0 | x1 => x15 | x2 => x30 | x3 => x45 | x4 => x60 | x5 => x11 | x6 => x26 | x7 => x41 | x8 => x56 | x9 => x7 | x10 => x22 | x11 => x37 | x12 => x52 | x13 => x3 | x14 => x18 | x15 => x33 | x16 => x48 | x17 => x63 | x18 => x14 | x19 => x29 | x20 => x44 | x21 => x59 | x22 => x10 | x23 => x25 | x24 => x40 | x25 => x55 | x26 => x6 | x27 => x21 | x28 => x36 | x29 => x51 | x30 => x2 | x31 => x17 | x32 => x32 | x33 => x47 | x34 => x62 | x35 => x13 | x36 => x28 | x37 => x43 | x38 => x58 | x39 => x9 | x40 => x24 | x41 => x39 | x42 => x54 | x43 => x5 | x44 => x20 | x45 => x35 | x46 => x50 | x47 => x1 | x48 => x16 | x49 => x31 | x50 => x46 | x51 => x61 | x52 => x12 | x53 => x27 | x54 => x42 | x55 => x57 | x56 => x8 | x57 => x23 | x58 => x38 | x59 => x53 | x60 => x4 | x61 => x19 | x62 => x34 | x63 => x49 end.
Definition mf_19 (d : dig) : dig := match d with x0 => x0 | x1 => x37 | x2 => x10 | x3 => x47 | x4 => x20 | x5 => x57 | x6 => x30 | x7 => x3 | x8 => x40 | x9 => x13 | x10 => x50 | x11 => x23 | x12 => x60 | x13 => x33 | x14 => x6 | x15 => x43 | x16 => x16 | x17 => x53 | x18 => x26 | x19 => x63 | x20 => x36 | x21 => x9 | x22 => x46 | x23 => x19 | x24 => x56 | x25 => x29 | x26 => x2 | x27 => x39 | x28 => x12 | x29 => x49 | x30 => x22 | x31 => x59 | x32 => x32 | x33 => x5 | x34 => x42 | x35 => x15 | x36 => x52 | x37 => x25 | x38 => x62 | x39 => x35 | x40 => x8 | x41 => x45 | x42 => x18 | x43 => x55 | x44 => x28 | x45 => x1 | x46 => x38 | x47 => x11 | x48 => x48 | x49 => x21 | x50 => x58 | x51 => x31 | x52 => x4 | x53 => x41 | x54 => x14 | x55 => x51 | x56 => x24 | x57 => x61 | x58 => x34 | x59 => x7 | x60 => x44 | x61 => x17 | x62 => x54 | x63 => x27 end.
Definition mf_21 (d : dig) : dig := match d with x0 => x0 | x1 => x3 | x2 => x6 | x3 => x9 | x4 => x12 | x5 => x15 | x6 => x18 | x7 => x21 | x8 => x24 | x9 => x27 | x10 => x30 | x11 => x33 | x12 => x36 | x13 => x39 | x14 => x42 | x15 => x45 | x16 => x48 | x17 => x51 | x18 => x54 | x19 => x57 | x20 => x60 | x21 => x63 | x22 => x2 | x23 => x5 | x24 => x8 | x25 => x11 | x26 => x14 | x27 => x17 | x28 => x20 | x29 => x23 | x30 => x26 | x31 => x29 | x32 => x32 | x33 => x35 | x34 => x38 | x35 => x41 | x36 => x44 | x37 => x47 | x38 => x50 | x39 => x53 | x40 => x56 | x41 => x59 | x42 => x62 | x43 => x1 | x44 => x4 | x45 => x7 | x46 => x10 | x47 => x13 | x48 => x16 | x49 => x19 | x50 => x22 | x51 => x25 | x52 => x28 | x53 => x31 | x54 => x34 | x55 => x37 | x56 => x40 | x57 => x43 | x58 => x46 | x59 => x49 | x60 => x52 | x61 => x55 | x62 => x58 | x63 => x61 end.
Definition mf_23 (d : dig) : dig := match d with x0 => x0 | x1 => x25 | x2 => x50 | x3 => x11 | x4 => x36 | x5 => x61 | x6 => x22 | x7 => x47 | x8 => x8 | x9 => x33 | x10 => x58 | x11 => x19 | x12 => x44 | x13 => x5 | x14 => x30 | x15 => x55 | x16 => x16 | x17 => x41 | x18 => x2 | x19 => x27 | x20 => x52 | x21 => x13 | x22 => x38 | x23 => x63 | x24 => x24 | x25 => x49 | x26 => x10 | x27 => x35 | x28 => x60 | x29 => x21 | x30 => x46 | x31 => x7 | x32 => x32 | x33 => x57 | x34 => x18 | x35 => x43 | x36 => x4 | x37 => x29 | x38 => x54 | x39 => x15 | x40 => x40 | x41 => x1 | x42 => x26 | x43 => x51 | x44 => x12 | x45 => x37 | x46 => x62 | x47 => x23 | x48 => x48 | x49 => x9 | x50 => x34 | x51 => x59 | x52 => x20 | x53 => x45 | x54 => x6 | x55 => x31 | x56 => x56 | x57 => x17 | x58 => x42 | x59 => x3 | x60 => x28 | x61 => x53 | x62 => x14 | x63 => x39 end.
Definition mf_25 (d : dig) : dig := match d with x0 => x0 | x1 => x23 | x2 => x46 | x3 => x5 | x4 => x28 | x5 => x51 | x6 => x10 | x7 => x33 | x8 => x56 | x9 => x15 | x10 => x38 | x11 => x61 | x12 => x20 | x13 => x43 | x14 => x2 | x15 => x25 | x16 => x48 | x17 => x7 | x18 => x30 | x19 => x53 | x20 => x12 | x21 => x35 | x22 => x58 | x23 => x17 | x24 => x40 | x25 => x63 | x26 => x22 | x27 => x45 | x28 => x4 | x29 => x27 | x30 => x50 | x31 => x9 | x32 => x32 | x33 => x55 | x34 => x14 | x35 => x37 | x36 => x60 | x37 => x19 | x38 => x42 | x39 => x1 | x40 => x24 | x41 => x47 | x42 => x6 | x43 => x29 | x44 => x52 | x45 => x11 | x46 => x34 | x47 => x57 | x48 => x16 | x49 => x39 | x50 => x62 | x51 => x21 | x52 => x44 | x53 => x3 | x54 => x26 | x55 => x49 | x56 => x8 | x57 => x31 | x58 => x54 | x59 => x13 | x60 => x36 | x61 => x59 | x62 => x18 | x63 => x41 end.
Definition mf_27 (d : dig) : dig := match d with x0 => x0 | x1 => x45 | x2 => x26 | x3 => x7 | x4 => x52 | x5 => x33 | x6 => x14 | x7 => x59 | x8 => x40 | x9 => x21 | x10 => x2 | x11 => x47 | x12 => x28 | x13 => x9 | x14 => x54 | x15 => x35 | x16 => x16 | x17 => x61 | x18 => x42 | x19 => x23 | x20 => x4 | x21 => x49 | x22 => x30 | x23 => x11 | x24 => x56 | x25 => x37 | x26 => x18 | x27 => x63 | x28 => x44 | x29 => x25 | x30 => x6 | x31 => x51 | x32 => x32 | x33 => x13 | x34 => x58 | x35 => x39 | x36 => x20 | x37 => x1 | x38 => x46 | x39 => x27 | x40 => x8 | x41 => x53 | x42 => x34 | x43 => x15 | x44 => x60 | x45 => x41 | x46 => x22 | x47 => x3 | x48 => x48 | x49 => x29 | x50 => x10 | x51 => x55 | x52 => x36 | x53 => x17 | x54 => x62 | x55 => x43 | x56 => x24 | x57 => x5 | x58 => x50 | x59 => x31 | x60 => x12 | x61 => x57 | x62 => x38 | x63 => x19 end.
Definition mf_29 (d : dig) : dig := match d with x0 => x0 | x1 => x11 | x2 => x22 | x3 => x33 | x4 => x44 | x5 => x55 | x6 => x2 | x7 => x13 | x8 => x24 | x9 => x35 | x10 => x46 | x11 => x57 | x12 => x4 | x13 => x15 | x14 => x26 | x15 => x37 | x16 => x48 | x17 => x59 | x18 => x6 | x19 => x17 | x20 => x28 | x21 => x39 | x22 => x50 | x23 => x61 | x24 => x8 | x25 => x19 | x26 => x30 | x27 => x41 | x28 => x52 | x29 => x63 | x30 => x10 | x31 => x21 | x32 => x32 | x33 => x43 | x34 => x54 | x35 => x1 | x36 => x12 | x37 => x23 | x38 => x34 | x39 => x45 | x40 => x56 | x41 => x3 | x42 => x14 | x43 => x25 | x44 => x36 | x45 => x47 | x46 => x58 | x47 => x5 | x48 => x16 | x49 => x27 | x50 => x38 | x51 => x49 | x52 => x60 | x53 => x7 | x54 => x18 | x55 => x29 | x56 => x40 | x57 => x51 | x58 => x62 | x59 => x9 | x60 => x20 | x61 => x31 | x62 => x42 | x63 => x53 end.
Definition mf_31 (d : dig) : dig := match d with x0 => x0 | x1 => x33 | x2 => x2 | x3 => x35 | x4 => x4 | x5 => x37 | x6 => x6 | x7 => x39 | x8 => x8 | x9 => x41 | x10 => x10 | x11 => x43 | x12 => x12 | x13 => x45 | x14 => x14 | x15 => x47 | x16 => x16 | x17 => x49 | x18 => x18 | x19 => x51 | x20 => x20 | x21 => x53 | x22 => x22 | x23 => x55 | x24 => x24 | x25 => x57 | x26 => x26 | x27 => x59 | x28 => x28 | x29 => x61 | x30 => x30 | x31 => x63 | x32 => x32 | x33 => x1 | x34 => x34 | x35 => x3 | x36 => x36 | x37 => x5 | x38 => x38 | x39 => x7 | x40 => x40 | x41 => x9 | x42 => x42 | x43 => x11 | x44 => x44 | x45 => x13 | x46 => x46 | x47 => x15 | x48 => x48 | x49 => x17 | x50 => x50 | x51 => x19 | x52 => x52 | x53 => x21 | x54 => x54 | x55 => x23 | x56 => x56 | x57 => x25 | x58 => x58 | x59 => x27 | x60 => x60 | x61 => x29 | x62 => x62 | x63 => x31 end.
Definition mf_33 (d : dig) : dig := match d with x0 => x0 | x1 => x31 | x2 => x62 | x3 => x29 | x4 => x60 | x5 => x27 | x6 => x58 | x7 => x25 | x8 => x56 | x9 => x23 | x10 => x54 | x11 => x21 | x12 => x52 | x13 => x19 | x14 => x50 | x15 => x17 | x16 => x48 | x17 => x15 | x18 => x46 | x19 => x13 | x20 => x44 | x21 => x11 | x22 => x42 | x23 => x9 | x24 => x40 | x25 => x7 | x26 => x38 | x27 => x5 | x28 => x36 | x29 => x3 | x30 => x34 | x31 => x1 | x32 => x32 | x33 => x63 | x34 => x30 | x35 => x61 | x36 => x28 | x37 => x59 | x38 => x26 | x39 => x57 | x40 => x24 | x41 => x55 | x42 => x22 | x43 => x53 | x44 => x20 | x45 => x51 | x46 => x18 | x47 => x49 | x48 => x16 | x49 => x47 | x50 => x14 | x51 => x45 | x52 => x12 | x53 => x43 | x54 => x10 | x55 => x41 | x56 => x8 | x57 => x39 | x58 => x6 | x59 => x37 | x60 => x4 | x61 => x35 | x62 => x2 | x63 => x33 end.
Definition mf_35 (d : dig) : dig := match d with x0 => x0 | x1 => x53 | x2 => x42 | x3 => x31 | x4 => x20 | x5 => x9 | x6 => x62 | x7 => x51 | x8 => x40 | x9 => x29 | x10 => x18 | x11 => x7 | x12 => x60 | x13 => x49 | x14 => x38 | x15 => x27 | x16 => x16 | x17 => x5 | x18 => x58 | x19 => x47 | x20 => x36 | x21 => x25 | x22 => x14 | x23 => x3 | x24 => x56 | x25 => x45 | x26 => x34 | x27 => x23 | x28 => x12 | x29 => x1 | x30 => x54 | x31 => x43 | x32 => x32 | x33 => x21 | x34 => x10 | x35 => x63 | x36 => x52 | x37 => x41 | x38 => x30 | x39 => x19 | x40 => x8 | x41 => x61 | x42 => x50 | x43 => x39 | x44 => x28 | x45 => x17 | x46 => x6 | x47 => x59 | x48 => x48 | x49 => x37 | x50 => x26 | x51 => x15 | x52 => x4 | x53 => x57 | x54 => x46 | x55 => x35 | x56 => x24 | x57 => x13 | x58 => x2 | x59 => x55 | x60 => x44 | x61 => x33 | x62 => x22 | x63 => x11 end.
Definition mf_37 (d : dig) : dig := match d with x0 => x0 | x1 => x19 | x2 => x38 | x3 => x57 | x4 => x12 | x5 => x31 | x6 => x50 | x7 => x5 | x8 => x24 | x9 => x43 | x10 => x62 | x11 => x17 | x12 => x36 | x13 => x55 | x14 => x10 | x15 => x29 | x16 => x48 | x17 => x3 | x18 => x22 | x19 => x41 | x20 => x60 | x21 => x15 | x22 => x34 | x23 => x53 | x24 => x8 | x25 => x27 | x26 => x46 | x27 => x1 | x28 => x20 | x29 => x39 | x30 => x58 | x31 => x13 | x32 => x32 | x33 => x51 | x34 => x6 | x35 => x25 | x36 => x44 | x37 => x63 | x38 => x18 | x39 => x37 | x40 => x56 | x41 => x11 | x42 => x30 | x43 => x49 | x44 => x4 | x45 => x23 | x46 => x42 | x47 => x61 | x48 => x16 | x49 => x35 | x50 => x54 | x51 => x9 | x52 => x28 | x53 => x47 | x54 => x2 | x55 => x21 | x56 => x40 | x57 => x59 | x58 => x14 | x59 => x33 | x60 => x52 | x61 => x7 | x62 => x26 | x63 => x45 end.
Definition mf_39 (d : dig) : dig := match d with x0 => x0 | x1 => x41 | x2 => x18 | x3 => x59 | x4 => x36 | x5 => x13 | x6 => x54 | x7 => x31 | x8 => x8 | x9 => x49 | x10 => x26 | x11 => x3 | x12 => x44 | x13 => x21 | x14 => x62 | x15 => x39 | x16 => x16 | x17 => x57 | x18 => x34 | x19 => x11 | x20 => x52 | x21 => x29 | x22 => x6 | x23 => x47 | x24 => x24 | x25 => x1 | x26 => x42 | x27 => x19 | x28 => x60 | x29 => x37 | x30 => x14 | x31 => x55 | x32 => x32 | x33 => x9 | x34 => x50 | x35 => x27 | x36 => x4 | x37 => x45 | x38 => x22 | x39 => x63 | x40 => x40 | x41 => x17 | x42 => x58 | x43 => x35 | x44 => x12 | x45 => x53 | x46 => x30 | x47 => x7 | x48 => x48 | x49 => x25 | x50 => x2 | x51 => x43 | x52 => x20 | x53 => x61 | x54 => x38 | x55 => x15 | x56 => x56 | x57 => x33 | x58 => x10 | x59 => x51 | x60 => x28 | x61 => x5 | x62 => x46 | x63 => x23 end.
Definition mf_41 (d : dig) : dig := match d with x0 => x0 | x1 => x39 | x2 => x14 | x3 => x53 | x4 => x28 | x5 => x3 | x6 => x42 | x7 => x17 | x8 => x56 | x9 => x31 | x10 => x6 | x11 => x45 | x12 => x20 | x13 => x59 | x14 => x34 | x15 => x9 | x16 => x48 | x17 => x23 | x18 => x62 | x19 => x37 | x20 => x12 | x21 => x51 | x22 => x26 | x23 => x1 | x24 => x40 | x25 => x15 | x26 => x54 | x27 => x29 | x28 => x4 | x29 => x43 | x30 => x18 | x31 => x57 | x32 => x32 | x33 => x7 | x34 => x46 | x35 => x21 | x36 => x60 | x37 => x35 | x38 => x10 | x39 => x49 | x40 => x24 | x41 => x63 | x42 => x38 | x43 => x13 | x44 => x52 | x45 => x27 | x46 => x2 | x47 => x41 | x48 => x16 | x49 => x55 | x50 => x30 | x51 => x5 | x52 => x44 | x53 => x19 | x54 => x58 | x55 => x33 | x56 => x8 | x57 => x47 | x58 => x22 | x59 => x61 | x60 => x36 | x61 => x11 | x62 => x50 | x63 => x25 end.
Definition mf_43 (d : dig) : dig := match d with x0 => x0 | x1 => x61 | x2 => x58 | x3 => x55 | x4 => x52 | x5 => x49 | x6 => x46 | x7 => x43 | x8 => x40 | x9 => x37 | x10 => x34 | x11 => x31 | x12 => x28 | x13 => x25 | x14 => x22 | x15 => x19 | x16 => x16 | x17 => x13 | x18 => x10 | x19 => x7 | x20 => x4 | x21 => x1 | x22 => x62 | x23 => x59 | x24 => x56 | x25 => x53 | x26 => x50 | x27 => x47 | x28 => x44 | x29 => x41 | x30 => x38 | x31 => x35 | x32 => x32 | x33 => x29 | x34 => x26 | x35 => x23 | x36 => x20 | x37 => x17 | x38 => x14 | x39 => x11 | x40 => x8 | x41 => x5 | x42 => x2 | x43 => x63 | x44 => x60 | x45 => x57 | x46 => x54 | x47 => x51 | x48 => x48 | x49 => x45 | x50 => x42 | x51 => x39 | x52 => x36 | x53 => x33 | x54 => x30 | x55 => x27 | x56 => x24 | x57 => x21 | x58 => x18 | x59 => x15 | x60 => x12 | x61 => x9 | x62 => x6 | x63 => x3 end.
Definition mf_45 (d : dig) : dig := match d with x0 => x0 | x1 => x27 | x2 => x54 | x3 => x17 | x4 => x44 | x5 => x7 | x6 => x34 | x7 => x61 | x8 => x24 | x9 => x51 | x10 => x14 | x11 => x41 | x12 => x4 | x13 => x31 | x14 => x58 | x15 => x21 | x16 => x48 | x17 => x11 | x18 => x38 | x19 => x1 | x20 => x28 | x21 => x55 | x22 => x18 | x23 => x45 | x24 => x8 | x25 => x35 | x26 => x62 | x27 => x25 | x28 => x52 | x29 => x15 | x30 => x42 | x31 => x5 | x32 => x32 | x33 => x59 | x34 => x22 | x35 => x49 | x36 => x12 | x37 => x39 | x38 => x2 | x39 => x29 | x40 => x56 | x41 => x19 | x42 => x46 | x43 => x9 | x44 => x36 | x45 => x63 | x46 => x26 | x47 => x53 | x48 => x16 | x49 => x43 | x50 => x6 | x51 => x33 | x52 => x60 | x53 => x23 | x54 => x50 | x55 => x13 | x56 => x40 | x57 => x3 | x58 => x30 | x59 => x57 | x60 => x20 | x61 => x47 | x62 => x10 | x63 => x37 end.
Definition mf_47 (d : dig) : dig := match d with x0 => x0 | x1 => x49 | x2 => x34 | x3 => x19 | x4 => x4 | x5 => x53 | x6 => x38 | x7 => x23 | x8 => x8 | x9 => x57 | x10 => x42 | x11 => x27 | x12 => x12 | x13 => x61 | x14 => x46 | x15 => x31 | x16 => x16 | x17 => x1 | x18 => x50 | x19 => x35 | x20 => x20 | x21 => x5 | x22 => x54 | x23 => x39 | x24 => x24 | x25 => x9 | x26 => x58 | x27 => x43 | x28 => x28 | x29 => x13 | x30 => x62 | x31 => x47 | x32 => x32 | x33 => x17 | x34 => x2 | x35 => x51 | x36 => x36 | x37 => x21 | x38 => x6 | x39 => x55 | x40 => x40 | x41 => x25 | x42 => x10 | x43 => x59 | x44 => x44 | x45 => x29 | x46 => x14 | x47 => x63 | x48 => x48 | x49 => x33 | x50 => x18 | x51 => x3 | x52 => x52 | x53 => x37 | x54 => x22 | x55 => x7 | x56 => x56 | x57 => x41 | x58 => x26 | x59 => x11 | x60 => x60 | x61 => x45 | x62 => x30 | x63 => x15 end.
Definition mf_49 (d : dig) : dig := match d with x0 => x0 | x1 => x47 | x2 => x30 | x3 => x13 | x4 => x60 | x5 => x43 | x6 => x26 | x7 => x9 | x8 => x56 | x9 => x39 | x10 => x22 | x11 => x5 | x12 => x52 | x13 => x35 | x14 => x18 | x15 => x1 | x16 => x48 | x17 => x31 | x18 => x14 | x19 => x61 | x20 => x44 | x21 => x27 | x22 => x10 | x23 => x57 | x24 => x40 | x25 => x23 | x26 => x6 | x27 => x53 | x28 => x36 | x29 => x19 | x30 => x2 | x31 => x49 | x32 => x32 | x33 => x15 | x34 => x62 | x35 => x45 | x36 => x28 | x37 => x11 | x38 => x58 | x39 => x41 | x40 => x24 | x41 => x7 | x42 => x54 | x43 => x37 | x44 => x20 | x45 => x3 | x46 => x50 | x47 => x33 | x48 => x16 | x49 => x63 | x50 => x46 | x51 => x29 | x52 => x12 | x53 => x59 | x54 => x42 | x55 => x25 | x56 => x8 | x57 => x55 | x58 => x38 | x59 => x21 | x60 => x4 | x61 => x51 | x62 => x34 | x63 => x17 end.
Definition mf_51 (d : dig) : dig := match d with x0 => x0 | x1 => x5 | x2 => x10 | x3 => x15 | x4 => x20 | x5 => x25 | x6 => x30 | x7 => x35 | x8 => x40 | x9 => x45 | x10 => x50 | x11 => x55 | x12 => x60 | x13 => x1 | x14 => x6 | x15 => x11 | x16 => x16 | x17 => x21 | x18 => x26 | x19 => x31 | x20 => x36 | x21 => x41 | x22 => x46 | x23 => x51 | x24 => x56 | x25 => x61 | x26 => x2 | x27 => x7 | x28 => x12 | x29 => x17 | x30 => x22 | x31 => x27 | x32 => x32 | x33 => x37 | x34 => x42 | x35 => x47 | x36 => x52 | x37 => x57 | x38 => x62 | x39 => x3 | x40 => x8 | x41 => x13 | x42 => x18 | x43 => x23 | x44 => x28 | x45 => x33 | x46 => x38 | x47 => x43 | x48 => x48 | x49 => x53 | x50 => x58 | x51 => x63 | x52 => x4 | x53 => x9 | x54 => x14 | x55 => x19 | x56 => x24 | x57 => x29 | x58 => x34 | x59 => x39 | x60 => x44 | x61 => x49 | x62 => x54 | x63 => x59 end.
Definition mf_53 (d : dig) : dig := match d with x0 => x0 | x1 => x35 | x2 => x6 | x3 => x41 | x4 => x12 | x5 => x47 | x6 => x18 | x7 => x53 | x8 => x24 | x9 => x59 | x10 => x30 | x11 => x1 | x12 => x36 | x13 => x7 | x14 => x42 | x15 => x13 | x16 => x48 | x17 => x19 | x18 => x54 | x19 => x25 | x20 => x60 | x21 => x31 | x22 => x2 | x23 => x37 | x24 => x8 | x25 => x43 | x26 => x14 | x27 => x49 | x28 => x20 | x29 => x55 | x30 => x26 | x31 => x61 | x32 => x32 | x33 => x3 | x34 => x38 | x35 => x9 | x36 => x44 | x37 => x15 | x38 => x50 | x39 => x21 | x40 => x56 | x41 => x27 | x42 => x62 | x43 => x33 | x44 => x4 | x45 => x39 | x46 => x10 | x47 => x45 | x48 => x16 | x49 => x51 | x50 => x22 | x51 => x57 | x52 => x28 | x53 => x63 | x54 => x34 | x55 => x5 | x56 => x40 | x57 => x11 | x58 => x46 | x59 => x17 | x60 => x52 | x61 => x23 | x62 => x58 | x63 => x29 end.
Definition mf_55 (d : dig) : dig := match d with x0 => x0 | x1 => x57 | x2 => x50 | x3 => x43 | x4 => x36 | x5 => x29 | x6 => x22 | x7 => x15 | x8 => x8 | x9 => x1 | x10 => x58 | x11 => x51 | x12 => x44 | x13 => x37 | x14 => x30 | x15 => x23 | x16 => x16 | x17 => x9 | x18 => x2 | x19 => x59 | x20 => x52 | x21 => x45 | x22 => x38 | x23 => x31 | x24 => x24 | x25 => x17 | x26 => x10 | x27 => x3 | x28 => x60 | x29 => x53 | x30 => x46 | x31 => x39 | x32 => x32 | x33 => x25 | x34 => x18 | x35 => x11 | x36 => x4 | x37 => x61 | x38 => x54 | x39 => x47 | x40 => x40 | x41 => x33 | x42 => x26 | x43 => x19 | x44 => x12 | x45 => x5 | x46 => x62 | x47 => x55 | x48 => x48 | x49 => x41 | x50 => x34 | x51 => x27 | x52 => x20 | x53 => x13 | x54 => x6 | x55 => x63 | x56 => x56 | x57 => x49 | x58 => x42 | x59 => x35 | x60 => x28 | x61 => x21 | x62 => x14 | x63 => x7 end.
Definition mf_57 (d : dig) : dig := match d with x0 => x0 | x1 => x55 | x2 => x46 | x3 => x37 | x4 => x28 | x5 => x19 | x6 => x10 | x7 => x1 | x8 => x56 | x9 => x47 | x10 => x38 | x11 => x29 | x12 => x20 | x13 => x11 | x14 => x2 | x15 => x57 | x16 => x48 | x17 => x39 | x18 => x30 | x19 => x21 | x20 => x12 | x21 => x3 | x22 => x58 | x23 => x49 | x24 => x40 | x25 => x31 | x26 => x22 | x27 => x13 | x28 => x4 | x29 => x59 | x30 => x50 | x31 => x41 | x32 => x32 | x33 => x23 | x34 => x14 | x35 => x5 | x36 => x60 | x37 => x51 | x38 => x42 | x39 => x33 | x40 => x24 | x41 => x15 | x42 => x6 | x43 => x61 | x44 => x52 | x45 => x43 | x46 => x34 | x47 => x25 | x48 => x16 | x49 => x7 | x50 => x62 | x51 => x53 | x52 => x44 | x53 => x35 | x54 => x26 | x55 => x17 | x56 => x8 | x57 => x63 | x58 => x54 | x59 => x45 | x60 => x36 | x61 => x27 | x62 => x18 | x63 => x9 end.
Definition mf_59 (d : dig) : dig := match d with x0 => x0 | x1 => x13 | x2 => x26 | x3 => x39 | x4 => x52 | x5 => x1 | x6 => x14 | x7 => x27 | x8 => x40 | x9 => x53 | x10 => x2 | x11 => x15 | x12 => x28 | x13 => x41 | x14 => x54 | x15 => x3 | x16 => x16 | x17 => x29 | x18 => x42 | x19 => x55 | x20 => x4 | x21 => x17 | x22 => x30 | x23 => x43 | x24 => x56 | x25 => x5 | x26 => x18 | x27 => x31 | x28 => x44 | x29 => x57 | x30 => x6 | x31 => x19 | x32 => x32 | x33 => x45 | x34 => x58 | x35 => x7 | x36 => x20 | x37 => x33 | x38 => x46 | x39 => x59 | x40 => x8 | x41 => x21 | x42 => x34 | x43 => x47 | x44 => x60 | x45 => x9 | x46 => x22 | x47 => x35 | x48 => x48 | x49 => x61 | x50 => x10 | x51 => x23 | x52 => x36 | x53 => x49 | x54 => x62 | x55 => x11 | x56 => x24 | x57 => x37 | x58 => x50 | x59 => x63 | x60 => x12 | x61 => x25 | x62 => x38 | x63 => x51 end.
Definition mf_61 (d : dig) : dig := match d with x0 => x0 | x1 => x43 | x2 => x22 | x3 => x1 | x4 => x44 | x5 => x23 | x6 => x2 | x7 => x45 | x8 => x24 | x9 => x3 | x10 => x46 | x11 => x25 | x12 => x4 | x13 => x47 | x14 => x26 | x15 => x5 | x16 => x48 | x17 => x27 | x18 => x6 | x19 => x49 | x20 => x28 | x21 => x7 | x22 => x50 | x23 => x29 | x24 => x8 | x25 => x51 | x26 => x30 | x27 => x9 | x28 => x52 | x29 => x31 | x30 => x10 | x31 => x53 | x32 => x32 | x33 => x11 | x34 => x54 | x35 => x33 | x36 => x12 | x37 => x55 | x38 => x34 | x39 => x13 | x40 => x56 | x41 => x35 | x42 => x14 | x43 => x57 | x44 => x36 | x45 => x15 | x46 => x58 | x47 => x37 | x48 => x16 | x49 => x59 | x50 => x38 | x51 => x17 | x52 => x60 | x53 => x39 | x54 => x18 | x55 => x61 | x56 => x40 | x57 => x19 | x58 => x62 | x59 => x41 | x60 => x20 | x61 => x63 | x62 => x42 | x63 => x21 end.
Definition mf_63 (d : dig) : dig := match d with x0 => x0 | x1 => x1 | x2 => x2 | x3 => x3 | x4 => x4 | x5 => x5 | x6 => x6 | x7 => x7 | x8 => x8 | x9 => x9 | x10 => x10 | x11 => x11 | x12 => x12 | x13 => x13 | x14 => x14 | x15 => x15 | x16 => x16 | x17 => x17 | x18 => x18 | x19 => x19 | x20 => x20 | x21 => x21 | x22 => x22 | x23 => x23 | x24 => x24 | x25 => x25 | x26 => x26 | x27 => x27 | x28 => x28 | x29 => x29 | x30 => x30 | x31 => x31 | x32 => x32 | x33 => x33 | x34 => x34 | x35 => x35 | x36 => x36 | x37 => x37 | x38 => x38 | x39 => x39 | x40 => x40 | x41 => x41 | x42 => x42 | x43 => x43 | x44 => x44 | x45 => x45 | x46 => x46 | x47 => x47 | x48 => x48 | x49 => x49 | x50 => x50 | x51 => x51 | x52 => x52 | x53 => x53 | x54 => x54 | x55 => x55 | x56 => x56 | x57 => x57 | x58 => x58 | x59 => x59 | x60 => x60 | x61 => x61 | x62 => x62 | x63 => x63 end.
Definition mont_mul (hs : list nat) (mf : dig -> dig) (n : Z) (k : nat) : num -> num -> num := let nd := zdigs n in fun x y => mont mf nd k (kmul hs x y).
Lemma mont_step n mf k : 0 <= n -> mf_ok n mf = true -> forall t, (n | ev (mont mf (zdigs n) k t) * 64 ^ Z.of_nat k - ev t).
Proof.
  intros Hn M. induction k as [|k IH]; intros t; cbn [mont].
  - change (64 ^ Z.of_nat 0) with 1. exists 0. lia.
  - set (m := mf _). set (t2 := row (mac m) (zdigs n) t x0). assert (ev t2 = ev t + dv m * n) as E2 by (unfold t2; rewrite row_ok, zdigs_ok by exact Hn; cbn; lia).
    assert (ev t2 = 64 * ev (ntl t2)) as E3.
    { assert (ev t2 mod 64 = 0) as Z0.
      { rewrite E2. unfold mf_ok in M. pose proof (all_digs _ M (nhd t)) as K. cbv beta in K. apply Z.eqb_eq in K. fold m in K.
        assert (ev t = dv (nhd t) + ev (ntl t) * 64) as -> by (destruct t; cbn [ev ntl nhd dv]; lia).
        replace (dv (nhd t) + ev (ntl t) * 64 + dv m * n) with (dv (nhd t) + dv m * n + ev (ntl t) * 64) by ring. now rewrite Z.mod_add by lia. }
      destruct t2 as [|e t2]; [reflexivity|]. cbn [ev ntl] in *. pose proof (dv_range e). replace (dv e + 64 * ev t2) with (dv e + ev t2 * 64) in Z0 by ring. rewrite Z.mod_add, Z.mod_small in Z0 by lia. lia. }
    destruct (IH (ntl t2)) as [q Hq]. exists (q * 64 + dv m). rewrite Nat2Z.inj_succ, Z.pow_succ_r by lia. nia.
Qed.
Lemma mont_ok n hs mf k : 0 < n -> mf_ok n mf = true -> n mod 2 = 1 -> mul_ok n (64 ^ Z.of_nat k) (mont_mul hs mf n k).
Proof.
  intros Hn M O. split.
  - apply rel_prime_sym. assert (rel_prime n (2 ^ 6)) as R.
    { apply rel_prime_Zpower_r; [lia|]. apply rel_prime_sym. apply prime_rel_prime; [exact prime_2|]. intro D. apply Zdivide_mod in D. lia. }
    apply rel_prime_Zpower_r; [lia|exact R].
  - intros x y. pose proof (mont_step n mf k ltac:(lia) M (kmul hs x y)) as S. now rewrite kmul_ok in S.
Qed.
(** Powers, three bits at a time. *)
Section Pow.
  Variable mul : num -> num -> num.
  Definition sq3 (u : num) : num := let u := mul u u in let u := mul u u in mul u u.
  Fixpoint wpow (b b2 b3 b4 b5 b6 b7 : num) (e : positive) : num :=
    match e with
    | xH => b | xO xH => b2 | xI xH => b3 | xO (xO xH) => b4 | xI (xO xH) => b5 | xO (xI xH) => b6 | xI (xI xH) => b7
    | xO (xO (xO e)) => sq3 (wpow b b2 b3 b4 b5 b6 b7 e)
    | xI (xO (xO e)) => mul (sq3 (wpow b b2 b3 b4 b5 b6 b7 e)) b
    | xO (xI (xO e)) => mul (sq3 (wpow b b2 b3 b4 b5 b6 b7 e)) b2
    | xI (xI (xO e)) => mul (sq3 (wpow b b2 b3 b4 b5 b6 b7 e)) b3
    | xO (xO (xI e)) => mul (sq3 (wpow b b2 b3 b4 b5 b6 b7 e)) b4
    | xI (xO (xI e)) => mul (sq3 (wpow b b2 b3 b4 b5 b6 b7 e)) b5
    | xO (xI (xI e)) => mul (sq3 (wpow b b2 b3 b4 b5 b6 b7 e)) b6
    | xI (xI (xI e)) => mul (sq3 (wpow b b2 b3 b4 b5 b6 b7 e)) b7
    end.
  Definition lpow (b : num) (e : positive) : num :=
    let b2 := mul b b in let b3 := mul b2 b in let b4 := mul b2 b2 in let b5 := mul b4 b in let b6 := mul b3 b3 in let b7 := mul b6 b in wpow b b2 b3 b4 b5 b6 b7 e.
  (** Any property of numbers and exponents that multiplication respects. *)
  Lemma lpow_ind (P : num -> Z -> Prop) b : (forall x y i j, 0 <= i -> 0 <= j -> P x i -> P y j -> P (mul x y) (i + j)) -> P b 1 -> forall e, P (lpow b e) (Z.pos e).
  Proof.
    intros M P1. unfold lpow. cbv zeta. assert (P (mul b b) 2) as P2 by (apply (M b b 1 1); [lia|lia|assumption|assumption]). set (b2 := mul b b) in *. assert (P (mul b2 b) 3) as P3 by (apply (M b2 b 2 1); [lia|lia|assumption|assumption]). set (b3 := mul b2 b) in *.
    assert (P (mul b2 b2) 4) as P4 by (apply (M b2 b2 2 2); [lia|lia|assumption|assumption]). set (b4 := mul b2 b2) in *. assert (P (mul b4 b) 5) as P5 by (apply (M b4 b 4 1); [lia|lia|assumption|assumption]). set (b5 := mul b4 b) in *.
    assert (P (mul b3 b3) 6) as P6 by (apply (M b3 b3 3 3); [lia|lia|assumption|assumption]). set (b6 := mul b3 b3) in *. assert (P (mul b6 b) 7) as P7 by (apply (M b6 b 6 1); [lia|lia|assumption|assumption]). set (b7 := mul b6 b) in *.
    clearbody b2 b3 b4 b5 b6 b7. assert (forall u i, 0 <= i -> P u i -> P (sq3 u) (8 * i)) as S3.
    { intros u i Hi H. unfold sq3. cbv zeta. replace (8 * i) with (((i + i) + (i + i)) + ((i + i) + (i + i))) by lia. assert (P (mul u u) (i + i)) as H2 by (apply M; assumption). assert (P (mul (mul u u) (mul u u)) ((i + i) + (i + i))) as H4 by (apply M; [lia|lia|assumption|assumption]). apply M; [lia|lia|assumption|assumption]. }
    fix IH 1. intro e. assert (forall e' x j, P (wpow b b2 b3 b4 b5 b6 b7 e') (Z.pos e') -> 0 <= j -> P x j -> P (mul (sq3 (wpow b b2 b3 b4 b5 b6 b7 e')) x) (8 * Z.pos e' + j)) as K by (intros; apply M; [lia|lia|apply S3; [lia|assumption]|assumption]).
    destruct e as [[[e|e|]|[e|e|]|]|[[e|e|]|[e|e|]|]|]; cbn [wpow]; try assumption.
    - exact (K e b7 7 (IH e) ltac:(lia) P7).
    - exact (K e b3 3 (IH e) ltac:(lia) P3).
    - exact (K e b5 5 (IH e) ltac:(lia) P5).
    - exact (K e b 1 (IH e) ltac:(lia) P1).
    - exact (K e b6 6 (IH e) ltac:(lia) P6).
    - exact (K e b2 2 (IH e) ltac:(lia) P2).
    - exact (K e b4 4 (IH e) ltac:(lia) P4).
    - exact (S3 _ (Z.pos e) ltac:(lia) (IH e)).
  Qed.
End Pow.
Lemma mul_cong n R mul a b x y : mul_ok n R mul -> (n | ev x - a * R) -> (n | ev y - b * R) -> (n | ev (mul x y) - a * b * R).
Proof.
  intros [C M] [u Hu] [v Hv]. apply Gauss with R; [|now apply rel_prime_sym].
  destruct (M x y) as [w Hw]. assert (ev x = a * R + u * n) as Ex by lia. assert (ev y = b * R + v * n) as Ey by lia.
  exists (w + u * v * n + a * R * v + b * R * u). replace (R * (ev (mul x y) - a * b * R)) with (ev (mul x y) * R - ev x * ev y + (ev x * ev y - a * R * (b * R))) by ring. rewrite Hw, Ex, Ey. ring.
Qed.
Lemma lpow_ok n R mul a b e : mul_ok n R mul -> (n | ev b - a * R) -> (n | ev (lpow mul b e) - a ^ Z.pos e * R).
Proof.
  intros M H. apply (lpow_ind mul (fun x i => (n | ev x - a ^ i * R)) b).
  - intros x y i j Hi Hj Hx Hy. rewrite Z.pow_add_r by assumption. now apply mul_cong.
  - now rewrite Z.pow_1_r.
Qed.
(** ** Pocklington certificates, with one witness a for all the primes *)
(** [u] stands for a to the power (n - 1) / (product of l). *)
Fixpoint hgo (mul : num -> num -> num) (R n : Z) (u : num) (l : list Z) : bool :=
  match l with
  | [] => (ev u - R) mod n =? 0
  | q :: l => (1 <? q) && (Z.gcd (ev (mul (lpow mul u (Z.to_pos (zprod l))) (NC x1 NE)) - 1) n =? 1) && hgo mul R n (lpow mul u (Z.to_pos q)) l
  end.
Definition hpock (mul : num -> num -> num) (R n a : Z) (l : list Z) : bool :=
  let f := zprod l in (2 <=? n) && ((n - 1) mod f =? 0) && (n <=? f * f) && hgo mul R n (lpow mul (zdigs ((a * R) mod n)) (Z.to_pos ((n - 1) / f))) l.
Lemma hgo_ok mul R n a l : 2 <= n -> mul_ok n R mul -> forall m u, 0 < m -> (n | ev u - a ^ m * R) -> n - 1 = m * zprod l -> 0 < zprod l -> hgo mul R n u l = true ->
  a ^ (n - 1) mod n = 1 /\ forall q, In q l -> (q | n - 1) /\ Z.gcd (a ^ ((n - 1) / q) - 1) n = 1.
Proof.
  intros Hn M. induction l as [|q l IH]; intros m u Hm Hu Hk Hz H; cbn [hgo] in H.
  - split; [|intros q []]. cbn in Hk. rewrite Z.mul_1_r in Hk. rewrite <- Hk in Hu. apply Z.eqb_eq in H. apply Zmod_divide in H; [|lia]. destruct M as [C M].
    assert ((n | a ^ (n - 1) - 1)) as D.
    { apply Gauss with R; [|now apply rel_prime_sym]. replace (R * (a ^ (n - 1) - 1)) with ((ev u - R) - (ev u - a ^ (n - 1) * R)) by ring. now apply Z.divide_sub_r. }
    apply (mod_eq_divide n) in D; [|lia]. rewrite D. apply Z.mod_small. lia.
  - rewrite !andb_true_iff, Z.ltb_lt, Z.eqb_eq in H. destruct H as [[H1 H2] H3]. change (zprod (q :: l)) with (q * zprod l) in *. assert (0 < zprod l) as Hl by nia.
    pose proof (lpow_ok n R mul _ u (Z.to_pos q) M Hu) as Hw. rewrite Z2Pos.id, <- Z.pow_mul_r in Hw by lia.
    destruct (IH (m * q) (lpow mul u (Z.to_pos q))) as [I1 I2]; [nia|exact Hw|lia|exact Hl|exact H3|]. split; [exact I1|]. intros q' [<-|I]; [|now apply I2].
    split; [exists (m * zprod l); lia|]. assert ((n - 1) / q = m * zprod l) as -> by (rewrite Hk; replace (m * (q * zprod l)) with (m * zprod l * q) by ring; apply Z.div_mul; lia).
    pose proof (lpow_ok n R mul _ u (Z.to_pos (zprod l)) M Hu) as Hv. rewrite Z2Pos.id, <- Z.pow_mul_r in Hv by lia. set (v := lpow mul u (Z.to_pos (zprod l))) in *. set (k := m * zprod l) in *. destruct M as [C M].
    assert ((n | ev (mul v (NC x1 NE)) - a ^ k)) as D.
    { apply Gauss with R; [|now apply rel_prime_sym]. destruct (M v (NC x1 NE)) as [w Hw1]. destruct Hv as [t Hv]. exists (w + t). cbn [ev dv] in Hw1. nia. }
    etransitivity; [|exact H2]. destruct D as [t Ht]. replace (ev (mul v (NC x1 NE)) - 1) with (a ^ k - 1 + t * n) by lia.
    rewrite (Z.gcd_comm _ n), (Z.gcd_comm _ n). rewrite <- (Z.gcd_mod (a ^ k - 1) n), <- (Z.gcd_mod (a ^ k - 1 + t * n) n) by lia. now rewrite Z.mod_add by lia.
Qed.
Theorem hpocklington mul R n a l : mul_ok n R mul -> NoDup l -> Forall prime l -> hpock mul R n a l = true -> prime n.
Proof.
  intros M N P H. unfold hpock in H. cbv zeta in H. rewrite !andb_true_iff, !Z.leb_le, Z.eqb_eq in H. destruct H as [[[H1 H2] S] G].
  assert (0 < zprod l) as Z0. { clear - P. induction P as [|x k A B C]; cbn; [lia|]. fold (zprod k). apply prime_ge_2 in A. nia. }
  apply Zmod_divide in H2; [|lia]. destruct H2 as [m Hm]. assert (0 < m) as Mp by nia. assert ((n - 1) / zprod l = m) as Em by (rewrite Hm; apply Z.div_mul; lia). rewrite Em in G.
  set (b := zdigs ((a * R) mod n)) in *. assert ((n | ev b - a * R)) as Hb.
  { unfold b. rewrite zdigs_ok by (apply Z.mod_pos_bound; lia). exists (- ((a * R) / n)). pose proof (Z_div_mod_eq_full (a * R) n). lia. }
  pose proof (lpow_ok n R mul a b (Z.to_pos m) M Hb) as Hu. rewrite Z2Pos.id in Hu by lia. destruct (hgo_ok mul R n a l H1 M m _ Mp Hu Hm Z0 G) as [A1 A2].
  assert (map fst (map (fun q => (q, a)) l) = l) as E1 by (rewrite map_map; cbn [fst]; apply map_id).
  apply pocklington_prop with (l := map (fun q => (q, a)) l); rewrite ?E1; try assumption. intros q a' I. apply in_map_iff in I. destruct I as (q' & E2 & I). injection E2 as -> ->. destruct (A2 q I). now split.
Qed.
