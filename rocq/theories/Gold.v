(** * Conformance test (not a theorem about all inputs): GENERATED by tools/gen_gold.py.

    The binary64 instance of the model is run on hours 1000-1560 of the repository's
    regression input (tests/test_data_point/gold_csv/gold.snobal.data.input.short.csv,
    with the configuration of tests/pysnobal_config.ini) and every one of the 25
    columns of every row is compared with gold.pysnobal.csv.  The window covers bare
    ground, two packs that form and disappear, one- and two-layer packs and all
    transitions between them.  The whole year (8759 rows) was compared the same way
    outside the build; see DESIGN.md. *)
From Coq Require Import ZArith List Floats.
Import ListNotations.
From Verif Require Import Num Constants Functions Input SnowState Snobal PySnobal FloatNum.
Open Scope float_scope.

Definition gold_rows : list (Z * RawInput float) := [
(60000%Z, mkRaw (0) (294) (0x1.0666666666666p+2) (0x1.4bbd70a3d70a4p+9) (0x1.2666666666666p+1) (0x1.4000000000000p+1) (0) (0) (0) (0x1.199999999999ap+0));
(60060%Z, mkRaw (0) (286) (0x1.599999999999ap+1) (0x1.51970a3d70a3dp+9) (0x1.c000000000000p+1) (0x1.4000000000000p+1) (0x1.6666666666666p-1) (0) (0) (0x1.6666666666666p+0));
(60120%Z, mkRaw (0) (279) (0x1.e666666666666p+0) (0x1.50651eb851eb8p+9) (0x1.4cccccccccccdp+1) (0x1.4000000000000p+1) (0x1.999999999999ap-3) (0) (0) (0x1.4cccccccccccdp+0));
(60180%Z, mkRaw (0) (271) (1) (0x1.3b5851eb851ecp+9) (2) (0x1.4000000000000p+1) (0) (0x1.0000000000000p-2) (250) (0x1.999999999999ap-2));
(60240%Z, mkRaw (0) (267) (1) (0x1.2aeb851eb851fp+9) (0x1.8000000000000p+0) (0x1.4000000000000p+1) (0x1.999999999999ap-4) (0x1.8000000000000p-1) (200) (-0x1.3333333333333p-2));
(60300%Z, mkRaw (0) (265) (0x1.6666666666666p+0) (0x1.298147ae147aep+9) (0x1.ccccccccccccdp+0) (0x1.3333333333333p+1) (0x1.999999999999ap-3) (0x1.8000000000000p-1) (200) (-0x1.3333333333333p-2));
(60360%Z, mkRaw (0) (262) (0x1.6666666666666p+0) (0x1.2620000000000p+9) (0x1.3333333333333p+1) (0x1.3333333333333p+1) (0) (0x1.8000000000000p-1) (200) (-0x1.0000000000000p-1));
(60420%Z, mkRaw (0) (257) (0x1.999999999999ap-1) (0x1.29e0000000000p+9) (0x1.4000000000000p+1) (0x1.3333333333333p+1) (0) (0x1.8000000000000p-1) (200) (-0x1.3333333333333p-2));
(60480%Z, mkRaw (0) (251) (0x1.999999999999ap-4) (0x1.1e3c28f5c28f6p+9) (0x1.e666666666666p+0) (0x1.3333333333333p+1) (0) (1) (175) (-0x1.999999999999ap-1));
(60540%Z, mkRaw (0) (247) (0x1.999999999999ap-2) (0x1.11a7ae147ae14p+9) (0x1.b333333333333p+0) (0x1.3333333333333p+1) (0) (1) (175) (-0x1.4cccccccccccdp+0));
(60600%Z, mkRaw (0) (242) (0x1.999999999999ap-2) (0x1.f0fd70a3d70a4p+8) (0x1.0cccccccccccdp+1) (0x1.3333333333333p+1) (0) (1) (150) (-0x1.4000000000000p+1));
(60660%Z, mkRaw (0) (241) (0x1.3333333333333p-1) (0x1.f1d999999999ap+8) (0x1.4000000000000p+1) (0x1.3333333333333p+1) (0) (1) (150) (-0x1.4000000000000p+1));
(60720%Z, mkRaw (0) (236) (0x1.3333333333333p-1) (0x1.d851eb851eb85p+8) (0x1.8cccccccccccdp+1) (0x1.3333333333333p+1) (0) (1) (100) (-0x1.8cccccccccccdp+1));
(60780%Z, mkRaw (0) (237) (0x1.3333333333333p+0) (0x1.ed35c28f5c28fp+8) (0x1.b333333333333p+1) (0x1.3333333333333p+1) (0) (1) (150) (-0x1.4cccccccccccdp+1));
(60840%Z, mkRaw (0) (229) (0x1.0000000000000p-1) (0x1.c1e6666666666p+8) (0x1.999999999999ap+1) (0x1.3333333333333p+1) (0) (1) (100) (-0x1.d99999999999ap+1));
(60900%Z, mkRaw (0x1.070a3d70a3d71p+2) (228) (0x1.6666666666666p+0) (0x1.b77d70a3d70a4p+8) (0x1.6666666666666p+1) (0x1.3333333333333p+1) (0) (1) (100) (-0x1.f333333333333p+1));
(60960%Z, mkRaw (0x1.b35c28f5c28f6p+4) (228) (0x1.2666666666666p+1) (0x1.b0ae147ae147bp+8) (0x1.7333333333333p+1) (0x1.3333333333333p+1) (0) (1) (100) (-0x1.0666666666666p+2));
(61020%Z, mkRaw (0x1.76e147ae147aep+5) (251) (0x1.5333333333333p+2) (0x1.06c8f5c28f5c3p+9) (0x1.4cccccccccccdp+1) (0x1.3333333333333p+1) (0) (1) (150) (-0x1.ccccccccccccdp+0));
(61080%Z, mkRaw (0x1.f19999999999ap+3) (309) (0x1.1333333333333p+2) (0x1.79f70a3d70a3dp+9) (0x1.8cccccccccccdp+1) (0x1.3333333333333p+1) (0x1.999999999999ap+0) (0) (0) (3));
(61140%Z, mkRaw (0x1.52e147ae147aep+4) (294) (0x1.2666666666666p+1) (0x1.4f53333333333p+9) (0x1.8cccccccccccdp+1) (0x1.3333333333333p+1) (1) (0) (0) (0x1.4cccccccccccdp+0));
(61200%Z, mkRaw (0x1.95c28f5c28f5cp+4) (291) (0x1.2666666666666p+1) (0x1.5688f5c28f5c3p+9) (0x1.d99999999999ap+1) (0x1.2666666666666p+1) (0x1.6666666666666p+0) (0) (0) (0x1.999999999999ap+0));
(61260%Z, mkRaw (0x1.0b1eb851eb852p+5) (275) (0x1.4000000000000p+1) (0x1.36e0000000000p+9) (0x1.999999999999ap+1) (0x1.2666666666666p+1) (0x1.3333333333333p-2) (0x1.0000000000000p-2) (250) (0x1.999999999999ap-3));
(61320%Z, mkRaw (0x1.fb851eb851eb8p+2) (311) (0x1.199999999999ap+2) (0x1.4a6e147ae147bp+9) (0x1.4cccccccccccdp+1) (0x1.2666666666666p+1) (0) (0) (0) (0x1.199999999999ap+0));
(61380%Z, mkRaw (0x1.147ae147ae148p+0) (313) (0x1.2000000000000p+2) (0x1.6a3d70a3d70a4p+9) (0x1.6666666666666p+1) (0x1.2666666666666p+1) (0x1.8000000000000p+0) (0) (0) (0x1.3333333333333p+1));
(61440%Z, mkRaw (0) (307) (0x1.b333333333333p+1) (0x1.6e747ae147ae1p+9) (0x1.a666666666666p+1) (0x1.2666666666666p+1) (0x1.ccccccccccccdp+0) (0) (0) (0x1.4000000000000p+1));
(61500%Z, mkRaw (0) (308) (0x1.e666666666666p+1) (0x1.78f0a3d70a3d7p+9) (0x1.4cccccccccccdp+1) (0x1.2666666666666p+1) (0x1.6666666666666p-1) (0) (0) (0x1.7333333333333p+1));
(61560%Z, mkRaw (0) (308) (0x1.f333333333333p+1) (0x1.83ae147ae147bp+9) (0x1.4cccccccccccdp+1) (0x1.2666666666666p+1) (0) (0) (0) (0x1.a666666666666p+1));
(61620%Z, mkRaw (0) (305) (0x1.e666666666666p+1) (0x1.7cf3333333333p+9) (0x1.4cccccccccccdp+1) (0x1.2666666666666p+1) (0x1.999999999999ap-2) (0) (0) (0x1.8cccccccccccdp+1));
(61680%Z, mkRaw (0) (298) (3) (0x1.643999999999ap+9) (0x1.c000000000000p+1) (0x1.2666666666666p+1) (0x1.a666666666666p+1) (0) (0) (0x1.0cccccccccccdp+1));
(61740%Z, mkRaw (0) (282) (0x1.0000000000000p-1) (0x1.33547ae147ae1p+9) (0x1.399999999999ap+2) (0x1.2666666666666p+1) (0x1.ccccccccccccdp-1) (0x1.0000000000000p-2) (250) (0x1.999999999999ap-4));
(61800%Z, mkRaw (0) (279) (0x1.999999999999ap-4) (0x1.2a8b851eb851fp+9) (0x1.f333333333333p+1) (0x1.2666666666666p+1) (0x1.4000000000000p+1) (0x1.8000000000000p-1) (200) (-0x1.3333333333333p-2));
(61860%Z, mkRaw (0) (276) (0) (0x1.2523d70a3d70ap+9) (0x1.5333333333333p+2) (0x1.2666666666666p+1) (0) (0x1.8000000000000p-1) (200) (-0x1.0000000000000p-1));
(61920%Z, mkRaw (0) (268) (-0x1.3333333333333p+0) (0x1.0970a3d70a3d7p+9) (5) (0x1.2666666666666p+1) (0) (1) (150) (-0x1.b333333333333p+0));
(61980%Z, mkRaw (0) (261) (-2) (0x1.f0a3d70a3d70ap+8) (5) (0x1.2666666666666p+1) (0) (1) (150) (-0x1.4000000000000p+1));
(62040%Z, mkRaw (0) (262) (-0x1.b333333333333p+0) (0x1.fd3d70a3d70a4p+8) (0x1.f333333333333p+1) (0x1.2666666666666p+1) (0) (1) (150) (-0x1.199999999999ap+1));
(62100%Z, mkRaw (0) (258) (-2) (0x1.e11eb851eb852p+8) (0x1.ccccccccccccdp+1) (0x1.199999999999ap+1) (0) (1) (150) (-0x1.7333333333333p+1));
(62160%Z, mkRaw (0) (252) (-0x1.3333333333333p+1) (0x1.9f40000000000p+8) (0x1.4000000000000p+1) (0x1.199999999999ap+1) (0) (1) (100) (-0x1.2666666666666p+2));
(62220%Z, mkRaw (0) (248) (-0x1.3333333333333p+1) (0x1.773ae147ae148p+8) (0x1.2666666666666p+1) (0x1.199999999999ap+1) (0) (1) (75) (-0x1.7333333333333p+2));
(62280%Z, mkRaw (0) (247) (-0x1.ccccccccccccdp+0) (0x1.65b851eb851ecp+8) (0x1.2666666666666p+1) (0x1.199999999999ap+1) (0) (1) (75) (-0x1.9333333333333p+2));
(62340%Z, mkRaw (0x1.d5c28f5c28f5cp+1) (249) (-0x1.3333333333333p+0) (0x1.780a3d70a3d71p+8) (0x1.0cccccccccccdp+1) (0x1.199999999999ap+1) (0) (1) (75) (-0x1.7333333333333p+2));
(62400%Z, mkRaw (0x1.97ae147ae147bp+3) (249) (-0x1.6666666666666p-1) (0x1.76ab851eb851fp+8) (0x1.0cccccccccccdp+1) (0x1.199999999999ap+1) (0) (1) (75) (-0x1.7333333333333p+2));
(62460%Z, mkRaw (0x1.0666666666666p+4) (270) (0x1.0000000000000p-1) (0x1.a88f5c28f5c29p+8) (0x1.4000000000000p+1) (0x1.199999999999ap+1) (0) (1) (100) (-0x1.1333333333333p+2));
(62520%Z, mkRaw (0x1.80ccccccccccdp+4) (271) (0x1.6666666666666p+0) (0x1.95b0a3d70a3d7p+8) (0x1.2666666666666p+1) (0x1.199999999999ap+1) (0) (1) (100) (-0x1.399999999999ap+2));
(62580%Z, mkRaw (0x1.c5c28f5c28f5cp+4) (273) (0x1.0cccccccccccdp+1) (0x1.8e1c28f5c28f6p+8) (0x1.4cccccccccccdp+1) (0x1.199999999999ap+1) (0) (1) (75) (-0x1.4666666666666p+2));
(62640%Z, mkRaw (0x1.563d70a3d70a4p+4) (281) (0x1.2666666666666p+1) (0x1.93d47ae147ae1p+8) (0x1.a666666666666p+1) (0x1.199999999999ap+1) (0) (1) (100) (-0x1.399999999999ap+2));
(62700%Z, mkRaw (0x1.81eb851eb851fp+3) (296) (0x1.e666666666666p+0) (0x1.345c28f5c28f6p+9) (0x1.ccccccccccccdp+1) (0x1.199999999999ap+1) (0x1.e666666666666p+0) (0x1.0000000000000p-2) (250) (0x1.999999999999ap-4));
(62760%Z, mkRaw (0x1.fae147ae147aep+2) (284) (-0x1.6666666666666p-1) (0x1.14ae147ae147bp+9) (0x1.ccccccccccccdp+1) (0x1.199999999999ap+1) (0x1.4cccccccccccdp+0) (1) (175) (-0x1.3333333333333p+0));
(62820%Z, mkRaw (0x1.1333333333333p+1) (281) (-0x1.3333333333333p-1) (0x1.16fae147ae148p+9) (3) (0x1.199999999999ap+1) (0x1.599999999999ap+1) (1) (175) (-0x1.199999999999ap+0));
(62880%Z, mkRaw (0) (275) (-0x1.199999999999ap+0) (0x1.0ba7ae147ae14p+9) (0x1.f333333333333p+1) (0x1.199999999999ap+1) (0x1.999999999999ap-2) (1) (150) (-0x1.999999999999ap+0));
(62940%Z, mkRaw (0) (273) (-0x1.999999999999ap-1) (0x1.154147ae147aep+9) (0x1.6666666666666p+2) (0x1.199999999999ap+1) (0) (1) (175) (-0x1.3333333333333p+0));
(63000%Z, mkRaw (0) (268) (-0x1.3333333333333p+0) (0x1.0970a3d70a3d7p+9) (0x1.8cccccccccccdp+2) (0x1.199999999999ap+1) (0) (1) (150) (-0x1.b333333333333p+0));
(63060%Z, mkRaw (0) (263) (-0x1.6666666666666p+0) (0x1.0510a3d70a3d7p+9) (0x1.2666666666666p+2) (0x1.199999999999ap+1) (0) (1) (150) (-0x1.e666666666666p+0));
(63120%Z, mkRaw (0) (258) (-0x1.ccccccccccccdp+0) (0x1.f9028f5c28f5cp+8) (0x1.2000000000000p+2) (0x1.199999999999ap+1) (0) (1) (150) (-0x1.2666666666666p+1));
(63180%Z, mkRaw (0) (252) (-0x1.199999999999ap+1) (0x1.e866666666666p+8) (0x1.2000000000000p+2) (0x1.199999999999ap+1) (0) (1) (150) (-0x1.599999999999ap+1));
(63240%Z, mkRaw (0) (249) (-0x1.2666666666666p+1) (0x1.e4547ae147ae1p+8) (0x1.c000000000000p+1) (0x1.0cccccccccccdp+1) (0) (1) (150) (-0x1.6666666666666p+1));
(63300%Z, mkRaw (0) (245) (-0x1.3333333333333p+1) (0x1.e04a3d70a3d71p+8) (0x1.999999999999ap+1) (0x1.0cccccccccccdp+1) (0) (1) (150) (-0x1.7333333333333p+1));
(63360%Z, mkRaw (0) (240) (-0x1.6666666666666p+1) (0x1.d06e147ae147bp+8) (0x1.6666666666666p+1) (0x1.0cccccccccccdp+1) (0) (1) (100) (-0x1.a666666666666p+1));
(63420%Z, mkRaw (0) (238) (-0x1.4000000000000p+1) (0x1.dc47ae147ae14p+8) (0x1.6666666666666p+1) (0x1.0cccccccccccdp+1) (0) (1) (150) (-3));
(63480%Z, mkRaw (0) (233) (-0x1.7333333333333p+1) (0x1.cc8a3d70a3d71p+8) (0x1.2666666666666p+1) (0x1.0cccccccccccdp+1) (0) (1) (100) (-0x1.b333333333333p+1));
(63540%Z, mkRaw (0) (229) (-3) (0x1.c8ae147ae147bp+8) (3) (0x1.0cccccccccccdp+1) (0) (1) (100) (-0x1.c000000000000p+1));
(63600%Z, mkRaw (0) (225) (-0x1.a666666666666p+1) (0x1.bd451eb851eb8p+8) (0x1.3333333333333p+1) (0x1.0cccccccccccdp+1) (0) (1) (100) (-0x1.e666666666666p+1));
(63660%Z, mkRaw (0) (220) (-0x1.c000000000000p+1) (0x1.b5d1eb851eb85p+8) (0x1.b333333333333p+0) (0x1.0cccccccccccdp+1) (0) (1) (100) (-4));
(63720%Z, mkRaw (0) (214) (-0x1.0666666666666p+2) (0x1.a01eb851eb852p+8) (0x1.e666666666666p+0) (0x1.0cccccccccccdp+1) (0) (1) (100) (-0x1.2666666666666p+2));
(63780%Z, mkRaw (0x1.ca3d70a3d70a4p+1) (210) (-0x1.0666666666666p+2) (0x1.8ec7ae147ae14p+8) (2) (0x1.0cccccccccccdp+1) (0) (1) (75) (-0x1.4666666666666p+2));
(63840%Z, mkRaw (0x1.acccccccccccdp+4) (211) (-3) (0x1.9ddc28f5c28f6p+8) (0x1.2666666666666p+1) (0x1.0cccccccccccdp+1) (0) (1) (100) (-0x1.2666666666666p+2));
(63900%Z, mkRaw (0x1.b3851eb851eb8p+5) (217) (-0x1.999999999999ap+0) (0x1.b1451eb851eb8p+8) (0x1.8cccccccccccdp+1) (0x1.0cccccccccccdp+1) (0) (1) (100) (-0x1.0666666666666p+2));
(63960%Z, mkRaw (0x1.2f7ae147ae148p+6) (223) (0x1.999999999999ap-4) (0x1.c7828f5c28f5cp+8) (3) (0x1.0cccccccccccdp+1) (0) (1) (100) (-0x1.c000000000000p+1));
(64020%Z, mkRaw (0x1.4ce147ae147aep+6) (231) (0x1.999999999999ap+0) (0x1.cb91eb851eb85p+8) (0x1.4cccccccccccdp+1) (0x1.0cccccccccccdp+1) (0) (1) (100) (-0x1.b333333333333p+1));
(64080%Z, mkRaw (0x1.23147ae147ae1p+6) (245) (0x1.599999999999ap+1) (0x1.e2451eb851eb8p+8) (2) (0x1.0cccccccccccdp+1) (0) (1) (150) (-0x1.6666666666666p+1));
(64140%Z, mkRaw (0x1.b11eb851eb852p+5) (252) (0x1.4000000000000p+1) (0x1.ccd47ae147ae1p+8) (0x1.199999999999ap+1) (0x1.0cccccccccccdp+1) (0) (1) (100) (-0x1.b333333333333p+1));
(64200%Z, mkRaw (0x1.08b851eb851ecp+5) (263) (3) (0x1.e511eb851eb85p+8) (0x1.2666666666666p+1) (0x1.0cccccccccccdp+1) (0) (1) (150) (-0x1.6666666666666p+1));
(64260%Z, mkRaw (0x1.cae147ae147aep+2) (257) (0x1.b333333333333p+0) (0x1.dcb0a3d70a3d7p+8) (0x1.4000000000000p+1) (0x1.0cccccccccccdp+1) (0) (1) (150) (-3));
(64320%Z, mkRaw (0) (254) (1) (0x1.d9028f5c28f5cp+8) (2) (0x1.0cccccccccccdp+1) (0) (1) (100) (-0x1.8cccccccccccdp+1));
(64380%Z, mkRaw (0) (249) (0x1.999999999999ap-2) (0x1.b2147ae147ae1p+8) (0x1.199999999999ap+1) (0x1.0cccccccccccdp+1) (0) (1) (100) (-0x1.0666666666666p+2));
(64440%Z, mkRaw (0) (246) (0) (0x1.9f47ae147ae14p+8) (0x1.6666666666666p+1) (0x1.0cccccccccccdp+1) (0) (1) (100) (-0x1.2666666666666p+2));
(64500%Z, mkRaw (0) (248) (0x1.3333333333333p-1) (0x1.aba3d70a3d70ap+8) (3) (2) (0) (1) (100) (-0x1.1333333333333p+2));
(64560%Z, mkRaw (0) (250) (0x1.3333333333333p+0) (0x1.aa8f5c28f5c29p+8) (0x1.8cccccccccccdp+1) (2) (0) (1) (100) (-0x1.1333333333333p+2));
(64620%Z, mkRaw (0) (253) (2) (0x1.c3bd70a3d70a4p+8) (3) (2) (0) (1) (100) (-0x1.ccccccccccccdp+1));
(64680%Z, mkRaw (0) (252) (0x1.e666666666666p+0) (0x1.ce8a3d70a3d71p+8) (0x1.4cccccccccccdp+1) (2) (0) (1) (100) (-0x1.a666666666666p+1));
(64740%Z, mkRaw (0) (251) (0x1.b333333333333p+0) (0x1.c7f5c28f5c28fp+8) (0x1.4cccccccccccdp+1) (2) (0) (1) (100) (-0x1.c000000000000p+1));
(64800%Z, mkRaw (0) (256) (0x1.599999999999ap+1) (0x1.e9b0a3d70a3d7p+8) (0x1.199999999999ap+1) (2) (0) (1) (150) (-0x1.599999999999ap+1));
(64860%Z, mkRaw (0) (256) (3) (0x1.f43ae147ae148p+8) (0x1.4000000000000p+1) (2) (0) (1) (150) (-0x1.3333333333333p+1));
(64920%Z, mkRaw (0) (257) (0x1.a666666666666p+1) (0x1.ef7d70a3d70a4p+8) (2) (2) (0) (1) (150) (-0x1.4000000000000p+1));
(64980%Z, mkRaw (0) (255) (0x1.a666666666666p+1) (480) (0x1.199999999999ap+1) (2) (0) (1) (150) (-0x1.7333333333333p+1));
(65040%Z, mkRaw (0) (258) (0x1.8cccccccccccdp+1) (0x1.1a6cccccccccdp+9) (0x1.2666666666666p+1) (2) (0) (1) (175) (-0x1.ccccccccccccdp-1));
(65100%Z, mkRaw (0) (261) (0x1.999999999999ap+1) (0x1.42deb851eb852p+9) (0x1.0cccccccccccdp+1) (2) (0) (0) (0) (0x1.999999999999ap-1));
(65160%Z, mkRaw (0) (266) (0x1.2cccccccccccdp+2) (0x1.3c15c28f5c28fp+9) (2) (2) (0) (0x1.0000000000000p-2) (250) (0x1.0000000000000p-1));
(65220%Z, mkRaw (0x1.e51eb851eb852p+1) (252) (3) (0x1.eca6666666666p+8) (0x1.0cccccccccccdp+1) (2) (0) (1) (150) (-0x1.4cccccccccccdp+1));
(65280%Z, mkRaw (0x1.591eb851eb852p+4) (260) (0x1.7333333333333p+2) (0x1.d65c28f5c28f6p+8) (3) (2) (0) (1) (100) (-0x1.8cccccccccccdp+1));
(65340%Z, mkRaw (0x1.b0a3d70a3d70ap+5) (247) (0x1.8666666666666p+2) (0x1.ba8f5c28f5c29p+8) (0x1.8cccccccccccdp+1) (2) (0) (1) (100) (-0x1.f333333333333p+1));
(65400%Z, mkRaw (0x1.33e147ae147aep+6) (253) (0x1.d333333333333p+2) (0x1.d66b851eb851fp+8) (0x1.4000000000000p+1) (2) (0) (1) (100) (-0x1.8cccccccccccdp+1));
(65460%Z, mkRaw (0x1.081eb851eb852p+6) (273) (0x1.e666666666666p+2) (0x1.d5bae147ae148p+8) (0x1.8cccccccccccdp+1) (2) (0) (1) (100) (-0x1.8cccccccccccdp+1));
(65520%Z, mkRaw (0x1.0d1eb851eb852p+6) (275) (0x1.0666666666666p+3) (0x1.e9547ae147ae1p+8) (3) (2) (0) (1) (150) (-0x1.599999999999ap+1));
(65580%Z, mkRaw (0x1.20147ae147ae1p+6) (264) (0x1.1000000000000p+3) (0x1.f366666666666p+8) (0x1.4cccccccccccdp+1) (2) (0) (1) (150) (-0x1.3333333333333p+1));
(65640%Z, mkRaw (0x1.6fc28f5c28f5cp+5) (268) (0x1.f333333333333p+2) (0x1.dc30a3d70a3d7p+8) (0x1.2000000000000p+2) (2) (0) (1) (150) (-3));
(65700%Z, mkRaw (0x1.bb851eb851eb8p+3) (267) (0x1.ccccccccccccdp+2) (0x1.dd5eb851eb852p+8) (0x1.9333333333333p+2) (2) (0) (1) (150) (-3));
(65760%Z, mkRaw (0) (268) (0x1.a666666666666p+2) (0x1.f1147ae147ae1p+8) (0x1.599999999999ap+2) (2) (0) (1) (150) (-0x1.4000000000000p+1));
(65820%Z, mkRaw (0) (268) (6) (0x1.f8f851eb851ecp+8) (0x1.ccccccccccccdp+2) (2) (0) (1) (150) (-0x1.2666666666666p+1));
(65880%Z, mkRaw (0) (271) (0x1.a000000000000p+2) (0x1.f75999999999ap+8) (0x1.8cccccccccccdp+1) (2) (0) (1) (150) (-0x1.2666666666666p+1));
(65940%Z, mkRaw (0) (276) (0x1.ccccccccccccdp+2) (0x1.02feb851eb852p+9) (0x1.999999999999ap+1) (2) (0) (1) (150) (-2));
(66000%Z, mkRaw (0) (278) (0x1.c666666666666p+2) (0x1.06451eb851eb8p+9) (0x1.7333333333333p+1) (0x1.e666666666666p+0) (0) (1) (150) (-0x1.ccccccccccccdp+0));
(66060%Z, mkRaw (0) (273) (0x1.8666666666666p+2) (0x1.e03ae147ae148p+8) (0x1.2666666666666p+1) (0x1.e666666666666p+0) (0) (1) (150) (-0x1.7333333333333p+1));
(66120%Z, mkRaw (0) (281) (0x1.d333333333333p+2) (0x1.ff547ae147ae1p+8) (0x1.2666666666666p+1) (0x1.e666666666666p+0) (0) (1) (150) (-0x1.0cccccccccccdp+1));
(66180%Z, mkRaw (0) (280) (0x1.ccccccccccccdp+2) (0x1.e7851eb851eb8p+8) (0x1.8cccccccccccdp+1) (0x1.e666666666666p+0) (0) (1) (150) (-0x1.599999999999ap+1));
(66240%Z, mkRaw (0) (285) (0x1.e666666666666p+2) (0x1.ff7d70a3d70a4p+8) (0x1.ccccccccccccdp+1) (0x1.e666666666666p+0) (0) (1) (150) (-0x1.0cccccccccccdp+1));
(66300%Z, mkRaw (0) (282) (0x1.acccccccccccdp+2) (0x1.eab3333333333p+8) (0x1.7333333333333p+1) (0x1.e666666666666p+0) (0) (1) (150) (-0x1.4cccccccccccdp+1));
(66360%Z, mkRaw (0) (279) (6) (0x1.d391eb851eb85p+8) (0x1.199999999999ap+1) (0x1.e666666666666p+0) (0) (1) (100) (-0x1.999999999999ap+1));
(66420%Z, mkRaw (0) (282) (0x1.9333333333333p+2) (0x1.dd5c28f5c28f6p+8) (0x1.4cccccccccccdp+1) (0x1.e666666666666p+0) (0) (1) (150) (-3));
(66480%Z, mkRaw (0) (292) (0x1.8666666666666p+2) (0x1.44dc28f5c28f6p+9) (0x1.8cccccccccccdp+1) (0x1.e666666666666p+0) (0x1.999999999999ap-3) (0) (0) (0x1.999999999999ap-1));
(66540%Z, mkRaw (0) (288) (0x1.e666666666666p+1) (0x1.6ce8f5c28f5c3p+9) (0x1.ccccccccccccdp+1) (0x1.e666666666666p+0) (3) (0) (0) (0x1.4000000000000p+1));
(66600%Z, mkRaw (0) (280) (0x1.e666666666666p+0) (0x1.50651eb851eb8p+9) (0x1.f333333333333p+1) (0x1.e666666666666p+0) (0x1.999999999999ap-1) (0) (0) (0x1.4cccccccccccdp+0));
(66660%Z, mkRaw (0x1.451eb851eb852p+1) (284) (0x1.6666666666666p+1) (0x1.3d947ae147ae1p+9) (0x1.8cccccccccccdp+1) (0x1.e666666666666p+0) (0) (0) (0) (0x1.0000000000000p-1));
(66720%Z, mkRaw (0x1.12e147ae147aep+3) (290) (0x1.ccccccccccccdp+1) (0x1.5bf0a3d70a3d7p+9) (0x1.b333333333333p+1) (0x1.e666666666666p+0) (0) (0) (0) (0x1.ccccccccccccdp+0));
(66780%Z, mkRaw (0x1.6cccccccccccdp+4) (281) (3) (0x1.6803d70a3d70ap+9) (0x1.d99999999999ap+1) (0x1.e666666666666p+0) (0) (0) (0) (0x1.2666666666666p+1));
(66840%Z, mkRaw (0x1.b67ae147ae148p+5) (253) (0x1.b333333333333p+1) (0x1.33f999999999ap+9) (0x1.0cccccccccccdp+2) (0x1.e666666666666p+0) (0) (0x1.0000000000000p-2) (250) (0x1.999999999999ap-4));
(66900%Z, mkRaw (0x1.9af5c28f5c28fp+5) (268) (0x1.3333333333333p+2) (0x1.17970a3d70a3dp+9) (0x1.f333333333333p+1) (0x1.e666666666666p+0) (0) (1) (175) (-0x1.199999999999ap+0));
(66960%Z, mkRaw (0x1.d1c28f5c28f5cp+5) (260) (0x1.3333333333333p+2) (0x1.0215c28f5c28fp+9) (0x1.f333333333333p+1) (0x1.e666666666666p+0) (0) (1) (150) (-2));
(67020%Z, mkRaw (0x1.02a3d70a3d70ap+5) (282) (0x1.4cccccccccccdp+2) (0x1.04f70a3d70a3dp+9) (0x1.199999999999ap+2) (0x1.e666666666666p+0) (0) (1) (150) (-0x1.e666666666666p+0));
(67080%Z, mkRaw (0x1.40f5c28f5c28fp+4) (288) (5) (0x1.12ccccccccccdp+9) (0x1.b333333333333p+1) (0x1.e666666666666p+0) (0) (1) (175) (-0x1.4cccccccccccdp+0));
(67140%Z, mkRaw (0x1.aeb851eb851ecp+2) (291) (5) (0x1.243eb851eb852p+9) (0x1.e666666666666p+0) (0x1.e666666666666p+0) (0) (1) (175) (-0x1.0000000000000p-1));
(67200%Z, mkRaw (0) (296) (0x1.0cccccccccccdp+2) (0x1.7751eb851eb85p+9) (0x1.8000000000000p+0) (0x1.e666666666666p+0) (0x1.999999999999ap-2) (0) (0) (0x1.7333333333333p+1));
(67260%Z, mkRaw (0) (285) (2) (0x1.59dd70a3d70a4p+9) (0x1.0cccccccccccdp+1) (0x1.e666666666666p+0) (0) (0) (0) (0x1.b333333333333p+0));
(67320%Z, mkRaw (0) (284) (0x1.e666666666666p+0) (0x1.49628f5c28f5cp+9) (0x1.4cccccccccccdp+0) (0x1.e666666666666p+0) (0) (0) (0) (1));
(67380%Z, mkRaw (0) (286) (0x1.2666666666666p+1) (0x1.448147ae147aep+9) (0x1.999999999999ap+0) (0x1.e666666666666p+0) (0x1.3333333333333p-2) (0) (0) (0x1.999999999999ap-1));
(67440%Z, mkRaw (0) (291) (0x1.599999999999ap+1) (0x1.606e147ae147bp+9) (0x1.0cccccccccccdp+1) (0x1.e666666666666p+0) (0x1.6666666666666p+0) (0) (0) (2));
(67500%Z, mkRaw (0) (291) (0x1.4000000000000p+1) (0x1.666cccccccccdp+9) (0x1.199999999999ap+1) (0x1.e666666666666p+0) (0x1.ccccccccccccdp-1) (0) (0) (0x1.199999999999ap+1));
(67560%Z, mkRaw (0) (292) (0x1.4000000000000p+1) (0x1.62c3d70a3d70ap+9) (0x1.6666666666666p+1) (0x1.e666666666666p+0) (0x1.ccccccccccccdp-1) (0) (0) (0x1.0cccccccccccdp+1));
(67620%Z, mkRaw (0) (292) (0x1.2666666666666p+1) (0x1.615999999999ap+9) (0x1.8cccccccccccdp+1) (0x1.e666666666666p+0) (0x1.ccccccccccccdp-1) (0) (0) (2));
(67680%Z, mkRaw (0) (294) (0x1.4cccccccccccdp+1) (0x1.654cccccccccdp+9) (0x1.8cccccccccccdp+1) (0x1.e666666666666p+0) (0x1.4cccccccccccdp+0) (0) (0) (0x1.199999999999ap+1));
(67740%Z, mkRaw (0) (296) (0x1.599999999999ap+1) (0x1.6b8f5c28f5c29p+9) (0x1.7333333333333p+1) (0x1.e666666666666p+0) (2) (0) (0) (0x1.3333333333333p+1));
(67800%Z, mkRaw (0) (298) (3) (0x1.73628f5c28f5cp+9) (0x1.8cccccccccccdp+1) (0x1.e666666666666p+0) (0x1.7333333333333p+1) (0) (0) (0x1.599999999999ap+1));
(67860%Z, mkRaw (0) (301) (0x1.999999999999ap+1) (0x1.78ae147ae147bp+9) (0x1.999999999999ap+1) (0x1.e666666666666p+0) (0x1.599999999999ap+2) (0) (0) (0x1.7333333333333p+1));
(67920%Z, mkRaw (0) (302) (0x1.a666666666666p+1) (0x1.7b5ae147ae148p+9) (0x1.8cccccccccccdp+1) (0x1.e666666666666p+0) (0x1.b333333333333p+1) (0) (0) (3));
(67980%Z, mkRaw (0) (299) (0x1.599999999999ap+1) (0x1.6b8f5c28f5c29p+9) (0x1.ccccccccccccdp+1) (0x1.e666666666666p+0) (0x1.7333333333333p+1) (0) (0) (0x1.3333333333333p+1));
(68040%Z, mkRaw (0) (301) (3) (0x1.73628f5c28f5cp+9) (0x1.4cccccccccccdp+1) (0x1.e666666666666p+0) (0x1.6666666666666p+1) (0) (0) (0x1.599999999999ap+1));
(68100%Z, mkRaw (0x1.0666666666666p+1) (305) (0x1.b333333333333p+1) (0x1.7e0b851eb851fp+9) (0x1.a666666666666p+1) (0x1.ccccccccccccdp+0) (0x1.d99999999999ap+1) (0) (0) (0x1.8cccccccccccdp+1));
(68160%Z, mkRaw (0x1.3a3d70a3d70a4p+2) (307) (0x1.ccccccccccccdp+1) (0x1.837ae147ae148p+9) (0x1.c000000000000p+1) (0x1.ccccccccccccdp+0) (0x1.6666666666666p+1) (0) (0) (0x1.a666666666666p+1));
(68220%Z, mkRaw (0x1.ac28f5c28f5c3p+2) (309) (3) (0x1.73628f5c28f5cp+9) (0x1.a666666666666p+1) (0x1.ccccccccccccdp+0) (0x1.4000000000000p+1) (0) (0) (0x1.599999999999ap+1));
(68280%Z, mkRaw (0x1.0947ae147ae14p+4) (298) (0x1.4cccccccccccdp+1) (0x1.654cccccccccdp+9) (0x1.c000000000000p+1) (0x1.ccccccccccccdp+0) (0x1.c000000000000p+1) (0) (0) (0x1.199999999999ap+1));
(68340%Z, mkRaw (0x1.25c28f5c28f5cp+3) (305) (0x1.0cccccccccccdp+1) (0x1.58ca3d70a3d71p+9) (0x1.7333333333333p+1) (0x1.ccccccccccccdp+0) (0x1.6666666666666p+0) (0) (0) (0x1.b333333333333p+0));
(68400%Z, mkRaw (0x1.747ae147ae148p+3) (308) (0x1.6666666666666p+1) (0x1.6a6a3d70a3d71p+9) (0x1.e666666666666p+1) (0x1.ccccccccccccdp+0) (0x1.4000000000000p+1) (0) (0) (0x1.3333333333333p+1));
(68460%Z, mkRaw (25) (285) (0x1.2666666666666p+1) (0x1.5688f5c28f5c3p+9) (0x1.a666666666666p+1) (0x1.ccccccccccccdp+0) (0x1.ccccccccccccdp+0) (0) (0) (0x1.999999999999ap+0));
(68520%Z, mkRaw (0x1.a51eb851eb852p+1) (312) (0x1.599999999999ap+1) (0x1.5cb851eb851ecp+9) (0x1.2666666666666p+1) (0x1.ccccccccccccdp+0) (0x1.c000000000000p+1) (0) (0) (0x1.ccccccccccccdp+0));
(68580%Z, mkRaw (0x1.dd70a3d70a3d7p+1) (303) (0x1.ccccccccccccdp+0) (0x1.4dfeb851eb852p+9) (0x1.199999999999ap+1) (0x1.ccccccccccccdp+0) (0x1.3333333333333p-2) (0) (0) (0x1.3333333333333p+0));
(68640%Z, mkRaw (0) (292) (0x1.6666666666666p-1) (0x1.34970a3d70a3dp+9) (0x1.2666666666666p+1) (0x1.ccccccccccccdp+0) (0x1.999999999999ap-2) (0x1.0000000000000p-2) (250) (0x1.999999999999ap-4));
(68700%Z, mkRaw (0) (285) (0x1.3333333333333p-1) (0x1.15a51eb851eb8p+9) (0x1.3333333333333p+1) (0x1.ccccccccccccdp+0) (0) (1) (175) (-0x1.199999999999ap+0));
(68760%Z, mkRaw (0) (274) (-0x1.3333333333333p-2) (0x1.e2970a3d70a3dp+8) (0x1.4000000000000p+1) (0x1.ccccccccccccdp+0) (0) (1) (150) (-0x1.6666666666666p+1));
(68820%Z, mkRaw (0) (274) (-0x1.999999999999ap-4) (0x1.169eb851eb852p+9) (0x1.0cccccccccccdp+1) (0x1.ccccccccccccdp+0) (0) (1) (175) (-0x1.199999999999ap+0));
(68880%Z, mkRaw (0) (273) (0x1.999999999999ap-4) (0x1.2463d70a3d70ap+9) (0x1.3333333333333p+1) (0x1.ccccccccccccdp+0) (0) (1) (175) (-0x1.0000000000000p-1));
(68940%Z, mkRaw (0) (265) (-0x1.0000000000000p-1) (0x1.136f5c28f5c29p+9) (0x1.6666666666666p+1) (0x1.ccccccccccccdp+0) (0) (1) (175) (-0x1.3333333333333p+0));
(69000%Z, mkRaw (0) (257) (-0x1.4cccccccccccdp+0) (0x1.fe0a3d70a3d71p+8) (0x1.8cccccccccccdp+1) (0x1.ccccccccccccdp+0) (0x1.999999999999ap-2) (1) (150) (-0x1.199999999999ap+1));
(69060%Z, mkRaw (0) (248) (-2) (0x1.d19999999999ap+8) (0x1.c000000000000p+1) (0x1.ccccccccccccdp+0) (0) (1) (100) (-0x1.999999999999ap+1));
(69120%Z, mkRaw (0) (244) (-0x1.3333333333333p+1) (0x1.d647ae147ae14p+8) (0x1.ccccccccccccdp+1) (0x1.ccccccccccccdp+0) (0) (1) (100) (-0x1.8cccccccccccdp+1));
(69180%Z, mkRaw (0) (241) (-0x1.2666666666666p+1) (0x1.d533333333333p+8) (0x1.b333333333333p+1) (0x1.ccccccccccccdp+0) (0) (1) (100) (-0x1.999999999999ap+1));
(69240%Z, mkRaw (0) (237) (-0x1.2666666666666p+1) (0x1.d533333333333p+8) (0x1.a666666666666p+1) (0x1.ccccccccccccdp+0) (0x1.999999999999ap-3) (1) (100) (-0x1.999999999999ap+1));
(69300%Z, mkRaw (0) (233) (-0x1.2666666666666p+1) (0x1.cb1c28f5c28f6p+8) (0x1.999999999999ap+1) (0x1.ccccccccccccdp+0) (0x1.999999999999ap-3) (1) (100) (-0x1.b333333333333p+1));
(69360%Z, mkRaw (0) (230) (-0x1.3333333333333p+1) (0x1.d647ae147ae14p+8) (0x1.8cccccccccccdp+1) (0x1.ccccccccccccdp+0) (0x1.4cccccccccccdp+0) (1) (100) (-0x1.8cccccccccccdp+1));
(69420%Z, mkRaw (0) (226) (-0x1.3333333333333p+1) (0x1.db4a3d70a3d71p+8) (3) (0x1.ccccccccccccdp+0) (1) (1) (100) (-3));
(69480%Z, mkRaw (0) (222) (-0x1.4000000000000p+1) (0x1.dc47ae147ae14p+8) (0x1.7333333333333p+1) (0x1.ccccccccccccdp+0) (0) (1) (150) (-3));
(69540%Z, mkRaw (0x1.08f5c28f5c28fp+1) (219) (-0x1.599999999999ap+1) (0x1.d45999999999ap+8) (0x1.6666666666666p+1) (0x1.ccccccccccccdp+0) (0) (1) (100) (-0x1.999999999999ap+1));
(69600%Z, mkRaw (0x1.56e147ae147aep+4) (216) (-0x1.2666666666666p+1) (0x1.df4a3d70a3d71p+8) (0x1.6666666666666p+1) (0x1.ccccccccccccdp+0) (0) (1) (150) (-0x1.7333333333333p+1));
(69660%Z, mkRaw (0x1.651eb851eb852p+5) (218) (-0x1.6666666666666p+0) (0x1.d92e147ae147bp+8) (3) (0x1.ccccccccccccdp+0) (0x1.999999999999ap-2) (1) (100) (-0x1.8cccccccccccdp+1));
(69720%Z, mkRaw (0x1.839999999999ap+5) (235) (-0x1.999999999999ap-1) (0x1.c9547ae147ae1p+8) (0x1.8cccccccccccdp+1) (0x1.ccccccccccccdp+0) (0x1.999999999999ap-2) (1) (100) (-0x1.c000000000000p+1));
(69780%Z, mkRaw (0x1.eb33333333333p+4) (263) (-0x1.3333333333333p-2) (0x1.e2970a3d70a3dp+8) (0x1.7333333333333p+1) (0x1.ccccccccccccdp+0) (0) (1) (150) (-0x1.6666666666666p+1));
(69840%Z, mkRaw (0x1.ed70a3d70a3d7p+4) (263) (-0x1.3333333333333p-1) (0x1.e266666666666p+8) (0x1.2666666666666p+1) (0x1.ccccccccccccdp+0) (0) (1) (150) (-0x1.6666666666666p+1));
(69900%Z, mkRaw (0x1.17d70a3d70a3dp+4) (274) (-0x1.999999999999ap-4) (0x1.de80000000000p+8) (0x1.3333333333333p+1) (0x1.ccccccccccccdp+0) (0x1.999999999999ap-3) (1) (150) (-0x1.7333333333333p+1));
(69960%Z, mkRaw (0x1.ad47ae147ae14p+4) (247) (-0x1.6666666666666p-1) (0x1.bbd70a3d70a3dp+8) (0x1.3333333333333p+1) (0x1.ccccccccccccdp+0) (0x1.0000000000000p-1) (1) (100) (-0x1.e666666666666p+1));
(70020%Z, mkRaw (0x1.bae147ae147aep+2) (251) (-0x1.3333333333333p-2) (0x1.dca147ae147aep+8) (0x1.199999999999ap+1) (0x1.ccccccccccccdp+0) (0x1.999999999999ap-4) (1) (150) (-3));
(70080%Z, mkRaw (0) (247) (-0x1.ccccccccccccdp+0) (0x1.deb5c28f5c28fp+8) (0x1.199999999999ap+1) (0x1.ccccccccccccdp+0) (0) (1) (150) (-0x1.7333333333333p+1));
(70140%Z, mkRaw (0) (244) (-0x1.2666666666666p+1) (0x1.b6ee147ae147bp+8) (0x1.e666666666666p+0) (0x1.ccccccccccccdp+0) (0) (1) (100) (-4));
(70200%Z, mkRaw (0) (244) (-0x1.599999999999ap+1) (0x1.ad51eb851eb85p+8) (0x1.0cccccccccccdp+1) (0x1.ccccccccccccdp+0) (0) (1) (100) (-0x1.0cccccccccccdp+2));
(70260%Z, mkRaw (0) (244) (-0x1.599999999999ap+1) (0x1.9eae147ae147bp+8) (0x1.ccccccccccccdp+0) (0x1.b333333333333p+0) (0) (1) (100) (-0x1.2666666666666p+2));
(70320%Z, mkRaw (0) (241) (-0x1.c000000000000p+1) (0x1.91547ae147ae1p+8) (0x1.b333333333333p+0) (0x1.b333333333333p+0) (0) (1) (100) (-5));
(70380%Z, mkRaw (0) (240) (-0x1.0cccccccccccdp+2) (0x1.8fb5c28f5c28fp+8) (0x1.4cccccccccccdp+0) (0x1.b333333333333p+0) (0) (1) (75) (-5));
(70440%Z, mkRaw (0) (240) (-0x1.2000000000000p+2) (0x1.8e028f5c28f5cp+8) (0x1.199999999999ap+0) (0x1.b333333333333p+0) (0) (1) (75) (-0x1.4666666666666p+2));
(70500%Z, mkRaw (0) (245) (-0x1.e666666666666p+1) (0x1.aad70a3d70a3dp+8) (0x1.eb851eb851eb8p-2) (0x1.b333333333333p+0) (0) (1) (100) (-0x1.1333333333333p+2));
(70560%Z, mkRaw (0) (244) (-4) (0x1.9f4a3d70a3d71p+8) (0x1.eb851eb851eb8p-2) (0x1.b333333333333p+0) (0) (1) (100) (-0x1.2666666666666p+2));
(70620%Z, mkRaw (0) (247) (-0x1.c000000000000p+1) (0x1.a82147ae147aep+8) (0x1.eb851eb851eb8p-2) (0x1.b333333333333p+0) (0) (1) (100) (-0x1.199999999999ap+2));
(70680%Z, mkRaw (0) (248) (-0x1.c000000000000p+1) (0x1.a82147ae147aep+8) (0x1.199999999999ap+0) (0x1.b333333333333p+0) (0) (1) (100) (-0x1.199999999999ap+2));
(70740%Z, mkRaw (0) (252) (-0x1.6666666666666p+1) (0x1.a9bae147ae148p+8) (0x1.2666666666666p+1) (0x1.b333333333333p+0) (0) (1) (100) (-0x1.1333333333333p+2));
(70800%Z, mkRaw (0) (255) (-0x1.199999999999ap+1) (0x1.b070a3d70a3d7p+8) (0x1.8cccccccccccdp+1) (0x1.b333333333333p+0) (0) (1) (100) (-0x1.0666666666666p+2));
(70860%Z, mkRaw (0) (259) (-0x1.e666666666666p+0) (0x1.d04a3d70a3d71p+8) (0x1.8cccccccccccdp+1) (0x1.b333333333333p+0) (0x1.999999999999ap-3) (1) (100) (-0x1.a666666666666p+1));
(70920%Z, mkRaw (0) (258) (-0x1.599999999999ap+1) (0x1.d45999999999ap+8) (0x1.6666666666666p+1) (0x1.b333333333333p+0) (0x1.199999999999ap+0) (1) (100) (-0x1.999999999999ap+1));
(70980%Z, mkRaw (0x1.ccccccccccccdp+0) (258) (-0x1.6666666666666p+1) (0x1.d06e147ae147bp+8) (0x1.c000000000000p+1) (0x1.b333333333333p+0) (0x1.199999999999ap+0) (1) (100) (-0x1.a666666666666p+1));
(71040%Z, mkRaw (7) (260) (-0x1.4000000000000p+1) (0x1.dc47ae147ae14p+8) (0x1.2666666666666p+2) (0x1.b333333333333p+0) (0x1.999999999999ap-1) (1) (150) (-3));
(71100%Z, mkRaw (0x1.9f5c28f5c28f6p+4) (243) (-0x1.2666666666666p+1) (0x1.e4547ae147ae1p+8) (0x1.1333333333333p+2) (0x1.b333333333333p+0) (0x1.3333333333333p-2) (1) (150) (-0x1.6666666666666p+1));
(71160%Z, mkRaw (0x1.09851eb851eb8p+5) (254) (-0x1.3333333333333p+0) (0x1.03e8f5c28f5c3p+9) (0x1.d99999999999ap+1) (0x1.b333333333333p+0) (0x1.999999999999ap-2) (1) (150) (-0x1.e666666666666p+0));
(71220%Z, mkRaw (0x1.bc00000000000p+4) (269) (-0x1.3333333333333p-2) (0x1.1210a3d70a3d7p+9) (3) (0x1.b333333333333p+0) (0x1.6666666666666p+0) (1) (175) (-0x1.4cccccccccccdp+0));
(71280%Z, mkRaw (0x1.2ee147ae147aep+4) (280) (-0x1.999999999999ap-4) (0x1.1fb47ae147ae1p+9) (0x1.2666666666666p+1) (0x1.b333333333333p+0) (0x1.4000000000000p+1) (1) (175) (-0x1.6666666666666p-1));
(71340%Z, mkRaw (0x1.52e147ae147aep+3) (289) (0x1.999999999999ap-4) (0x1.277851eb851ecp+9) (2) (0x1.b333333333333p+0) (0x1.8000000000000p+0) (0x1.8000000000000p-1) (200) (-0x1.999999999999ap-2));
(71400%Z, mkRaw (0x1.a333333333333p+2) (293) (0x1.0000000000000p-1) (0x1.3028f5c28f5c3p+9) (0x1.b333333333333p+0) (0x1.b333333333333p+0) (0x1.3333333333333p+0) (0x1.8000000000000p-1) (200) (-0x1.999999999999ap-4));
(71460%Z, mkRaw (0x1.31eb851eb851fp+1) (295) (0x1.199999999999ap+0) (0x1.40ee147ae147bp+9) (0x1.e666666666666p+0) (0x1.b333333333333p+0) (0x1.e666666666666p+1) (0) (0) (0x1.6666666666666p-1));
(71520%Z, mkRaw (0) (294) (1) (0x1.41ea3d70a3d71p+9) (0x1.199999999999ap+1) (0x1.b333333333333p+0) (0x1.b333333333333p+2) (0) (0) (0x1.6666666666666p-1));
(71580%Z, mkRaw (0) (293) (0x1.199999999999ap+0) (0x1.443d70a3d70a4p+9) (0x1.8cccccccccccdp+1) (0x1.b333333333333p+0) (0x1.b333333333333p+1) (0) (0) (0x1.999999999999ap-1));
(71640%Z, mkRaw (0) (289) (0x1.ccccccccccccdp-1) (0x1.3f9999999999ap+9) (0x1.e666666666666p+1) (0x1.b333333333333p+0) (0x1.599999999999ap+1) (0) (0) (0x1.3333333333333p-1));
(71700%Z, mkRaw (0) (289) (1) (0x1.41ea3d70a3d71p+9) (0x1.ccccccccccccdp+1) (0x1.b333333333333p+0) (0x1.3333333333333p+0) (0) (0) (0x1.6666666666666p-1));
(71760%Z, mkRaw (0) (286) (0x1.999999999999ap-1) (0x1.3d4cccccccccdp+9) (0x1.2000000000000p+2) (0x1.b333333333333p+0) (0x1.999999999999ap-3) (0) (0) (0x1.0000000000000p-1));
(71820%Z, mkRaw (0) (283) (0x1.3333333333333p-1) (0x1.358f5c28f5c29p+9) (0x1.e666666666666p+1) (0x1.b333333333333p+0) (0x1.199999999999ap+0) (0x1.0000000000000p-2) (250) (0x1.999999999999ap-3));
(71880%Z, mkRaw (0) (276) (-0x1.999999999999ap-3) (0x1.235999999999ap+9) (0x1.ccccccccccccdp+1) (0x1.b333333333333p+0) (0x1.6666666666666p+0) (1) (175) (-0x1.3333333333333p-1));
(71940%Z, mkRaw (0) (276) (0) (0x1.2523d70a3d70ap+9) (0x1.8cccccccccccdp+1) (0x1.b333333333333p+0) (0) (0x1.8000000000000p-1) (200) (-0x1.0000000000000p-1));
(72000%Z, mkRaw (0) (268) (-1) (0x1.0b13333333333p+9) (3) (0x1.b333333333333p+0) (0) (1) (150) (-0x1.999999999999ap+0));
(72060%Z, mkRaw (0) (264) (-0x1.4cccccccccccdp+0) (0x1.f88cccccccccdp+8) (0x1.2666666666666p+1) (0x1.b333333333333p+0) (0) (1) (150) (-0x1.2666666666666p+1));
(72120%Z, mkRaw (0) (257) (-0x1.199999999999ap+1) (0x1.d40cccccccccdp+8) (0x1.8cccccccccccdp+1) (0x1.b333333333333p+0) (0) (1) (100) (-0x1.999999999999ap+1));
(72180%Z, mkRaw (0) (256) (-0x1.2666666666666p+1) (0x1.d533333333333p+8) (3) (0x1.b333333333333p+0) (0) (1) (100) (-0x1.999999999999ap+1));
(72240%Z, mkRaw (0) (252) (-0x1.599999999999ap+1) (0x1.c0d47ae147ae1p+8) (0x1.4cccccccccccdp+1) (0x1.b333333333333p+0) (0) (1) (100) (-0x1.d99999999999ap+1));
(72300%Z, mkRaw (0) (250) (-0x1.6666666666666p+1) (0x1.c1eb851eb851fp+8) (0x1.4cccccccccccdp+1) (0x1.b333333333333p+0) (0) (1) (100) (-0x1.d99999999999ap+1));
(72360%Z, mkRaw (0) (246) (-0x1.b333333333333p+1) (0x1.b4ee147ae147bp+8) (0x1.b333333333333p+0) (0x1.b333333333333p+0) (0) (1) (100) (-4));
(72420%Z, mkRaw (0x1.ae147ae147ae1p+0) (244) (-0x1.c000000000000p+1) (0x1.b140000000000p+8) (0x1.8000000000000p+0) (0x1.b333333333333p+0) (0) (1) (100) (-0x1.0666666666666p+2));
(72480%Z, mkRaw (0x1.5f5c28f5c28f6p+3) (243) (-0x1.a666666666666p+1) (436) (0x1.999999999999ap+0) (0x1.999999999999ap+0) (0) (1) (100) (-4));
(72540%Z, mkRaw (0x1.6f33333333333p+4) (245) (-3) (0x1.b0e3d70a3d70ap+8) (0x1.199999999999ap+1) (0x1.999999999999ap+0) (0) (1) (100) (-0x1.0666666666666p+2));
(72600%Z, mkRaw (0x1.3d47ae147ae14p+5) (239) (-0x1.7333333333333p+1) (0x1.aaf5c28f5c28fp+8) (0x1.7333333333333p+1) (0x1.999999999999ap+0) (0) (1) (100) (-0x1.1333333333333p+2));
(72660%Z, mkRaw (0x1.3f33333333333p+5) (246) (-0x1.599999999999ap+1) (0x1.ad51eb851eb85p+8) (0x1.999999999999ap+1) (0x1.999999999999ap+0) (0) (1) (100) (-0x1.0cccccccccccdp+2));
(72720%Z, mkRaw (0x1.50ccccccccccdp+5) (245) (-0x1.4000000000000p+1) (0x1.aaab851eb851fp+8) (0x1.4cccccccccccdp+1) (0x1.999999999999ap+0) (0) (1) (100) (-0x1.1333333333333p+2));
(72780%Z, mkRaw (0x1.3133333333333p+5) (250) (-0x1.199999999999ap+0) (0x1.c3ab851eb851fp+8) (0x1.8000000000000p+0) (0x1.999999999999ap+0) (0) (1) (100) (-0x1.ccccccccccccdp+1));
(72840%Z, mkRaw (0x1.6cf5c28f5c28fp+4) (257) (-1) (0x1.d2ae147ae147bp+8) (0x1.4cccccccccccdp+0) (0x1.999999999999ap+0) (0) (1) (100) (-0x1.999999999999ap+1));
(72900%Z, mkRaw (0x1.3666666666666p+2) (253) (-0x1.199999999999ap+1) (0x1.ed7d70a3d70a4p+8) (2) (0x1.999999999999ap+0) (0) (1) (150) (-0x1.4cccccccccccdp+1));
(72960%Z, mkRaw (0) (247) (-0x1.6666666666666p+1) (0x1.d5451eb851eb8p+8) (0x1.ccccccccccccdp+0) (0x1.999999999999ap+0) (0) (1) (100) (-0x1.999999999999ap+1));
(73020%Z, mkRaw (0) (244) (-3) (0x1.cd70a3d70a3d7p+8) (0x1.4cccccccccccdp+0) (0x1.999999999999ap+0) (0) (1) (100) (-0x1.b333333333333p+1));
(73080%Z, mkRaw (0) (225) (-0x1.9333333333333p+2) (0x1.58ae147ae147bp+8) (0x1.eb851eb851eb8p-2) (0x1.999999999999ap+0) (0x1.999999999999ap-4) (1) (75) (-0x1.b333333333333p+2));
(73140%Z, mkRaw (0) (225) (-0x1.7333333333333p+2) (0x1.67dc28f5c28f6p+8) (0x1.eb851eb851eb8p-2) (0x1.999999999999ap+0) (0x1.999999999999ap-4) (1) (75) (-0x1.9333333333333p+2));
(73200%Z, mkRaw (0) (222) (-0x1.8666666666666p+2) (0x1.576147ae147aep+8) (0x1.199999999999ap+0) (0x1.999999999999ap+0) (0x1.999999999999ap-4) (1) (75) (-0x1.b333333333333p+2));
(73260%Z, mkRaw (0) (222) (-0x1.6cccccccccccdp+2) (0x1.6af5c28f5c28fp+8) (0x1.999999999999ap+0) (0x1.999999999999ap+0) (0x1.999999999999ap-4) (1) (75) (-0x1.8cccccccccccdp+2));
(73320%Z, mkRaw (0) (222) (-0x1.6000000000000p+2) (0x1.751999999999ap+8) (0x1.4cccccccccccdp+1) (0x1.999999999999ap+0) (0) (1) (75) (-0x1.7333333333333p+2));
(73380%Z, mkRaw (0) (221) (-0x1.4666666666666p+2) (0x1.7e1eb851eb852p+8) (0x1.8cccccccccccdp+1) (0x1.999999999999ap+0) (0) (1) (75) (-0x1.6666666666666p+2));
(73440%Z, mkRaw (0) (219) (-0x1.4666666666666p+2) (0x1.7e1eb851eb852p+8) (4) (0x1.999999999999ap+0) (0) (1) (75) (-0x1.6666666666666p+2));
(73500%Z, mkRaw (0) (211) (-0x1.999999999999ap+2) (0x1.55b851eb851ecp+8) (0x1.8cccccccccccdp+1) (0x1.999999999999ap+0) (0) (1) (75) (-0x1.b99999999999ap+2));
(73560%Z, mkRaw (0) (215) (-0x1.4666666666666p+2) (0x1.7e1eb851eb852p+8) (0x1.b333333333333p+0) (0x1.999999999999ap+0) (0) (1) (75) (-0x1.6666666666666p+2));
(73620%Z, mkRaw (0) (210) (-0x1.7333333333333p+2) (0x1.67dc28f5c28f6p+8) (0x1.999999999999ap+0) (0x1.999999999999ap+0) (0) (1) (75) (-0x1.9333333333333p+2));
(73680%Z, mkRaw (0) (209) (-0x1.6cccccccccccdp+2) (0x1.6af5c28f5c28fp+8) (0x1.e666666666666p+0) (0x1.999999999999ap+0) (0) (1) (75) (-0x1.8cccccccccccdp+2));
(73740%Z, mkRaw (0) (208) (-0x1.6000000000000p+2) (0x1.7140000000000p+8) (3) (0x1.999999999999ap+0) (0) (1) (75) (-6));
(73800%Z, mkRaw (0) (204) (-6) (0x1.61b851eb851ecp+8) (0x1.4cccccccccccdp+1) (0x1.999999999999ap+0) (0) (1) (75) (-0x1.a000000000000p+2));
(73860%Z, mkRaw (0x1.8f5c28f5c28f6p+0) (201) (-0x1.8cccccccccccdp+2) (0x1.5bab851eb851fp+8) (0x1.3333333333333p+1) (0x1.999999999999ap+0) (0) (1) (75) (-0x1.acccccccccccdp+2));
(73920%Z, mkRaw (0x1.4f33333333333p+4) (200) (-6) (0x1.5a5999999999ap+8) (0x1.4cccccccccccdp+1) (0x1.999999999999ap+0) (0) (1) (75) (-0x1.acccccccccccdp+2));
(73980%Z, mkRaw (0x1.751eb851eb852p+5) (201) (-0x1.6000000000000p+2) (0x1.61deb851eb852p+8) (0x1.4000000000000p+1) (0x1.999999999999ap+0) (0) (1) (75) (-0x1.a000000000000p+2));
(74040%Z, mkRaw (0x1.039999999999ap+6) (207) (-0x1.199999999999ap+2) (0x1.780f5c28f5c29p+8) (0x1.6666666666666p+1) (0x1.999999999999ap+0) (0) (1) (75) (-0x1.7333333333333p+2));
(74100%Z, mkRaw (0x1.07b851eb851ecp+6) (218) (-0x1.f333333333333p+1) (0x1.886147ae147aep+8) (0x1.3333333333333p+1) (0x1.999999999999ap+0) (0) (1) (75) (-0x1.5333333333333p+2));
(74160%Z, mkRaw (0x1.e428f5c28f5c3p+5) (227) (-3) (0x1.991c28f5c28f6p+8) (3) (0x1.999999999999ap+0) (0) (1) (100) (-0x1.3333333333333p+2));
(74220%Z, mkRaw (0x1.88ccccccccccdp+5) (230) (-0x1.7333333333333p+1) (0x1.896147ae147aep+8) (0x1.ccccccccccccdp+1) (0x1.999999999999ap+0) (0) (1) (75) (-0x1.4cccccccccccdp+2));
(74280%Z, mkRaw (0x1.26a3d70a3d70ap+5) (227) (-0x1.7333333333333p+1) (0x1.84947ae147ae1p+8) (0x1.b333333333333p+1) (0x1.999999999999ap+0) (0) (1) (75) (-0x1.599999999999ap+2));
(74340%Z, mkRaw (0x1.bbd70a3d70a3dp+3) (227) (-0x1.999999999999ap+1) (0x1.92451eb851eb8p+8) (0x1.7333333333333p+1) (0x1.999999999999ap+0) (0) (1) (100) (-5));
(74400%Z, mkRaw (0) (227) (-0x1.f333333333333p+1) (0x1.a73d70a3d70a4p+8) (0x1.6666666666666p+1) (0x1.999999999999ap+0) (0) (1) (100) (-0x1.199999999999ap+2));
(74460%Z, mkRaw (0) (226) (-0x1.0cccccccccccdp+2) (0x1.a0e6666666666p+8) (0x1.8cccccccccccdp+1) (0x1.999999999999ap+0) (0) (1) (100) (-0x1.2666666666666p+2));
(74520%Z, mkRaw (0) (226) (-0x1.0cccccccccccdp+2) (0x1.9c9999999999ap+8) (0x1.b333333333333p+1) (0x1.999999999999ap+0) (0) (1) (100) (-0x1.2cccccccccccdp+2));
(74580%Z, mkRaw (0) (227) (-0x1.0cccccccccccdp+2) (0x1.9c9999999999ap+8) (0x1.b333333333333p+1) (0x1.999999999999ap+0) (0) (1) (100) (-0x1.2cccccccccccdp+2));
(74640%Z, mkRaw (0) (225) (-0x1.2cccccccccccdp+2) (0x1.8b68f5c28f5c3p+8) (0x1.c000000000000p+1) (0x1.999999999999ap+0) (0) (1) (75) (-0x1.4cccccccccccdp+2));
(74700%Z, mkRaw (0) (222) (-0x1.5333333333333p+2) (0x1.77a3d70a3d70ap+8) (0x1.a666666666666p+1) (0x1.999999999999ap+0) (0) (1) (75) (-0x1.7333333333333p+2));
(74760%Z, mkRaw (0) (220) (-0x1.7333333333333p+2) (0x1.67dc28f5c28f6p+8) (0x1.a666666666666p+1) (0x1.999999999999ap+0) (0) (1) (75) (-0x1.9333333333333p+2));
(74820%Z, mkRaw (0) (217) (-0x1.a666666666666p+2) (0x1.4c5c28f5c28f6p+8) (0x1.8cccccccccccdp+1) (0x1.999999999999ap+0) (0) (1) (75) (-0x1.ccccccccccccdp+2));
(74880%Z, mkRaw (0) (216) (-0x1.b99999999999ap+2) (0x1.43d70a3d70a3dp+8) (2) (0x1.999999999999ap+0) (0) (1) (75) (-0x1.e000000000000p+2));
(74940%Z, mkRaw (0) (215) (-0x1.ccccccccccccdp+2) (0x1.3ed47ae147ae1p+8) (2) (0x1.999999999999ap+0) (0) (1) (75) (-0x1.ecccccccccccdp+2));
(75000%Z, mkRaw (0) (210) (-0x1.099999999999ap+3) (0x1.1ea147ae147aep+8) (0x1.ccccccccccccdp+0) (0x1.999999999999ap+0) (0) (1) (75) (-0x1.1cccccccccccdp+3));
(75060%Z, mkRaw (0) (208) (-0x1.199999999999ap+3) (0x1.0c8a3d70a3d71p+8) (0x1.eb851eb851eb8p-2) (0x1.999999999999ap+0) (0) (1) (75) (-0x1.3333333333333p+3));
(75120%Z, mkRaw (0) (205) (-0x1.3333333333333p+3) (0x1.f9dc28f5c28f6p+7) (0x1.eb851eb851eb8p-2) (0x1.999999999999ap+0) (0) (1) (75) (-0x1.499999999999ap+3));
(75180%Z, mkRaw (0) (214) (-0x1.f333333333333p+2) (0x1.2e9999999999ap+8) (0x1.3333333333333p+0) (0x1.999999999999ap+0) (0) (1) (75) (-0x1.099999999999ap+3));
(75240%Z, mkRaw (0) (219) (-0x1.b99999999999ap+2) (0x1.43d70a3d70a3dp+8) (0x1.4cccccccccccdp+0) (0x1.999999999999ap+0) (0) (1) (75) (-0x1.e000000000000p+2));
(75300%Z, mkRaw (0x1.851eb851eb852p+0) (218) (-0x1.ccccccccccccdp+2) (0x1.3ed47ae147ae1p+8) (0x1.3333333333333p+0) (0x1.999999999999ap+0) (0) (1) (75) (-0x1.ecccccccccccdp+2));
(75360%Z, mkRaw (14) (224) (-0x1.8666666666666p+2) (0x1.5b07ae147ae14p+8) (0x1.ccccccccccccdp+0) (0x1.999999999999ap+0) (0) (1) (75) (-0x1.acccccccccccdp+2));
(75420%Z, mkRaw (0x1.a3d70a3d70a3dp+4) (232) (-0x1.6cccccccccccdp+2) (0x1.672e147ae147bp+8) (0x1.ccccccccccccdp+0) (0x1.999999999999ap+0) (0) (1) (75) (-0x1.9333333333333p+2));
(75480%Z, mkRaw (0x1.b87ae147ae148p+4) (244) (-0x1.4666666666666p+2) (0x1.7628f5c28f5c3p+8) (0x1.b333333333333p+0) (0x1.8000000000000p+0) (0) (1) (75) (-0x1.7333333333333p+2));
(75540%Z, mkRaw (0x1.78e147ae147aep+5) (235) (-0x1.2cccccccccccdp+2) (0x1.7aee147ae147bp+8) (0x1.4cccccccccccdp+0) (0x1.8000000000000p+0) (0) (1) (75) (-0x1.6cccccccccccdp+2));
(75600%Z, mkRaw (0x1.9e66666666666p+4) (253) (-0x1.0cccccccccccdp+2) (0x1.8b68f5c28f5c3p+8) (0x1.ccccccccccccdp+0) (0x1.8000000000000p+0) (0) (1) (75) (-0x1.4cccccccccccdp+2));
(75660%Z, mkRaw (0x1.54ccccccccccdp+4) (255) (-0x1.0666666666666p+2) (0x1.8ec7ae147ae14p+8) (0x1.ccccccccccccdp+0) (0x1.8000000000000p+0) (0) (1) (75) (-0x1.4666666666666p+2));
(75720%Z, mkRaw (0x1.7cccccccccccdp+3) (257) (-0x1.199999999999ap+2) (0x1.84bd70a3d70a4p+8) (0x1.999999999999ap+0) (0x1.8000000000000p+0) (0) (1) (75) (-0x1.599999999999ap+2));
(75780%Z, mkRaw (0x1.fc28f5c28f5c3p+1) (253) (-5) (0x1.715999999999ap+8) (0x1.b333333333333p+0) (0x1.8000000000000p+0) (0) (1) (75) (-6));
(75840%Z, mkRaw (0) (251) (-0x1.4cccccccccccdp+2) (0x1.6f07ae147ae14p+8) (0x1.8000000000000p+0) (0x1.8000000000000p+0) (0) (1) (75) (-6));
(75900%Z, mkRaw (0) (249) (-0x1.5333333333333p+2) (0x1.77a3d70a3d70ap+8) (0x1.ccccccccccccdp+0) (0x1.8000000000000p+0) (0) (1) (75) (-0x1.7333333333333p+2));
(75960%Z, mkRaw (0) (247) (-0x1.6cccccccccccdp+2) (0x1.6af5c28f5c28fp+8) (0x1.b333333333333p+0) (0x1.8000000000000p+0) (0) (1) (75) (-0x1.8cccccccccccdp+2));
(76020%Z, mkRaw (0) (245) (-0x1.6cccccccccccdp+2) (0x1.6af5c28f5c28fp+8) (2) (0x1.8000000000000p+0) (0x1.999999999999ap-3) (1) (75) (-0x1.8cccccccccccdp+2));
(76080%Z, mkRaw (0) (246) (-0x1.5333333333333p+2) (0x1.77a3d70a3d70ap+8) (0x1.ccccccccccccdp+0) (0x1.8000000000000p+0) (0x1.3333333333333p-1) (1) (75) (-0x1.7333333333333p+2));
(76140%Z, mkRaw (0) (245) (-0x1.5333333333333p+2) (0x1.77a3d70a3d70ap+8) (0x1.ccccccccccccdp+0) (0x1.8000000000000p+0) (0x1.999999999999ap-2) (1) (75) (-0x1.7333333333333p+2));
(76200%Z, mkRaw (0) (246) (-5) (0x1.8168f5c28f5c3p+8) (0x1.199999999999ap+1) (0x1.8000000000000p+0) (0x1.999999999999ap-2) (1) (75) (-0x1.6000000000000p+2));
(76260%Z, mkRaw (0) (244) (-0x1.4666666666666p+2) (0x1.7e1eb851eb852p+8) (0x1.199999999999ap+1) (0x1.8000000000000p+0) (0x1.999999999999ap-4) (1) (75) (-0x1.6666666666666p+2));
(76320%Z, mkRaw (0) (243) (-0x1.4666666666666p+2) (0x1.7e1eb851eb852p+8) (0x1.3333333333333p+1) (0x1.8000000000000p+0) (0) (1) (75) (-0x1.6666666666666p+2));
(76380%Z, mkRaw (0) (242) (-0x1.4666666666666p+2) (0x1.7e1eb851eb852p+8) (0x1.6666666666666p+1) (0x1.8000000000000p+0) (0) (1) (75) (-0x1.6666666666666p+2));
(76440%Z, mkRaw (0) (241) (-0x1.4666666666666p+2) (0x1.7e1eb851eb852p+8) (3) (0x1.8000000000000p+0) (0) (1) (75) (-0x1.6666666666666p+2));
(76500%Z, mkRaw (0) (240) (-5) (0x1.8168f5c28f5c3p+8) (0x1.3333333333333p+1) (0x1.8000000000000p+0) (0) (1) (75) (-0x1.6000000000000p+2));
(76560%Z, mkRaw (0) (239) (-5) (0x1.8168f5c28f5c3p+8) (0x1.4cccccccccccdp+1) (0x1.8000000000000p+0) (0) (1) (75) (-0x1.6000000000000p+2));
(76620%Z, mkRaw (0) (238) (-5) (0x1.8168f5c28f5c3p+8) (0x1.199999999999ap+1) (0x1.8000000000000p+0) (0) (1) (75) (-0x1.6000000000000p+2));
(76680%Z, mkRaw (0) (238) (-0x1.2cccccccccccdp+2) (0x1.8b68f5c28f5c3p+8) (2) (0x1.8000000000000p+0) (0) (1) (75) (-0x1.4cccccccccccdp+2));
(76740%Z, mkRaw (0x1.051eb851eb852p+0) (238) (-0x1.2000000000000p+2) (0x1.9233333333333p+8) (0x1.ccccccccccccdp+0) (0x1.8000000000000p+0) (0) (1) (100) (-5));
(76800%Z, mkRaw (0x1.43d70a3d70a3dp+3) (239) (-0x1.0666666666666p+2) (0x1.a01eb851eb852p+8) (0x1.199999999999ap+1) (0x1.8000000000000p+0) (0) (1) (100) (-0x1.2666666666666p+2));
(76860%Z, mkRaw (0x1.a1eb851eb851fp+3) (257) (-0x1.ccccccccccccdp+1) (0x1.b22147ae147aep+8) (0x1.2666666666666p+1) (0x1.8000000000000p+0) (0) (1) (100) (-0x1.0666666666666p+2));
(76920%Z, mkRaw (0x1.3e3d70a3d70a4p+4) (257) (-0x1.b333333333333p+1) (0x1.b4ee147ae147bp+8) (0x1.6666666666666p+1) (0x1.8000000000000p+0) (0) (1) (100) (-4));
(76980%Z, mkRaw (0x1.8800000000000p+4) (259) (-0x1.7333333333333p+1) (0x1.c7bd70a3d70a4p+8) (3) (0x1.8000000000000p+0) (0) (1) (100) (-0x1.c000000000000p+1));
(77040%Z, mkRaw (0x1.30a3d70a3d70ap+4) (267) (-0x1.4000000000000p+1) (0x1.d751eb851eb85p+8) (0x1.6666666666666p+1) (0x1.8000000000000p+0) (0) (1) (100) (-0x1.8cccccccccccdp+1));
(77100%Z, mkRaw (0x1.5e8f5c28f5c29p+4) (264) (-2) (0x1.f0a3d70a3d70ap+8) (3) (0x1.8000000000000p+0) (0) (1) (150) (-0x1.4000000000000p+1));
(77160%Z, mkRaw (0x1.7d70a3d70a3d7p+3) (274) (-0x1.4cccccccccccdp+0) (0x1.073eb851eb852p+9) (0x1.c000000000000p+1) (0x1.8000000000000p+0) (0) (1) (150) (-0x1.ccccccccccccdp+0));
(77220%Z, mkRaw (0x1.30a3d70a3d70ap+1) (271) (-0x1.999999999999ap+0) (0x1.00c0000000000p+9) (0x1.999999999999ap+1) (0x1.8000000000000p+0) (0x1.3333333333333p-2) (1) (150) (-0x1.0cccccccccccdp+1));
(77280%Z, mkRaw (0) (269) (-0x1.ccccccccccccdp+0) (0x1.fe451eb851eb8p+8) (0x1.7333333333333p+1) (0x1.8000000000000p+0) (0x1.0000000000000p-1) (1) (150) (-0x1.199999999999ap+1));
(77340%Z, mkRaw (0) (268) (-0x1.b333333333333p+0) (0x1.01451eb851eb8p+9) (0x1.6666666666666p+1) (0x1.8000000000000p+0) (0x1.0000000000000p-1) (1) (150) (-0x1.0cccccccccccdp+1));
(77400%Z, mkRaw (0) (268) (-0x1.6666666666666p+0) (0x1.07c8f5c28f5c3p+9) (0x1.8cccccccccccdp+1) (0x1.8000000000000p+0) (1) (1) (150) (-0x1.ccccccccccccdp+0));
(77460%Z, mkRaw (0) (268) (-0x1.4cccccccccccdp+0) (0x1.0cbae147ae148p+9) (0x1.4cccccccccccdp+1) (0x1.8000000000000p+0) (0x1.3333333333333p+0) (1) (150) (-0x1.8000000000000p+0));
(77520%Z, mkRaw (0) (268) (-0x1.199999999999ap+0) (0x1.113ae147ae148p+9) (0x1.7333333333333p+1) (0x1.8000000000000p+0) (0x1.999999999999ap-1) (1) (175) (-0x1.4cccccccccccdp+0));
(77580%Z, mkRaw (0) (267) (-1) (0x1.10b1eb851eb85p+9) (0x1.b333333333333p+1) (0x1.8000000000000p+0) (0x1.999999999999ap-3) (1) (175) (-0x1.6666666666666p+0));
(77640%Z, mkRaw (0) (268) (-0x1.3333333333333p-1) (0x1.1cca3d70a3d71p+9) (0x1.ccccccccccccdp+1) (0x1.8000000000000p+0) (0x1.999999999999ap-2) (1) (175) (-0x1.999999999999ap-1));
(77700%Z, mkRaw (0) (267) (-0x1.0000000000000p-1) (0x1.1c3999999999ap+9) (0x1.ccccccccccccdp+1) (0x1.8000000000000p+0) (0x1.7333333333333p+1) (1) (175) (-0x1.ccccccccccccdp-1));
(77760%Z, mkRaw (0) (268) (-0x1.999999999999ap-4) (0x1.28cb851eb851fp+9) (0x1.a666666666666p+1) (0x1.8000000000000p+0) (0x1.6666666666666p+1) (0x1.8000000000000p-1) (200) (-0x1.3333333333333p-2));
(77820%Z, mkRaw (0) (272) (0x1.ccccccccccccdp-1) (0x1.3f9999999999ap+9) (3) (0x1.8000000000000p+0) (0x1.999999999999ap+0) (0) (0) (0x1.3333333333333p-1));
(77880%Z, mkRaw (0) (274) (0x1.8000000000000p+0) (0x1.4db3333333333p+9) (0x1.4cccccccccccdp+1) (0x1.8000000000000p+0) (0x1.ccccccccccccdp+1) (0) (0) (0x1.3333333333333p+0));
(77940%Z, mkRaw (0) (275) (0x1.e666666666666p+0) (0x1.53e51eb851eb8p+9) (0x1.4000000000000p+1) (0x1.8000000000000p+0) (0x1.f333333333333p+1) (0) (0) (0x1.8000000000000p+0));
(78000%Z, mkRaw (0) (275) (0x1.0cccccccccccdp+1) (0x1.5c5851eb851ecp+9) (0x1.4cccccccccccdp+1) (0x1.8000000000000p+0) (0x1.0cccccccccccdp+1) (0) (0) (0x1.ccccccccccccdp+0));
(78060%Z, mkRaw (0) (276) (0x1.4000000000000p+1) (0x1.6a147ae147ae1p+9) (0x1.199999999999ap+1) (0x1.8000000000000p+0) (0) (0) (0) (0x1.3333333333333p+1));
(78120%Z, mkRaw (0) (274) (0x1.4000000000000p+1) (0x1.6a147ae147ae1p+9) (0x1.2666666666666p+1) (0x1.8000000000000p+0) (0x1.999999999999ap-3) (0) (0) (0x1.3333333333333p+1));
(78180%Z, mkRaw (0x1.6b851eb851eb8p-1) (277) (0x1.a666666666666p+1) (0x1.777c28f5c28f6p+9) (0x1.4cccccccccccdp+1) (0x1.8000000000000p+0) (0x1.3333333333333p-1) (0) (0) (0x1.7333333333333p+1));
(78240%Z, mkRaw (0x1.4666666666666p+3) (280) (0x1.0666666666666p+2) (0x1.892b851eb851fp+9) (0x1.999999999999ap+1) (0x1.8000000000000p+0) (0x1.3333333333333p-1) (0) (0) (0x1.c000000000000p+1));
(78300%Z, mkRaw (0x1.015c28f5c28f6p+5) (263) (0x1.199999999999ap+2) (0x1.80ce147ae147bp+9) (0x1.199999999999ap+2) (0x1.8000000000000p+0) (0x1.999999999999ap-4) (0) (0) (0x1.999999999999ap+1));
(78360%Z, mkRaw (0x1.6b47ae147ae14p+5) (265) (0x1.3333333333333p+2) (0x1.6503d70a3d70ap+9) (0x1.6000000000000p+2) (0x1.8000000000000p+0) (0) (0) (0) (0x1.199999999999ap+1));
(78420%Z, mkRaw (0x1.0ea3d70a3d70ap+5) (294) (0x1.799999999999ap+2) (0x1.737851eb851ecp+9) (0x1.3333333333333p+2) (0x1.8000000000000p+0) (0) (0) (0) (0x1.599999999999ap+1));
(78480%Z, mkRaw (0x1.d3d70a3d70a3dp+3) (318) (0x1.599999999999ap+2) (0x1.8f2b851eb851fp+9) (0x1.3333333333333p+2) (0x1.6666666666666p+0) (0) (0) (0) (0x1.d99999999999ap+1));
(78540%Z, mkRaw (0x1.12e147ae147aep+3) (318) (0x1.1333333333333p+2) (0x1.8ebae147ae148p+9) (0x1.4cccccccccccdp+2) (0x1.6666666666666p+0) (0x1.199999999999ap+0) (0) (0) (0x1.d99999999999ap+1));
(78600%Z, mkRaw (0x1.e8f5c28f5c28fp+1) (314) (0x1.8cccccccccccdp+1) (0x1.6e63d70a3d70ap+9) (0x1.3333333333333p+2) (0x1.6666666666666p+0) (0x1.6cccccccccccdp+2) (0) (0) (0x1.4000000000000p+1));
(78660%Z, mkRaw (0x1.628f5c28f5c29p+1) (295) (0x1.ccccccccccccdp-1) (0x1.39147ae147ae1p+9) (0x1.7333333333333p+1) (0x1.6666666666666p+0) (0x1.d99999999999ap+1) (0x1.0000000000000p-2) (250) (0x1.3333333333333p-2));
(78720%Z, mkRaw (0) (285) (-0x1.999999999999ap-4) (0x1.22bc28f5c28f6p+9) (2) (0x1.6666666666666p+0) (0x1.199999999999ap+0) (1) (175) (-0x1.3333333333333p-1));
(78780%Z, mkRaw (0) (280) (-0x1.0000000000000p-1) (0x1.194b851eb851fp+9) (0x1.2666666666666p+1) (0x1.6666666666666p+0) (0x1.ccccccccccccdp-1) (1) (175) (-1));
(78840%Z, mkRaw (0) (276) (-0x1.3333333333333p-1) (0x1.16fae147ae148p+9) (0x1.4000000000000p+1) (0x1.6666666666666p+0) (0x1.999999999999ap-3) (1) (175) (-0x1.199999999999ap+0));
(78900%Z, mkRaw (0) (269) (-0x1.3333333333333p+0) (0x1.0ef851eb851ecp+9) (0x1.0cccccccccccdp+1) (0x1.6666666666666p+0) (0x1.999999999999ap-3) (1) (175) (-0x1.6666666666666p+0));
(78960%Z, mkRaw (0) (267) (-0x1.999999999999ap-1) (0x1.12651eb851eb8p+9) (0x1.ccccccccccccdp+0) (0x1.6666666666666p+0) (0x1.6666666666666p-1) (1) (175) (-0x1.4cccccccccccdp+0));
(79020%Z, mkRaw (0) (262) (-0x1.199999999999ap+0) (0x1.0e71eb851eb85p+9) (0x1.e666666666666p+0) (0x1.6666666666666p+0) (0x1.3333333333333p-2) (1) (175) (-0x1.8000000000000p+0));
(79080%Z, mkRaw (0) (256) (-0x1.6666666666666p+0) (0x1.07c8f5c28f5c3p+9) (0x1.2666666666666p+1) (0x1.6666666666666p+0) (0) (1) (150) (-0x1.ccccccccccccdp+0));
(79140%Z, mkRaw (0) (250) (-2) (0x1.f5d1eb851eb85p+8) (0x1.199999999999ap+1) (0x1.6666666666666p+0) (0) (1) (150) (-0x1.3333333333333p+1));
(79200%Z, mkRaw (0) (242) (-0x1.6666666666666p+1) (0x1.d06e147ae147bp+8) (0x1.199999999999ap+1) (0x1.6666666666666p+0) (0) (1) (100) (-0x1.a666666666666p+1));
(79260%Z, mkRaw (0) (235) (-0x1.b333333333333p+1) (0x1.b987ae147ae14p+8) (0x1.ccccccccccccdp+0) (0x1.6666666666666p+0) (0) (1) (100) (-0x1.f333333333333p+1));
(79320%Z, mkRaw (0) (232) (-0x1.b333333333333p+1) (0x1.b4ee147ae147bp+8) (0x1.b333333333333p+0) (0x1.6666666666666p+0) (0) (1) (100) (-4));
(79380%Z, mkRaw (0) (225) (-0x1.f333333333333p+1) (0x1.959999999999ap+8) (0x1.199999999999ap+1) (0x1.6666666666666p+0) (0) (1) (100) (-0x1.399999999999ap+2));
(79440%Z, mkRaw (0) (220) (-0x1.2000000000000p+2) (0x1.9233333333333p+8) (0x1.199999999999ap+1) (0x1.6666666666666p+0) (0) (1) (100) (-5));
(79500%Z, mkRaw (0) (216) (-0x1.2666666666666p+2) (0x1.8eca3d70a3d71p+8) (0x1.4cccccccccccdp+1) (0x1.6666666666666p+0) (0) (1) (75) (-0x1.4666666666666p+2));
(79560%Z, mkRaw (0) (210) (-0x1.4666666666666p+2) (0x1.7e1eb851eb852p+8) (0x1.4cccccccccccdp+1) (0x1.6666666666666p+0) (0) (1) (75) (-0x1.6666666666666p+2));
(79620%Z, mkRaw (0x1.47ae147ae147bp-1) (206) (-0x1.4cccccccccccdp+2) (0x1.6f07ae147ae14p+8) (0x1.4cccccccccccdp+1) (0x1.6666666666666p+0) (0) (1) (75) (-6));
(79680%Z, mkRaw (0x1.2a8f5c28f5c29p+4) (204) (-0x1.399999999999ap+2) (0x1.685eb851eb852p+8) (0x1.4cccccccccccdp+1) (0x1.6666666666666p+0) (0) (1) (75) (-0x1.9333333333333p+2));
(79740%Z, mkRaw (0x1.5c3d70a3d70a4p+5) (204) (-0x1.2000000000000p+2) (0x1.5bbd70a3d70a4p+8) (0x1.6666666666666p+1) (0x1.6666666666666p+0) (0) (1) (75) (-0x1.acccccccccccdp+2));
(79800%Z, mkRaw (0x1.d70a3d70a3d71p+5) (212) (-0x1.4000000000000p+1) (0x1.8ce6666666666p+8) (0x1.4cccccccccccdp+1) (0x1.6666666666666p+0) (0x1.999999999999ap-4) (1) (75) (-0x1.4666666666666p+2));
(79860%Z, mkRaw (0x1.cc147ae147ae1p+5) (220) (-0x1.7333333333333p+1) (0x1.7fc7ae147ae14p+8) (0x1.4cccccccccccdp+1) (0x1.6666666666666p+0) (0x1.999999999999ap-4) (1) (75) (-0x1.6000000000000p+2));
(79920%Z, mkRaw (0x1.b933333333333p+5) (226) (-0x1.199999999999ap+1) (407) (0x1.3333333333333p+1) (0x1.6666666666666p+0) (0x1.999999999999ap-4) (1) (100) (-0x1.3333333333333p+2));
(79980%Z, mkRaw (0x1.467ae147ae148p+5) (233) (-0x1.4000000000000p+1) (0x1.91dc28f5c28f6p+8) (0x1.4cccccccccccdp+1) (0x1.6666666666666p+0) (0x1.999999999999ap-4) (1) (100) (-5));
(80040%Z, mkRaw (0x1.3e8f5c28f5c29p+4) (245) (-3) (0x1.991c28f5c28f6p+8) (0x1.4cccccccccccdp+1) (0x1.6666666666666p+0) (0) (1) (100) (-0x1.3333333333333p+2));
(80100%Z, mkRaw (0x1.6e147ae147ae1p+2) (239) (-4) (0x1.8970a3d70a3d7p+8) (0x1.6666666666666p+1) (0x1.6666666666666p+0) (0) (1) (75) (-0x1.4cccccccccccdp+2));
(80160%Z, mkRaw (0) (238) (-0x1.f333333333333p+1) (0x1.886147ae147aep+8) (0x1.4cccccccccccdp+1) (0x1.6666666666666p+0) (0x1.999999999999ap-4) (1) (75) (-0x1.5333333333333p+2));
(80220%Z, mkRaw (0) (234) (-0x1.2000000000000p+2) (0x1.89d1eb851eb85p+8) (0x1.8cccccccccccdp+1) (0x1.6666666666666p+0) (0x1.999999999999ap-4) (1) (75) (-0x1.4cccccccccccdp+2));
(80280%Z, mkRaw (0) (232) (-0x1.2000000000000p+2) (0x1.89d1eb851eb85p+8) (0x1.4000000000000p+1) (0x1.6666666666666p+0) (0x1.999999999999ap-4) (1) (75) (-0x1.4cccccccccccdp+2));
(80340%Z, mkRaw (0) (229) (-0x1.2666666666666p+2) (0x1.7e2b851eb851fp+8) (0x1.6666666666666p+1) (0x1.6666666666666p+0) (0) (1) (75) (-0x1.6666666666666p+2));
(80400%Z, mkRaw (0) (228) (-0x1.2cccccccccccdp+2) (0x1.8b68f5c28f5c3p+8) (0x1.8cccccccccccdp+1) (0x1.6666666666666p+0) (0) (1) (75) (-0x1.4cccccccccccdp+2));
(80460%Z, mkRaw (0) (226) (-0x1.399999999999ap+2) (0x1.88c28f5c28f5cp+8) (3) (0x1.6666666666666p+0) (0) (1) (75) (-0x1.5333333333333p+2));
(80520%Z, mkRaw (0) (225) (-0x1.2666666666666p+2) (0x1.8eca3d70a3d71p+8) (0x1.d99999999999ap+1) (0x1.6666666666666p+0) (0) (1) (75) (-0x1.4666666666666p+2));
(80580%Z, mkRaw (0) (219) (-0x1.5333333333333p+2) (0x1.77a3d70a3d70ap+8) (3) (0x1.6666666666666p+0) (0) (1) (75) (-0x1.7333333333333p+2));
(80640%Z, mkRaw (0) (217) (-0x1.5333333333333p+2) (0x1.73b851eb851ecp+8) (0x1.999999999999ap+1) (0x1.6666666666666p+0) (0x1.999999999999ap-2) (1) (75) (-0x1.799999999999ap+2));
(80700%Z, mkRaw (0) (213) (-0x1.6cccccccccccdp+2) (0x1.6366666666666p+8) (0x1.b333333333333p+1) (0x1.6666666666666p+0) (0) (1) (75) (-0x1.999999999999ap+2));
(80760%Z, mkRaw (0) (211) (-6) (0x1.5a5999999999ap+8) (0x1.d99999999999ap+1) (0x1.6666666666666p+0) (0) (1) (75) (-0x1.acccccccccccdp+2));
(80820%Z, mkRaw (0) (209) (-6) (0x1.61b851eb851ecp+8) (0x1.b333333333333p+1) (0x1.6666666666666p+0) (0) (1) (75) (-0x1.a000000000000p+2));
(80880%Z, mkRaw (0) (207) (-6) (0x1.5a5999999999ap+8) (0x1.f333333333333p+1) (0x1.6666666666666p+0) (0) (1) (75) (-0x1.acccccccccccdp+2));
(80940%Z, mkRaw (0) (202) (-0x1.8666666666666p+2) (0x1.2b8a3d70a3d71p+8) (0x1.199999999999ap+2) (0x1.6666666666666p+0) (0) (1) (75) (-0x1.0cccccccccccdp+3));
(81000%Z, mkRaw (0) (199) (-0x1.8666666666666p+2) (0x1.159eb851eb852p+8) (0x1.999999999999ap+1) (0x1.6666666666666p+0) (0) (1) (75) (-0x1.2666666666666p+3));
(81060%Z, mkRaw (0x1.851eb851eb852p-2) (196) (-0x1.8cccccccccccdp+2) (0x1.0f9eb851eb852p+8) (0x1.8cccccccccccdp+1) (0x1.6666666666666p+0) (0) (1) (75) (-0x1.3000000000000p+3));
(81120%Z, mkRaw (0x1.199999999999ap+4) (198) (-0x1.9333333333333p+2) (0x1.4a51eb851eb85p+8) (0x1.7333333333333p+1) (0x1.6666666666666p+0) (0) (1) (75) (-0x1.d333333333333p+2));
(81180%Z, mkRaw (0x1.4e7ae147ae148p+5) (201) (-0x1.4cccccccccccdp+2) (0x1.4f75c28f5c28fp+8) (0x1.3333333333333p+1) (0x1.6666666666666p+0) (0) (1) (75) (-0x1.c666666666666p+2));
(81240%Z, mkRaw (0x1.f5c28f5c28f5cp+5) (206) (-0x1.e666666666666p+1) (0x1.5f40000000000p+8) (0x1.2666666666666p+1) (0x1.6666666666666p+0) (0) (1) (75) (-0x1.a000000000000p+2));
(81300%Z, mkRaw (0x1.2cf5c28f5c28fp+6) (209) (-0x1.999999999999ap+1) (0x1.6cd999999999ap+8) (0x1.4cccccccccccdp+1) (0x1.6666666666666p+0) (0) (1) (75) (-0x1.8666666666666p+2));
(81360%Z, mkRaw (0x1.0d5c28f5c28f6p+5) (250) (-0x1.2666666666666p+1) (0x1.a2c0000000000p+8) (0x1.7333333333333p+1) (0x1.6666666666666p+0) (0) (1) (100) (-0x1.2000000000000p+2));
(81420%Z, mkRaw (0x1.27c28f5c28f5cp+5) (239) (-3) (0x1.8f970a3d70a3dp+8) (0x1.199999999999ap+1) (0x1.6666666666666p+0) (0) (1) (75) (-5));
(81480%Z, mkRaw (0x1.5d47ae147ae14p+4) (249) (-0x1.2666666666666p+1) (0x1.b1e147ae147aep+8) (2) (0x1.6666666666666p+0) (0) (1) (100) (-0x1.0666666666666p+2));
(81540%Z, mkRaw (0x1.7b851eb851eb8p+3) (241) (-0x1.e666666666666p+1) (0x1.8bb851eb851ecp+8) (0x1.e666666666666p+0) (0x1.6666666666666p+0) (0) (1) (75) (-0x1.4cccccccccccdp+2));
(81600%Z, mkRaw (0) (234) (-0x1.4cccccccccccdp+2) (0x1.6f07ae147ae14p+8) (0x1.999999999999ap+0) (0x1.6666666666666p+0) (0) (1) (75) (-6));
(81660%Z, mkRaw (0) (235) (-0x1.399999999999ap+2) (0x1.80a8f5c28f5c3p+8) (0x1.ccccccccccccdp+0) (0x1.6666666666666p+0) (0) (1) (75) (-0x1.6000000000000p+2));
(81720%Z, mkRaw (0) (233) (-0x1.4cccccccccccdp+2) (0x1.7adeb851eb852p+8) (0x1.0cccccccccccdp+1) (0x1.6666666666666p+0) (0) (1) (75) (-0x1.6cccccccccccdp+2));
(81780%Z, mkRaw (0) (227) (-0x1.8666666666666p+2) (0x1.5b07ae147ae14p+8) (0x1.b333333333333p+0) (0x1.6666666666666p+0) (0) (1) (75) (-0x1.acccccccccccdp+2));
(81840%Z, mkRaw (0) (237) (-0x1.f333333333333p+1) (0x1.9a028f5c28f5cp+8) (0x1.e666666666666p+0) (0x1.6666666666666p+0) (0) (1) (100) (-0x1.3333333333333p+2));
(81900%Z, mkRaw (0) (231) (-0x1.4666666666666p+2) (0x1.7e1eb851eb852p+8) (0x1.7333333333333p+1) (0x1.6666666666666p+0) (0) (1) (75) (-0x1.6666666666666p+2));
(81960%Z, mkRaw (0) (233) (-0x1.2666666666666p+2) (0x1.8eca3d70a3d71p+8) (0x1.0cccccccccccdp+1) (0x1.6666666666666p+0) (0) (1) (75) (-0x1.4666666666666p+2));
(82020%Z, mkRaw (0) (232) (-0x1.2666666666666p+2) (0x1.8eca3d70a3d71p+8) (0x1.a666666666666p+1) (0x1.6666666666666p+0) (0) (1) (75) (-0x1.4666666666666p+2));
(82080%Z, mkRaw (0) (230) (-0x1.2666666666666p+2) (0x1.82547ae147ae1p+8) (0x1.e666666666666p+1) (0x1.6666666666666p+0) (0) (1) (75) (-0x1.6000000000000p+2));
(82140%Z, mkRaw (0) (231) (-0x1.0666666666666p+2) (0x1.8a73333333333p+8) (0x1.3333333333333p+1) (0x1.6666666666666p+0) (0) (1) (75) (-0x1.4cccccccccccdp+2));
(82200%Z, mkRaw (0) (230) (-0x1.f333333333333p+1) (0x1.76bd70a3d70a4p+8) (3) (0x1.6666666666666p+0) (0) (1) (75) (-0x1.7333333333333p+2));
(82260%Z, mkRaw (0) (228) (-0x1.999999999999ap+1) (0x1.42c0000000000p+8) (0x1.7333333333333p+1) (0x1.6666666666666p+0) (0) (1) (75) (-0x1.e000000000000p+2));
(82320%Z, mkRaw (0) (225) (-0x1.c000000000000p+1) (0x1.361eb851eb852p+8) (0x1.2666666666666p+1) (0x1.6666666666666p+0) (0) (1) (75) (-8));
(82380%Z, mkRaw (0) (226) (-0x1.ccccccccccccdp+1) (0x1.57b0a3d70a3d7p+8) (0x1.2666666666666p+1) (0x1.6666666666666p+0) (0) (1) (75) (-0x1.b333333333333p+2));
(82440%Z, mkRaw (0) (224) (-0x1.e666666666666p+1) (0x1.4d7851eb851ecp+8) (0x1.e666666666666p+0) (0x1.6666666666666p+0) (0) (1) (75) (-0x1.ccccccccccccdp+2));
(82500%Z, mkRaw (0x1.3333333333333p-3) (227) (-3) (0x1.64c7ae147ae14p+8) (0x1.0cccccccccccdp+1) (0x1.6666666666666p+0) (0) (1) (75) (-0x1.999999999999ap+2));
(82560%Z, mkRaw (0x1.c51eb851eb852p+3) (227) (-0x1.7333333333333p+1) (0x1.7163d70a3d70ap+8) (0x1.199999999999ap+1) (0x1.6666666666666p+0) (0) (1) (75) (-6));
(82620%Z, mkRaw (0x1.73851eb851eb8p+4) (245) (-0x1.4000000000000p+1) (0x1.82fae147ae148p+8) (0x1.2666666666666p+1) (0x1.6666666666666p+0) (0) (1) (75) (-0x1.599999999999ap+2));
(82680%Z, mkRaw (0x1.1547ae147ae14p+5) (247) (-2) (0x1.93851eb851eb8p+8) (0x1.4cccccccccccdp+1) (0x1.6666666666666p+0) (0) (1) (100) (-0x1.399999999999ap+2));
(82740%Z, mkRaw (0x1.6b70a3d70a3d7p+5) (248) (-0x1.999999999999ap+0) (0x1.b69eb851eb852p+8) (0x1.3333333333333p+1) (0x1.6666666666666p+0) (0) (1) (100) (-4));
(82800%Z, mkRaw (0x1.355c28f5c28f6p+5) (255) (-0x1.4cccccccccccdp+0) (0x1.c1b5c28f5c28fp+8) (0x1.8cccccccccccdp+1) (0x1.6666666666666p+0) (0) (1) (100) (-0x1.d99999999999ap+1));
(82860%Z, mkRaw (0x1.ed1eb851eb852p+4) (258) (-0x1.999999999999ap-4) (0x1.0473333333333p+9) (0x1.3333333333333p+1) (0x1.6666666666666p+0) (0x1.999999999999ap-3) (1) (150) (-0x1.e666666666666p+0));
(82920%Z, mkRaw (0x1.22b851eb851ecp+4) (270) (0x1.999999999999ap+0) (0x1.04a6666666666p+9) (0x1.0cccccccccccdp+1) (0x1.6666666666666p+0) (0x1.999999999999ap-3) (1) (150) (-0x1.e666666666666p+0));
(82980%Z, mkRaw (0x1.e7ae147ae147bp+1) (266) (0x1.6666666666666p+0) (0x1.f45999999999ap+8) (0x1.199999999999ap+1) (0x1.6666666666666p+0) (0x1.999999999999ap-3) (1) (150) (-0x1.3333333333333p+1));
(83040%Z, mkRaw (0) (258) (0x1.3333333333333p-2) (0x1.daa8f5c28f5c3p+8) (0x1.e666666666666p+0) (0x1.6666666666666p+0) (0x1.999999999999ap-3) (1) (100) (-3));
(83100%Z, mkRaw (0) (257) (0x1.999999999999ap-2) (0x1.de1c28f5c28f6p+8) (0x1.e666666666666p+0) (0x1.6666666666666p+0) (0) (1) (150) (-0x1.7333333333333p+1));
(83160%Z, mkRaw (0) (254) (0x1.3333333333333p-2) (0x1.daa8f5c28f5c3p+8) (0x1.0cccccccccccdp+1) (0x1.4cccccccccccdp+0) (0) (1) (100) (-3));
(83220%Z, mkRaw (0) (252) (0x1.3333333333333p-2) (0x1.daa8f5c28f5c3p+8) (0x1.0cccccccccccdp+1) (0x1.4cccccccccccdp+0) (0) (1) (100) (-3));
(83280%Z, mkRaw (0) (249) (0x1.3333333333333p-2) (0x1.d46b851eb851fp+8) (0x1.199999999999ap+1) (0x1.4cccccccccccdp+0) (0) (1) (100) (-0x1.999999999999ap+1));
(83340%Z, mkRaw (0) (247) (0x1.999999999999ap-4) (0x1.d3d47ae147ae1p+8) (0x1.e666666666666p+0) (0x1.4cccccccccccdp+0) (0x1.999999999999ap-3) (1) (100) (-0x1.999999999999ap+1));
(83400%Z, mkRaw (0) (250) (0) (0x1.2831eb851eb85p+9) (0x1.999999999999ap+0) (0x1.4cccccccccccdp+0) (0x1.999999999999ap-3) (0x1.8000000000000p-1) (200) (-0x1.999999999999ap-2));
(83460%Z, mkRaw (0) (248) (-0x1.999999999999ap-4) (0x1.2bd1eb851eb85p+9) (0x1.999999999999ap+0) (0x1.4cccccccccccdp+0) (0) (0x1.8000000000000p-1) (200) (-0x1.999999999999ap-3));
(83520%Z, mkRaw (0) (245) (-0x1.999999999999ap-3) (0x1.295c28f5c28f6p+9) (0x1.ccccccccccccdp+0) (0x1.4cccccccccccdp+0) (0) (0x1.8000000000000p-1) (200) (-0x1.3333333333333p-2));
(83580%Z, mkRaw (0) (241) (-0x1.0000000000000p-1) (0x1.2215c28f5c28fp+9) (0x1.999999999999ap+0) (0x1.4cccccccccccdp+0) (0) (1) (175) (-0x1.3333333333333p-1));
(83640%Z, mkRaw (0) (238) (-0x1.3333333333333p-1) (0x1.1fb1eb851eb85p+9) (0x1.999999999999ap+0) (0x1.4cccccccccccdp+0) (0) (1) (175) (-0x1.6666666666666p-1));
(83700%Z, mkRaw (0) (237) (-0x1.0000000000000p-1) (0x1.2215c28f5c28fp+9) (0x1.e666666666666p+0) (0x1.4cccccccccccdp+0) (0x1.3333333333333p-2) (1) (175) (-0x1.3333333333333p-1));
(83760%Z, mkRaw (0) (234) (-0x1.3333333333333p-1) (0x1.1fb1eb851eb85p+9) (0x1.e666666666666p+0) (0x1.4cccccccccccdp+0) (0x1.999999999999ap-4) (1) (175) (-0x1.6666666666666p-1));
(83820%Z, mkRaw (0) (231) (-0x1.6666666666666p-1) (0x1.1d53333333333p+9) (0x1.e666666666666p+0) (0x1.4cccccccccccdp+0) (0) (1) (175) (-0x1.999999999999ap-1));
(83880%Z, mkRaw (0) (228) (-1) (0x1.1651eb851eb85p+9) (0x1.199999999999ap+1) (0x1.4cccccccccccdp+0) (0) (1) (175) (-0x1.199999999999ap+0));
(83940%Z, mkRaw (0) (225) (-0x1.3333333333333p+0) (0x1.11bc28f5c28f6p+9) (0x1.3333333333333p+1) (0x1.4cccccccccccdp+0) (0) (1) (175) (-0x1.4cccccccccccdp+0));
(84000%Z, mkRaw (0x1.ff5c28f5c28f6p+3) (224) (-0x1.999999999999ap-1) (0x1.154147ae147aep+9) (0x1.2666666666666p+1) (0x1.4cccccccccccdp+0) (0) (1) (175) (-0x1.3333333333333p+0));
(84060%Z, mkRaw (0x1.20ccccccccccdp+4) (263) (-0x1.3333333333333p-1) (0x1.1cca3d70a3d71p+9) (0x1.3333333333333p+1) (0x1.4cccccccccccdp+0) (0) (1) (175) (-0x1.999999999999ap-1));
(84120%Z, mkRaw (0x1.56147ae147ae1p+4) (269) (-0x1.6666666666666p-1) (0x1.1d53333333333p+9) (0x1.4000000000000p+1) (0x1.4cccccccccccdp+0) (0x1.999999999999ap-2) (1) (175) (-0x1.999999999999ap-1));
(84180%Z, mkRaw (0x1.76e147ae147aep+4) (271) (-0x1.6666666666666p-1) (0x1.1d53333333333p+9) (0x1.6666666666666p+1) (0x1.4cccccccccccdp+0) (0x1.6666666666666p-1) (1) (175) (-0x1.999999999999ap-1));
(84240%Z, mkRaw (0x1.d7d70a3d70a3dp+4) (265) (-0x1.6666666666666p-1) (0x1.1d53333333333p+9) (3) (0x1.4cccccccccccdp+0) (0x1.999999999999ap-3) (1) (175) (-0x1.999999999999ap-1));
(84300%Z, mkRaw (0x1.c91eb851eb852p+4) (262) (-0x1.0000000000000p-1) (0x1.2215c28f5c28fp+9) (0x1.8cccccccccccdp+1) (0x1.4cccccccccccdp+0) (0x1.3333333333333p-1) (1) (175) (-0x1.3333333333333p-1));
(84360%Z, mkRaw (0x1.cb851eb851eb8p+3) (269) (-1) (0x1.1651eb851eb85p+9) (0x1.b333333333333p+1) (0x1.4cccccccccccdp+0) (0x1.999999999999ap-3) (1) (175) (-0x1.199999999999ap+0));
(84420%Z, mkRaw (0x1.15c28f5c28f5cp+2) (260) (-0x1.ccccccccccccdp+0) (0x1.f3c0000000000p+8) (0x1.b333333333333p+1) (0x1.4cccccccccccdp+0) (0) (1) (150) (-0x1.3333333333333p+1));
(84480%Z, mkRaw (0) (254) (-0x1.4000000000000p+1) (0x1.d751eb851eb85p+8) (0x1.ccccccccccccdp+1) (0x1.4cccccccccccdp+0) (0) (1) (100) (-0x1.8cccccccccccdp+1));
(84540%Z, mkRaw (0) (249) (-0x1.599999999999ap+1) (0x1.b233333333333p+8) (0x1.d99999999999ap+1) (0x1.4cccccccccccdp+0) (0x1.999999999999ap-3) (1) (100) (-0x1.0666666666666p+2));
(84600%Z, mkRaw (0) (246) (-0x1.7333333333333p+1) (0x1.afc28f5c28f5cp+8) (3) (0x1.4cccccccccccdp+0) (0x1.999999999999ap-3) (1) (100) (-0x1.0cccccccccccdp+2));
(84660%Z, mkRaw (0) (244) (-0x1.a666666666666p+1) (0x1.cb30a3d70a3d7p+8) (0x1.6666666666666p+1) (0x1.4cccccccccccdp+0) (0x1.999999999999ap-3) (1) (100) (-0x1.b333333333333p+1));
(84720%Z, mkRaw (0) (238) (-0x1.e666666666666p+1) (0x1.aad70a3d70a3dp+8) (0x1.4cccccccccccdp+1) (0x1.4cccccccccccdp+0) (0x1.999999999999ap-3) (1) (100) (-0x1.1333333333333p+2));
(84780%Z, mkRaw (0) (234) (-0x1.0cccccccccccdp+2) (0x1.a97d70a3d70a4p+8) (0x1.b333333333333p+1) (0x1.4cccccccccccdp+0) (0x1.3333333333333p-2) (1) (100) (-0x1.1333333333333p+2));
(84840%Z, mkRaw (0) (231) (-0x1.199999999999ap+2) (0x1.a251eb851eb85p+8) (0x1.4cccccccccccdp+1) (0x1.4cccccccccccdp+0) (0x1.999999999999ap-3) (1) (100) (-0x1.2000000000000p+2));
(84900%Z, mkRaw (0) (225) (-0x1.4666666666666p+2) (0x1.8a11eb851eb85p+8) (0x1.7333333333333p+1) (0x1.4cccccccccccdp+0) (0) (1) (75) (-0x1.4cccccccccccdp+2));
(84960%Z, mkRaw (0) (223) (-0x1.4666666666666p+2) (0x1.8a11eb851eb85p+8) (0x1.2666666666666p+1) (0x1.4cccccccccccdp+0) (0) (1) (75) (-0x1.4cccccccccccdp+2));
(85020%Z, mkRaw (0) (217) (-0x1.7333333333333p+2) (0x1.731999999999ap+8) (0x1.3333333333333p+1) (0x1.4cccccccccccdp+0) (0) (1) (75) (-0x1.799999999999ap+2));
(85080%Z, mkRaw (0) (213) (-0x1.8cccccccccccdp+2) (0x1.668a3d70a3d71p+8) (0x1.2666666666666p+1) (0x1.4cccccccccccdp+0) (0) (1) (75) (-0x1.9333333333333p+2));
(85140%Z, mkRaw (0) (209) (-0x1.acccccccccccdp+2) (0x1.575eb851eb852p+8) (0x1.4cccccccccccdp+1) (0x1.4cccccccccccdp+0) (0) (1) (75) (-0x1.b333333333333p+2));
(85200%Z, mkRaw (0) (203) (-0x1.e000000000000p+2) (0x1.40547ae147ae1p+8) (0x1.e666666666666p+1) (0x1.4cccccccccccdp+0) (0) (1) (75) (-0x1.e666666666666p+2));
(85260%Z, mkRaw (0) (195) (-0x1.199999999999ap+3) (0x1.1ddeb851eb852p+8) (0x1.4000000000000p+1) (0x1.4cccccccccccdp+0) (0) (1) (75) (-0x1.1cccccccccccdp+3));
(85320%Z, mkRaw (0) (192) (-9) (0x1.18e147ae147aep+8) (0x1.199999999999ap+1) (0x1.4cccccccccccdp+0) (0) (1) (75) (-0x1.2333333333333p+3));
(85380%Z, mkRaw (0) (188) (-0x1.3000000000000p+3) (0x1.0cc0000000000p+8) (0x1.4cccccccccccdp+0) (0x1.4cccccccccccdp+0) (0) (1) (75) (-0x1.3333333333333p+3));
(85440%Z, mkRaw (0x1.0666666666666p+4) (184) (-0x1.2666666666666p+3) (0x1.d9e147ae147aep+7) (0x1.eb851eb851eb8p-2) (0x1.4cccccccccccdp+0) (0) (1) (75) (-11));
(85500%Z, mkRaw (0x1.43c28f5c28f5cp+5) (187) (-8) (0x1.d6d1eb851eb85p+7) (0x1.199999999999ap+0) (0x1.4cccccccccccdp+0) (0) (1) (75) (-0x1.6333333333333p+3));
(85560%Z, mkRaw (0x1.ebeb851eb851fp+5) (201) (-0x1.2000000000000p+2) (0x1.2975c28f5c28fp+8) (1) (0x1.4cccccccccccdp+0) (0) (1) (75) (-0x1.1000000000000p+3));
(85620%Z, mkRaw (0x1.f547ae147ae14p+5) (210) (-0x1.199999999999ap+2) (0x1.3475c28f5c28fp+8) (1) (0x1.4cccccccccccdp+0) (0) (1) (75) (-0x1.0333333333333p+3));
(85680%Z, mkRaw (0x1.747ae147ae148p+5) (229) (-0x1.0cccccccccccdp+2) (0x1.69051eb851eb8p+8) (0x1.4cccccccccccdp+0) (0x1.4cccccccccccdp+0) (0) (1) (75) (-0x1.8cccccccccccdp+2));
(85740%Z, mkRaw (0x1.f9eb851eb851fp+4) (241) (-0x1.0666666666666p+2) (0x1.9773333333333p+8) (0x1.8000000000000p+0) (0x1.4cccccccccccdp+0) (0) (1) (100) (-0x1.3333333333333p+2));
(85800%Z, mkRaw (0x1.5eb851eb851ecp+3) (251) (-0x1.6000000000000p+2) (0x1.7cca3d70a3d71p+8) (0x1.8000000000000p+0) (0x1.4cccccccccccdp+0) (0) (1) (75) (-0x1.6666666666666p+2));
(85860%Z, mkRaw (0x1.b000000000000p+2) (247) (-0x1.8cccccccccccdp+2) (0x1.668a3d70a3d71p+8) (0x1.b333333333333p+0) (0x1.4cccccccccccdp+0) (0) (1) (75) (-0x1.9333333333333p+2));
(85920%Z, mkRaw (0) (243) (-0x1.b333333333333p+2) (0x1.5468f5c28f5c3p+8) (0x1.ccccccccccccdp+0) (0x1.4cccccccccccdp+0) (0) (1) (75) (-0x1.b99999999999ap+2));
(85980%Z, mkRaw (0) (242) (-0x1.b99999999999ap+2) (0x1.517851eb851ecp+8) (0x1.ccccccccccccdp+0) (0x1.4cccccccccccdp+0) (0) (1) (75) (-7));
(86040%Z, mkRaw (0) (239) (-0x1.e000000000000p+2) (0x1.40547ae147ae1p+8) (0x1.0cccccccccccdp+1) (0x1.4cccccccccccdp+0) (0) (1) (75) (-0x1.e666666666666p+2));
(86100%Z, mkRaw (0) (239) (-0x1.e000000000000p+2) (0x1.40547ae147ae1p+8) (0x1.3333333333333p+1) (0x1.4cccccccccccdp+0) (0) (1) (75) (-0x1.e666666666666p+2));
(86160%Z, mkRaw (0) (238) (-0x1.ecccccccccccdp+2) (0x1.3aca3d70a3d71p+8) (0x1.4000000000000p+1) (0x1.4cccccccccccdp+0) (0) (1) (75) (-0x1.f333333333333p+2));
(86220%Z, mkRaw (0) (237) (-0x1.f333333333333p+2) (0x1.380cccccccccdp+8) (0x1.3333333333333p+1) (0x1.4cccccccccccdp+0) (0) (1) (75) (-0x1.f99999999999ap+2));
(86280%Z, mkRaw (0) (238) (-0x1.ecccccccccccdp+2) (0x1.3aca3d70a3d71p+8) (0x1.3333333333333p+1) (0x1.4cccccccccccdp+0) (0x1.999999999999ap-3) (1) (75) (-0x1.f333333333333p+2));
(86340%Z, mkRaw (0) (237) (-0x1.f333333333333p+2) (0x1.380cccccccccdp+8) (0x1.4000000000000p+1) (0x1.4cccccccccccdp+0) (0x1.999999999999ap-3) (1) (75) (-0x1.f99999999999ap+2));
(86400%Z, mkRaw (0) (236) (-0x1.f99999999999ap+2) (0x1.35570a3d70a3dp+8) (0x1.6666666666666p+1) (0x1.4cccccccccccdp+0) (0) (1) (75) (-8));
(86460%Z, mkRaw (0) (232) (-0x1.1000000000000p+3) (0x1.25828f5c28f5cp+8) (0x1.999999999999ap+1) (0x1.4cccccccccccdp+0) (0x1.999999999999ap-2) (1) (75) (-0x1.1333333333333p+3));
(86520%Z, mkRaw (0) (232) (-0x1.1000000000000p+3) (0x1.25828f5c28f5cp+8) (3) (0x1.4cccccccccccdp+0) (0) (1) (75) (-0x1.1333333333333p+3));
(86580%Z, mkRaw (0) (231) (-0x1.1333333333333p+3) (0x1.22f0a3d70a3d7p+8) (0x1.7333333333333p+1) (0x1.4cccccccccccdp+0) (0x1.999999999999ap-4) (1) (75) (-0x1.1666666666666p+3));
(86640%Z, mkRaw (0) (229) (-0x1.1333333333333p+3) (0x1.114f5c28f5c29p+8) (0x1.4000000000000p+1) (0x1.4cccccccccccdp+0) (0x1.3333333333333p-2) (1) (75) (-0x1.2cccccccccccdp+3));
(86700%Z, mkRaw (0) (235) (-0x1.ecccccccccccdp+2) (0x1.3140000000000p+8) (2) (0x1.4cccccccccccdp+0) (0) (1) (75) (-0x1.0666666666666p+3));
(86760%Z, mkRaw (0) (235) (-0x1.f333333333333p+2) (0x1.380cccccccccdp+8) (0x1.0cccccccccccdp+1) (0x1.4cccccccccccdp+0) (0x1.999999999999ap-3) (1) (75) (-0x1.f99999999999ap+2));
(86820%Z, mkRaw (0) (233) (-8) (0x1.295c28f5c28f6p+8) (0x1.2666666666666p+1) (0x1.4cccccccccccdp+0) (0x1.999999999999ap-2) (1) (75) (-0x1.1000000000000p+3));
(86880%Z, mkRaw (0x1.18f5c28f5c28fp+2) (232) (-0x1.ccccccccccccdp+2) (0x1.ff75c28f5c28fp+7) (0x1.4cccccccccccdp+1) (0x1.4cccccccccccdp+0) (0x1.0000000000000p-1) (1) (75) (-0x1.4666666666666p+3));
(86940%Z, mkRaw (0x1.0ae147ae147aep+3) (237) (-0x1.a666666666666p+2) (0x1.f0ccccccccccdp+7) (0x1.3333333333333p+1) (0x1.4cccccccccccdp+0) (0x1.3333333333333p+0) (1) (75) (-0x1.5000000000000p+3));
(87000%Z, mkRaw (0x1.5e66666666666p+3) (257) (-0x1.6666666666666p+1) (0x1.2bf0a3d70a3d7p+8) (0x1.4cccccccccccdp+1) (0x1.4cccccccccccdp+0) (0x1.ccccccccccccdp+0) (1) (75) (-0x1.0cccccccccccdp+3));
(87060%Z, mkRaw (0x1.aa8f5c28f5c29p+3) (264) (-0x1.3333333333333p+0) (0x1.46451eb851eb8p+8) (0x1.8cccccccccccdp+1) (0x1.4cccccccccccdp+0) (0x1.199999999999ap+1) (1) (75) (-0x1.d99999999999ap+2));
(87120%Z, mkRaw (0x1.fd70a3d70a3d7p+2) (277) (-0x1.999999999999ap-4) (0x1.6b6b851eb851fp+8) (0x1.4cccccccccccdp+1) (0x1.4cccccccccccdp+0) (3) (1) (75) (-0x1.8cccccccccccdp+2));
(87180%Z, mkRaw (0x1.8147ae147ae14p+2) (278) (-0x1.999999999999ap-3) (0x1.7473333333333p+8) (0x1.7333333333333p+1) (0x1.4cccccccccccdp+0) (0x1.b333333333333p+1) (1) (75) (-0x1.799999999999ap+2));
(87240%Z, mkRaw (0x1.28f5c28f5c28fp+2) (278) (-0x1.999999999999ap-4) (0x1.7787ae147ae14p+8) (0x1.4cccccccccccdp+1) (0x1.4cccccccccccdp+0) (3) (1) (75) (-0x1.7333333333333p+2));
(87300%Z, mkRaw (0x1.91eb851eb851fp+0) (279) (0x1.3333333333333p-2) (0x1.7cfae147ae148p+8) (0x1.0cccccccccccdp+1) (0x1.4cccccccccccdp+0) (0x1.6666666666666p+0) (1) (75) (-0x1.6666666666666p+2));
(87360%Z, mkRaw (0) (275) (0) (0x1.6235c28f5c28fp+8) (0x1.2666666666666p+1) (0x1.4cccccccccccdp+0) (0x1.8000000000000p+0) (1) (75) (-0x1.a000000000000p+2));
(87420%Z, mkRaw (0) (275) (0x1.999999999999ap-4) (0x1.6b2e147ae147bp+8) (0x1.3333333333333p+1) (0x1.4cccccccccccdp+0) (0x1.999999999999ap-2) (1) (75) (-0x1.8cccccccccccdp+2));
(87480%Z, mkRaw (0) (276) (0x1.999999999999ap-2) (0x1.7fc0000000000p+8) (2) (0x1.4cccccccccccdp+0) (0x1.3333333333333p+0) (1) (75) (-0x1.6000000000000p+2));
(87540%Z, mkRaw (0) (275) (0x1.3333333333333p-2) (0x1.897851eb851ecp+8) (0x1.199999999999ap+1) (0x1.4cccccccccccdp+0) (0x1.199999999999ap+1) (1) (75) (-0x1.4cccccccccccdp+2));
(87600%Z, mkRaw (0) (273) (0x1.999999999999ap-4) (0x1.83ccccccccccdp+8) (0x1.199999999999ap+1) (0x1.4cccccccccccdp+0) (0x1.999999999999ap+0) (1) (75) (-0x1.599999999999ap+2));
(87660%Z, mkRaw (0) (274) (0x1.3333333333333p-2) (0x1.95f5c28f5c28fp+8) (0x1.0cccccccccccdp+1) (0x1.4cccccccccccdp+0) (0x1.199999999999ap+1) (1) (100) (-0x1.399999999999ap+2));
(87720%Z, mkRaw (0) (273) (0x1.3333333333333p-2) (0x1.95f5c28f5c28fp+8) (2) (0x1.4cccccccccccdp+0) (0x1.2666666666666p+1) (1) (100) (-0x1.399999999999ap+2));
(87780%Z, mkRaw (0) (271) (0x1.999999999999ap-4) (0x1.96451eb851eb8p+8) (0x1.0cccccccccccdp+1) (0x1.4cccccccccccdp+0) (0x1.999999999999ap+1) (1) (100) (-0x1.399999999999ap+2));
(87840%Z, mkRaw (0) (272) (0x1.999999999999ap-2) (0x1.a57d70a3d70a4p+8) (0x1.0cccccccccccdp+1) (0x1.4cccccccccccdp+0) (0x1.3333333333333p+1) (1) (100) (-0x1.199999999999ap+2));
(87900%Z, mkRaw (0) (272) (0x1.999999999999ap-2) (0x1.b2147ae147ae1p+8) (0x1.0cccccccccccdp+1) (0x1.4cccccccccccdp+0) (0x1.4000000000000p+1) (1) (100) (-0x1.0666666666666p+2));
(87960%Z, mkRaw (0) (271) (0x1.3333333333333p-2) (0x1.bb6e147ae147bp+8) (0x1.0cccccccccccdp+1) (0x1.4cccccccccccdp+0) (0x1.6666666666666p+1) (1) (100) (-0x1.e666666666666p+1));
(88020%Z, mkRaw (0) (269) (0) (0x1.bdd1eb851eb85p+8) (0x1.ccccccccccccdp+0) (0x1.4cccccccccccdp+0) (0x1.e666666666666p+0) (1) (100) (-0x1.e666666666666p+1));
(88080%Z, mkRaw (0) (268) (-0x1.999999999999ap-3) (0x1.c88cccccccccdp+8) (0x1.ccccccccccccdp+0) (0x1.4cccccccccccdp+0) (0x1.6666666666666p+0) (1) (100) (-0x1.c000000000000p+1));
(88140%Z, mkRaw (0) (265) (-0x1.6666666666666p-1) (0x1.c19999999999ap+8) (0x1.3333333333333p+0) (0x1.4cccccccccccdp+0) (0x1.3333333333333p-2) (1) (100) (-0x1.d99999999999ap+1));
(88200%Z, mkRaw (0) (263) (-0x1.199999999999ap+0) (0x1.c3ab851eb851fp+8) (0x1.8000000000000p+0) (0x1.4cccccccccccdp+0) (0) (1) (100) (-0x1.ccccccccccccdp+1));
(88260%Z, mkRaw (0) (258) (-0x1.b333333333333p+0) (0x1.a85eb851eb852p+8) (0x1.eb851eb851eb8p-2) (0x1.4cccccccccccdp+0) (0) (1) (100) (-0x1.1333333333333p+2));
(88320%Z, mkRaw (0x1.60a3d70a3d70ap+2) (257) (-0x1.999999999999ap+0) (0x1.a13851eb851ecp+8) (0x1.eb851eb851eb8p-2) (0x1.4cccccccccccdp+0) (0) (1) (100) (-0x1.2000000000000p+2));
(88380%Z, mkRaw (0x1.8c7ae147ae148p+3) (263) (-0x1.3333333333333p+0) (0x1.b4deb851eb852p+8) (0x1.eb851eb851eb8p-2) (0x1.4cccccccccccdp+0) (0) (1) (100) (-4));
(88440%Z, mkRaw (0x1.070a3d70a3d71p+4) (274) (0x1.999999999999ap-4) (0x1.ec73333333333p+8) (0x1.3333333333333p+0) (0x1.4cccccccccccdp+0) (0) (1) (150) (-0x1.4cccccccccccdp+1));
(88500%Z, mkRaw (0x1.87d70a3d70a3dp+4) (269) (-0x1.999999999999ap-4) (0x1.f0ab851eb851fp+8) (0x1.4cccccccccccdp+0) (0x1.4cccccccccccdp+0) (0) (1) (150) (-0x1.4000000000000p+1));
(88560%Z, mkRaw (0x1.24a3d70a3d70ap+4) (278) (0x1.3333333333333p-2) (0x1.0330a3d70a3d7p+9) (0x1.8000000000000p+0) (0x1.4cccccccccccdp+0) (0) (1) (150) (-2));
(88620%Z, mkRaw (0x1.d428f5c28f5c3p+3) (278) (-0x1.999999999999ap-3) (0x1.024f5c28f5c29p+9) (0x1.8000000000000p+0) (0x1.4cccccccccccdp+0) (0) (1) (150) (-2));
(88680%Z, mkRaw (0x1.8a3d70a3d70a4p+2) (279) (-0x1.b333333333333p+0) (0x1.f7f0a3d70a3d7p+8) (0x1.b333333333333p+0) (0x1.4cccccccccccdp+0) (0) (1) (150) (-0x1.2666666666666p+1));
(88740%Z, mkRaw (0x1.b333333333333p+0) (273) (-0x1.599999999999ap+1) (0x1.d93ae147ae148p+8) (0x1.8000000000000p+0) (0x1.4cccccccccccdp+0) (0) (1) (100) (-0x1.8cccccccccccdp+1));
(88800%Z, mkRaw (0) (265) (-4) (0x1.b0c7ae147ae14p+8) (0x1.b333333333333p+0) (0x1.4cccccccccccdp+0) (0) (1) (100) (-0x1.0666666666666p+2));
(88860%Z, mkRaw (0) (262) (-0x1.199999999999ap+2) (0x1.a251eb851eb85p+8) (0x1.ccccccccccccdp+0) (0x1.4cccccccccccdp+0) (0) (1) (100) (-0x1.2000000000000p+2));
(88920%Z, mkRaw (0) (260) (-0x1.2666666666666p+2) (0x1.9b40000000000p+8) (0x1.b333333333333p+0) (0x1.4cccccccccccdp+0) (0) (1) (100) (-0x1.2cccccccccccdp+2));
(88980%Z, mkRaw (0) (249) (-0x1.8cccccccccccdp+2) (0x1.5f4a3d70a3d71p+8) (0x1.ccccccccccccdp+0) (0x1.3333333333333p+0) (0) (1) (75) (-0x1.a000000000000p+2));
(89040%Z, mkRaw (0) (240) (-0x1.a666666666666p+2) (0x1.0663d70a3d70ap+8) (0x1.4cccccccccccdp+0) (0x1.3333333333333p+0) (0) (1) (75) (-0x1.3cccccccccccdp+3));
(89100%Z, mkRaw (0) (242) (-0x1.5333333333333p+2) (0x1.0240000000000p+8) (0x1.b333333333333p+0) (0x1.3333333333333p+0) (0) (1) (75) (-0x1.4333333333333p+3));
(89160%Z, mkRaw (0) (239) (-0x1.7333333333333p+2) (0x1.eeccccccccccdp+7) (0x1.0cccccccccccdp+1) (0x1.3333333333333p+0) (0x1.999999999999ap-3) (1) (75) (-0x1.5333333333333p+3));
(89220%Z, mkRaw (0) (236) (-0x1.7333333333333p+2) (0x1.ba51eb851eb85p+7) (0x1.6666666666666p+1) (0x1.3333333333333p+0) (0x1.3333333333333p-2) (1) (75) (-0x1.799999999999ap+3));
(89280%Z, mkRaw (0) (228) (-0x1.b333333333333p+2) (0x1.735c28f5c28f6p+7) (0x1.b333333333333p+0) (0x1.3333333333333p+0) (0) (1) (75) (-0x1.b666666666666p+3));
(89340%Z, mkRaw (0) (226) (-0x1.c666666666666p+2) (0x1.69d1eb851eb85p+7) (0x1.3333333333333p+0) (0x1.3333333333333p+0) (0x1.3333333333333p-2) (1) (75) (-14));
(89400%Z, mkRaw (0) (229) (-0x1.999999999999ap+2) (0x1.878f5c28f5c29p+7) (0x1.3333333333333p+0) (0x1.3333333333333p+0) (0x1.999999999999ap-4) (1) (75) (-0x1.a333333333333p+3));
(89460%Z, mkRaw (0) (229) (-0x1.b99999999999ap+2) (0x1.b4570a3d70a3dp+7) (0x1.4cccccccccccdp+0) (0x1.3333333333333p+0) (0) (1) (75) (-0x1.7cccccccccccdp+3));
(89520%Z, mkRaw (0) (236) (-0x1.6cccccccccccdp+2) (0x1.011999999999ap+8) (0x1.3333333333333p+0) (0x1.3333333333333p+0) (0) (1) (75) (-0x1.4333333333333p+3));
(89580%Z, mkRaw (0) (238) (-0x1.4cccccccccccdp+2) (0x1.086b851eb851fp+8) (0x1.199999999999ap+1) (0x1.3333333333333p+0) (0) (1) (75) (-0x1.399999999999ap+3));
(89640%Z, mkRaw (0) (238) (-0x1.5333333333333p+2) (0x1.15d1eb851eb85p+8) (0x1.0cccccccccccdp+1) (0x1.3333333333333p+0) (0) (1) (75) (-0x1.2666666666666p+3));
(89700%Z, mkRaw (0) (245) (-0x1.e666666666666p+1) (0x1.2e5999999999ap+8) (0x1.ccccccccccccdp+0) (0x1.3333333333333p+0) (0) (1) (75) (-0x1.099999999999ap+3));
(89760%Z, mkRaw (0x1.3eb851eb851ecp+2) (252) (-0x1.e666666666666p+0) (0x1.48a8f5c28f5c3p+8) (0x1.199999999999ap+1) (0x1.3333333333333p+0) (0) (1) (75) (-0x1.d333333333333p+2));
(89820%Z, mkRaw (0x1.28f5c28f5c28fp+3) (262) (-0x1.3333333333333p+0) (0x1.6773333333333p+8) (0x1.e666666666666p+0) (0x1.3333333333333p+0) (0x1.999999999999ap-3) (1) (75) (-0x1.9333333333333p+2));
(89880%Z, mkRaw (0x1.90a3d70a3d70ap+3) (270) (-0x1.0000000000000p-1) (0x1.8e80000000000p+8) (0x1.ccccccccccccdp+0) (0x1.3333333333333p+0) (0x1.999999999999ap-3) (1) (75) (-0x1.4666666666666p+2));
(89940%Z, mkRaw (0x1.ec7ae147ae148p+3) (275) (0x1.999999999999ap-4) (0x1.bb33333333333p+8) (2) (0x1.3333333333333p+0) (0x1.3333333333333p-2) (1) (100) (-0x1.e666666666666p+1));
(90000%Z, mkRaw (0x1.928f5c28f5c29p+3) (282) (0x1.999999999999ap-1) (0x1.d8b851eb851ecp+8) (0x1.999999999999ap+0) (0x1.3333333333333p+0) (0x1.999999999999ap-4) (1) (100) (-0x1.8cccccccccccdp+1));
(90060%Z, mkRaw (0x1.8a3d70a3d70a4p+3) (279) (0x1.999999999999ap-2) (0x1.d187ae147ae14p+8) (0x1.e666666666666p+0) (0x1.3333333333333p+0) (0) (1) (100) (-0x1.a666666666666p+1));
(90120%Z, mkRaw (0x1.7c28f5c28f5c3p+2) (283) (0) (0x1.e275c28f5c28fp+8) (0x1.ccccccccccccdp+0) (0x1.3333333333333p+0) (0) (1) (150) (-0x1.6666666666666p+1));
(90180%Z, mkRaw (0x1.999999999999ap+0) (278) (-0x1.199999999999ap+0) (0x1.ced1eb851eb85p+8) (0x1.0cccccccccccdp+1) (0x1.3333333333333p+0) (0) (1) (100) (-0x1.a666666666666p+1));
(90240%Z, mkRaw (0) (271) (-0x1.e666666666666p+0) (0x1.a68f5c28f5c29p+8) (0x1.4cccccccccccdp+0) (0x1.3333333333333p+0) (0x1.999999999999ap-4) (1) (100) (-0x1.199999999999ap+2));
(90300%Z, mkRaw (0) (269) (-0x1.199999999999ap+1) (0x1.9c170a3d70a3dp+8) (0x1.199999999999ap+0) (0x1.3333333333333p+0) (0x1.999999999999ap-4) (1) (100) (-0x1.2cccccccccccdp+2));
(90360%Z, mkRaw (0) (269) (-0x1.2666666666666p+1) (0x1.a7ca3d70a3d71p+8) (0x1.b333333333333p+0) (0x1.3333333333333p+0) (0x1.999999999999ap-4) (1) (100) (-0x1.199999999999ap+2));
(90420%Z, mkRaw (0) (263) (-0x1.6666666666666p+1) (0x1.6fab851eb851fp+8) (0x1.b333333333333p+0) (0x1.3333333333333p+0) (0x1.999999999999ap-4) (1) (75) (-6));
(90480%Z, mkRaw (0) (265) (-0x1.599999999999ap+1) (0x1.8168f5c28f5c3p+8) (0x1.999999999999ap+0) (0x1.3333333333333p+0) (0) (1) (75) (-0x1.6000000000000p+2));
(90540%Z, mkRaw (0) (262) (-3) (0x1.730cccccccccdp+8) (2) (0x1.3333333333333p+0) (0) (1) (75) (-0x1.799999999999ap+2));
(90600%Z, mkRaw (0) (261) (-0x1.7333333333333p+1) (0x1.6c970a3d70a3dp+8) (0x1.0cccccccccccdp+1) (0x1.3333333333333p+0) (0) (1) (75) (-0x1.8666666666666p+2));
(90660%Z, mkRaw (0) (256) (-0x1.b333333333333p+1) (0x1.41f3333333333p+8) (0x1.999999999999ap+0) (0x1.3333333333333p+0) (0) (1) (75) (-0x1.e666666666666p+2));
(90720%Z, mkRaw (0) (254) (-0x1.a666666666666p+1) (0x1.2d7d70a3d70a4p+8) (0x1.4cccccccccccdp+0) (0x1.3333333333333p+0) (0) (1) (75) (-0x1.099999999999ap+3));
(90780%Z, mkRaw (0) (255) (-0x1.999999999999ap+1) (0x1.34b851eb851ecp+8) (0x1.ccccccccccccdp+0) (0x1.3333333333333p+0) (0) (1) (75) (-8));
(90840%Z, mkRaw (0) (252) (-0x1.b333333333333p+1) (0x1.21c0000000000p+8) (0x1.ccccccccccccdp+0) (0x1.3333333333333p+0) (0) (1) (75) (-0x1.199999999999ap+3));
(90900%Z, mkRaw (0) (257) (-0x1.6666666666666p+1) (0x1.48f851eb851ecp+8) (0x1.ccccccccccccdp+0) (0x1.3333333333333p+0) (0) (1) (75) (-0x1.d333333333333p+2));
(90960%Z, mkRaw (0) (252) (-0x1.c000000000000p+1) (0x1.318f5c28f5c29p+8) (0x1.3333333333333p+0) (0x1.3333333333333p+0) (0) (1) (75) (-0x1.0666666666666p+3));
(91020%Z, mkRaw (0) (251) (-0x1.ccccccccccccdp+1) (0x1.33828f5c28f5cp+8) (0x1.3333333333333p+0) (0x1.3333333333333p+0) (0) (1) (75) (-0x1.0333333333333p+3));
(91080%Z, mkRaw (0) (253) (-0x1.e666666666666p+1) (0x1.51eb851eb851fp+8) (0x1.4cccccccccccdp+0) (0x1.3333333333333p+0) (0) (1) (75) (-7));
(91140%Z, mkRaw (0) (257) (-0x1.999999999999ap+1) (0x1.682b851eb851fp+8) (2) (0x1.3333333333333p+0) (0) (1) (75) (-0x1.9333333333333p+2));
(91200%Z, mkRaw (0x1.bc28f5c28f5c3p+1) (258) (-0x1.7333333333333p+1) (0x1.7fc7ae147ae14p+8) (0x1.199999999999ap+1) (0x1.3333333333333p+0) (0x1.3333333333333p-2) (1) (75) (-0x1.6000000000000p+2));
(91260%Z, mkRaw (0x1.47ae147ae147bp+2) (247) (-0x1.3333333333333p+1) (0x1.683851eb851ecp+7) (0x1.199999999999ap+1) (0x1.3333333333333p+0) (0x1.999999999999ap-1) (1) (75) (-0x1.c333333333333p+3));
(91320%Z, mkRaw (0x1.e3d70a3d70a3dp+2) (245) (-0x1.6666666666666p+1) (0x1.48fae147ae148p+7) (0x1.4cccccccccccdp+1) (0x1.3333333333333p+0) (0x1.199999999999ap+0) (1) (75) (-15));
(91380%Z, mkRaw (0x1.1e66666666666p+3) (247) (-0x1.3333333333333p+1) (0x1.5e3851eb851ecp+7) (0x1.6666666666666p+1) (0x1.3333333333333p+0) (1) (1) (75) (-0x1.ccccccccccccdp+3));
(91440%Z, mkRaw (0x1.28a3d70a3d70ap+3) (248) (-0x1.7333333333333p+1) (0x1.896147ae147aep+7) (0x1.8cccccccccccdp+1) (0x1.3333333333333p+0) (0x1.3333333333333p+0) (1) (75) (-0x1.a333333333333p+3));
(91500%Z, mkRaw (0x1.b851eb851eb85p+2) (271) (-0x1.b333333333333p+1) (0x1.c7547ae147ae1p+8) (0x1.8cccccccccccdp+1) (0x1.3333333333333p+0) (0x1.4cccccccccccdp+0) (1) (100) (-0x1.c000000000000p+1));
(91560%Z, mkRaw (0x1.ae147ae147ae1p+1) (275) (-0x1.a666666666666p+1) (0x1.cb30a3d70a3d7p+8) (0x1.a666666666666p+1) (0x1.3333333333333p+0) (0x1.199999999999ap+0) (1) (100) (-0x1.b333333333333p+1));
(91620%Z, mkRaw (0x1.2e147ae147ae1p+0) (269) (-0x1.ccccccccccccdp+1) (0x1.bb2b851eb851fp+8) (0x1.8cccccccccccdp+1) (0x1.3333333333333p+0) (0x1.999999999999ap-2) (1) (100) (-0x1.e666666666666p+1));
(91680%Z, mkRaw (0) (265) (-0x1.f333333333333p+1) (0x1.aba6666666666p+8) (3) (0x1.3333333333333p+0) (0x1.6666666666666p+0) (1) (100) (-0x1.1333333333333p+2));
(91740%Z, mkRaw (0) (262) (-4) (0x1.b0c7ae147ae14p+8) (0x1.ccccccccccccdp+0) (0x1.3333333333333p+0) (0x1.6666666666666p-1) (1) (100) (-0x1.0666666666666p+2));
(91800%Z, mkRaw (0) (251) (-0x1.6666666666666p+2) (0x1.798a3d70a3d71p+8) (0x1.8000000000000p+0) (0x1.3333333333333p+0) (0x1.b333333333333p+0) (1) (75) (-0x1.6cccccccccccdp+2));
(91860%Z, mkRaw (0) (253) (-0x1.2666666666666p+2) (0x1.9b40000000000p+8) (0x1.0cccccccccccdp+1) (0x1.3333333333333p+0) (0x1.6666666666666p-1) (1) (100) (-0x1.2cccccccccccdp+2));
(91920%Z, mkRaw (0) (251) (-0x1.2666666666666p+2) (0x1.9b40000000000p+8) (0x1.ccccccccccccdp+1) (0x1.3333333333333p+0) (1) (1) (100) (-0x1.2cccccccccccdp+2));
(91980%Z, mkRaw (0) (247) (-0x1.399999999999ap+2) (0x1.90dc28f5c28f6p+8) (0x1.e666666666666p+1) (0x1.3333333333333p+0) (2) (1) (75) (-5));
(92040%Z, mkRaw (0) (242) (-0x1.4cccccccccccdp+2) (0x1.86b5c28f5c28fp+8) (0x1.ccccccccccccdp+1) (0x1.3333333333333p+0) (0x1.999999999999ap-2) (1) (75) (-0x1.5333333333333p+2));
(92100%Z, mkRaw (0) (239) (-0x1.6000000000000p+2) (0x1.7cca3d70a3d71p+8) (0x1.999999999999ap+1) (0x1.3333333333333p+0) (0x1.3333333333333p-1) (1) (75) (-0x1.6666666666666p+2));
(92160%Z, mkRaw (0) (233) (-6) (0x1.6cc51eb851eb8p+8) (0x1.a666666666666p+1) (0x1.3333333333333p+0) (0) (1) (75) (-0x1.8666666666666p+2));
(92220%Z, mkRaw (0) (229) (-0x1.9333333333333p+2) (0x1.6375c28f5c28fp+8) (0x1.c000000000000p+1) (0x1.3333333333333p+0) (0) (1) (75) (-0x1.999999999999ap+2));
(92280%Z, mkRaw (0) (225) (-0x1.a666666666666p+2) (0x1.5a5c28f5c28f6p+8) (0x1.b333333333333p+1) (0x1.3333333333333p+0) (0) (1) (75) (-0x1.acccccccccccdp+2));
(92340%Z, mkRaw (0) (218) (-0x1.e000000000000p+2) (0x1.40547ae147ae1p+8) (3) (0x1.3333333333333p+0) (0) (1) (75) (-0x1.e666666666666p+2));
(92400%Z, mkRaw (0) (212) (-0x1.0cccccccccccdp+3) (0x1.28170a3d70a3dp+8) (0x1.4000000000000p+1) (0x1.3333333333333p+0) (0) (1) (75) (-0x1.1000000000000p+3));
(92460%Z, mkRaw (0) (206) (-0x1.2333333333333p+3) (0x1.166b851eb851fp+8) (0x1.4000000000000p+1) (0x1.3333333333333p+0) (0) (1) (75) (-0x1.2666666666666p+3));
(92520%Z, mkRaw (0) (205) (-0x1.199999999999ap+3) (0x1.1ddeb851eb852p+8) (3) (0x1.3333333333333p+0) (0) (1) (75) (-0x1.1cccccccccccdp+3));
(92580%Z, mkRaw (0) (205) (-0x1.0cccccccccccdp+3) (0x1.28170a3d70a3dp+8) (0x1.6666666666666p+1) (0x1.3333333333333p+0) (0) (1) (75) (-0x1.1000000000000p+3));
(92640%Z, mkRaw (0x1.5800000000000p+3) (204) (-8) (0x1.32a6666666666p+8) (0x1.7333333333333p+1) (0x1.3333333333333p+0) (0) (1) (75) (-0x1.0333333333333p+3));
(92700%Z, mkRaw (0x1.01c28f5c28f5cp+4) (229) (-0x1.d333333333333p+2) (0x1.45f3333333333p+8) (0x1.7333333333333p+1) (0x1.3333333333333p+0) (0) (1) (75) (-0x1.d99999999999ap+2));
(92760%Z, mkRaw (0x1.1fd70a3d70a3dp+4) (239) (-0x1.b333333333333p+2) (0x1.5468f5c28f5c3p+8) (0x1.2666666666666p+1) (0x1.3333333333333p+0) (0) (1) (75) (-0x1.b99999999999ap+2));
(92820%Z, mkRaw (0x1.0f5c28f5c28f6p+4) (246) (-0x1.999999999999ap+2) (0x1.6066666666666p+8) (0x1.2666666666666p+1) (0x1.3333333333333p+0) (0) (1) (75) (-0x1.a000000000000p+2));
(92880%Z, mkRaw (0x1.ea3d70a3d70a4p+3) (249) (-0x1.8cccccccccccdp+2) (0x1.668a3d70a3d71p+8) (0x1.2666666666666p+1) (0x1.3333333333333p+0) (0) (1) (75) (-0x1.9333333333333p+2));
(92940%Z, mkRaw (0x1.aae147ae147aep+3) (245) (-0x1.b333333333333p+2) (0x1.5468f5c28f5c3p+8) (0x1.4000000000000p+1) (0x1.3333333333333p+0) (0) (1) (75) (-0x1.b99999999999ap+2));
(93000%Z, mkRaw (0x1.91eb851eb851fp+2) (247) (-0x1.d99999999999ap+2) (0x1.432147ae147aep+8) (0x1.4cccccccccccdp+1) (0x1.3333333333333p+0) (0) (1) (75) (-0x1.e000000000000p+2));
(93060%Z, mkRaw (0x1.c7ae147ae147bp+0) (244) (-0x1.ecccccccccccdp+2) (0x1.3aca3d70a3d71p+8) (0x1.3333333333333p+1) (0x1.3333333333333p+0) (0) (1) (75) (-0x1.f333333333333p+2));
(93120%Z, mkRaw (0) (242) (-0x1.f99999999999ap+2) (0x1.35570a3d70a3dp+8) (0x1.2666666666666p+1) (0x1.3333333333333p+0) (0) (1) (75) (-8));
(93180%Z, mkRaw (0) (239) (-0x1.0666666666666p+3) (0x1.2d547ae147ae1p+8) (2) (0x1.3333333333333p+0) (0x1.3333333333333p-2) (1) (75) (-0x1.099999999999ap+3));
(93240%Z, mkRaw (0) (238) (-0x1.0666666666666p+3) (0x1.2d547ae147ae1p+8) (0x1.b333333333333p+0) (0x1.3333333333333p+0) (0x1.999999999999ap-4) (1) (75) (-0x1.099999999999ap+3));
(93300%Z, mkRaw (0) (237) (-0x1.0666666666666p+3) (0x1.2a4a3d70a3d71p+8) (0x1.ccccccccccccdp+0) (0x1.3333333333333p+0) (0) (1) (75) (-0x1.0cccccccccccdp+3));
(93360%Z, mkRaw (0) (235) (-0x1.099999999999ap+3) (0x1.21a6666666666p+8) (0x1.e666666666666p+0) (0x1.3333333333333p+0) (0) (1) (75) (-0x1.199999999999ap+3));
(93420%Z, mkRaw (0) (232) (-0x1.1000000000000p+3) (0x1.19a6666666666p+8) (2) (0x1.3333333333333p+0) (0) (1) (75) (-0x1.2333333333333p+3));
(93480%Z, mkRaw (0) (231) (-0x1.0cccccccccccdp+3) (0x1.1328f5c28f5c3p+8) (0x1.b333333333333p+0) (0x1.3333333333333p+0) (0x1.3333333333333p-2) (1) (75) (-0x1.299999999999ap+3));
(93540%Z, mkRaw (0) (224) (-0x1.2333333333333p+3) (0x1.cd3851eb851ecp+7) (0x1.ccccccccccccdp+0) (0x1.3333333333333p+0) (0x1.999999999999ap-4) (1) (75) (-0x1.699999999999ap+3))
].
Definition gold_out : list (Z * list float) := [
(60060%Z, [(0);(0);(0);(0);(0);(0);(0);(0);(0);(0);(0);(0);(0);(0);(0);(0);(0);(0);(0);(0);(0);(0);(-75);(-75);(-75)]);
(60120%Z, [(0);(0);(0);(0);(0);(0);(0);(0);(0);(0);(0);(0);(0);(0x1.6666666666666p-1);(0);(0);(0);(0);(0);(0);(0);(0);(-75);(-75);(-75)]);
(60180%Z, [(0);(0);(0);(0);(0);(0);(0);(0);(0);(0);(0);(0);(0);(0x1.999999999999ap-3);(0);(0);(0);(0);(0);(0);(0);(0);(-75);(-75);(-75)]);
(60240%Z, [(0);(0);(0);(0);(0);(0);(0);(0);(0);(0);(0);(0);(0);(0);(0);(0);(0);(0);(0);(0);(0);(0);(-75);(-75);(-75)]);
(60300%Z, [(0);(0);(0);(0);(0);(0);(0);(0);(0);(0);(0);(0);(0);(0x1.999999999999ap-4);(0);(0);(0);(0);(0);(0);(0);(0);(-75);(-75);(-75)]);
(60360%Z, [(0);(0);(0);(0);(0);(0);(0);(0);(0);(0);(0);(0);(0);(0x1.999999999999ap-3);(0);(0);(0);(0);(0);(0);(0);(0);(-75);(-75);(-75)]);
(60420%Z, [(0);(0);(0);(0);(0);(0);(0);(0);(0);(0);(0);(0);(0);(0);(0);(0);(0);(0);(0);(0);(0);(0);(-75);(-75);(-75)]);
(60480%Z, [(0);(0);(0);(0);(0);(0);(0);(0);(0);(0);(0);(0);(0);(0);(0);(0);(0);(0);(0);(0);(0);(0);(-75);(-75);(-75)]);
(60540%Z, [(0);(0);(0);(0);(0);(0);(0);(0);(0);(0);(0);(0);(0);(0);(0);(0);(0);(0);(0);(0);(0);(0);(-75);(-75);(-75)]);
(60600%Z, [(0);(0);(0);(0);(0);(0);(0);(0);(0);(0);(0);(0);(0);(0);(0);(0);(0);(0);(0);(0);(0);(0);(-75);(-75);(-75)]);
(60660%Z, [(0);(0);(0);(0);(0);(0);(0);(0);(0);(0);(0);(0);(0);(0);(0);(0);(0);(0);(0);(0);(0);(0);(-75);(-75);(-75)]);
(60720%Z, [(0);(0);(0);(0);(0);(0);(0);(0);(0);(0);(0);(0);(0);(0);(0);(0);(0);(0);(0);(0);(0);(0);(-75);(-75);(-75)]);
(60780%Z, [(0);(0);(0);(0);(0);(0);(0);(0);(0);(0);(0);(0);(0);(0);(0);(0);(0);(0);(0);(0);(0);(0);(-75);(-75);(-75)]);
(60840%Z, [(0);(0);(0);(0);(0);(0);(0);(0);(0);(0);(0);(0);(0);(0);(0);(0);(0);(0);(0);(0);(0);(0);(-75);(-75);(-75)]);
(60900%Z, [(0);(0);(0);(0);(0);(0);(0);(0);(0);(0);(0);(0);(0);(0);(0);(0);(0);(0);(0);(0);(0);(0);(-75);(-75);(-75)]);
(60960%Z, [(0);(0);(0);(0);(0);(0);(0);(0);(0);(0);(0);(0);(0);(0);(0);(0);(0);(0);(0);(0);(0);(0);(-75);(-75);(-75)]);
(61020%Z, [(0);(0);(0);(0);(0);(0);(0);(0);(0);(0);(0);(0);(0);(0);(0);(0);(0);(0);(0);(0);(0);(0);(-75);(-75);(-75)]);
(61080%Z, [(0);(0);(0);(0);(0);(0);(0);(0);(0);(0);(0);(0);(0);(0);(0);(0);(0);(0);(0);(0);(0);(0);(-75);(-75);(-75)]);
(61140%Z, [(0);(0);(0);(0);(0);(0);(0);(0);(0);(0);(0);(0);(0);(0x1.999999999999ap+0);(0);(0);(0);(0);(0);(0);(0);(0);(-75);(-75);(-75)]);
(61200%Z, [(0);(0);(0);(0);(0);(0);(0);(0);(0);(0);(0);(0);(0);(1);(0);(0);(0);(0);(0);(0);(0);(0);(-75);(-75);(-75)]);
(61260%Z, [(0);(0);(0);(0);(0);(0);(0);(0);(0);(0);(0);(0);(0);(0x1.6666666666666p+0);(0);(0);(0);(0);(0);(0);(0);(0);(-75);(-75);(-75)]);
(61320%Z, [(0);(0);(0);(0);(0);(0);(0);(0);(0);(0);(0);(0);(0);(0x1.3333333333333p-2);(0);(0);(0);(0);(0);(0);(0);(0);(-75);(-75);(-75)]);
(61380%Z, [(0);(0);(0);(0);(0);(0);(0);(0);(0);(0);(0);(0);(0);(0);(0);(0);(0);(0);(0);(0);(0);(0);(-75);(-75);(-75)]);
(61440%Z, [(0);(0);(0);(0);(0);(0);(0);(0);(0);(0);(0);(0);(0);(0x1.8000000000000p+0);(0);(0);(0);(0);(0);(0);(0);(0);(-75);(-75);(-75)]);
(61500%Z, [(0);(0);(0);(0);(0);(0);(0);(0);(0);(0);(0);(0);(0);(0x1.ccccccccccccdp+0);(0);(0);(0);(0);(0);(0);(0);(0);(-75);(-75);(-75)]);
(61560%Z, [(0);(0);(0);(0);(0);(0);(0);(0);(0);(0);(0);(0);(0);(0x1.6666666666666p-1);(0);(0);(0);(0);(0);(0);(0);(0);(-75);(-75);(-75)]);
(61620%Z, [(0);(0);(0);(0);(0);(0);(0);(0);(0);(0);(0);(0);(0);(0);(0);(0);(0);(0);(0);(0);(0);(0);(-75);(-75);(-75)]);
(61680%Z, [(0);(0);(0);(0);(0);(0);(0);(0);(0);(0);(0);(0);(0);(0x1.999999999999ap-2);(0);(0);(0);(0);(0);(0);(0);(0);(-75);(-75);(-75)]);
(61740%Z, [(0);(0);(0);(0);(0);(0);(0);(0);(0);(0);(0);(0);(0);(0x1.a666666666666p+1);(0);(0);(0);(0);(0);(0);(0);(0);(-75);(-75);(-75)]);
(61800%Z, [(0);(0);(0);(0);(0);(0);(0);(0);(0);(0);(0);(0);(0);(0x1.ccccccccccccdp-1);(0);(0);(0);(0);(0);(0);(0);(0);(-75);(-75);(-75)]);
(61860%Z, [(0);(0);(0);(0);(0);(0);(0);(0);(0);(0);(0);(0);(0);(0x1.65f09c5fc790dp-1);(0x1.3333333333333p-7);(0);(0x1.3333333333333p-7);(200);(0x1.e000000000000p+0);(0);(0x1.e000000000000p+0);(0x1.2f1a9fbe76c8bp-4);(0);(-75);(0)]);
(61920%Z, [(-0x1.56189374bc6a8p+5);(-0x1.4d810624dd2f2p+3);(-0x1.62d916872b021p+4);(0x1.e01a9fbe76c8bp+6);(0);(0x1.6551eb851eb85p+5);(0x1.e01a9fbe76c8bp+6);(0x1.6551eb851eb85p+5);(0);(0);(0);(-0x1.9fcd4517b72bdp-6);(0x1.ed8f112a74c8bp-2);(0x1.067c6d8eceba6p-1);(0x1.cfdd22856605fp-9);(0);(0x1.cfdd22856605fp-9);(0x1.79ca7ef9db22dp+8);(0x1.5645a1cac0831p+0);(0);(0x1.5645a1cac0831p+0);(0x1.5810624dd2f1bp-6);(0);(-75);(0)]);
(61980%Z, [(-0x1.8fdb22d0e5604p+5);(-0x1.e08f5c28f5c29p+4);(-0x1.515604189374cp+5);(0x1.003e76c8b4396p+7);(0);(0x1.7c28f5c28f5c3p+2);(0x1.003e76c8b4396p+7);(0x1.7c28f5c28f5c3p+2);(-0x1.eb8c2cbdce2c5p+9);(0);(-0x1.eb8c2cbdce2c5p+9);(-0x1.9f9fe89326e3cp-5);(0x1.31e5d8e259d1ep-4);(0x1.a274a46cb1593p-5);(0x1.9a62ed352220cp-9);(0);(0x1.9a62ed352220cp-9);(0x1.8a8a7ef9db22dp+8);(0x1.3c28f5c28f5c3p+0);(0);(0x1.3c28f5c28f5c3p+0);(0);(-0x1.80f66a5508701p-2);(-75);(-0x1.80f66a5508701p-2)]);
(62040%Z, [(-0x1.a6a5e353f7ceep+5);(-0x1.fcd916872b021p+4);(-0x1.560c49ba5e354p+5);(0x1.056978d4fdf3bp+7);(0);(0x1.a851eb851eb85p+1);(0x1.056978d4fdf3bp+7);(0x1.a851eb851eb85p+1);(0);(0);(0);(-0x1.a566fce441b38p-5);(0x1.1cc542bfc3240p-5);(0);(0x1.7f62b6ae7d567p-9);(0);(0x1.7f62b6ae7d567p-9);(0x1.94a189374bc6ap+8);(0x1.2f1a9fbe76c8bp+0);(0);(0x1.2f1a9fbe76c8bp+0);(0x1.26e978d4fdf3bp-7);(0);(-75);(0)]);
(62100%Z, [(-0x1.b37ae147ae148p+5);(-0x1.c5eb851eb851fp+4);(-0x1.46147ae147ae1p+5);(0x1.f91374bc6a7f0p+6);(0);(0x1.59fbe76c8b439p+1);(0x1.f91374bc6a7f0p+6);(0x1.59fbe76c8b439p+1);(-0x1.32547e3c46017p+9);(0);(-0x1.32547e3c46017p+9);(-0x1.91936b2c48de4p-5);(0x1.1df27ee309fb0p-5);(0x1.9332a23eaebc7p-8);(0x1.6872b020c49bap-9);(0);(0x1.6872b020c49bap-9);(0x1.9a6624dd2f1aap+8);(0x1.210624dd2f1aap+0);(0);(0x1.210624dd2f1aap+0);(0);(-0x1.069057d1782d4p-2);(-75);(-0x1.069057d1782d4p-2)]);
(62160%Z, [(-0x1.d3a5e353f7ceep+5);(-0x1.b04189374bc6ap+4);(-0x1.783f7ced91687p+5);(0x1.0c420c49ba5e3p+7);(0);(0x1.a000000000000p+0);(0x1.0c420c49ba5e3p+7);(0x1.a000000000000p+0);(-0x1.1cd2d2f1a9fbep+10);(0);(-0x1.1cd2d2f1a9fbep+10);(-0x1.d17c441e3d01fp-5);(0x1.e32b533fee01ap-6);(0);(0x1.51611ba3ca750p-9);(0);(0x1.51611ba3ca750p-9);(0x1.a0672b020c49cp+8);(0x1.126e978d4fdf4p+0);(0);(0x1.126e978d4fdf4p+0);(0);(-0x1.01148fd9fd36fp-1);(-75);(-0x1.01148fd9fd36fp-1)]);
(62220%Z, [(-0x1.f651eb851eb85p+5);(-0x1.8466666666666p+4);(-0x1.ab51eb851eb85p+5);(0x1.1bc3126e978d5p+7);(0);(0x1.6666666666666p+0);(0x1.1bc3126e978d5p+7);(0x1.6666666666666p+0);(-0x1.370b72d1aeb3ep+10);(0);(-0x1.370b72d1aeb3ep+10);(-0x1.095431db6f51fp-4);(0x1.552dfa0e4e776p-5);(0);(0x1.331a08bfc2225p-9);(0);(0x1.331a08bfc2225p-9);(0x1.adcd916872b02p+8);(0x1.01cac083126e9p+0);(0);(0x1.01cac083126e9p+0);(0);(-0x1.2aceee0f3cb3ep-1);(-75);(-0x1.2aceee0f3cb3ep-1)]);
(62280%Z, [(-0x1.9df3b645a1cacp+2);(-0x1.251eb851eb852p+1);(-0x1.6cccccccccccdp+2);(0x1.cd4fdf3b645a2p+3);(0);(-0x1.5810624dd2f1bp-5);(0x1.cd4fdf3b645a2p+3);(-0x1.5810624dd2f1bp-5);(0);(0);(0);(-0x1.c618d38b82d58p-8);(0x1.dd1b798323b67p-9);(0x1.ffff5738a1065p-1);(0);(0);(0);(0);(0);(0);(0);(0);(-75);(-75);(-75)]);
(62340%Z, [(0);(0);(0);(0);(0);(0);(0);(0);(0);(0);(0);(0);(0);(0);(0);(0);(0);(0);(0);(0);(0);(0);(-75);(-75);(-75)]);
(62400%Z, [(0);(0);(0);(0);(0);(0);(0);(0);(0);(0);(0);(0);(0);(0);(0);(0);(0);(0);(0);(0);(0);(0);(-75);(-75);(-75)]);
(62460%Z, [(0);(0);(0);(0);(0);(0);(0);(0);(0);(0);(0);(0);(0);(0);(0);(0);(0);(0);(0);(0);(0);(0);(-75);(-75);(-75)]);
(62520%Z, [(0);(0);(0);(0);(0);(0);(0);(0);(0);(0);(0);(0);(0);(0);(0);(0);(0);(0);(0);(0);(0);(0);(-75);(-75);(-75)]);
(62580%Z, [(0);(0);(0);(0);(0);(0);(0);(0);(0);(0);(0);(0);(0);(0);(0);(0);(0);(0);(0);(0);(0);(0);(-75);(-75);(-75)]);
(62640%Z, [(0);(0);(0);(0);(0);(0);(0);(0);(0);(0);(0);(0);(0);(0);(0);(0);(0);(0);(0);(0);(0);(0);(-75);(-75);(-75)]);
(62700%Z, [(0);(0);(0);(0);(0);(0);(0);(0);(0);(0);(0);(0);(0);(0);(0);(0);(0);(0);(0);(0);(0);(0);(-75);(-75);(-75)]);
(62760%Z, [(0);(0);(0);(0);(0);(0);(0);(0);(0);(0);(0);(0);(0);(0x1.e666666666666p+0);(0);(0);(0);(0);(0);(0);(0);(0);(-75);(-75);(-75)]);
(62820%Z, [(0);(0);(0);(0);(0);(0);(0);(0);(-0x1.9b22380cb6c7ap+11);(0);(-0x1.9b22380cb6c7ap+11);(0);(0);(0);(0x1.e6ddf00abf76ap-8);(0);(0x1.e6ddf00abf76ap-8);(175);(0x1.4cccccccccccdp+0);(0);(0x1.4cccccccccccdp+0);(0);(-0x1.3333333333333p+0);(-75);(-0x1.3333333333333p+0)]);
(62880%Z, [(-0x1.1db851eb851ecp+5);(-0x1.5d26e978d4fdfp+3);(-0x1.38d916872b021p+4);(0x1.9d570a3d70a3dp+6);(-0x1.b53f7ced91687p+0);(0x1.1b9374bc6a7f0p+5);(0x1.9d570a3d70a3dp+6);(0x1.1b9374bc6a7f0p+5);(0);(0);(0);(-0x1.6b05fd9af5e52p-6);(0x1.7d9c974fe84abp-2);(0x1.e72d64bd18faap-3);(0x1.0114d2f5dbb9dp-6);(0);(0x1.0114d2f5dbb9dp-6);(0x1.dcb020c49ba5ep+7);(0x1.deb851eb851ecp+1);(0);(0x1.deb851eb851ecp+1);(0x1.d70a3d70a3d71p-4);(0);(-75);(0)]);
(62940%Z, [(-0x1.46ced916872b0p+5);(-0x1.059999999999ap+4);(-0x1.ab2f1a9fbe76dp+4);(0x1.695d2f1a9fbe7p+6);(-0x1.7ef9db22d0e56p-2);(0x1.8449ba5e353f8p+2);(0x1.695d2f1a9fbe7p+6);(0x1.8449ba5e353f8p+2);(0);(0);(0);(-0x1.00114272964a8p-5);(0x1.0c2eaa0c83711p-4);(0x1.91050b01bbc1ep-6);(0x1.198288051c9f7p-6);(0);(0x1.198288051c9f7p-6);(0x1.db6b020c49ba6p+7);(0x1.05604189374bcp+2);(0);(0x1.05604189374bcp+2);(0x1.083126e978d50p-3);(0);(-75);(0)]);
(63000%Z, [(-0x1.61c8b43958106p+5);(-0x1.4f5c28f5c28f6p+4);(-0x1.0c9ba5e353f7dp+5);(0x1.65d4fdf3b645ap+6);(0);(-0x1.29a9fbe76c8b4p+3);(0x1.65d4fdf3b645ap+6);(-0x1.29a9fbe76c8b4p+3);(-0x1.08cf6cd29131fp+11);(0);(-0x1.08cf6cd29131fp+11);(-0x1.47922aba68c71p-5);(0x1.53ee13c458093p-8);(0x1.0c27ab959a868p-9);(0x1.17b95a294141fp-6);(0);(0x1.17b95a294141fp-6);(0x1.d986a7ef9db23p+7);(0x1.02b020c49ba5ep+2);(0);(0x1.02b020c49ba5ep+2);(0);(-0x1.fb59ddc1e7968p-3);(-75);(-0x1.fb59ddc1e7968p-3)]);
(63060%Z, [(-0x1.7f9fbe76c8b44p+5);(-0x1.4389374bc6a7fp+4);(-0x1.05126e978d4fep+5);(0x1.9322d0e560419p+6);(0);(-0x1.999999999999ap-6);(0x1.9322d0e560419p+6);(-0x1.999999999999ap-6);(-0x1.13e11be8ff328p+11);(0);(-0x1.13e11be8ff328p+11);(-0x1.3b262126ec280p-5);(0);(0);(0x1.16616b54e2b06p-6);(0);(0x1.16616b54e2b06p-6);(0x1.d74624dd2f1aap+7);(0x1.004189374bc6ap+2);(0);(0x1.004189374bc6ap+2);(0);(-0x1.0adab9f559b3dp-2);(-75);(-0x1.0adab9f559b3dp-2)]);
(63120%Z, [(-0x1.a31a9fbe76c8bp+5);(-0x1.53126e978d4fep+4);(-0x1.fa0c49ba5e354p+4);(0x1.a2bc6a7ef9db2p+6);(0);(-0x1.0c49ba5e353f8p-1);(0x1.a2bc6a7ef9db2p+6);(-0x1.0c49ba5e353f8p-1);(-0x1.ffe70676a7265p+11);(0);(-0x1.ffe70676a7265p+11);(-0x1.2facc0e8bdef1p-5);(0);(0);(0x1.151611ba3ca75p-6);(0);(0x1.151611ba3ca75p-6);(0x1.d5189374bc6a8p+7);(0x1.fbc6a7ef9db23p+1);(0);(0x1.fbc6a7ef9db23p+1);(0);(-0x1.f42c3c9eecbfbp-2);(-75);(-0x1.f42c3c9eecbfbp-2)]);
(63180%Z, [(-0x1.c54395810624ep+5);(-0x1.7fc6a7ef9db23p+4);(-0x1.0d47ae147ae14p+5);(0x1.c6de353f7ced9p+6);(0);(-0x1.2c8b439581062p-1);(0x1.c6de353f7ced9p+6);(-0x1.2c8b439581062p-1);(-0x1.8403a2120e1f8p+12);(0);(-0x1.8403a2120e1f8p+12);(-0x1.426ce200909eap-5);(0);(0);(0x1.13b5bf6a0dbadp-6);(0);(0x1.13b5bf6a0dbadp-6);(0x1.d2c51eb851eb8p+7);(0x1.f6a7ef9db22d1p+1);(0);(0x1.f6a7ef9db22d1p+1);(0);(-0x1.7f449129888f8p-1);(-75);(-0x1.7f449129888f8p-1)]);
(63240%Z, [(-0x1.e3c083126e979p+5);(-0x1.7dd70a3d70a3dp+4);(-0x1.02353f7ced917p+5);(0x1.d27be76c8b439p+6);(0);(0x1.89374bc6a7efap-7);(0x1.d27be76c8b439p+6);(0x1.89374bc6a7efap-7);(-0x1.816980f451761p+12);(0);(-0x1.816980f451761p+12);(-0x1.3342e85cf6253p-5);(0);(0);(0x1.126202539756dp-6);(0);(0x1.126202539756dp-6);(0x1.d08ac083126e9p+7);(0x1.f1eb851eb851fp+1);(0);(0x1.f1eb851eb851fp+1);(0);(-0x1.8060fe47991bcp-1);(-75);(-0x1.8060fe47991bcp-1)]);
(63300%Z, [(-0x1.fe7ae147ae148p+5);(-0x1.61d70a3d70a3dp+4);(-0x1.d54fdf3b645a2p+4);(0x1.ccad0e5604189p+6);(0);(-0x1.6872b020c49bap-4);(0x1.ccad0e5604189p+6);(-0x1.6872b020c49bap-4);(-0x1.9526709c7ffdep+12);(0);(-0x1.9526709c7ffdep+12);(-0x1.150b046af3bedp-5);(0);(0);(0x1.112fd32c625eap-6);(0);(0x1.112fd32c625eap-6);(0x1.ce86a7ef9db23p+7);(0x1.ed916872b020cp+1);(0);(0x1.ed916872b020cp+1);(0);(-0x1.97ab7564302b4p-1);(-75);(-0x1.97ab7564302b4p-1)]);
(63360%Z, [(-0x1.0f020c49ba5e3p+6);(-0x1.69a9fbe76c8b4p+4);(-0x1.ce7ae147ae148p+4);(0x1.dba7ef9db22d1p+6);(0);(-0x1.624dd2f1a9fbep-2);(0x1.dba7ef9db22d1p+6);(-0x1.624dd2f1a9fbep-2);(-0x1.e3173a7daa4fdp+12);(0);(-0x1.e3173a7daa4fdp+12);(-0x1.0fa7adae797a9p-5);(0);(0);(0x1.0ffda4052d667p-6);(0);(0x1.0ffda4052d667p-6);(0x1.cc8a3d70a3d71p+7);(0x1.e95810624dd2fp+1);(0);(0x1.e95810624dd2fp+1);(0);(-0x1.ea9691a75cd0cp-1);(-75);(-0x1.ea9691a75cd0cp-1)]);
(63420%Z, [(-0x1.1c0d4fdf3b646p+6);(-0x1.5ba1cac083127p+4);(-0x1.b9f3b645a1cacp+4);(0x1.e24fdf3b645a2p+6);(0);(0x1.ba5e353f7ced9p-3);(0x1.e24fdf3b645a2p+6);(0x1.ba5e353f7ced9p-3);(-0x1.b283153ac4f7fp+12);(0);(-0x1.b283153ac4f7fp+12);(-0x1.01ecd4aa10e02p-5);(0);(0);(0x1.0ee06d938151ap-6);(0);(0x1.0ee06d938151ap-6);(0x1.caa5604189375p+7);(0x1.e53f7ced91687p+1);(0);(0x1.e53f7ced91687p+1);(0);(-0x1.bcc8de2ac3223p-1);(-75);(-0x1.bcc8de2ac3223p-1)]);
(63480%Z, [(-0x1.2970a3d70a3d7p+6);(-0x1.4cf1a9fbe76c9p+4);(-0x1.a4a3d70a3d70ap+4);(0x1.e4be76c8b4396p+6);(0);(-0x1.178d4fdf3b646p-2);(0x1.e4be76c8b4396p+6);(-0x1.178d4fdf3b646p-2);(-0x1.eff2fe81450f0p+12);(0);(-0x1.eff2fe81450f0p+12);(-0x1.e7eaaaae3eed2p-6);(0);(0);(0x1.0dcb9a9da597dp-6);(0);(0x1.0dcb9a9da597dp-6);(0x1.c8d916872b021p+7);(0x1.e189374bc6a7fp+1);(0);(0x1.e189374bc6a7fp+1);(0);(-0x1.ffec56d5cfaadp-1);(-75);(-0x1.ffec56d5cfaadp-1)]);
(63540%Z, [(-0x1.37eb851eb851fp+6);(-0x1.666a7ef9db22dp+4);(-0x1.b9126e978d4fep+4);(0x1.fdeb851eb851fp+6);(0);(-0x1.df3b645a1cac1p-2);(0x1.fdeb851eb851fp+6);(-0x1.df3b645a1cac1p-2);(-0x1.2ca3a82f94424p+13);(0);(-0x1.2ca3a82f94424p+13);(-0x1.ff44e460923c0p-6);(0);(0);(0x1.0cae642bf9831p-6);(0);(0x1.0cae642bf9831p-6);(0x1.c6f4bc6a7ef9ep+7);(0x1.dd70a3d70a3d7p+1);(0);(0x1.dd70a3d70a3d7p+1);(0);(-0x1.3929888f861a6p+0);(-75);(-0x1.3929888f861a6p+0)]);
(63600%Z, [(-0x1.44e147ae147aep+6);(-0x1.76f9db22d0e56p+4);(-0x1.c4a7ef9db22d1p+4);(0x1.09a3d70a3d70ap+7);(0);(-0x1.04189374bc6a8p-3);(0x1.09a3d70a3d70ap+7);(-0x1.04189374bc6a8p-3);(-0x1.3ae3e67b5f1bfp+13);(0);(-0x1.3ae3e67b5f1bfp+13);(-0x1.05d23c785652fp-5);(0);(0);(0x1.0b84988094e5dp-6);(0);(0x1.0b84988094e5dp-6);(0x1.c5028f5c28f5cp+7);(0x1.d95810624dd2fp+1);(0);(0x1.d95810624dd2fp+1);(0);(-0x1.4aec6bce8533bp+0);(-75);(-0x1.4aec6bce8533bp+0)]);
(63660%Z, [(-0x1.55e353f7ced91p+6);(-0x1.674bc6a7ef9dbp+4);(-0x1.a2e5604189375p+4);(0x1.0c44189374bc7p+7);(0);(0x1.89374bc6a7efap-6);(0x1.0c44189374bc7p+7);(0x1.89374bc6a7efap-6);(-0x1.383786466b1e6p+13);(0);(-0x1.383786466b1e6p+13);(-0x1.df313328cc520p-6);(0);(0);(0x1.0a73f748a1598p-6);(0);(0x1.0a73f748a1598p-6);(0x1.c3395810624ddp+7);(0x1.d5a1cac083127p+1);(0);(0x1.d5a1cac083127p+1);(0);(-0x1.4abb44e50c5ebp+0);(-75);(-0x1.4abb44e50c5ebp+0)]);
(63720%Z, [(-0x1.68820c49ba5e3p+6);(-0x1.7c83126e978d5p+4);(-0x1.a85e353f7ced9p+4);(0x1.176a7ef9db22dp+7);(0);(-0x1.72b020c49ba5ep-1);(0x1.176a7ef9db22dp+7);(-0x1.72b020c49ba5ep-1);(-0x1.89af4d1633483p+13);(0);(-0x1.89af4d1633483p+13);(-0x1.e386b81585a34p-6);(0);(0);(0x1.095f2452c59fbp-6);(0);(0x1.095f2452c59fbp-6);(0x1.c16978d4fdf3bp+7);(0x1.d1eb851eb851fp+1);(0);(0x1.d1eb851eb851fp+1);(0);(-0x1.a4eb9a176ddadp+0);(-75);(-0x1.a4eb9a176ddadp+0)]);
(63780%Z, [(-0x1.70ced916872b0p+6);(-0x1.9bae147ae147bp+4);(-0x1.e16c8b4395810p+4);(0x1.27ab020c49ba6p+7);(0);(-0x1.810624dd2f1aap-3);(0x1.27ab020c49ba6p+7);(-0x1.810624dd2f1aap-3);(-0x1.9edde7ab75643p+13);(0);(-0x1.9edde7ab75643p+13);(-0x1.14c6f6f4e9768p-5);(0);(0);(0x1.082491afc04c9p-6);(0);(0x1.082491afc04c9p-6);(0x1.bf53f7ced9168p+7);(0x1.cd916872b020cp+1);(0);(0x1.cd916872b020cp+1);(0);(-0x1.bfe52157689cap+0);(-75);(-0x1.bfe52157689cap+0)]);
(63840%Z, [(-0x1.463b645a1cac1p+6);(-0x1.72189374bc6a8p+4);(-0x1.10cac083126e9p+5);(0x1.1834395810625p+7);(0);(0x1.5020c49ba5e35p+0);(0x1.1834395810625p+7);(0x1.5020c49ba5e35p+0);(-0x1.0b1eb09b738e7p+13);(0);(-0x1.0b1eb09b738e7p+13);(-0x1.407ff7dcf0dc5p-5);(0);(0);(0x1.06b37867f0aa2p-6);(0);(0x1.06b37867f0aa2p-6);(0x1.bce6e978d4fdfp+7);(0x1.c89374bc6a7f0p+1);(0);(0x1.c89374bc6a7f0p+1);(0);(-0x1.22efb2aae2974p+0);(-75);(-0x1.22efb2aae2974p+0)]);
(63900%Z, [(-0x1.be7ae147ae148p+5);(-0x1.2449ba5e353f8p+4);(-0x1.4b0c49ba5e354p+5);(0x1.d3f1a9fbe76c9p+6);(0);(0x1.86e978d4fdf3bp+0);(0x1.d3f1a9fbe76c9p+6);(0x1.86e978d4fdf3bp+0);(-0x1.7d5777963992dp+11);(0);(-0x1.7d5777963992dp+11);(-0x1.924ca39ca7c10p-5);(0);(0);(0x1.04e1e71044f1ap-6);(0);(0x1.04e1e71044f1ap-6);(0x1.b9d604189374cp+7);(0x1.c24dd2f1a9fbep+1);(0);(0x1.c24dd2f1a9fbep+1);(0);(-0x1.a41355475a31ap-2);(-75);(-0x1.a41355475a31ap-2)]);
(63960%Z, [(-0x1.c69374bc6a7f0p+4);(-0x1.f851eb851eb85p+2);(-0x1.651cac083126fp+5);(0x1.6f4ac083126e9p+6);(0);(0x1.5c8b439581062p+3);(0x1.6f4ac083126e9p+6);(0x1.5c8b439581062p+3);(0);(0);(0);(-0x1.badfaa4a15f8cp-5);(0x1.bbfd3c00614edp-4);(0);(0x1.c5718eb895076p-7);(0);(0x1.c5718eb895076p-7);(0x1.f4978d4fdf3b6p+7);(0x1.bb645a1cac083p+1);(0);(0x1.bb645a1cac083p+1);(0x1.604189374bc6ap-4);(0);(-75);(0)]);
(64020%Z, [(-0x1.e09374bc6a7f0p+2);(0x1.b6353f7ced917p+2);(-0x1.cd8d4fdf3b646p+4);(0x1.84051eb851eb8p+6);(0);(0x1.0dfced916872bp+6);(0x1.84051eb851eb8p+6);(0x1.0dfced916872bp+6);(0);(0);(0);(-0x1.17867f0aa21a7p-5);(0x1.74eead474b6e1p-1);(0x1.7bec2ee7c9fe4p-1);(0x1.d095af294dd72p-8);(0);(0x1.d095af294dd72p-8);(0x1.7b19db22d0e56p+8);(0x1.57ef9db22d0e5p+1);(0);(0x1.57ef9db22d0e5p+1);(0x1.5810624dd2f1bp-5);(0);(-75);(0)]);
(64080%Z, [(0x1.d22d0e5604189p+0);(0x1.ebc6a7ef9db23p+2);(-0x1.756872b020c4ap+3);(0x1.b79cac083126fp+6);(0);(0x1.aef2b020c49bap+6);(0x1.b79cac083126fp+6);(0x1.aef2b020c49bap+6);(0);(0);(0);(-0x1.92fff7719111ep-7);(0x1.29a26fd6fd7d4p+0);(0x1.2e1c51f037b60p+0);(0x1.876188b11409ap-9);(0);(0x1.876188b11409ap-9);(0x1.f4ba9fbe76c8bp+8);(0x1.7eb851eb851ecp+0);(0);(0x1.7eb851eb851ecp+0);(0x1.cac083126e979p-7);(0);(-75);(0)]);
(64140%Z, [(0x1.e147ae147ae14p-2);(0x1.5353f7ced9168p+1);(-0x1.73b645a1cac08p+1);(0x1.85083126e978dp+5);(0);(0x1.86c6a7ef9db23p+5);(0x1.85083126e978dp+5);(0x1.86c6a7ef9db23p+5);(0);(0);(0);(-0x1.4ac9a7d444e64p-9);(0x1.033095ca01407p-1);(0x1.7e1081019d391p+0);(0);(0);(0);(0);(0);(0);(0);(0);(-75);(-75);(-75)]);
(64200%Z, [(0);(0);(0);(0);(0);(0);(0);(0);(0);(0);(0);(0);(0);(0);(0);(0);(0);(0);(0);(0);(0);(0);(-75);(-75);(-75)]);
(64260%Z, [(0);(0);(0);(0);(0);(0);(0);(0);(0);(0);(0);(0);(0);(0);(0);(0);(0);(0);(0);(0);(0);(0);(-75);(-75);(-75)]);
(64320%Z, [(0);(0);(0);(0);(0);(0);(0);(0);(0);(0);(0);(0);(0);(0);(0);(0);(0);(0);(0);(0);(0);(0);(-75);(-75);(-75)]);
(64380%Z, [(0);(0);(0);(0);(0);(0);(0);(0);(0);(0);(0);(0);(0);(0);(0);(0);(0);(0);(0);(0);(0);(0);(-75);(-75);(-75)]);
(64440%Z, [(0);(0);(0);(0);(0);(0);(0);(0);(0);(0);(0);(0);(0);(0);(0);(0);(0);(0);(0);(0);(0);(0);(-75);(-75);(-75)]);
(64500%Z, [(0);(0);(0);(0);(0);(0);(0);(0);(0);(0);(0);(0);(0);(0);(0);(0);(0);(0);(0);(0);(0);(0);(-75);(-75);(-75)]);
(64560%Z, [(0);(0);(0);(0);(0);(0);(0);(0);(0);(0);(0);(0);(0);(0);(0);(0);(0);(0);(0);(0);(0);(0);(-75);(-75);(-75)]);
(64620%Z, [(0);(0);(0);(0);(0);(0);(0);(0);(0);(0);(0);(0);(0);(0);(0);(0);(0);(0);(0);(0);(0);(0);(-75);(-75);(-75)]);
(64680%Z, [(0);(0);(0);(0);(0);(0);(0);(0);(0);(0);(0);(0);(0);(0);(0);(0);(0);(0);(0);(0);(0);(0);(-75);(-75);(-75)]);
(64740%Z, [(0);(0);(0);(0);(0);(0);(0);(0);(0);(0);(0);(0);(0);(0);(0);(0);(0);(0);(0);(0);(0);(0);(-75);(-75);(-75)]);
(64800%Z, [(0);(0);(0);(0);(0);(0);(0);(0);(0);(0);(0);(0);(0);(0);(0);(0);(0);(0);(0);(0);(0);(0);(-75);(-75);(-75)]);
(64860%Z, [(0);(0);(0);(0);(0);(0);(0);(0);(0);(0);(0);(0);(0);(0);(0);(0);(0);(0);(0);(0);(0);(0);(-75);(-75);(-75)]);
(64920%Z, [(0);(0);(0);(0);(0);(0);(0);(0);(0);(0);(0);(0);(0);(0);(0);(0);(0);(0);(0);(0);(0);(0);(-75);(-75);(-75)]);
(64980%Z, [(0);(0);(0);(0);(0);(0);(0);(0);(0);(0);(0);(0);(0);(0);(0);(0);(0);(0);(0);(0);(0);(0);(-75);(-75);(-75)]);
(65040%Z, [(0);(0);(0);(0);(0);(0);(0);(0);(0);(0);(0);(0);(0);(0);(0);(0);(0);(0);(0);(0);(0);(0);(-75);(-75);(-75)]);
(65100%Z, [(0);(0);(0);(0);(0);(0);(0);(0);(0);(0);(0);(0);(0);(0);(0);(0);(0);(0);(0);(0);(0);(0);(-75);(-75);(-75)]);
(65160%Z, [(0);(0);(0);(0);(0);(0);(0);(0);(0);(0);(0);(0);(0);(0);(0);(0);(0);(0);(0);(0);(0);(0);(-75);(-75);(-75)]);
(65220%Z, [(0);(0);(0);(0);(0);(0);(0);(0);(0);(0);(0);(0);(0);(0);(0);(0);(0);(0);(0);(0);(0);(0);(-75);(-75);(-75)]);
(65280%Z, [(0);(0);(0);(0);(0);(0);(0);(0);(0);(0);(0);(0);(0);(0);(0);(0);(0);(0);(0);(0);(0);(0);(-75);(-75);(-75)]);
(65340%Z, [(0);(0);(0);(0);(0);(0);(0);(0);(0);(0);(0);(0);(0);(0);(0);(0);(0);(0);(0);(0);(0);(0);(-75);(-75);(-75)]);
(65400%Z, [(0);(0);(0);(0);(0);(0);(0);(0);(0);(0);(0);(0);(0);(0);(0);(0);(0);(0);(0);(0);(0);(0);(-75);(-75);(-75)]);
(65460%Z, [(0);(0);(0);(0);(0);(0);(0);(0);(0);(0);(0);(0);(0);(0);(0);(0);(0);(0);(0);(0);(0);(0);(-75);(-75);(-75)]);
(65520%Z, [(0);(0);(0);(0);(0);(0);(0);(0);(0);(0);(0);(0);(0);(0);(0);(0);(0);(0);(0);(0);(0);(0);(-75);(-75);(-75)]);
(65580%Z, [(0);(0);(0);(0);(0);(0);(0);(0);(0);(0);(0);(0);(0);(0);(0);(0);(0);(0);(0);(0);(0);(0);(-75);(-75);(-75)]);
(65640%Z, [(0);(0);(0);(0);(0);(0);(0);(0);(0);(0);(0);(0);(0);(0);(0);(0);(0);(0);(0);(0);(0);(0);(-75);(-75);(-75)]);
(65700%Z, [(0);(0);(0);(0);(0);(0);(0);(0);(0);(0);(0);(0);(0);(0);(0);(0);(0);(0);(0);(0);(0);(0);(-75);(-75);(-75)]);
(65760%Z, [(0);(0);(0);(0);(0);(0);(0);(0);(0);(0);(0);(0);(0);(0);(0);(0);(0);(0);(0);(0);(0);(0);(-75);(-75);(-75)]);
(65820%Z, [(0);(0);(0);(0);(0);(0);(0);(0);(0);(0);(0);(0);(0);(0);(0);(0);(0);(0);(0);(0);(0);(0);(-75);(-75);(-75)]);
(65880%Z, [(0);(0);(0);(0);(0);(0);(0);(0);(0);(0);(0);(0);(0);(0);(0);(0);(0);(0);(0);(0);(0);(0);(-75);(-75);(-75)]);
(65940%Z, [(0);(0);(0);(0);(0);(0);(0);(0);(0);(0);(0);(0);(0);(0);(0);(0);(0);(0);(0);(0);(0);(0);(-75);(-75);(-75)]);
(66000%Z, [(0);(0);(0);(0);(0);(0);(0);(0);(0);(0);(0);(0);(0);(0);(0);(0);(0);(0);(0);(0);(0);(0);(-75);(-75);(-75)]);
(66060%Z, [(0);(0);(0);(0);(0);(0);(0);(0);(0);(0);(0);(0);(0);(0);(0);(0);(0);(0);(0);(0);(0);(0);(-75);(-75);(-75)]);
(66120%Z, [(0);(0);(0);(0);(0);(0);(0);(0);(0);(0);(0);(0);(0);(0);(0);(0);(0);(0);(0);(0);(0);(0);(-75);(-75);(-75)]);
(66180%Z, [(0);(0);(0);(0);(0);(0);(0);(0);(0);(0);(0);(0);(0);(0);(0);(0);(0);(0);(0);(0);(0);(0);(-75);(-75);(-75)]);
(66240%Z, [(0);(0);(0);(0);(0);(0);(0);(0);(0);(0);(0);(0);(0);(0);(0);(0);(0);(0);(0);(0);(0);(0);(-75);(-75);(-75)]);
(66300%Z, [(0);(0);(0);(0);(0);(0);(0);(0);(0);(0);(0);(0);(0);(0);(0);(0);(0);(0);(0);(0);(0);(0);(-75);(-75);(-75)]);
(66360%Z, [(0);(0);(0);(0);(0);(0);(0);(0);(0);(0);(0);(0);(0);(0);(0);(0);(0);(0);(0);(0);(0);(0);(-75);(-75);(-75)]);
(66420%Z, [(0);(0);(0);(0);(0);(0);(0);(0);(0);(0);(0);(0);(0);(0);(0);(0);(0);(0);(0);(0);(0);(0);(-75);(-75);(-75)]);
(66480%Z, [(0);(0);(0);(0);(0);(0);(0);(0);(0);(0);(0);(0);(0);(0);(0);(0);(0);(0);(0);(0);(0);(0);(-75);(-75);(-75)]);
(66540%Z, [(0);(0);(0);(0);(0);(0);(0);(0);(0);(0);(0);(0);(0);(0x1.999999999999ap-3);(0);(0);(0);(0);(0);(0);(0);(0);(-75);(-75);(-75)]);
(66600%Z, [(0);(0);(0);(0);(0);(0);(0);(0);(0);(0);(0);(0);(0);(3);(0);(0);(0);(0);(0);(0);(0);(0);(-75);(-75);(-75)]);
(66660%Z, [(0);(0);(0);(0);(0);(0);(0);(0);(0);(0);(0);(0);(0);(0x1.999999999999ap-1);(0);(0);(0);(0);(0);(0);(0);(0);(-75);(-75);(-75)]);
(66720%Z, [(0);(0);(0);(0);(0);(0);(0);(0);(0);(0);(0);(0);(0);(0);(0);(0);(0);(0);(0);(0);(0);(0);(-75);(-75);(-75)]);
(66780%Z, [(0);(0);(0);(0);(0);(0);(0);(0);(0);(0);(0);(0);(0);(0);(0);(0);(0);(0);(0);(0);(0);(0);(-75);(-75);(-75)]);
(66840%Z, [(0);(0);(0);(0);(0);(0);(0);(0);(0);(0);(0);(0);(0);(0);(0);(0);(0);(0);(0);(0);(0);(0);(-75);(-75);(-75)]);
(66900%Z, [(0);(0);(0);(0);(0);(0);(0);(0);(0);(0);(0);(0);(0);(0);(0);(0);(0);(0);(0);(0);(0);(0);(-75);(-75);(-75)]);
(66960%Z, [(0);(0);(0);(0);(0);(0);(0);(0);(0);(0);(0);(0);(0);(0);(0);(0);(0);(0);(0);(0);(0);(0);(-75);(-75);(-75)]);
(67020%Z, [(0);(0);(0);(0);(0);(0);(0);(0);(0);(0);(0);(0);(0);(0);(0);(0);(0);(0);(0);(0);(0);(0);(-75);(-75);(-75)]);
(67080%Z, [(0);(0);(0);(0);(0);(0);(0);(0);(0);(0);(0);(0);(0);(0);(0);(0);(0);(0);(0);(0);(0);(0);(-75);(-75);(-75)]);
(67140%Z, [(0);(0);(0);(0);(0);(0);(0);(0);(0);(0);(0);(0);(0);(0);(0);(0);(0);(0);(0);(0);(0);(0);(-75);(-75);(-75)]);
(67200%Z, [(0);(0);(0);(0);(0);(0);(0);(0);(0);(0);(0);(0);(0);(0);(0);(0);(0);(0);(0);(0);(0);(0);(-75);(-75);(-75)]);
(67260%Z, [(0);(0);(0);(0);(0);(0);(0);(0);(0);(0);(0);(0);(0);(0x1.999999999999ap-2);(0);(0);(0);(0);(0);(0);(0);(0);(-75);(-75);(-75)]);
(67320%Z, [(0);(0);(0);(0);(0);(0);(0);(0);(0);(0);(0);(0);(0);(0);(0);(0);(0);(0);(0);(0);(0);(0);(-75);(-75);(-75)]);
(67380%Z, [(0);(0);(0);(0);(0);(0);(0);(0);(0);(0);(0);(0);(0);(0);(0);(0);(0);(0);(0);(0);(0);(0);(-75);(-75);(-75)]);
(67440%Z, [(0);(0);(0);(0);(0);(0);(0);(0);(0);(0);(0);(0);(0);(0x1.3333333333333p-2);(0);(0);(0);(0);(0);(0);(0);(0);(-75);(-75);(-75)]);
(67500%Z, [(0);(0);(0);(0);(0);(0);(0);(0);(0);(0);(0);(0);(0);(0x1.6666666666666p+0);(0);(0);(0);(0);(0);(0);(0);(0);(-75);(-75);(-75)]);
(67560%Z, [(0);(0);(0);(0);(0);(0);(0);(0);(0);(0);(0);(0);(0);(0x1.ccccccccccccdp-1);(0);(0);(0);(0);(0);(0);(0);(0);(-75);(-75);(-75)]);
(67620%Z, [(0);(0);(0);(0);(0);(0);(0);(0);(0);(0);(0);(0);(0);(0x1.ccccccccccccdp-1);(0);(0);(0);(0);(0);(0);(0);(0);(-75);(-75);(-75)]);
(67680%Z, [(0);(0);(0);(0);(0);(0);(0);(0);(0);(0);(0);(0);(0);(0x1.ccccccccccccdp-1);(0);(0);(0);(0);(0);(0);(0);(0);(-75);(-75);(-75)]);
(67740%Z, [(0);(0);(0);(0);(0);(0);(0);(0);(0);(0);(0);(0);(0);(0x1.4cccccccccccdp+0);(0);(0);(0);(0);(0);(0);(0);(0);(-75);(-75);(-75)]);
(67800%Z, [(0);(0);(0);(0);(0);(0);(0);(0);(0);(0);(0);(0);(0);(2);(0);(0);(0);(0);(0);(0);(0);(0);(-75);(-75);(-75)]);
(67860%Z, [(0);(0);(0);(0);(0);(0);(0);(0);(0);(0);(0);(0);(0);(0x1.7333333333333p+1);(0);(0);(0);(0);(0);(0);(0);(0);(-75);(-75);(-75)]);
(67920%Z, [(0);(0);(0);(0);(0);(0);(0);(0);(0);(0);(0);(0);(0);(0x1.599999999999ap+2);(0);(0);(0);(0);(0);(0);(0);(0);(-75);(-75);(-75)]);
(67980%Z, [(0);(0);(0);(0);(0);(0);(0);(0);(0);(0);(0);(0);(0);(0x1.b333333333333p+1);(0);(0);(0);(0);(0);(0);(0);(0);(-75);(-75);(-75)]);
(68040%Z, [(0);(0);(0);(0);(0);(0);(0);(0);(0);(0);(0);(0);(0);(0x1.7333333333333p+1);(0);(0);(0);(0);(0);(0);(0);(0);(-75);(-75);(-75)]);
(68100%Z, [(0);(0);(0);(0);(0);(0);(0);(0);(0);(0);(0);(0);(0);(0x1.6666666666666p+1);(0);(0);(0);(0);(0);(0);(0);(0);(-75);(-75);(-75)]);
(68160%Z, [(0);(0);(0);(0);(0);(0);(0);(0);(0);(0);(0);(0);(0);(0x1.d99999999999ap+1);(0);(0);(0);(0);(0);(0);(0);(0);(-75);(-75);(-75)]);
(68220%Z, [(0);(0);(0);(0);(0);(0);(0);(0);(0);(0);(0);(0);(0);(0x1.6666666666666p+1);(0);(0);(0);(0);(0);(0);(0);(0);(-75);(-75);(-75)]);
(68280%Z, [(0);(0);(0);(0);(0);(0);(0);(0);(0);(0);(0);(0);(0);(0x1.4000000000000p+1);(0);(0);(0);(0);(0);(0);(0);(0);(-75);(-75);(-75)]);
(68340%Z, [(0);(0);(0);(0);(0);(0);(0);(0);(0);(0);(0);(0);(0);(0x1.c000000000000p+1);(0);(0);(0);(0);(0);(0);(0);(0);(-75);(-75);(-75)]);
(68400%Z, [(0);(0);(0);(0);(0);(0);(0);(0);(0);(0);(0);(0);(0);(0x1.6666666666666p+0);(0);(0);(0);(0);(0);(0);(0);(0);(-75);(-75);(-75)]);
(68460%Z, [(0);(0);(0);(0);(0);(0);(0);(0);(0);(0);(0);(0);(0);(0x1.4000000000000p+1);(0);(0);(0);(0);(0);(0);(0);(0);(-75);(-75);(-75)]);
(68520%Z, [(0);(0);(0);(0);(0);(0);(0);(0);(0);(0);(0);(0);(0);(0x1.ccccccccccccdp+0);(0);(0);(0);(0);(0);(0);(0);(0);(-75);(-75);(-75)]);
(68580%Z, [(0);(0);(0);(0);(0);(0);(0);(0);(0);(0);(0);(0);(0);(0x1.c000000000000p+1);(0);(0);(0);(0);(0);(0);(0);(0);(-75);(-75);(-75)]);
(68640%Z, [(0);(0);(0);(0);(0);(0);(0);(0);(0);(0);(0);(0);(0);(0x1.3333333333333p-2);(0);(0);(0);(0);(0);(0);(0);(0);(-75);(-75);(-75)]);
(68700%Z, [(0);(0);(0);(0);(0);(0);(0);(0);(0);(0);(0);(0);(0);(0x1.999999999999ap-2);(0);(0);(0);(0);(0);(0);(0);(0);(-75);(-75);(-75)]);
(68760%Z, [(0);(0);(0);(0);(0);(0);(0);(0);(0);(0);(0);(0);(0);(0);(0);(0);(0);(0);(0);(0);(0);(0);(-75);(-75);(-75)]);
(68820%Z, [(0);(0);(0);(0);(0);(0);(0);(0);(0);(0);(0);(0);(0);(0);(0);(0);(0);(0);(0);(0);(0);(0);(-75);(-75);(-75)]);
(68880%Z, [(0);(0);(0);(0);(0);(0);(0);(0);(0);(0);(0);(0);(0);(0);(0);(0);(0);(0);(0);(0);(0);(0);(-75);(-75);(-75)]);
(68940%Z, [(0);(0);(0);(0);(0);(0);(0);(0);(0);(0);(0);(0);(0);(0);(0);(0);(0);(0);(0);(0);(0);(0);(-75);(-75);(-75)]);
(69000%Z, [(0);(0);(0);(0);(0);(0);(0);(0);(0);(0);(0);(0);(0);(0);(0);(0);(0);(0);(0);(0);(0);(0);(-75);(-75);(-75)]);
(69060%Z, [(0);(0);(0);(0);(0);(0);(0);(0);(0);(0);(0);(0);(0);(0x1.999999999999ap-2);(0);(0);(0);(0);(0);(0);(0);(0);(-75);(-75);(-75)]);
(69120%Z, [(0);(0);(0);(0);(0);(0);(0);(0);(0);(0);(0);(0);(0);(0);(0);(0);(0);(0);(0);(0);(0);(0);(-75);(-75);(-75)]);
(69180%Z, [(0);(0);(0);(0);(0);(0);(0);(0);(0);(0);(0);(0);(0);(0);(0);(0);(0);(0);(0);(0);(0);(0);(-75);(-75);(-75)]);
(69240%Z, [(0);(0);(0);(0);(0);(0);(0);(0);(0);(0);(0);(0);(0);(0);(0);(0);(0);(0);(0);(0);(0);(0);(-75);(-75);(-75)]);
(69300%Z, [(0);(0);(0);(0);(0);(0);(0);(0);(0);(0);(0);(0);(0);(0x1.999999999999ap-3);(0);(0);(0);(0);(0);(0);(0);(0);(-75);(-75);(-75)]);
(69360%Z, [(0);(0);(0);(0);(0);(0);(0);(0);(0);(0);(0);(0);(0);(0x1.999999999999ap-3);(0);(0);(0);(0);(0);(0);(0);(0);(-75);(-75);(-75)]);
(69420%Z, [(0);(0);(0);(0);(0);(0);(0);(0);(-0x1.07c2b7fae3609p+13);(0);(-0x1.07c2b7fae3609p+13);(0);(0);(0);(0x1.a9fbe76c8b439p-7);(0);(0x1.a9fbe76c8b439p-7);(100);(0x1.4cccccccccccdp+0);(0);(0x1.4cccccccccccdp+0);(0);(-0x1.8cccccccccccdp+1);(-75);(-0x1.8cccccccccccdp+1)]);
(69480%Z, [(-0x1.4f4083126e979p+6);(-0x1.afbe76c8b4396p+3);(-0x1.41f7ced916873p+4);(0x1.dadd2f1a9fbe7p+6);(-0x1.ee978d4fdf3b6p-1);(0x1.48b4395810625p-2);(0x1.dadd2f1a9fbe7p+6);(0x1.48b4395810625p-2);(-0x1.c7308426351dfp+12);(0);(-0x1.c7308426351dfp+12);(-0x1.6718d3608fb7cp-6);(0);(0);(0x1.76f2a5a469d73p-6);(0);(0x1.76f2a5a469d73p-6);(0x1.8e2f1a9fbe76dp+6);(0x1.2395810624dd3p+1);(0);(0x1.2395810624dd3p+1);(0);(-0x1.849a5657fb69ap+0);(-75);(-0x1.849a5657fb69ap+0)]);
(69540%Z, [(-0x1.54d916872b021p+6);(-0x1.7e66666666666p+3);(-0x1.16b020c49ba5ep+4);(0x1.c9e5604189375p+6);(0);(-0x1.b645a1cac0831p-4);(0x1.c9e5604189375p+6);(-0x1.b645a1cac0831p-4);(-0x1.df5351c2a0232p+12);(0);(-0x1.df5351c2a0232p+12);(-0x1.2aedea53c650bp-6);(0);(0);(0x1.754f3775b8130p-6);(0);(0x1.754f3775b8130p-6);(0x1.8cb851eb851ecp+6);(0x1.2147ae147ae14p+1);(0);(0x1.2147ae147ae14p+1);(0);(-0x1.9ca8198f1d3edp+0);(-75);(-0x1.9ca8198f1d3edp+0)]);
(69600%Z, [(-0x1.391cac083126fp+6);(-0x1.9395810624dd3p+3);(-0x1.2d7ced916872bp+4);(0x1.b92d0e5604189p+6);(0);(0x1.1fbe76c8b4396p-1);(0x1.b92d0e5604189p+6);(0x1.1fbe76c8b4396p-1);(-0x1.60fb7cf2cf95dp+12);(0);(-0x1.60fb7cf2cf95dp+12);(-0x1.4b291e316e621p-6);(0);(0);(0x1.73860999dcb58p-6);(0);(0x1.73860999dcb58p-6);(0x1.8b126e978d4fep+6);(0x1.1eb851eb851ecp+1);(0);(0x1.1eb851eb851ecp+1);(0);(-0x1.3230fcf80dc33p+0);(-75);(-0x1.3230fcf80dc33p+0)]);
(69660%Z, [(-0x1.de28f5c28f5c3p+5);(-0x1.5c9374bc6a7f0p+3);(-0x1.894395810624ep+4);(0x1.7ffbe76c8b439p+6);(0);(0x1.8189374bc6a7fp-1);(0x1.7ffbe76c8b439p+6);(0x1.8189374bc6a7fp-1);(-0x1.6f3a274e22a2cp+11);(0);(-0x1.6f3a274e22a2cp+11);(-0x1.cb1e164089322p-6);(0);(0);(0x1.7110e453d20f3p-6);(0);(0x1.7110e453d20f3p-6);(0x1.88ba5e353f7cfp+6);(0x1.1b22d0e560419p+1);(0);(0x1.1b22d0e560419p+1);(0);(-0x1.41f36262cba73p-1);(-75);(-0x1.41f36262cba73p-1)]);
(69720%Z, [(-0x1.36e5604189375p+5);(-0x1.c333333333333p+2);(-0x1.0ae147ae147aep+5);(0x1.40d0e56041893p+6);(-0x1.37ced916872b0p-1);(0x1.4bc6a7ef9db23p-2);(0x1.40d0e56041893p+6);(0x1.4bc6a7ef9db23p-2);(-0x1.baf463065f959p+10);(0);(-0x1.baf463065f959p+10);(-0x1.44ed24b10f571p-5);(0);(0);(0x1.af20ea5b530cfp-6);(0);(0x1.af20ea5b530cfp-6);(0x1.86f4bc6a7ef9ep+6);(0x1.49374bc6a7efap+1);(0);(0x1.49374bc6a7efap+1);(0);(-0x1.4d940789613d3p-2);(-75);(-0x1.4d940789613d3p-2)]);
(69780%Z, [(-0x1.92e147ae147aep+4);(-0x1.0a8f5c28f5c29p+2);(-0x1.18ef9db22d0e5p+5);(0x1.072d0e5604189p+6);(-0x1.8e5604189374cp-1);(0x1.1ba5e353f7ceep-1);(0x1.072d0e5604189p+6);(0x1.1ba5e353f7ceep-1);(0);(0);(0);(-0x1.5a7831141f1bdp-5);(0x1.5eaf8dccb1c9ep-11);(0);(0x1.eb91b3f20a73fp-6);(0);(0x1.eb91b3f20a73fp-6);(0x1.869374bc6a7f0p+6);(0x1.770a3d70a3d71p+1);(0);(0x1.770a3d70a3d71p+1);(0);(0);(-75);(0)]);
(69840%Z, [(-0x1.4e0c49ba5e354p+4);(-0x1.0a8f5c28f5c29p+2);(-0x1.e2b4395810625p+4);(0x1.e0645a1cac083p+5);(0);(0x1.35916872b020cp+2);(0x1.e0645a1cac083p+5);(0x1.35916872b020cp+2);(0);(0);(0);(-0x1.2887889ff72bcp-5);(0x1.aba35c660770ep-5);(0);(0x1.90e23af31b153p-6);(0);(0x1.90e23af31b153p-6);(0x1.d904189374bc7p+6);(0x1.724dd2f1a9fbep+1);(0);(0x1.724dd2f1a9fbep+1);(0x1.6872b020c49bap-6);(0);(-75);(0)]);
(69900%Z, [(-0x1.6122d0e560419p+4);(-0x1.772b020c49ba6p+1);(-0x1.ba8f5c28f5c29p+4);(0x1.10de353f7ced9p+6);(0);(0x1.f1cac083126e9p+3);(0x1.10de353f7ced9p+6);(0x1.f1cac083126e9p+3);(0);(0);(0);(-0x1.0e6b987f68400p-5);(0x1.57cb48684e9dfp-3);(0x1.1a1d47b97d0edp-5);(0x1.fe111276fb092p-7);(0);(0x1.fe111276fb092p-7);(0x1.6b1a1cac08312p+7);(0x1.69ba5e353f7cfp+1);(0);(0x1.69ba5e353f7cfp+1);(0x1.020c49ba5e354p-3);(0);(-75);(0)]);
(69960%Z, [(-0x1.fcb4395810625p+4);(-0x1.b95810624dd2fp+1);(-0x1.05ae147ae147bp+5);(0x1.2ff0a3d70a3d7p+6);(-0x1.5a1cac083126fp-2);(0x1.ec7ae147ae148p+2);(0x1.2ff0a3d70a3d7p+6);(0x1.ec7ae147ae148p+2);(0);(0);(0);(-0x1.42fa056a2232bp-5);(0x1.8d5da11aed413p-4);(0x1.7ec11b68bc2c1p-4);(0x1.cec84f8f8a4c2p-7);(0);(0x1.cec84f8f8a4c2p-7);(0x1.99b3b645a1cacp+7);(0x1.724dd2f1a9fbep+1);(0);(0x1.724dd2f1a9fbep+1);(0x1.4bc6a7ef9db23p-4);(0);(-75);(0)]);
(70020%Z, [(-0x1.7f26e978d4fdfp+5);(-0x1.bac083126e979p+1);(-0x1.ef604189374bcp+4);(0x1.3447ae147ae14p+6);(-0x1.12b020c49ba5ep+0);(-0x1.9449ba5e353f8p+2);(0x1.3447ae147ae14p+6);(-0x1.9449ba5e353f8p+2);(-0x1.a2b98dd1e53a8p+10);(0);(-0x1.a2b98dd1e53a8p+10);(-0x1.2fbe49266498bp-5);(0);(0);(0x1.387160956c0d7p-6);(0);(0x1.387160956c0d7p-6);(0x1.5ff7ced916873p+7);(0x1.ad916872b020cp+1);(0);(0x1.ad916872b020cp+1);(0);(-0x1.e324c8366516ep-3);(-75);(-0x1.e324c8366516ep-3)]);
(70080%Z, [(-0x1.dd9db22d0e560p+5);(-0x1.40a3d70a3d70ap+2);(-0x1.6e7ef9db22d0ep+4);(0x1.5b083126e978dp+6);(-0x1.2d0e560418937p-3);(-0x1.01cac083126e9p+0);(0x1.5b083126e978dp+6);(-0x1.01cac083126e9p+0);(-0x1.4b478f88333fdp+12);(0);(-0x1.4b478f88333fdp+12);(-0x1.b0a81e41b4805p-6);(0);(0);(0x1.421c044284dfdp-6);(0);(0x1.421c044284dfdp-6);(0x1.5ce2d0e560419p+7);(0x1.b70a3d70a3d71p+1);(0);(0x1.b70a3d70a3d71p+1);(0);(-0x1.76ae7d566cf42p-1);(-75);(-0x1.76ae7d566cf42p-1)]);
(70140%Z, [(-0x1.0383126e978d5p+6);(-0x1.64ccccccccccdp+3);(-0x1.81604189374bcp+4);(0x1.8e70a3d70a3d7p+6);(0);(-0x1.020c49ba5e354p-1);(0x1.8e70a3d70a3d7p+6);(-0x1.020c49ba5e354p-1);(-0x1.bcade8d64d7f1p+12);(0);(-0x1.bcade8d64d7f1p+12);(-0x1.c1c8e2b26745ep-6);(0);(0);(0x1.40d0aaa7ded6cp-6);(0);(0x1.40d0aaa7ded6cp-6);(0x1.5b8189374bc6ap+7);(0x1.b374bc6a7ef9ep+1);(0);(0x1.b374bc6a7ef9ep+1);(0);(-0x1.fb76b3bb83cf3p-1);(-75);(-0x1.fb76b3bb83cf3p-1)]);
(70200%Z, [(-0x1.05a6e978d4fdfp+6);(-0x1.b77ced916872bp+3);(-0x1.bdc6a7ef9db23p+4);(0x1.aaba5e353f7cfp+6);(0);(-0x1.4dd2f1a9fbe77p-2);(0x1.aaba5e353f7cfp+6);(-0x1.4dd2f1a9fbe77p-2);(-0x1.0306b61565c2dp+13);(0);(-0x1.0306b61565c2dp+13);(-0x1.0634574a94a3cp-5);(0);(0);(0x1.3f4666ec9e237p-6);(0);(0x1.3f4666ec9e237p-6);(0x1.59e24dd2f1aa0p+7);(0x1.af5c28f5c28f6p+1);(0);(0x1.af5c28f5c28f6p+1);(0);(-0x1.2a97396d0917dp+0);(-75);(-0x1.2a97396d0917dp+0)]);
(70260%Z, [(-0x1.038d4fdf3b646p+6);(-0x1.d170a3d70a3d7p+3);(-0x1.d410624dd2f1bp+4);(0x1.b26c8b4395810p+6);(0);(-0x1.4bc6a7ef9db23p-4);(0x1.b26c8b4395810p+6);(-0x1.4bc6a7ef9db23p-4);(-0x1.0c1e87a28bb0ap+13);(0);(-0x1.0c1e87a28bb0ap+13);(-0x1.1428967725507p-5);(0);(0);(0x1.3dab5c39bcba3p-6);(0);(0x1.3dab5c39bcba3p-6);(0x1.582b020c49ba6p+7);(0x1.ab020c49ba5e3p+1);(0);(0x1.ab020c49ba5e3p+1);(0);(-0x1.384189374bc6ap+0);(-75);(-0x1.384189374bc6ap+0)]);
(70320%Z, [(-0x1.06ab020c49ba6p+6);(-0x1.0683126e978d5p+4);(-0x1.dd2b020c49ba6p+4);(0x1.bdae147ae147bp+6);(0);(-0x1.e872b020c49bap-2);(0x1.bdae147ae147bp+6);(-0x1.e872b020c49bap-2);(-0x1.41cc3c06e19b9p+13);(0);(-0x1.41cc3c06e19b9p+13);(-0x1.194fa78819bf7p-5);(0);(0);(0x1.3c03bc4d22c88p-6);(0);(0x1.3c03bc4d22c88p-6);(0x1.5668f5c28f5c3p+7);(0x1.a6a7ef9db22d1p+1);(0);(0x1.a6a7ef9db22d1p+1);(0);(-0x1.7b020c49ba5e3p+0);(-75);(-0x1.7b020c49ba5e3p+0)]);
(70380%Z, [(-0x1.0b4ed916872b0p+6);(-0x1.571eb851eb852p+4);(-0x1.d266666666666p+4);(0x1.d524dd2f1a9fcp+6);(0);(-0x1.189374bc6a7f0p-3);(0x1.d524dd2f1a9fcp+6);(-0x1.189374bc6a7f0p-3);(-0x1.5130743419e30p+13);(0);(-0x1.5130743419e30p+13);(-0x1.10c036e747cd5p-5);(0);(0);(0x1.3a647fdc5931dp-6);(0);(0x1.3a647fdc5931dp-6);(0x1.54b22d0e56042p+7);(0x1.a26e978d4fdf4p+1);(0);(0x1.a26e978d4fdf4p+1);(0);(-0x1.914ee392e1ef7p+0);(-75);(-0x1.914ee392e1ef7p+0)]);
(70440%Z, [(-0x1.0c66666666666p+6);(-0x1.86d4fdf3b645ap+4);(-0x1.b85a1cac08312p+4);(0x1.dc2b020c49ba6p+6);(0);(-0x1.cac083126e979p-8);(0x1.dc2b020c49ba6p+6);(-0x1.cac083126e979p-8);(-0x1.51f4043808851p+13);(0);(-0x1.51f4043808851p+13);(-0x1.fed26df67da04p-6);(0);(0);(0x1.38de6ddf00abfp-6);(0);(0x1.38de6ddf00abfp-6);(0x1.531604189374cp+7);(0x1.9e76c8b439581p+1);(0);(0x1.9e76c8b439581p+1);(0);(-0x1.961e4f765fd8bp+0);(-75);(-0x1.961e4f765fd8bp+0)]);
(70500%Z, [(-0x1.06d916872b021p+6);(-0x1.5d16872b020c5p+4);(-0x1.7b4395810624ep+4);(0x1.c0916872b020cp+6);(0);(0x1.d0e5604189375p-1);(0x1.c0916872b020cp+6);(0x1.d0e5604189375p-1);(-0x1.d7b19b317efe1p+12);(0);(-0x1.d7b19b317efe1p+12);(-0x1.b3607f9c9851ap-6);(0);(0);(0x1.379314445aa2ep-6);(0);(0x1.379314445aa2ep-6);(0x1.51b53f7ced917p+7);(0x1.9b020c49ba5e3p+1);(0);(0x1.9b020c49ba5e3p+1);(0);(-0x1.1d4c985f06f69p+0);(-75);(-0x1.1d4c985f06f69p+0)]);
(70560%Z, [(-0x1.026353f7ced91p+6);(-0x1.3ab851eb851ecp+4);(-0x1.5db645a1cac08p+4);(0x1.a7f0a3d70a3d7p+6);(0);(-0x1.1eb851eb851ecp-3);(0x1.a7f0a3d70a3d7p+6);(-0x1.1eb851eb851ecp-3);(-0x1.f721450374ff8p+12);(0);(-0x1.f721450374ff8p+12);(-0x1.9071fd9e50e37p-6);(0);(0);(0x1.365cb35f3d7d4p-6);(0);(0x1.365cb35f3d7d4p-6);(0x1.5070a3d70a3d7p+7);(0x1.97ef9db22d0e5p+1);(0);(0x1.97ef9db22d0e5p+1);(0);(-0x1.32b9f559b3d08p+0);(-75);(-0x1.32b9f559b3d08p+0)]);
(70620%Z, [(-0x1.feac083126e98p+5);(-0x1.29604189374bcp+4);(-0x1.601cac083126fp+4);(0x1.a333333333333p+6);(0);(0x1.7ced916872b02p-2);(0x1.a333333333333p+6);(0x1.7ced916872b02p-2);(-0x1.a3594779a6b51p+12);(0);(-0x1.a3594779a6b51p+12);(-0x1.94498e137e8d0p-6);(0);(0);(0x1.3526527a20579p-6);(0);(0x1.3526527a20579p-6);(0x1.4f26e978d4fdfp+7);(0x1.94bc6a7ef9db2p+1);(0);(0x1.94bc6a7ef9db2p+1);(0);(-0x1.017a24894c448p+0);(-75);(-0x1.017a24894c448p+0)]);
(70680%Z, [(-0x1.f13126e978d50p+5);(-0x1.20ccccccccccdp+4);(-0x1.6d16872b020c5p+4);(0x1.9b5e353f7ced9p+6);(0);(-0x1.6666666666666p-3);(0x1.9b5e353f7ced9p+6);(-0x1.6666666666666p-3);(-0x1.cab558e970718p+12);(0);(-0x1.cab558e970718p+12);(-0x1.a64a0be7bfc25p-6);(0);(0);(0x1.33df2a9d627bfp-6);(0);(0x1.33df2a9d627bfp-6);(0x1.4dcd4fdf3b646p+7);(0x1.916872b020c4ap+1);(0);(0x1.916872b020c4ap+1);(0);(-0x1.1c0e1719f7f8dp+0);(-75);(-0x1.1c0e1719f7f8dp+0)]);
(70740%Z, [(-0x1.da126e978d4fep+5);(-0x1.2dd70a3d70a3dp+4);(-0x1.c5851eb851eb8p+4);(0x1.a9872b020c49cp+6);(0);(-0x1.645a1cac08312p-4);(0x1.a9872b020c49cp+6);(-0x1.645a1cac08312p-4);(-0x1.de5a612839043p+12);(0);(-0x1.de5a612839043p+12);(-0x1.0bae23ea3ffa4p-5);(0);(0);(0x1.323fee2c98e54p-6);(0);(0x1.323fee2c98e54p-6);(0x1.4c13f7ced9168p+7);(0x1.8d4fdf3b645a2p+1);(0);(0x1.8d4fdf3b645a2p+1);(0);(-0x1.2b67a0f9096bcp+0);(-75);(-0x1.2b67a0f9096bcp+0)]);
(70800%Z, [(-0x1.bec6a7ef9db23p+5);(-0x1.fdeb851eb851fp+3);(-0x1.13e147ae147aep+5);(0x1.a9a9fbe76c8b4p+6);(0);(0x1.2f1a9fbe76c8bp-3);(0x1.a9a9fbe76c8b4p+6);(0x1.2f1a9fbe76c8bp-3);(-0x1.bcfe674080f99p+12);(0);(-0x1.bcfe674080f99p+12);(-0x1.4b8fcb6497da2p-5);(0);(0);(0x1.3037d63022dd8p-6);(0);(0x1.3037d63022dd8p-6);(0x1.49ec8b4395810p+7);(0x1.8810624dd2f1bp+1);(0);(0x1.8810624dd2f1bp+1);(0);(-0x1.1a23e18698351p+0);(-75);(-0x1.1a23e18698351p+0)]);
(70860%Z, [(-0x1.a978d4fdf3b64p+5);(-0x1.b147ae147ae14p+3);(-0x1.0ef3b645a1cacp+5);(0x1.94624dd2f1aa0p+6);(0);(0x1.0189374bc6a7fp-1);(0x1.94624dd2f1aa0p+6);(0x1.0189374bc6a7fp-1);(-0x1.4bd2ba615a8dfp+12);(0);(-0x1.4bd2ba615a8dfp+12);(-0x1.46af2bd215e1fp-5);(0);(0);(0x1.2e3821af7d30bp-6);(0);(0x1.2e3821af7d30bp-6);(0x1.47c9ba5e353f8p+7);(0x1.82f1a9fbe76c9p+1);(0);(0x1.82f1a9fbe76c9p+1);(0);(-0x1.a9ed7c6fbd274p-1);(-75);(-0x1.a9ed7c6fbd274p-1)]);
(70920%Z, [(-0x1.9f353f7ced917p+5);(-0x1.127ef9db22d0ep+4);(-0x1.ce9374bc6a7f0p+4);(0x1.873e76c8b4396p+6);(-0x1.1ba5e353f7ceep-2);(-0x1.bb645a1cac083p-2);(0x1.873e76c8b4396p+6);(-0x1.bb645a1cac083p-2);(-0x1.ad4855011904bp+12);(0);(-0x1.ad4855011904bp+12);(-0x1.139a41095fa53p-5);(0);(0);(0x1.4d4024b33daf9p-6);(0);(0x1.4d4024b33daf9p-6);(0x1.39a04189374bcp+7);(0x1.9851eb851eb85p+1);(0);(0x1.9851eb851eb85p+1);(0);(-0x1.054e8fb00bcbep+0);(-75);(-0x1.054e8fb00bcbep+0)]);
(70980%Z, [(-0x1.9124dd2f1a9fcp+5);(-0x1.43cac083126e9p+4);(-0x1.a3be76c8b4396p+4);(0x1.80e04189374bcp+6);(-0x1.43126e978d4fep+0);(-0x1.a7ef9db22d0e5p+0);(0x1.80e04189374bcp+6);(-0x1.a7ef9db22d0e5p+0);(-0x1.90fde60d4562ep+13);(0);(-0x1.90fde60d4562ep+13);(-0x1.ea12add794261p-6);(0);(0);(0x1.ffb8b26394fadp-6);(0);(0x1.ffb8b26394fadp-6);(0x1.10c28f5c28f5cp+7);(0x1.10a3d70a3d70ap+2);(0);(0x1.10a3d70a3d70ap+2);(0);(-0x1.6e0ded288ce70p+0);(-75);(-0x1.6e0ded288ce70p+0)]);
(71040%Z, [(-0x1.63e353f7ced91p+5);(-0x1.1db22d0e56042p+4);(-0x1.910e560418937p+4);(0x1.5d4189374bc6ap+6);(-0x1.26a7ef9db22d1p+0);(-0x1.3eb851eb851ecp+0);(0x1.5d4189374bc6ap+6);(-0x1.3eb851eb851ecp+0);(-0x1.0e844d916872bp+14);(0);(-0x1.0e844d916872bp+14);(-0x1.cd147b0c3acbep-6);(0);(0);(0x1.5909f1f14983dp-5);(0);(0x1.5909f1f14983dp-5);(0x1.fa53f7ced9168p+6);(0x1.552f1a9fbe76dp+2);(0);(0x1.552f1a9fbe76dp+2);(0);(-0x1.8ac3c9eecbfb1p+0);(-75);(-0x1.8ac3c9eecbfb1p+0)]);
(71100%Z, [(-0x1.3ddf3b645a1cbp+5);(-0x1.dbe76c8b43958p+3);(-0x1.7049ba5e353f8p+4);(0x1.37ea7ef9db22dp+6);(-0x1.6666666666666p-1);(-0x1.624dd2f1a9fbep-2);(0x1.37ea7ef9db22dp+6);(-0x1.624dd2f1a9fbep-2);(-0x1.21fb90e560419p+14);(0);(-0x1.21fb90e560419p+14);(-0x1.a29ad4d809160p-6);(0);(0);(0x1.83d145d851655p-5);(0);(0x1.83d145d851655p-5);(0x1.01f4395810625p+7);(0x1.86c8b43958106p+2);(0);(0x1.86c8b43958106p+2);(0);(-0x1.715f45e0b4e12p+0);(-75);(-0x1.715f45e0b4e12p+0)]);
(71160%Z, [(-0x1.fc3d70a3d70a4p+4);(-0x1.50ed916872b02p+3);(-0x1.4774bc6a7ef9ep+4);(0x1.082f1a9fbe76dp+6);(-0x1.3b645a1cac083p-2);(0x1.7d4fdf3b645a2p+1);(0x1.082f1a9fbe76dp+6);(0x1.7d4fdf3b645a2p+1);(-0x1.e9b26eba27aeap+12);(0);(-0x1.e9b26eba27aeap+12);(-0x1.75942bc6825aep-6);(0);(0);(0x1.9361dc93ea2d3p-5);(0);(0x1.9361dc93ea2d3p-5);(0x1.0343126e978d5p+7);(0x1.9883126e978d5p+2);(0);(0x1.9883126e978d5p+2);(0);(-0x1.297396d0917d7p-1);(-75);(-0x1.297396d0917d7p-1)]);
(71220%Z, [(-0x1.58d0e56041893p+4);(-0x1.7a3d70a3d70a4p+2);(-0x1.29c28f5c28f5cp+4);(0x1.86ba5e353f7cfp+5);(-0x1.883126e978d50p-2);(0x1.316872b020c4ap+1);(0x1.86ba5e353f7cfp+5);(0x1.316872b020c4ap+1);(0);(0);(0);(-0x1.5d738e172f718p-6);(0x1.29065e93df1a8p-9);(0);(0x1.a734f82f51266p-5);(0);(0x1.a734f82f51266p-5);(0x1.05c6a7ef9db23p+7);(0x1.b0c49ba5e353fp+2);(0);(0x1.b0c49ba5e353fp+2);(0x1.0624dd2f1a9fcp-10);(0);(-75);(0)]);
(71280%Z, [(-0x1.10d916872b021p+4);(-0x1.95c28f5c28f5cp+0);(-0x1.64fdf3b645a1dp+3);(0x1.454189374bc6ap+5);(-0x1.10e5604189375p+0);(0x1.39810624dd2f2p+3);(0x1.454189374bc6ap+5);(0x1.39810624dd2f2p+3);(0);(0);(0);(-0x1.8ed75e4b39e53p-7);(0x1.b109070fbeb9ep-4);(0);(0x1.b6e2eb1c432cap-5);(0);(0x1.b6e2eb1c432cap-5);(0x1.303ae147ae148p+7);(0x1.04ccccccccccdp+3);(0);(0x1.04ccccccccccdp+3);(0x1.89374bc6a7efap-4);(0);(-75);(0)]);
(71340%Z, [(-0x1.fab851eb851ecp+3);(0x1.2b020c49ba5e3p-2);(-0x1.3851eb851eb85p+2);(0x1.3a0624dd2f1aap+5);(-0x1.06e978d4fdf3bp+0);(0x1.1cd916872b021p+4);(0x1.3a0624dd2f1aap+5);(0x1.1cd916872b021p+4);(0);(0);(0);(-0x1.1319b837ea522p-8);(0x1.8973aaf287718p-3);(0);(0x1.eb3dd11be6e65p-5);(0);(0x1.eb3dd11be6e65p-5);(0x1.630cccccccccdp+7);(0x1.54a3d70a3d70ap+3);(0);(0x1.54a3d70a3d70ap+3);(0x1.22d0e56041893p-2);(0);(-75);(0)]);
(71400%Z, [(-0x1.f3e76c8b43958p+3);(0x1.a49ba5e353f7dp+0);(-0x1.ca7ef9db22d0ep+0);(0x1.3a51eb851eb85p+5);(0);(0x1.7851eb851eb85p+4);(0x1.3a51eb851eb85p+5);(0x1.7851eb851eb85p+4);(0);(0);(0);(-0x1.1ece7746de60dp-12);(0x1.03e74afd54541p-2);(0x1.2040e21d6bf6ap-1);(0x1.a67a52ac753e7p-5);(0);(0x1.a67a52ac753e7p-5);(0x1.c12978d4fdf3bp+7);(0x1.729fbe76c8b44p+3);(0);(0x1.729fbe76c8b44p+3);(0x1.9374bc6a7ef9ep-2);(0);(-75);(0)]);
(71460%Z, [(-0x1.085a1cac08312p+4);(0x1.6fbe76c8b4396p+1);(0x1.9c28f5c28f5c3p-1);(0x1.5289374bc6a7fp+5);(0);(0x1.d78d4fdf3b646p+4);(0x1.5289374bc6a7fp+5);(0x1.d78d4fdf3b646p+4);(0);(0);(0);(0x1.8c7c24bea6437p-9);(0x1.45ae239459becp-2);(0x1.6ab4fd4d48325p-1);(0x1.805814940bbb2p-5);(0);(0x1.805814940bbb2p-5);(0x1.016872b020c4ap+8);(0x1.8276c8b439581p+3);(0);(0x1.8276c8b439581p+3);(0x1.5d2f1a9fbe76dp-2);(0);(-75);(0)]);
(71520%Z, [(-0x1.329374bc6a7f0p+4);(0x1.13c6a7ef9db23p+2);(0x1.63d70a3d70a3dp+1);(0x1.854395810624ep+5);(0x1.8eb851eb851ecp+1);(0x1.3d9ba5e353f7dp+5);(0x1.854395810624ep+5);(0x1.3d9ba5e353f7dp+5);(0);(0);(0);(0x1.6aaaeeab99cc4p-8);(0x1.b6b6a7c759c64p-2);(0x1.19836a2288961p+2);(0x1.ea209aaa3ad19p-6);(0);(0x1.ea209aaa3ad19p-6);(0x1.7fe10624dd2f2p+8);(0x1.6f7ced916872bp+3);(0);(0x1.6f7ced916872bp+3);(0x1.6872b020c49bap-3);(0);(-75);(0)]);
(71580%Z, [(-0x1.5a24dd2f1a9fcp+4);(0x1.b8c49ba5e353fp+2);(0x1.3d0e560418937p+2);(0x1.c774bc6a7ef9ep+5);(0x1.64bc6a7ef9db2p+2);(0x1.a5b645a1cac08p+5);(0x1.c774bc6a7ef9ep+5);(0x1.a5b645a1cac08p+5);(0);(0);(0);(0x1.0fda9389e0132p-7);(0x1.2340da3ac97f9p-1);(0x1.db1e0cf0d43e0p+2);(0x1.92146a1a500d6p-6);(0);(0x1.92146a1a500d6p-6);(0x1.badae147ae148p+8);(0x1.5bc6a7ef9db23p+3);(0);(0x1.5bc6a7ef9db23p+3);(0x1.0624dd2f1a9fcp-3);(0);(-75);(0)]);
(71640%Z, [(-0x1.7b78d4fdf3b64p+4);(0x1.50ccccccccccdp+3);(0x1.e020c49ba5e35p+2);(0x1.e649ba5e353f8p+5);(0x1.97ae147ae147bp+1);(0x1.d24189374bc6ap+5);(0x1.e649ba5e353f8p+5);(0x1.d24189374bc6ap+5);(0);(0);(0);(0x1.79eed9670f02dp-7);(0x1.4204ad38ddc21p-1);(0x1.03f1bdc7f7251p+2);(0x1.61f9f01b866e4p-6);(0);(0x1.61f9f01b866e4p-6);(0x1.d8f22d0e56042p+8);(0x1.46f9db22d0e56p+3);(0);(0x1.46f9db22d0e56p+3);(0x1.b22d0e5604189p-4);(0);(-75);(0)]);
(71700%Z, [(-0x1.a2ac083126e98p+4);(0x1.6a6e978d4fdf4p+3);(0x1.f22d0e5604189p+2);(0x1.fdba5e353f7cfp+5);(0x1.e5a1cac083127p+0);(0x1.d470a3d70a3d7p+5);(0x1.fdba5e353f7cfp+5);(0x1.d470a3d70a3d7p+5);(0);(0);(0);(0x1.85a484af26c9ap-7);(0x1.43873944c52bfp-1);(0x1.ae4c80b71f917p+1);(0x1.370cdc8754f37p-6);(0);(0x1.370cdc8754f37p-6);(0x1.f800c49ba5e35p+8);(0x1.322d0e5604189p+3);(0);(0x1.322d0e5604189p+3);(0x1.604189374bc6ap-4);(0);(-75);(0)]);
(71760%Z, [(-0x1.b9cac083126e9p+4);(0x1.82e147ae147aep+3);(0x1.03851eb851eb8p+3);(0x1.0a65604189375p+6);(0x1.f7ced916872b0p-1);(0x1.e15c28f5c28f6p+5);(0x1.0a65604189375p+6);(0x1.e15c28f5c28f6p+5);(0);(0);(0);(0x1.9335d249e44fap-7);(0x1.4c72ad7192bf6p-1);(0x1.df3347ab0f62dp+0);(0x1.1847f562174c5p-6);(0);(0x1.1847f562174c5p-6);(0x1.046189374bc6ap+9);(0x1.1d16872b020c5p+3);(0);(0x1.1d16872b020c5p+3);(0x1.3333333333333p-4);(0);(-75);(0)]);
(71820%Z, [(-0x1.e8d4fdf3b645ap+4);(0x1.4733333333333p+3);(0x1.40a3d70a3d70ap+2);(0x1.12322d0e56042p+6);(0x1.df3b645a1cac1p-4);(0x1.aac8b43958106p+5);(0x1.12322d0e56042p+6);(0x1.aac8b43958106p+5);(0);(0);(0);(0x1.122a0e9c50025p-7);(0x1.26c15f864d618p-1);(0x1.9446950fc71d6p-1);(0x1.035371971c10dp-6);(0);(0x1.035371971c10dp-6);(0x1.071126e978d50p+9);(0x1.0a7ef9db22d0ep+3);(0);(0x1.0a7ef9db22d0ep+3);(0x1.16872b020c49cp-4);(0);(-75);(0)]);
(71880%Z, [(-0x1.1b5c28f5c28f6p+5);(0x1.99fbe76c8b439p+1);(-0x1.6189374bc6a7fp+1);(0x1.15624dd2f1aa0p+6);(0x1.8b4395810624ep-3);(0x1.147ae147ae148p+5);(0x1.15624dd2f1aa0p+6);(0x1.147ae147ae148p+5);(0);(0);(0);(-0x1.8b1c7e3aee688p-10);(0x1.7de7e251ef360p-2);(0x1.33de2e7406b80p+0);(0x1.04bc27631b585p-6);(0);(0x1.04bc27631b585p-6);(0x1.026020c49ba5ep+9);(0x1.0722d0e560419p+3);(0);(0x1.0722d0e560419p+3);(0x1.1eb851eb851ecp-4);(0);(-75);(0)]);
(71940%Z, [(-0x1.374189374bc6ap+5);(-0x1.5c28f5c28f5c3p-1);(-0x1.c89374bc6a7f0p+2);(0x1.037ae147ae148p+6);(-0x1.f8d4fdf3b645ap-2);(0x1.1a83126e978d5p+4);(0x1.037ae147ae148p+6);(0x1.1a83126e978d5p+4);(0);(0);(0);(-0x1.cebf1554251b4p-8);(0x1.863a62d25d2f8p-3);(0x1.fbe4143c221a3p-4);(0x1.7d2849cb252cep-6);(0);(0x1.7d2849cb252cep-6);(0x1.9806e978d4fdfp+8);(0x1.2fbe76c8b4396p+3);(0);(0x1.2fbe76c8b4396p+3);(0x1.0c49ba5e353f8p-3);(0);(-75);(0)]);
(72000%Z, [(-0x1.56189374bc6a8p+5);(-0x1.5872b020c49bap+2);(-0x1.ad70a3d70a3d7p+3);(0x1.e7c083126e979p+5);(0);(-0x1.30a3d70a3d70ap-1);(0x1.e7c083126e979p+5);(-0x1.30a3d70a3d70ap-1);(0);(0);(0);(-0x1.ed17c5ef62f9dp-7);(0x1.7050c036e747dp-5);(0x1.5b2e69cac9e84p-5);(0x1.79c4113c68662p-6);(0);(0x1.79c4113c68662p-6);(0x1.9933333333333p+8);(0x1.2deb851eb851fp+3);(0);(0x1.2deb851eb851fp+3);(0x1.16872b020c49cp-4);(0);(-75);(0)]);
(72060%Z, [(-0x1.7d0a3d70a3d71p+5);(-0x1.3c9ba5e353f7dp+3);(-0x1.42d4fdf3b645ap+4);(0x1.169374bc6a7f0p+6);(0);(-0x1.01d2f1a9fbe77p+3);(0x1.169374bc6a7f0p+6);(-0x1.01d2f1a9fbe77p+3);(-0x1.00c640dc33722p+13);(0);(-0x1.00c640dc33722p+13);(-0x1.7e9ba6e506aa7p-6);(0);(0);(0x1.796bfca85cab0p-6);(0);(0x1.796bfca85cab0p-6);(0x1.988f5c28f5c29p+8);(0x1.2d2f1a9fbe76dp+3);(0);(0x1.2d2f1a9fbe76dp+3);(0);(-0x1.a6dc5d6388659p-2);(-75);(-0x1.a6dc5d6388659p-2)]);
(72120%Z, [(-0x1.9833333333333p+5);(-0x1.836c8b4395810p+3);(-0x1.80147ae147ae1p+4);(0x1.503851eb851ecp+6);(0);(-0x1.8a7ef9db22d0ep+1);(0x1.503851eb851ecp+6);(-0x1.8a7ef9db22d0ep+1);(-0x1.2dc4167caea74p+14);(0);(-0x1.2dc4167caea74p+14);(-0x1.c5d8bcc517ccap-6);(0);(0);(0x1.78dd616f86a0ap-6);(0);(0x1.78dd616f86a0ap-6);(0x1.97f5810624dd3p+8);(0x1.2c49ba5e353f8p+3);(0);(0x1.2c49ba5e353f8p+3);(0);(-0x1.f36262cba732ep-1);(-75);(-0x1.f36262cba732ep-1)]);
(72180%Z, [(-0x1.aae147ae147aep+5);(-0x1.e970a3d70a3d7p+3);(-0x1.afae147ae147bp+4);(0x1.7d116872b020cp+6);(0);(-0x1.78d4fdf3b645ap-2);(0x1.7d116872b020cp+6);(-0x1.78d4fdf3b645ap-2);(-0x1.42711851eb852p+14);(0);(-0x1.42711851eb852p+14);(-0x1.fd050e5cba154p-6);(0);(0);(0x1.783dff3f0fe04p-6);(0);(0x1.783dff3f0fe04p-6);(0x1.974872b020c4ap+8);(0x1.2b4bc6a7ef9dbp+3);(0);(0x1.2b4bc6a7ef9dbp+3);(0);(-0x1.0bc2b94d94079p+0);(-75);(-0x1.0bc2b94d94079p+0)]);
(72240%Z, [(-0x1.baef9db22d0e5p+5);(-0x1.08083126e978dp+4);(-0x1.b2624dd2f1aa0p+4);(0x1.8865604189375p+6);(0);(-0x1.d604189374bc7p-1);(0x1.8865604189375p+6);(-0x1.d604189374bc7p-1);(-0x1.7619e789613d3p+14);(0);(-0x1.7619e789613d3p+14);(-0x1.fedd606dd3ee0p-6);(0);(0);(0x1.779e9d0e991ffp-6);(0);(0x1.779e9d0e991ffp-6);(0x1.969a9fbe76c8bp+8);(0x1.2a4dd2f1a9fbep+3);(0);(0x1.2a4dd2f1a9fbep+3);(0);(-0x1.37e28240b7803p+0);(-75);(-0x1.37e28240b7803p+0)]);
(72300%Z, [(-0x1.cdfbe76c8b439p+5);(-0x1.15ae147ae147bp+4);(-0x1.b25e353f7ced9p+4);(0x1.97b95810624ddp+6);(0);(-0x1.47ae147ae147bp-2);(0x1.97b95810624ddp+6);(-0x1.47ae147ae147bp-2);(-0x1.881ca284dfce3p+14);(0);(-0x1.881ca284dfce3p+14);(-0x1.fc9343bf1c8b0p-6);(0);(0);(0x1.76fb09203a323p-6);(0);(0x1.76fb09203a323p-6);(0x1.95ed4fdf3b646p+8);(0x1.294fdf3b645a2p+3);(0);(0x1.294fdf3b645a2p+3);(0);(-0x1.48110a137f38cp+0);(-75);(-0x1.48110a137f38cp+0)]);
(72360%Z, [(-0x1.e2ed916872b02p+5);(-0x1.2b4fdf3b645a2p+4);(-0x1.94e5604189375p+4);(0x1.9fe76c8b43958p+6);(0);(-0x1.9cac083126e98p-2);(0x1.9fe76c8b43958p+6);(-0x1.9cac083126e98p-2);(-0x1.9ecb7cfd4bf0ap+14);(0);(-0x1.9ecb7cfd4bf0ap+14);(-0x1.d51dbeacce7fbp-6);(0);(0);(0x1.76683c297bfa5p-6);(0);(0x1.76683c297bfa5p-6);(0x1.954d0e5604189p+8);(0x1.28624dd2f1aa0p+3);(0);(0x1.28624dd2f1aa0p+3);(0);(-0x1.5c36b8f9b1316p+0);(-75);(-0x1.5c36b8f9b1316p+0)]);
(72420%Z, [(-0x1.f28d4fdf3b646p+5);(-0x1.35c6a7ef9db23p+4);(-0x1.7795810624dd3p+4);(0x1.a4b74bc6a7efap+6);(0);(0x1.a9fbe76c8b439p-6);(0x1.a4b74bc6a7efap+6);(0x1.a9fbe76c8b439p-6);(-0x1.9d54072085b18p+14);(0);(-0x1.9d54072085b18p+14);(-0x1.ae565f5d32b61p-6);(0);(0);(0x1.75e2046c764aep-6);(0);(0x1.75e2046c764aep-6);(0x1.94ba1cac08312p+8);(0x1.278d4fdf3b646p+3);(0);(0x1.278d4fdf3b646p+3);(0);(-0x1.5bf7ced916873p+0);(-75);(-0x1.5bf7ced916873p+0)]);
(72480%Z, [(-0x1.d4c6a7ef9db23p+5);(-0x1.3116872b020c5p+4);(-0x1.7ac49ba5e353fp+4);(0x1.97b3333333333p+6);(0);(0x1.2c8b439581062p-1);(0x1.97b3333333333p+6);(0x1.2c8b439581062p-1);(-0x1.7c488b7fe08afp+14);(0);(-0x1.7c488b7fe08afp+14);(-0x1.b4621218dc44ep-6);(0);(0);(0x1.75579af1886e0p-6);(0);(0x1.75579af1886e0p-6);(0x1.94249ba5e353fp+8);(0x1.26b020c49ba5ep+3);(0);(0x1.26b020c49ba5ep+3);(0);(-0x1.40f51ac9afe1ep+0);(-75);(-0x1.40f51ac9afe1ep+0)]);
(72540%Z, [(-0x1.80ccccccccccdp+5);(-0x1.3cc083126e979p+4);(-0x1.b8f1a9fbe76c9p+4);(0x1.811a9fbe76c8bp+6);(0);(0x1.a45a1cac08312p-1);(0x1.811a9fbe76c8bp+6);(0x1.a45a1cac08312p-1);(-0x1.4e1ee924f227dp+14);(0);(-0x1.4e1ee924f227dp+14);(-0x1.043f1467ebf79p-5);(0);(0);(0x1.74afd5454152bp-6);(0);(0x1.74afd5454152bp-6);(0x1.93722d0e56042p+8);(0x1.25a9fbe76c8b4p+3);(0);(0x1.25a9fbe76c8b4p+3);(0);(-0x1.1ad38476f2a5ap+0);(-75);(-0x1.1ad38476f2a5ap+0)]);
(72600%Z, [(-0x1.20d916872b021p+5);(-0x1.6374bc6a7ef9ep+4);(-0x1.1953f7ced9168p+5);(0x1.767ced916872bp+6);(0);(0x1.147ae147ae148p-3);(0x1.767ced916872bp+6);(0x1.147ae147ae148p-3);(-0x1.468d0ac860568p+14);(0);(-0x1.468d0ac860568p+14);(-0x1.5422b73a13773p-5);(0);(0);(0x1.73d9ec7000432p-6);(0);(0x1.73d9ec7000432p-6);(0x1.92883126e978dp+8);(0x1.245a1cac08312p+3);(0);(0x1.245a1cac08312p+3);(0);(-0x1.15a708ede54b5p+0);(-75);(-0x1.15a708ede54b5p+0)]);
(72660%Z, [(-0x1.b553f7ced9168p+4);(-0x1.7970a3d70a3d7p+4);(-0x1.45f9db22d0e56p+5);(0x1.70e353f7ced91p+6);(0);(0x1.1a9fbe76c8b44p-1);(0x1.70e353f7ced91p+6);(0x1.1a9fbe76c8b44p-1);(-0x1.277fd7d1782d4p+14);(0);(-0x1.277fd7d1782d4p+14);(-0x1.8e9b38d60a633p-5);(0);(0);(0x1.72da122fad6cbp-6);(0);(0x1.72da122fad6cbp-6);(0x1.9175810624dd3p+8);(0x1.22c8b43958106p+3);(0);(0x1.22c8b43958106p+3);(0);(-0x1.f9057d1782d38p-1);(-75);(-0x1.f9057d1782d38p-1)]);
(72720%Z, [(-0x1.7c45a1cac0831p+4);(-0x1.5f645a1cac083p+4);(-0x1.4978d4fdf3b64p+5);(0x1.5fcdd2f1a9fbep+6);(0);(0x1.09ba5e353f7cfp+0);(0x1.5fcdd2f1a9fbep+6);(0x1.09ba5e353f7cfp+0);(-0x1.da46f7ced9168p+13);(0);(-0x1.da46f7ced9168p+13);(-0x1.94797435310f4p-5);(0);(0);(0x1.71da37ef5a965p-6);(0);(0x1.71da37ef5a965p-6);(0x1.905e353f7ced9p+8);(0x1.21374bc6a7efap+3);(0);(0x1.21374bc6a7efap+3);(0);(-0x1.97396d0917d6bp-1);(-75);(-0x1.97396d0917d6bp-1)]);
(72780%Z, [(-0x1.89020c49ba5e3p+4);(-0x1.a7f7ced916873p+3);(-0x1.0b51eb851eb85p+5);(0x1.2b1999999999ap+6);(0);(0x1.c645a1cac0831p+1);(0x1.2b1999999999ap+6);(0x1.c645a1cac0831p+1);(-0x1.2c41b775b8130p+11);(0);(-0x1.2c41b775b8130p+11);(-0x1.47a9115bc7fcep-5);(0);(0);(0x1.710880d801b43p-6);(0);(0x1.710880d801b43p-6);(0x1.8f7b22d0e5604p+8);(0x1.1fef9db22d0e5p+3);(0);(0x1.1fef9db22d0e5p+3);(0);(-0x1.025aee631f8a1p-3);(-75);(-0x1.025aee631f8a1p-3)]);
(72840%Z, [(-0x1.e05a1cac08312p+4);(-0x1.ba8f5c28f5c29p+2);(-0x1.8d3b645a1cac1p+4);(0x1.ef6a7ef9db22dp+5);(0);(0x1.4fdf3b645a1cbp-3);(0x1.ef6a7ef9db22dp+5);(0x1.4fdf3b645a1cbp-3);(-0x1.c4cacb1465e89p+10);(0);(-0x1.c4cacb1465e89p+10);(-0x1.e4589a1ffc49cp-6);(0);(0);(0x1.70691ea78af3ep-6);(0);(0x1.70691ea78af3ep-6);(0x1.8ed3333333333p+8);(0x1.1ef9db22d0e56p+3);(0);(0x1.1ef9db22d0e56p+3);(0);(-0x1.86d71f36262ccp-4);(-75);(-0x1.86d71f36262ccp-4)]);
(72900%Z, [(-0x1.5e0a3d70a3d71p+5);(-0x1.428f5c28f5c29p+3);(-0x1.5283126e978d5p+4);(0x1.1ee872b020c4ap+6);(0);(-0x1.a1cac083126e9p+1);(0x1.1ee872b020c4ap+6);(-0x1.a1cac083126e9p+1);(-0x1.a7d926c4c5975p+13);(0);(-0x1.a7d926c4c5975p+13);(-0x1.92315aebdee0dp-6);(0);(0);(0x1.6feb4a66559f7p-6);(0);(0x1.6feb4a66559f7p-6);(0x1.8e476c8b43958p+8);(0x1.1e353f7ced917p+3);(0);(0x1.1e353f7ced917p+3);(0);(-0x1.6fa2f05a708eep-1);(-75);(-0x1.6fa2f05a708eep-1)]);
(72960%Z, [(-0x1.cda3d70a3d70ap+5);(-0x1.dddb22d0e5604p+3);(-0x1.27d2f1a9fbe77p+4);(0x1.6433333333333p+6);(0);(-0x1.09ba5e353f7cfp+1);(0x1.6433333333333p+6);(-0x1.09ba5e353f7cfp+1);(-0x1.48b84012599edp+14);(0);(-0x1.48b84012599edp+14);(-0x1.507f3ea4807d7p-6);(0);(0);(0x1.6f7e3d1cc100ep-6);(0);(0x1.6f7e3d1cc100ep-6);(0x1.8dd26e978d4fep+8);(0x1.1d89374bc6a7fp+3);(0);(0x1.1d89374bc6a7fp+3);(0);(-0x1.1e2f5989df117p+0);(-75);(-0x1.1e2f5989df117p+0)]);
(73020%Z, [(-0x1.fc6c8b4395810p+5);(-0x1.e2978d4fdf3b6p+3);(-0x1.1dba5e353f7cfp+4);(0x1.80dd2f1a9fbe7p+6);(0);(-0x1.1a9fbe76c8b44p-2);(0x1.80dd2f1a9fbe7p+6);(-0x1.1a9fbe76c8b44p-2);(-0x1.58433e8922531p+14);(0);(-0x1.58433e8922531p+14);(-0x1.3f35145edcaf4p-6);(0);(0);(0x1.6f156191148fep-6);(0);(0x1.6f156191148fep-6);(0x1.8d6353f7ced91p+8);(0x1.1ced916872b02p+3);(0);(0x1.1ced916872b02p+3);(0);(-0x1.2c7064ece9a2cp+0);(-75);(-0x1.2c7064ece9a2cp+0)]);
(73080%Z, [(-0x1.1ec28f5c28f5cp+6);(-0x1.7b95810624dd3p+4);(-0x1.7624dd2f1a9fcp+4);(0x1.c0b851eb851ecp+6);(0);(-0x1.a79db22d0e560p+2);(0x1.c0b851eb851ecp+6);(-0x1.a79db22d0e560p+2);(-0x1.66472b55ef1fep+15);(0);(-0x1.66472b55ef1fep+15);(-0x1.a8a40e11bb944p-6);(0);(0);(0x1.6e8f29d40ee07p-6);(0);(0x1.6e8f29d40ee07p-6);(0x1.8ccf1a9fbe76dp+8);(0x1.1c189374bc6a8p+3);(0);(0x1.1c189374bc6a8p+3);(0);(-0x1.3af73c0c1fc8fp+1);(-75);(-0x1.3af73c0c1fc8fp+1)]);
(73140%Z, [(-0x1.35ced916872b0p+6);(-0x1.cbfbe76c8b439p+4);(-0x1.a6b851eb851ecp+4);(0x1.091e353f7ced9p+7);(-0x1.f1a9fbe76c8b4p-3);(-0x1.3a5e353f7ced9p-2);(0x1.091e353f7ced9p+7);(-0x1.3a5e353f7ced9p-2);(-0x1.6ee9c072085b2p+15);(0);(-0x1.6ee9c072085b2p+15);(-0x1.da93f53fdd909p-6);(0);(0);(0x1.83cafb3b75211p-6);(0);(0x1.83cafb3b75211p-6);(0x1.7a15810624dd3p+8);(0x1.1e5e353f7ced9p+3);(0);(0x1.1e5e353f7ced9p+3);(0);(-0x1.401450efdc9c5p+1);(-75);(-0x1.401450efdc9c5p+1)]);
(73200%Z, [(-0x1.3a50e56041893p+6);(-0x1.baf5c28f5c28fp+4);(-0x1.a5ced916872b0p+4);(0x1.05c28f5c28f5cp+7);(-0x1.b020c49ba5e35p-3);(-0x1.f4fdf3b645a1dp+0);(0x1.05c28f5c28f5cp+7);(-0x1.f4fdf3b645a1dp+0);(-0x1.a5f4fbaf10236p+15);(0);(-0x1.a5f4fbaf10236p+15);(-0x1.d8539e62ac1cbp-6);(0);(0);(0x1.98fe69270b06cp-6);(0);(0x1.98fe69270b06cp-6);(0x1.69553f7ced917p+8);(0x1.20a3d70a3d70ap+3);(0);(0x1.20a3d70a3d70ap+3);(0);(-0x1.6da272862f599p+1);(-75);(-0x1.6da272862f599p+1)]);
(73260%Z, [(-0x1.3b322d0e56042p+6);(-0x1.c50e560418937p+4);(-0x1.b333333333333p+4);(0x1.0beb851eb851fp+7);(-0x1.c8b4395810625p-3);(-0x1.2872b020c49bap-1);(0x1.0beb851eb851fp+7);(-0x1.2872b020c49bap-1);(-0x1.b63ad9a6b50b1p+15);(0);(-0x1.b63ad9a6b50b1p+15);(-0x1.e58aa910daeeap-6);(0);(0);(0x1.ae2541d8e8640p-6);(0);(0x1.ae2541d8e8640p-6);(0x1.5a3d70a3d70a4p+8);(0x1.22e147ae147aep+3);(0);(0x1.22e147ae147aep+3);(0);(-0x1.78ec95bff0457p+1);(-75);(-0x1.78ec95bff0457p+1)]);
(73320%Z, [(-0x1.38e76c8b43958p+6);(-0x1.ce49ba5e353f8p+4);(-0x1.b56872b020c4ap+4);(0x1.0a9a9fbe76c8bp+7);(-0x1.72b020c49ba5ep-3);(-0x1.5604189374bc7p+0);(0x1.0a9a9fbe76c8bp+7);(-0x1.5604189374bc7p+0);(-0x1.dbcd4068db8bbp+15);(0);(-0x1.dbcd4068db8bbp+15);(-0x1.e696f8548ffa3p-6);(0);(0);(0x1.c347e8ccdd93cp-6);(0);(0x1.c347e8ccdd93cp-6);(0x1.4c953f7ced917p+8);(0x1.2526e978d4fdfp+3);(0);(0x1.2526e978d4fdfp+3);(0);(-0x1.966ca03c4b09fp+1);(-75);(-0x1.966ca03c4b09fp+1)]);
(73380%Z, [(-0x1.38a0c49ba5e35p+6);(-0x1.c27ae147ae148p+4);(-0x1.bae5604189375p+4);(0x1.0c48b43958106p+7);(0);(0x1.3333333333333p-3);(0x1.0c48b43958106p+7);(0x1.3333333333333p-3);(-0x1.d796cbf0995abp+15);(0);(-0x1.d796cbf0995abp+15);(-0x1.ebf71f05d4ab4p-6);(0);(0);(0x1.c286f8ad2567ap-6);(0);(0x1.c286f8ad2567ap-6);(0x1.4c09fbe76c8b4p+8);(0x1.243126e978d50p+3);(0);(0x1.243126e978d50p+3);(0);(-0x1.94216c61522a7p+1);(-75);(-0x1.94216c61522a7p+1)]);
(73440%Z, [(-0x1.3d49ba5e353f8p+6);(-0x1.c06a7ef9db22dp+4);(-0x1.d29374bc6a7f0p+4);(0x1.0f09374bc6a7fp+7);(0);(-0x1.fb645a1cac083p-1);(0x1.0f09374bc6a7fp+7);(-0x1.fb645a1cac083p-1);(-0x1.f37847d955715p+15);(0);(-0x1.f37847d955715p+15);(-0x1.04df022e83761p-5);(0);(0);(0x1.c1bda5119ce07p-6);(0);(0x1.c1bda5119ce07p-6);(0x1.4b75c28f5c28fp+8);(0x1.232b020c49ba6p+3);(0);(0x1.232b020c49ba6p+3);(0);(-0x1.add1a21ea3593p+1);(-75);(-0x1.add1a21ea3593p+1)]);
(73500%Z, [(-0x1.49a3d70a3d70ap+6);(-0x1.022f1a9fbe76dp+5);(-0x1.f466666666666p+4);(0x1.1d8bc6a7ef9dbp+7);(0);(-0x1.97ae147ae147bp+1);(0x1.1d8bc6a7ef9dbp+7);(-0x1.97ae147ae147bp+1);(-0x1.2686d9426fe72p+16);(0);(-0x1.2686d9426fe72p+16);(-0x1.18243e78b6a01p-5);(0);(0);(0x1.c0e7bc3c5bd0ep-6);(0);(0x1.c0e7bc3c5bd0ep-6);(0x1.4ad6872b020c5p+8);(0x1.220c49ba5e354p+3);(0);(0x1.220c49ba5e354p+3);(0);(-0x1.fdeecbfb15b57p+1);(-75);(-0x1.fdeecbfb15b57p+1)]);
(73560%Z, [(-0x1.533851eb851ecp+6);(-0x1.a57ced916872bp+4);(-0x1.93cac083126e9p+4);(0x1.1aeb020c49ba6p+7);(0);(0x1.44bc6a7ef9db2p+2);(0x1.1aeb020c49ba6p+7);(0x1.44bc6a7ef9db2p+2);(-0x1.be5a0f141205cp+15);(0);(-0x1.be5a0f141205cp+15);(-0x1.b420c3efd96c4p-6);(0);(0);(0x1.c03bc4d22c882p-6);(0);(0x1.c03bc4d22c882p-6);(0x1.4a5a5e353f7cfp+8);(0x1.21374bc6a7efap+3);(0);(0x1.21374bc6a7efap+3);(0);(-0x1.82425aee631f9p+1);(-75);(-0x1.82425aee631f9p+1)]);
(73620%Z, [(-0x1.5dba5e353f7cfp+6);(-0x1.754fdf3b645a2p+4);(-0x1.6dbe76c8b4396p+4);(0x1.08e6666666666p+7);(0);(-0x1.2c49ba5e353f8p+0);(0x1.08e6666666666p+7);(-0x1.2c49ba5e353f8p+0);(-0x1.df57b69ad42c4p+15);(0);(-0x1.df57b69ad42c4p+15);(-0x1.8975e00107111p-6);(0);(0);(0x1.bfa4c61d8622cp-6);(0);(0x1.bfa4c61d8622cp-6);(0x1.49ea3d70a3d71p+8);(0x1.2072b020c49bap+3);(0);(0x1.2072b020c49bap+3);(0);(-0x1.a0385c67dfe33p+1);(-75);(-0x1.a0385c67dfe33p+1)]);
(73680%Z, [(-0x1.653b645a1cac1p+6);(-0x1.8c624dd2f1aa0p+4);(-0x1.7ae978d4fdf3bp+4);(0x1.128dd2f1a9fbep+7);(0);(-0x1.f3b645a1cac08p-2);(0x1.128dd2f1a9fbep+7);(-0x1.f3b645a1cac08p-2);(-0x1.ed0f7f0ed3d86p+15);(0);(-0x1.ed0f7f0ed3d86p+15);(-0x1.9728456e7426fp-6);(0);(0);(0x1.bf0563ed0f627p-6);(0);(0x1.bf0563ed0f627p-6);(0x1.497604189374cp+8);(0x1.1fa5e353f7ceep+3);(0);(0x1.1fa5e353f7ceep+3);(0);(-0x1.ad7acc4ef88b9p+1);(-75);(-0x1.ad7acc4ef88b9p+1)]);
(73740%Z, [(-0x1.66d1eb851eb85p+6);(-0x1.9c8b439581062p+4);(-0x1.946a7ef9db22dp+4);(0x1.1795810624dd3p+7);(0);(-0x1.f22d0e5604189p-1);(0x1.1795810624dd3p+7);(-0x1.f22d0e5604189p-1);(-0x1.04352b7bf1e8ep+16);(0);(-0x1.04352b7bf1e8ep+16);(-0x1.b6739a009cb30p-6);(0);(0);(0x1.be596c82e019bp-6);(0);(0x1.be596c82e019bp-6);(0x1.48f8d4fdf3b64p+8);(0x1.1ec8b43958106p+3);(0);(0x1.1ec8b43958106p+3);(0);(-0x1.c6fa2f05a708fp+1);(-75);(-0x1.c6fa2f05a708fp+1)]);
(73800%Z, [(-0x1.6cbe76c8b4396p+6);(-0x1.b33b645a1cac1p+4);(-0x1.a726e978d4fdfp+4);(0x1.1f5e353f7ced9p+7);(0);(-0x1.26a7ef9db22d1p+0);(0x1.1f5e353f7ced9p+7);(-0x1.26a7ef9db22d1p+0);(-0x1.14630bf290abbp+16);(0);(-0x1.14630bf290abbp+16);(-0x1.cbf21129f3ef5p-6);(0);(0);(0x1.bda5119ce075fp-6);(0);(0x1.bda5119ce075fp-6);(0x1.4874fdf3b645ap+8);(0x1.1de353f7ced91p+3);(0);(0x1.1de353f7ced91p+3);(0);(-0x1.e52fc2656abdep+1);(-75);(-0x1.e52fc2656abdep+1)]);
(73860%Z, [(-0x1.74645a1cac083p+6);(-0x1.be624dd2f1aa0p+4);(-0x1.a245a1cac0831p+4);(0x1.2574395810625p+7);(0);(-0x1.a5e353f7ced91p-2);(0x1.2574395810625p+7);(-0x1.a5e353f7ced91p-2);(-0x1.1a2f41057d178p+16);(0);(-0x1.1a2f41057d178p+16);(-0x1.c36e2953607a4p-6);(0);(0);(0x1.bcf4e874c8ffcp-6);(0);(0x1.bcf4e874c8ffcp-6);(0x1.47f374bc6a7f0p+8);(0x1.1d0624dd2f1aap+3);(0);(0x1.1d0624dd2f1aap+3);(0);(-0x1.f110a137f38c5p+1);(-75);(-0x1.f110a137f38c5p+1)]);
(73920%Z, [(-0x1.54d3f7ced9168p+6);(-0x1.d876c8b439581p+4);(-0x1.c94bc6a7ef9dbp+4);(0x1.2227ef9db22d1p+7);(0);(0x1.c2d0e56041893p+0);(0x1.2227ef9db22d1p+7);(0x1.c2d0e56041893p+0);(-0x1.016d06d330942p+16);(0);(-0x1.016d06d330942p+16);(-0x1.f750ef5bc2f46p-6);(0);(0);(0x1.bc2fc69728a61p-6);(0);(0x1.bc2fc69728a61p-6);(0x1.4763126e978d5p+8);(0x1.1c083126e978dp+3);(0);(0x1.1c083126e978dp+3);(0);(-0x1.c68049667b5f2p+1);(-75);(-0x1.c68049667b5f2p+1)]);
(73980%Z, [(-0x1.0420c49ba5e35p+6);(-0x1.050a3d70a3d71p+5);(-0x1.1300000000000p+5);(0x1.0f849ba5e353fp+7);(0);(0x1.dc6a7ef9db22dp+1);(0x1.0f849ba5e353fp+7);(0x1.dc6a7ef9db22dp+1);(-0x1.9a293a8438088p+15);(0);(-0x1.9a293a8438088p+15);(-0x1.3b36c289d2d22p-5);(0);(0);(0x1.bb384fd2a62aap-6);(0);(0x1.bb384fd2a62aap-6);(0x1.46ad4fdf3b646p+8);(0x1.1ac8b43958106p+3);(0);(0x1.1ac8b43958106p+3);(0);(-0x1.6abfdb4cc2507p+1);(-75);(-0x1.6abfdb4cc2507p+1)]);
(74040%Z, [(-0x1.57f7ced916873p+5);(-0x1.07b4395810625p+5);(-0x1.40374bc6a7efap+5);(0x1.e08b439581062p+6);(0);(0x1.09a9fbe76c8b4p+2);(0x1.e08b439581062p+6);(0x1.09a9fbe76c8b4p+2);(-0x1.256d000a7c5acp+15);(0);(-0x1.256d000a7c5acp+15);(-0x1.7b730d93bc5ffp-5);(0);(0);(0x1.ba0e8427418d7p-6);(0);(0x1.ba0e8427418d7p-6);(0x1.45d26e978d4fep+8);(0x1.194fdf3b645a2p+3);(0);(0x1.194fdf3b645a2p+3);(0);(-0x1.0424b33daf8dfp+1);(-75);(-0x1.0424b33daf8dfp+1)]);
(74100%Z, [(-0x1.c004189374bc7p+4);(-0x1.ee147ae147ae1p+4);(-0x1.51f5c28f5c28fp+5);(0x1.a050e56041893p+6);(0);(0x1.79fbe76c8b439p+1);(0x1.a050e56041893p+6);(0x1.79fbe76c8b439p+1);(-0x1.a4c14cd9e83e4p+14);(0);(-0x1.a4c14cd9e83e4p+14);(-0x1.98088fc6870d8p-5);(0);(0);(0x1.b8cfbfc6540ccp-6);(0);(0x1.b8cfbfc6540ccp-6);(0x1.44e624dd2f1aap+8);(0x1.17b645a1cac08p+3);(0);(0x1.17b645a1cac08p+3);(0);(-0x1.76670e2c12ad8p+0);(-75);(-0x1.76670e2c12ad8p+0)]);
(74160%Z, [(-0x1.62e978d4fdf3bp+4);(-0x1.b28f5c28f5c29p+4);(-0x1.56cac083126e9p+5);(0x1.763e76c8b4396p+6);(0);(0x1.5eb851eb851ecp+0);(0x1.763e76c8b4396p+6);(0x1.5eb851eb851ecp+0);(-0x1.57af5a272862fp+14);(0);(-0x1.57af5a272862fp+14);(-0x1.a1e52d15e2c05p-5);(0);(0);(0x1.b784662bae03bp-6);(0);(0x1.b784662bae03bp-6);(0x1.43f374bc6a7f0p+8);(0x1.16147ae147ae1p+3);(0);(0x1.16147ae147ae1p+3);(0);(-0x1.33549f94855dap+0);(-75);(-0x1.33549f94855dap+0)]);
(74220%Z, [(-0x1.8a5e353f7ced9p+4);(-0x1.6dfbe76c8b439p+4);(-0x1.7aa9fbe76c8b4p+5);(0x1.7603126e978d5p+6);(0);(-0x1.5a5e353f7ced9p+0);(0x1.7603126e978d5p+6);(-0x1.5a5e353f7ced9p+0);(-0x1.a3c7bfe5c91d1p+14);(0);(-0x1.a3c7bfe5c91d1p+14);(-0x1.d08f7f64642dap-5);(0);(0);(0x1.b6134ce3de615p-6);(0);(0x1.b6134ce3de615p-6);(0x1.42e49ba5e353fp+8);(0x1.1449ba5e353f8p+3);(0);(0x1.1449ba5e353f8p+3);(0);(-0x1.7a324c8366517p+0);(-75);(-0x1.7a324c8366517p+0)]);
(74280%Z, [(-0x1.19db22d0e5604p+5);(-0x1.2b3b645a1cac1p+4);(-0x1.7e5604189374cp+5);(0x1.92b645a1cac08p+6);(0);(-0x1.0c49ba5e353f8p+0);(0x1.92b645a1cac08p+6);(-0x1.0c49ba5e353f8p+0);(-0x1.debaef837b4a2p+14);(0);(-0x1.debaef837b4a2p+14);(-0x1.d2f57b16cca03p-5);(0);(0);(0x1.b4a2339c0ebeep-6);(0);(0x1.b4a2339c0ebeep-6);(0x1.41d3b645a1cacp+8);(0x1.1276c8b439581p+3);(0);(0x1.1276c8b439581p+3);(0);(-0x1.b28240b780347p+0);(-75);(-0x1.b28240b780347p+0)]);
(74340%Z, [(-0x1.a9645a1cac083p+5);(-0x1.f9c28f5c28f5cp+3);(-0x1.3a147ae147ae1p+5);(0x1.ab8f5c28f5c29p+6);(0);(-0x1.595810624dd2fp+0);(0x1.ab8f5c28f5c29p+6);(-0x1.595810624dd2fp+0);(-0x1.154e621c04428p+15);(0);(-0x1.154e621c04428p+15);(-0x1.784982aaeaa4dp-5);(0);(0);(0x1.b3743632c1f43p-6);(0);(0x1.b3743632c1f43p-6);(0x1.40f74bc6a7efap+8);(0x1.10fdf3b645a1dp+3);(0);(0x1.10fdf3b645a1dp+3);(0);(-0x1.fa97396d0917dp+0);(-75);(-0x1.fa97396d0917dp+0)]);
(74400%Z, [(-0x1.194083126e979p+6);(-0x1.15604189374bcp+4);(-0x1.c37ced916872bp+4);(0x1.c946a7ef9db23p+6);(0);(-0x1.8c083126e978dp+0);(0x1.c946a7ef9db23p+6);(-0x1.8c083126e978dp+0);(-0x1.40cfc5fc3b4f6p+15);(0);(-0x1.40cfc5fc3b4f6p+15);(-0x1.032c4a35d92adp-5);(0);(0);(0x1.b2a6b0d9513f9p-6);(0);(0x1.b2a6b0d9513f9p-6);(0x1.405f3b645a1cbp+8);(0x1.0ff7ced916873p+3);(0);(0x1.0ff7ced916873p+3);(0);(-0x1.26747d805e5f3p+1);(-75);(-0x1.26747d805e5f3p+1)]);
(74460%Z, [(-0x1.32916872b020cp+6);(-0x1.5326e978d4fdfp+4);(-0x1.7ce147ae147aep+4);(0x1.e296872b020c5p+6);(0);(-0x1.fe76c8b439581p-1);(0x1.e296872b020c5p+6);(-0x1.fe76c8b439581p-1);(-0x1.5cd868df7a4e8p+15);(0);(-0x1.5cd868df7a4e8p+15);(-0x1.a68a4da1488f9p-6);(0);(0);(0x1.b1fab96f21f6dp-6);(0);(0x1.b1fab96f21f6dp-6);(0x1.3fe3126e978d5p+8);(0x1.0f22d0e560419p+3);(0);(0x1.0f22d0e560419p+3);(0);(-0x1.41667b5f1bef5p+1);(-75);(-0x1.41667b5f1bef5p+1)]);
(74520%Z, [(-0x1.31e353f7ced91p+6);(-0x1.6c28f5c28f5c3p+4);(-0x1.941cac083126fp+4);(0x1.f05b22d0e5604p+6);(0);(-0x1.999999999999ap-2);(0x1.f05b22d0e5604p+6);(-0x1.999999999999ap-2);(-0x1.681a7e59f2baap+15);(0);(-0x1.681a7e59f2baap+15);(-0x1.c26c96d71c86fp-6);(0);(0);(0x1.b1465e8922531p-6);(0);(0x1.b1465e8922531p-6);(0x1.3f5e76c8b4396p+8);(0x1.0e45a1cac0831p+3);(0);(0x1.0e45a1cac0831p+3);(0);(-0x1.4cf61672324c8p+1);(-75);(-0x1.4cf61672324c8p+1)]);
(74580%Z, [(-0x1.2f428f5c28f5cp+6);(-0x1.6e7ae147ae148p+4);(-0x1.a3d2f1a9fbe77p+4);(0x1.f43645a1cac08p+6);(0);(0x1.810624dd2f1aap-4);(0x1.f43645a1cac08p+6);(0x1.810624dd2f1aap-4);(-0x1.6575019ce075fp+15);(0);(-0x1.6575019ce075fp+15);(-0x1.d63b358b273b0p-6);(0);(0);(0x1.b089a02752546p-6);(0);(0x1.b089a02752546p-6);(0x1.3ed3b645a1cacp+8);(0x1.0d5810624dd2fp+3);(0);(0x1.0d5810624dd2fp+3);(0);(-0x1.4ba1a0cf1800ap+1);(-75);(-0x1.4ba1a0cf1800ap+1)]);
(74640%Z, [(-0x1.2f03126e978d5p+6);(-0x1.94d0e56041893p+4);(-0x1.bffbe76c8b439p+4);(0x1.fed70a3d70a3dp+6);(0);(-0x1.57ced916872b0p+0);(0x1.fed70a3d70a3dp+6);(-0x1.57ced916872b0p+0);(-0x1.8b3bad4562e0ap+15);(0);(-0x1.8b3bad4562e0ap+15);(-0x1.f9025fd6aa464p-6);(0);(0);(0x1.afbc1acde19fcp-6);(0);(0x1.afbc1acde19fcp-6);(0x1.3e3e76c8b4396p+8);(0x1.0c5a1cac08312p+3);(0);(0x1.0c5a1cac08312p+3);(0);(-0x1.70639d5e4a383p+1);(-75);(-0x1.70639d5e4a383p+1)]);
(74700%Z, [(-0x1.332f1a9fbe76dp+6);(-0x1.cfd2f1a9fbe77p+4);(-0x1.e1df3b645a1cbp+4);(0x1.0cc6a7ef9db23p+7);(0);(-0x1.8395810624dd3p+0);(0x1.0cc6a7ef9db23p+7);(-0x1.8395810624dd3p+0);(-0x1.b5d32487fcb92p+15);(0);(-0x1.b5d32487fcb92p+15);(-0x1.10386c830b0cdp-5);(0);(0);(0x1.aee2003ab862bp-6);(0);(0x1.aee2003ab862bp-6);(0x1.3d9d2f1a9fbe7p+8);(0x1.0b4bc6a7ef9dbp+3);(0);(0x1.0b4bc6a7ef9dbp+3);(0);(-0x1.9a2eb1c432ca5p+1);(-75);(-0x1.9a2eb1c432ca5p+1)]);
(74760%Z, [(-0x1.3776c8b439581p+6);(-0x1.034dd2f1a9fbep+5);(-0x1.fcb851eb851ecp+4);(0x1.195916872b021p+7);(0);(-0x1.6666666666666p+0);(0x1.195916872b021p+7);(-0x1.6666666666666p+0);(-0x1.dd360197a2489p+15);(0);(-0x1.dd360197a2489p+15);(-0x1.1f754b5b9e0b7p-5);(0);(0);(0x1.adfb506dd69d3p-6);(0);(0x1.adfb506dd69d3p-6);(0x1.3cf2b020c49bap+8);(0x1.0a2d0e5604189p+3);(0);(0x1.0a2d0e5604189p+3);(0);(-0x1.c1743e963dc48p+1);(-75);(-0x1.c1743e963dc48p+1)]);
(74820%Z, [(-0x1.3ac9ba5e353f8p+6);(-0x1.249ba5e353f7dp+5);(-0x1.12147ae147ae1p+5);(0x1.26f7ced916873p+7);(0);(-0x1.0645a1cac0831p+1);(0x1.26f7ced916873p+7);(-0x1.0645a1cac0831p+1);(-0x1.0b6b9ee0f3cb4p+16);(0);(-0x1.0b6b9ee0f3cb4p+16);(-0x1.369a0ad8a1166p-5);(0);(0);(0x1.acffa7eb6bf44p-6);(0);(0x1.acffa7eb6bf44p-6);(0x1.3c39db22d0e56p+8);(0x1.08f5c28f5c28fp+3);(0);(0x1.08f5c28f5c28fp+3);(0);(-0x1.fad57bc7f77afp+1);(-75);(-0x1.fad57bc7f77afp+1)]);
(74880%Z, [(-0x1.3f374bc6a7efap+6);(-0x1.28916872b020cp+5);(-0x1.0bf9db22d0e56p+5);(0x1.2e28f5c28f5c3p+7);(0);(0x1.6a7ef9db22d0ep-1);(0x1.2e28f5c28f5c3p+7);(0x1.6a7ef9db22d0ep-1);(-0x1.017833035bd51p+16);(0);(-0x1.017833035bd51p+16);(-0x1.2d6d1b3667453p-5);(0);(0);(0x1.ac083126e978dp-6);(0);(0x1.ac083126e978dp-6);(0x1.3b8624dd2f1aap+8);(0x1.07c6a7ef9db23p+3);(0);(0x1.07c6a7ef9db23p+3);(0);(-0x1.e9f1bef49cf57p+1);(-75);(-0x1.e9f1bef49cf57p+1)]);
(74940%Z, [(-0x1.4422d0e560419p+6);(-0x1.2b3d70a3d70a4p+5);(-0x1.0278d4fdf3b64p+5);(0x1.2c94fdf3b645ap+7);(0);(-0x1.d3f7ced916873p-2);(0x1.2c94fdf3b645ap+7);(-0x1.d3f7ced916873p-2);(-0x1.07e49ebc408d9p+16);(0);(-0x1.07e49ebc408d9p+16);(-0x1.2177a9afbc45cp-5);(0);(0);(0x1.ab1d4f9c1f85dp-6);(0);(0x1.ab1d4f9c1f85dp-6);(0x1.3ad916872b021p+8);(0x1.06a7ef9db22d1p+3);(0);(0x1.06a7ef9db22d1p+3);(0);(-0x1.f8855da272863p+1);(-75);(-0x1.f8855da272863p+1)]);
(75000%Z, [(-0x1.4a0624dd2f1aap+6);(-0x1.4e6c8b4395810p+5);(-0x1.103b645a1cac1p+5);(0x1.37926e978d4fep+7);(0);(-0x1.46872b020c49cp+1);(0x1.37926e978d4fep+7);(-0x1.46872b020c49cp+1);(-0x1.2bc50fd6b65aap+16);(0);(-0x1.2bc50fd6b65aap+16);(-0x1.3146237ad9651p-5);(0);(0);(0x1.aa25d8d79d0a6p-6);(0);(0x1.aa25d8d79d0a6p-6);(0x1.3a224dd2f1aa0p+8);(0x1.0578d4fdf3b64p+3);(0);(0x1.0578d4fdf3b64p+3);(0);(-0x1.206e19b90ea9ep+2);(-75);(-0x1.206e19b90ea9ep+2)]);
(75060%Z, [(-0x1.5373b645a1cacp+6);(-0x1.4bfdf3b645a1dp+5);(-0x1.06ef9db22d0e5p+5);(0x1.3fb74bc6a7efap+7);(0);(0x1.420c49ba5e354p-1);(0x1.3fb74bc6a7efap+7);(0x1.420c49ba5e354p-1);(-0x1.22ec2a339c0ecp+16);(0);(-0x1.22ec2a339c0ecp+16);(-0x1.23bd7f26fc992p-5);(0);(0);(0x1.a936c58eeae9fp-6);(0);(0x1.a936c58eeae9fp-6);(0x1.3973333333333p+8);(0x1.0451eb851eb85p+3);(0);(0x1.0451eb851eb85p+3);(0);(-0x1.1907c84b5dcc6p+2);(-75);(-0x1.1907c84b5dcc6p+2)]);
(75120%Z, [(-0x1.59fced916872bp+6);(-0x1.641a9fbe76c8bp+5);(-0x1.0f51eb851eb85p+5);(0x1.4567ef9db22d1p+7);(0);(-0x1.1c6a7ef9db22dp+1);(0x1.4567ef9db22d1p+7);(-0x1.1c6a7ef9db22dp+1);(-0x1.422b3939eadd6p+16);(0);(-0x1.422b3939eadd6p+16);(-0x1.2d874cbaeea8fp-5);(0);(0);(0x1.a83f4eca686e8p-6);(0);(0x1.a83f4eca686e8p-6);(0x1.38bdf3b645a1dp+8);(0x1.0322d0e560419p+3);(0);(0x1.0322d0e560419p+3);(0);(-0x1.392f449129889p+2);(-75);(-0x1.392f449129889p+2)]);
(75180%Z, [(-0x1.51c189374bc6ap+6);(-0x1.44ac083126e98p+5);(-0x1.ef70a3d70a3d7p+4);(0x1.405b22d0e5604p+7);(0);(0x1.0c28f5c28f5c3p+2);(0x1.405b22d0e5604p+7);(0x1.0c28f5c28f5c3p+2);(-0x1.073f4f62b6ae8p+16);(0);(-0x1.073f4f62b6ae8p+16);(-0x1.100784aea5f04p-5);(0);(0);(0x1.a76102795703fp-6);(0);(0x1.a76102795703fp-6);(0x1.3819db22d0e56p+8);(0x1.02147ae147ae1p+3);(0);(0x1.02147ae147ae1p+3);(0);(-0x1.002be8bc169c2p+2);(-75);(-0x1.002be8bc169c2p+2)]);
(75240%Z, [(-0x1.42b53f7ced917p+6);(-0x1.1da1cac083127p+5);(-0x1.e0147ae147ae1p+4);(0x1.29a6666666666p+7);(0);(0x1.383126e978d50p+1);(0x1.29a6666666666p+7);(0x1.383126e978d50p+1);(-0x1.c9e809192641bp+15);(0);(-0x1.c9e809192641bp+15);(-0x1.0a6de25baa4acp-5);(0);(0);(0x1.a682b62845996p-6);(0);(0x1.a682b62845996p-6);(0x1.3778d4fdf3b64p+8);(0x1.010624dd2f1aap+3);(0);(0x1.010624dd2f1aap+3);(0);(-0x1.be9595feda661p+1);(-75);(-0x1.be9595feda661p+1)]);
(75300%Z, [(-0x1.3c3a5e353f7cfp+6);(-0x1.185604189374cp+5);(-0x1.e36c8b4395810p+4);(0x1.209f3b645a1cbp+7);(0);(-0x1.89374bc6a7efap-9);(0x1.209f3b645a1cbp+7);(-0x1.89374bc6a7efap-9);(-0x1.c9fc5251c193bp+15);(0);(-0x1.c9fc5251c193bp+15);(-0x1.0e46bfacfea64p-5);(0);(0);(0x1.a5a469d7342eep-6);(0);(0x1.a5a469d7342eep-6);(0x1.36d5810624dd3p+8);(0x1.ffef9db22d0e5p+2);(0);(0x1.ffef9db22d0e5p+2);(0);(-0x1.c08366516db0ep+1);(-75);(-0x1.c08366516db0ep+1)]);
(75360%Z, [(-0x1.1aee978d4fdf4p+6);(-0x1.1abc6a7ef9db2p+5);(-0x1.f65a1cac08312p+4);(0x1.184cccccccccdp+7);(0);(0x1.56c8b43958106p+1);(0x1.184cccccccccdp+7);(0x1.56c8b43958106p+1);(-0x1.7ea9c35a85879p+15);(0);(-0x1.7ea9c35a85879p+15);(-0x1.1c0cf12a2440dp-5);(0);(0);(0x1.a4b9884c6a3bep-6);(0);(0x1.a4b9884c6a3bep-6);(0x1.3629374bc6a7fp+8);(0x1.fdc28f5c28f5cp+2);(0);(0x1.fdc28f5c28f5cp+2);(0);(-0x1.77a43fe5c91d1p+1);(-75);(-0x1.77a43fe5c91d1p+1)]);
(75420%Z, [(-0x1.b14fdf3b645a2p+5);(-0x1.2270a3d70a3d7p+5);(-0x1.15dd2f1a9fbe7p+5);(0x1.ff8624dd2f1aap+6);(0);(0x1.56e978d4fdf3bp+1);(0x1.ff8624dd2f1aap+6);(0x1.56e978d4fdf3bp+1);(-0x1.335407cc39ffdp+15);(0);(-0x1.335407cc39ffdp+15);(-0x1.42e8070fe9ad0p-5);(0);(0);(0x1.a3b14a90470a8p-6);(0);(0x1.a3b14a90470a8p-6);(0x1.3564dd2f1a9fcp+8);(0x1.fb33333333333p+2);(0);(0x1.fb33333333333p+2);(0);(-0x1.2e94ee392e1efp+1);(-75);(-0x1.2e94ee392e1efp+1)]);
(75480%Z, [(-0x1.3eb4395810625p+5);(-0x1.2083126e978d5p+5);(-0x1.22872b020c49cp+5);(0x1.c9a9fbe76c8b4p+6);(0);(0x1.19374bc6a7efap+1);(0x1.c9a9fbe76c8b4p+6);(0x1.19374bc6a7efap+1);(-0x1.eb0c98201cd60p+14);(0);(-0x1.eb0c98201cd60p+14);(-0x1.57d0c7025d7d6p-5);(0);(0);(0x1.a294141e9af5cp-6);(0);(0x1.a294141e9af5cp-6);(0x1.3493333333333p+8);(0x1.f883126e978d5p+2);(0);(0x1.f883126e978d5p+2);(0);(-0x1.e53cddd6e04c0p+0);(-75);(-0x1.e53cddd6e04c0p+0)]);
(75540%Z, [(-0x1.df8d4fdf3b646p+4);(-0x1.083b645a1cac1p+5);(-0x1.1ff9db22d0e56p+5);(0x1.94bc6a7ef9db2p+6);(0);(0x1.17ae147ae147bp+1);(0x1.94bc6a7ef9db2p+6);(0x1.17ae147ae147bp+1);(-0x1.70214dc0980b2p+14);(0);(-0x1.70214dc0980b2p+14);(-0x1.58d05b779ff4ap-5);(0);(0);(0x1.a172abef06b38p-6);(0);(0x1.a172abef06b38p-6);(0x1.33c083126e979p+8);(0x1.f5d2f1a9fbe77p+2);(0);(0x1.f5d2f1a9fbe77p+2);(0);(-0x1.6d2007dd44135p+0);(-75);(-0x1.6d2007dd44135p+0)]);
(75600%Z, [(-0x1.b69ba5e353f7dp+4);(-0x1.ee24dd2f1a9fcp+4);(-0x1.20978d4fdf3b6p+5);(0x1.79d604189374cp+6);(0);(0x1.645a1cac08312p-4);(0x1.79d604189374cp+6);(0x1.645a1cac08312p-4);(-0x1.6b3636d5cfaadp+14);(0);(-0x1.6b3636d5cfaadp+14);(-0x1.5bd0152bb63c4p-5);(0);(0);(0x1.a05143bf72713p-6);(0);(0x1.a05143bf72713p-6);(0x1.32eb851eb851fp+8);(0x1.f322d0e560419p+2);(0);(0x1.f322d0e560419p+2);(0);(-0x1.6a2f05a708edep+0);(-75);(-0x1.6a2f05a708edep+0)]);
(75660%Z, [(-0x1.e7a9fbe76c8b4p+4);(-0x1.d08b439581062p+4);(-0x1.1a872b020c49cp+5);(0x1.7b6b851eb851fp+6);(0);(0x1.999999999999ap-6);(0x1.7b6b851eb851fp+6);(0x1.999999999999ap-6);(-0x1.69c97967caea7p+14);(0);(-0x1.69c97967caea7p+14);(-0x1.53d9866e9990bp-5);(0);(0);(0x1.9f340d4dc65c7p-6);(0);(0x1.9f340d4dc65c7p-6);(0x1.321a9fbe76c8bp+8);(0x1.f072b020c49bap+2);(0);(0x1.f072b020c49bap+2);(0);(-0x1.6ab21815a07b3p+0);(-75);(-0x1.6ab21815a07b3p+0)]);
(75720%Z, [(-0x1.18fdf3b645a1dp+5);(-0x1.c6e5604189375p+4);(-0x1.1249ba5e353f8p+5);(0x1.846353f7ced91p+6);(0);(-0x1.7ced916872b02p-1);(0x1.846353f7ced91p+6);(-0x1.7ced916872b02p-1);(-0x1.93a253721d53dp+14);(0);(-0x1.93a253721d53dp+14);(-0x1.4875f04725588p-5);(0);(0);(0x1.9e1f3a57eaa2ap-6);(0);(0x1.9e1f3a57eaa2ap-6);(0x1.3150624dd2f1bp+8);(0x1.ede353f7ced91p+2);(0);(0x1.ede353f7ced91p+2);(0);(-0x1.96fdc9c4da900p+0);(-75);(-0x1.96fdc9c4da900p+0)]);
(75780%Z, [(-0x1.5aac083126e98p+5);(-0x1.dc3d70a3d70a4p+4);(-0x1.12fbe76c8b439p+5);(0x1.a59fbe76c8b44p+6);(0);(-0x1.089374bc6a7f0p+1);(0x1.a59fbe76c8b44p+6);(-0x1.089374bc6a7f0p+1);(-0x1.03f46cfaacd9fp+15);(0);(-0x1.03f46cfaacd9fp+15);(-0x1.46bd48f63e0a5p-5);(0);(0);(0x1.9d0e991ff7165p-6);(0);(0x1.9d0e991ff7165p-6);(0x1.3086a7ef9db23p+8);(0x1.eb53f7ced9168p+2);(0);(0x1.eb53f7ced9168p+2);(0);(-0x1.07e90ff972474p+1);(-75);(-0x1.07e90ff972474p+1)]);
(75840%Z, [(-0x1.96624dd2f1aa0p+5);(-0x1.e4978d4fdf3b6p+4);(-0x1.0ac083126e979p+5);(0x1.c778d4fdf3b64p+6);(0);(-0x1.1f3b645a1cac1p-1);(0x1.c778d4fdf3b64p+6);(-0x1.1f3b645a1cac1p-1);(-0x1.13b904ece9a2cp+15);(0);(-0x1.13b904ece9a2cp+15);(-0x1.395d49314c534p-5);(0);(0);(0x1.9c065b63d3e4fp-6);(0);(0x1.9c065b63d3e4fp-6);(0x1.2fc49ba5e353fp+8);(0x1.e8e5604189375p+2);(0);(0x1.e8e5604189375p+2);(0);(-0x1.197635e74299ep+1);(-75);(-0x1.197635e74299ep+1)]);
(75900%Z, [(-0x1.b20a3d70a3d71p+5);(-0x1.f220c49ba5e35p+4);(-0x1.ff4395810624ep+4);(0x1.d353f7ced9168p+6);(0);(-0x1.049ba5e353f7dp-1);(0x1.d353f7ced9168p+6);(-0x1.049ba5e353f7dp-1);(-0x1.220bc6ca03c4bp+15);(0);(-0x1.220bc6ca03c4bp+15);(-0x1.2a02a2c795ab5p-5);(0);(0);(0x1.9b0ab2e1693c0p-6);(0);(0x1.9b0ab2e1693c0p-6);(0x1.2f0b851eb851fp+8);(0x1.e6978d4fdf3b6p+2);(0);(0x1.e6978d4fdf3b6p+2);(0);(-0x1.29a1cac083127p+1);(-75);(-0x1.29a1cac083127p+1)]);
(75960%Z, [(-0x1.bc7ced916872bp+5);(-0x1.0b978d4fdf3b6p+5);(-0x1.013d70a3d70a4p+5);(0x1.e1cfdf3b645a2p+6);(0);(-0x1.6c8b439581062p-1);(0x1.e1cfdf3b645a2p+6);(-0x1.6c8b439581062p-1);(-0x1.3610613165d3ap+15);(0);(-0x1.3610613165d3ap+15);(-0x1.2af897000c3f5p-5);(0);(0);(0x1.9a0ad8a11665ap-6);(0);(0x1.9a0ad8a11665ap-6);(0x1.2e51a9fbe76c9p+8);(0x1.e4395810624ddp+2);(0);(0x1.e4395810624ddp+2);(0);(-0x1.3fe6c4c5974e6p+1);(-75);(-0x1.3fe6c4c5974e6p+1)]);
(76020%Z, [(-0x1.c674bc6a7ef9ep+5);(-0x1.17ced916872b0p+5);(-0x1.08cac083126e9p+5);(0x1.f147ae147ae14p+6);(0);(-0x1.1fbe76c8b4396p-1);(0x1.f147ae147ae14p+6);(-0x1.1fbe76c8b4396p-1);(-0x1.45e15a57a786cp+15);(0);(-0x1.45e15a57a786cp+15);(-0x1.338b7d772423dp-5);(0);(0);(0x1.9906cca2db61cp-6);(0);(0x1.9906cca2db61cp-6);(0x1.2d91eb851eb85p+8);(0x1.e1db22d0e5604p+2);(0);(0x1.e1db22d0e5604p+2);(0);(-0x1.5210e02214270p+1);(-75);(-0x1.5210e02214270p+1)]);
(76080%Z, [(-0x1.ca083126e978dp+5);(-0x1.043126e978d50p+5);(-0x1.f4d916872b021p+4);(0x1.e75f3b645a1cbp+6);(-0x1.a9fbe76c8b439p-2);(0x1.6147ae147ae14p-2);(0x1.e75f3b645a1cbp+6);(0x1.6147ae147ae14p-2);(-0x1.3c2b8b035bd51p+15);(0);(-0x1.3c2b8b035bd51p+15);(-0x1.20cc68cecb7fap-5);(0);(0);(0x1.c3b927d45a5fcp-6);(0);(0x1.c3b927d45a5fcp-6);(0x1.170b439581062p+8);(0x1.ec5a1cac08312p+2);(0);(0x1.ec5a1cac08312p+2);(0);(-0x1.40d2b2bfdb4ccp+1);(-75);(-0x1.40d2b2bfdb4ccp+1)]);
(76140%Z, [(-0x1.c8624dd2f1aa0p+5);(-0x1.c428f5c28f5c3p+4);(-0x1.bc7ef9db22d0ep+4);(0x1.c010624dd2f1bp+6);(-0x1.189374bc6a7f0p+0);(-0x1.15810624dd2f2p+1);(0x1.c010624dd2f1bp+6);(-0x1.15810624dd2f2p+1);(-0x1.792827ced9168p+15);(0);(-0x1.792827ced9168p+15);(-0x1.f7d9cb8ddd78cp-6);(0);(0);(0x1.22e3c536d655ep-5);(0);(0x1.22e3c536d655ep-5);(0x1.d16147ae147aep+7);(0x1.086a7ef9db22dp+3);(0);(0x1.086a7ef9db22dp+3);(0);(-0x1.64aea747d805ep+1);(-75);(-0x1.64aea747d805ep+1)]);
(76200%Z, [(-0x1.c0083126e978dp+5);(-0x1.8922d0e560419p+4);(-0x1.8c28f5c28f5c3p+4);(0x1.a29db22d0e560p+6);(-0x1.599999999999ap-1);(-0x1.5ae147ae147aep+0);(0x1.a29db22d0e560p+6);(-0x1.5ae147ae147aep+0);(-0x1.9f471ea9e6eebp+15);(0);(-0x1.9f471ea9e6eebp+15);(-0x1.b5ae57eca6061p-6);(0);(0);(0x1.4e13f4a98aa86p-5);(0);(0x1.4e13f4a98aa86p-5);(0x1.a7872b020c49cp+7);(0x1.145a1cac08312p+3);(0);(0x1.145a1cac08312p+3);(0);(-0x1.77f5d78811b1ep+1);(-75);(-0x1.77f5d78811b1ep+1)]);
(76260%Z, [(-0x1.bd604189374bcp+5);(-0x1.625604189374cp+4);(-0x1.6de353f7ced91p+4);(0x1.8d4083126e979p+6);(-0x1.2147ae147ae14p-1);(-0x1.ef9db22d0e560p+0);(0x1.8d4083126e979p+6);(-0x1.ef9db22d0e560p+0);(-0x1.d5bde3458cd21p+15);(0);(-0x1.d5bde3458cd21p+15);(-0x1.8be672e626901p-6);(0);(0);(0x1.7944241c3efaep-5);(0);(0x1.7944241c3efaep-5);(0x1.875e353f7ced9p+7);(0x1.20624dd2f1aa0p+3);(0);(0x1.20624dd2f1aa0p+3);(0);(-0x1.97e2d6238da3cp+1);(-75);(-0x1.97e2d6238da3cp+1)]);
(76320%Z, [(-0x1.c1c28f5c28f5cp+5);(-0x1.48d4fdf3b645ap+4);(-0x1.568f5c28f5c29p+4);(0x1.85b95810624ddp+6);(-0x1.147ae147ae148p-3);(-0x1.c51eb851eb852p-1);(0x1.85b95810624ddp+6);(-0x1.c51eb851eb852p-1);(-0x1.eea2697f62b6bp+15);(0);(-0x1.eea2697f62b6bp+15);(-0x1.6ac7a9cd436a4p-6);(0);(0);(0x1.83b1d0c804103p-5);(0);(0x1.83b1d0c804103p-5);(0x1.8021cac083127p+7);(0x1.22e147ae147aep+3);(0);(0x1.22e147ae147aep+3);(0);(-0x1.aa09fe86833c6p+1);(-75);(-0x1.aa09fe86833c6p+1)]);
(76380%Z, [(-0x1.c533333333333p+5);(-0x1.4753f7ced9168p+4);(-0x1.592f1a9fbe76dp+4);(0x1.8847ae147ae14p+6);(0);(-0x1.38d4fdf3b645ap-1);(0x1.8847ae147ae14p+6);(-0x1.38d4fdf3b645ap-1);(-0x1.ffd142877ee4ep+15);(0);(-0x1.ffd142877ee4ep+15);(-0x1.6c8579d1fe0f1p-6);(0);(0);(0x1.832fcac8e68e4p-5);(0);(0x1.832fcac8e68e4p-5);(0x1.7fb020c49ba5ep+7);(0x1.2224dd2f1a9fcp+3);(0);(0x1.2224dd2f1a9fcp+3);(0);(-0x1.ba1da7b0b3919p+1);(-75);(-0x1.ba1da7b0b3919p+1)]);
(76440%Z, [(-0x1.c976c8b439581p+5);(-0x1.48bc6a7ef9db2p+4);(-0x1.5eb851eb851ecp+4);(0x1.8d3a5e353f7cfp+6);(0);(-0x1.5f3b645a1cac1p-2);(0x1.8d3a5e353f7cfp+6);(-0x1.5f3b645a1cac1p-2);(-0x1.04b9d0476f2a6p+16);(0);(-0x1.04b9d0476f2a6p+16);(-0x1.725b9cdec877dp-6);(0);(0);(0x1.82adc4c9c90c5p-5);(0);(0x1.82adc4c9c90c5p-5);(0x1.7f3c6a7ef9db2p+7);(0x1.2170a3d70a3d7p+3);(0);(0x1.2170a3d70a3d7p+3);(0);(-0x1.c3af102363b25p+1);(-75);(-0x1.c3af102363b25p+1)]);
(76500%Z, [(-0x1.d24bc6a7ef9dbp+5);(-0x1.3428f5c28f5c3p+4);(-0x1.4ad916872b021p+4);(0x1.8c46a7ef9db23p+6);(0);(0x1.b020c49ba5e35p-1);(0x1.8c46a7ef9db23p+6);(0x1.b020c49ba5e35p-1);(-0x1.f1b8963886595p+15);(0);(-0x1.f1b8963886595p+15);(-0x1.58fce69aff1f6p-6);(0);(0);(0x1.823422467be55p-5);(0);(0x1.823422467be55p-5);(0x1.7ed0e56041893p+7);(0x1.20c49ba5e353fp+3);(0);(0x1.20c49ba5e353fp+3);(0);(-0x1.afe81450efdcap+1);(-75);(-0x1.afe81450efdcap+1)]);
(76560%Z, [(-0x1.dd0e560418937p+5);(-0x1.2ae5604189375p+4);(-0x1.40e147ae147aep+4);(0x1.88cfdf3b645a2p+6);(0);(-0x1.51eb851eb851fp-3);(0x1.88cfdf3b645a2p+6);(-0x1.51eb851eb851fp-3);(-0x1.f65b5692f6e83p+15);(0);(-0x1.f65b5692f6e83p+15);(-0x1.4d275ae2cf988p-6);(0);(0);(0x1.81beb18116ebdp-5);(0);(0x1.81beb18116ebdp-5);(0x1.7e68f5c28f5c3p+7);(0x1.20189374bc6a8p+3);(0);(0x1.20189374bc6a8p+3);(0);(-0x1.b4f7b9e060fe4p+1);(-75);(-0x1.b4f7b9e060fe4p+1)]);
(76620%Z, [(-0x1.e48b439581062p+5);(-0x1.20f5c28f5c28fp+4);(-0x1.369fbe76c8b44p+4);(0x1.899374bc6a7f0p+6);(0);(0x1.6872b020c49bap-2);(0x1.899374bc6a7f0p+6);(0x1.6872b020c49bap-2);(-0x1.ec7669c23b795p+15);(0);(-0x1.ec7669c23b795p+15);(-0x1.3fb6b9baf7376p-6);(0);(0);(0x1.814b599aa6091p-5);(0);(0x1.814b599aa6091p-5);(0x1.7e05a1cac0831p+7);(0x1.1f7ced916872bp+3);(0);(0x1.1f7ced916872bp+3);(0);(-0x1.ad3458cd20afap+1);(-75);(-0x1.ad3458cd20afap+1)]);
(76680%Z, [(-0x1.ed28f5c28f5c3p+5);(-0x1.05c6a7ef9db23p+4);(-0x1.1d0624dd2f1aap+4);(0x1.83a3d70a3d70ap+6);(0);(0x1.16c8b43958106p+0);(0x1.83a3d70a3d70ap+6);(0x1.16c8b43958106p+0);(-0x1.cdd50c3760bf6p+15);(0);(-0x1.cdd50c3760bf6p+15);(-0x1.20489fd6f56fbp-6);(0);(0);(0x1.80e496ededaecp-5);(0);(0x1.80e496ededaecp-5);(0x1.7dad0e5604189p+7);(0x1.1ee978d4fdf3bp+3);(0);(0x1.1ee978d4fdf3bp+3);(0);(-0x1.9302b40f66a55p+1);(-75);(-0x1.9302b40f66a55p+1)]);
(76740%Z, [(-0x1.f05c28f5c28f6p+5);(-0x1.da66666666666p+3);(-0x1.09020c49ba5e3p+4);(0x1.79cbc6a7ef9dbp+6);(0);(0x1.03d70a3d70a3dp+0);(0x1.79cbc6a7ef9dbp+6);(0x1.03d70a3d70a3dp+0);(-0x1.b14a8753a3ec0p+15);(0);(-0x1.b14a8753a3ec0p+15);(-0x1.091b9257b0ebfp-6);(0);(0);(0x1.80841ede1198bp-5);(0);(0x1.80841ede1198bp-5);(0x1.7d5ba5e353f7dp+7);(0x1.1e66666666666p+3);(0);(0x1.1e66666666666p+3);(0);(-0x1.7a887a8d64d7fp+1);(-75);(-0x1.7a887a8d64d7fp+1)]);
(76800%Z, [(-0x1.cd83126e978d5p+5);(-0x1.d7ae147ae147bp+3);(-0x1.0f604189374bcp+4);(0x1.6cb3333333333p+6);(0);(0x1.c8f5c28f5c28fp+0);(0x1.6cb3333333333p+6);(0x1.c8f5c28f5c28fp+0);(-0x1.7f14491d14e3cp+15);(0);(-0x1.7f14491d14e3cp+15);(-0x1.14e1d9a44ba44p-6);(0);(0);(0x1.801f75104d552p-5);(0);(0x1.801f75104d552p-5);(0x1.7d06a7ef9db23p+7);(0x1.1ddb22d0e5604p+3);(0);(0x1.1ddb22d0e5604p+3);(0);(-0x1.4ee6d9be4cd75p+1);(-75);(-0x1.4ee6d9be4cd75p+1)]);
(76860%Z, [(-0x1.650624dd2f1aap+5);(-0x1.07db22d0e5604p+4);(-0x1.3866666666666p+4);(0x1.50676c8b43958p+6);(0);(0x1.ba7ef9db22d0ep+1);(0x1.50676c8b43958p+6);(0x1.ba7ef9db22d0ep+1);(-0x1.1ddb8a82e87d3p+15);(0);(-0x1.1ddb8a82e87d3p+15);(-0x1.515a050420cc0p-6);(0);(0);(0x1.7fa7eb6bf444ep-5);(0);(0x1.7fa7eb6bf444ep-5);(0x1.7c9db22d0e560p+7);(0x1.1d374bc6a7efap+3);(0);(0x1.1d374bc6a7efap+3);(0);(-0x1.f3cfd4bf0995bp+0);(-75);(-0x1.f3cfd4bf0995bp+0)]);
(76920%Z, [(-0x1.06a9fbe76c8b4p+5);(-0x1.3578d4fdf3b64p+4);(-0x1.7dbe76c8b4396p+4);(0x1.33b126e978d50p+6);(0);(0x1.c7ae147ae147bp-1);(0x1.33b126e978d50p+6);(0x1.c7ae147ae147bp-1);(-0x1.04d5ca36e2eb2p+15);(0);(-0x1.04d5ca36e2eb2p+15);(-0x1.b275d3c1b3941p-6);(0);(0);(0x1.7f0cbaf965b21p-5);(0);(0x1.7f0cbaf965b21p-5);(0x1.7c147ae147ae1p+7);(0x1.1c5a1cac08312p+3);(0);(0x1.1c5a1cac08312p+3);(0);(-0x1.c923a29c779a7p+0);(-75);(-0x1.c923a29c779a7p+0)]);
(76980%Z, [(-0x1.b133333333333p+4);(-0x1.324189374bc6ap+4);(-0x1.961cac083126fp+4);(0x1.2552f1a9fbe77p+6);(0);(0x1.bbe76c8b43958p+0);(0x1.2552f1a9fbe77p+6);(0x1.bbe76c8b43958p+0);(-0x1.a825a9888f862p+14);(0);(-0x1.a825a9888f862p+14);(-0x1.d596c0206c064p-6);(0);(0);(0x1.7e670e2c12ad8p-5);(0);(0x1.7e670e2c12ad8p-5);(0x1.7b7ef9db22d0ep+7);(0x1.1b6c8b4395810p+3);(0);(0x1.1b6c8b4395810p+3);(0);(-0x1.7474fb549f948p+0);(-75);(-0x1.7474fb549f948p+0)]);
(77040%Z, [(-0x1.80978d4fdf3b6p+4);(-0x1.1600000000000p+4);(-0x1.866e978d4fdf4p+4);(0x1.0d978d4fdf3b6p+6);(0);(0x1.95810624dd2f2p+0);(0x1.0d978d4fdf3b6p+6);(0x1.95810624dd2f2p+0);(-0x1.4f065057d1783p+14);(0);(-0x1.4f065057d1783p+14);(-0x1.c6cfc829cfdd2p-6);(0);(0);(0x1.7dc5931ca7d67p-5);(0);(0x1.7dc5931ca7d67p-5);(0x1.7aef1a9fbe76dp+7);(0x1.1a8f5c28f5c29p+3);(0);(0x1.1a8f5c28f5c29p+3);(0);(-0x1.26ce9a2c66905p+0);(-75);(-0x1.26ce9a2c66905p+0)]);
(77100%Z, [(-0x1.81ae147ae147bp+4);(-0x1.dbced916872b0p+3);(-0x1.5c872b020c49cp+4);(0x1.f0ae147ae147bp+5);(0);(0x1.53b645a1cac08p+0);(0x1.f0ae147ae147bp+5);(0x1.53b645a1cac08p+0);(-0x1.045cf24f227d0p+14);(0);(-0x1.045cf24f227d0p+14);(-0x1.95404e4ec285dp-6);(0);(0);(0x1.7d32c625e99e9p-5);(0);(0x1.7d32c625e99e9p-5);(0x1.7a6f1a9fbe76dp+7);(0x1.19c28f5c28f5cp+3);(0);(0x1.19c28f5c28f5cp+3);(0);(-0x1.cb18548a9bcfdp-1);(-75);(-0x1.cb18548a9bcfdp-1)]);
(77160%Z, [(-0x1.97020c49ba5e3p+4);(-0x1.67ced916872b0p+3);(-0x1.278d4fdf3b646p+4);(0x1.c54fdf3b645a2p+5);(0);(0x1.828f5c28f5c29p+0);(0x1.c54fdf3b645a2p+5);(0x1.828f5c28f5c29p+0);(-0x1.5ed3d7d1782d4p+13);(0);(-0x1.5ed3d7d1782d4p+13);(-0x1.55459738ec2fcp-6);(0);(0);(0x1.7cb70ac3a860ep-5);(0);(0x1.7cb70ac3a860ep-5);(0x1.7a051eb851eb8p+7);(0x1.1916872b020c5p+3);(0);(0x1.1916872b020c5p+3);(0);(-0x1.35b9628cbd124p-1);(-75);(-0x1.35b9628cbd124p-1)]);
(77220%Z, [(-0x1.fd4fdf3b645a2p+4);(-0x1.21db22d0e5604p+3);(-0x1.085e353f7ced9p+4);(0x1.bf9ba5e353f7dp+5);(0);(-0x1.7645a1cac0831p+0);(0x1.bf9ba5e353f7dp+5);(-0x1.7645a1cac0831p+0);(-0x1.01a6e3d70a3d7p+14);(0);(-0x1.01a6e3d70a3d7p+14);(-0x1.2d66d5f7eeb98p-6);(0);(0);(0x1.7c49fd7a13c25p-5);(0);(0x1.7c49fd7a13c25p-5);(0x1.79a872b020c4ap+7);(0x1.1883126e978d5p+3);(0);(0x1.1883126e978d5p+3);(0);(-0x1.c851eb851eb85p-1);(-75);(-0x1.c851eb851eb85p-1)]);
(77280%Z, [(-0x1.3910624dd2f1bp+5);(-0x1.07645a1cac083p+3);(-0x1.c410624dd2f1bp+3);(0x1.e522d0e560419p+5);(-0x1.916872b020c4ap-3);(-0x1.0b851eb851eb8p+0);(0x1.e522d0e560419p+5);(-0x1.0b851eb851eb8p+0);(-0x1.3c71014cec41ep+14);(0);(-0x1.3c71014cec41ep+14);(-0x1.edaa7d6c924f8p-7);(0);(0);(0x1.8c4dec1c1d6d0p-5);(0);(0x1.8c4dec1c1d6d0p-5);(0x1.762b851eb851fp+7);(0x1.21a1cac083127p+3);(0);(0x1.21a1cac083127p+3);(0);(-0x1.0f8feef5ec80cp+0);(-75);(-0x1.0f8feef5ec80cp+0)]);
(77340%Z, [(-0x1.4b2d0e5604189p+5);(-0x1.d072b020c49bap+2);(-0x1.809374bc6a7f0p+3);(0x1.e4a7ef9db22d1p+5);(-0x1.4fdf3b645a1cbp-2);(-0x1.ab020c49ba5e3p-2);(0x1.e4a7ef9db22d1p+5);(-0x1.ab020c49ba5e3p-2);(-0x1.53ecfe425aee6p+14);(0);(-0x1.53ecfe425aee6p+14);(-0x1.929558ed2c12ep-7);(0);(0);(0x1.a74e22a2c2374p-5);(0);(0x1.a74e22a2c2374p-5);(0x1.712f1a9fbe76dp+7);(0x1.31374bc6a7efap+3);(0);(0x1.31374bc6a7efap+3);(0);(-0x1.14d2b2bfdb4ccp+0);(-75);(-0x1.14d2b2bfdb4ccp+0)]);
(77400%Z, [(-0x1.5022d0e560419p+5);(-0x1.50f5c28f5c28fp+2);(-0x1.43e76c8b43958p+3);(0x1.ce9fbe76c8b44p+5);(-0x1.395810624dd2fp-2);(0x1.df3b645a1cac1p-4);(0x1.ce9fbe76c8b44p+5);(0x1.df3b645a1cac1p-4);(-0x1.4d5c89dc725c4p+14);(0);(-0x1.4d5c89dc725c4p+14);(-0x1.44b86bc1c506ep-7);(0);(0);(0x1.c256bca5375c9p-5);(0);(0x1.c256bca5375c9p-5);(0x1.6cd916872b021p+7);(0x1.40e5604189375p+3);(0);(0x1.40e5604189375p+3);(0);(-0x1.02253111f0c35p+0);(-75);(-0x1.02253111f0c35p+0)]);
(77460%Z, [(-0x1.5270a3d70a3d7p+5);(-0x1.d9fbe76c8b439p+1);(-0x1.ff5c28f5c28f6p+2);(0x1.b10a3d70a3d71p+5);(-0x1.e76c8b4395810p-2);(-0x1.5f3b645a1cac1p-2);(0x1.b10a3d70a3d71p+5);(-0x1.5f3b645a1cac1p-2);(-0x1.60a50779a6b51p+14);(0);(-0x1.60a50779a6b51p+14);(-0x1.dca201f2f453dp-8);(0);(0);(0x1.f8bbd3804534cp-5);(0);(0x1.f8bbd3804534cp-5);(0x1.65c189374bc6ap+7);(0x1.60ac083126e98p+3);(0);(0x1.60ac083126e98p+3);(0);(-0x1.f0e1719f7f8cbp-1);(-75);(-0x1.f0e1719f7f8cbp-1)]);
(77520%Z, [(-0x1.536872b020c4ap+5);(-0x1.1f3b645a1cac1p+1);(-0x1.58d4fdf3b645ap+2);(0x1.8e95810624dd3p+5);(-0x1.851eb851eb852p-2);(-0x1.3ae147ae147aep-1);(0x1.8e95810624dd3p+5);(-0x1.3ae147ae147aep-1);(-0x1.8336ddebd9019p+14);(0);(-0x1.8336ddebd9019p+14);(-0x1.061bcde6d3334p-8);(0);(0);(0x1.1d0c804102ff9p-4);(0);(0x1.1d0c804102ff9p-4);(0x1.5f1ba5e353f7dp+7);(0x1.86f1a9fbe76c9p+3);(0);(0x1.86f1a9fbe76c9p+3);(0);(-0x1.ec2a454de7ea6p-1);(-75);(-0x1.ec2a454de7ea6p-1)]);
(77580%Z, [(-0x1.55d4fdf3b645ap+5);(-0x1.c7ae147ae147bp-2);(-0x1.1851eb851eb85p+2);(0x1.77147ae147ae1p+5);(-0x1.395810624dd2fp-3);(-0x1.a45a1cac08312p-1);(0x1.77147ae147ae1p+5);(-0x1.a45a1cac08312p-1);(-0x1.b16ba415f45e1p+14);(0);(-0x1.b16ba415f45e1p+14);(-0x1.62789b1c5098ap-9);(0);(0);(0x1.2fb19e731d2e1p-4);(0);(0x1.2fb19e731d2e1p-4);(0x1.5f0ed916872b0p+7);(0x1.a072b020c49bap+3);(0);(0x1.a072b020c49bap+3);(0);(-0x1.029b280f12c28p+0);(-75);(-0x1.029b280f12c28p+0)]);
(77640%Z, [(-0x1.584189374bc6ap+5);(0x1.ee978d4fdf3b6p+0);(-0x1.50624dd2f1aa0p+1);(0x1.6a5e353f7ced9p+5);(-0x1.a1cac083126e9p-5);(0x1.845a1cac08312p+0);(0x1.6a5e353f7ced9p+5);(0x1.845a1cac08312p+0);(-0x1.5c181fdb4cc25p+14);(0);(-0x1.5c181fdb4cc25p+14);(-0x1.03a1f60987126p-11);(0);(0);(0x1.3451761459536p-4);(0);(0x1.3451761459536p-4);(0x1.5f189374bc6a8p+7);(0x1.a6d916872b021p+3);(0);(0x1.a6d916872b021p+3);(0);(-0x1.98f32378ab0c9p-1);(-75);(-0x1.98f32378ab0c9p-1)]);
(77700%Z, [(-0x1.5d624dd2f1aa0p+5);(0x1.8bc6a7ef9db23p+1);(-0x1.30624dd2f1aa0p+0);(0x1.4e9fbe76c8b44p+5);(-0x1.26e978d4fdf3bp-7);(0x1.999999999999ap-5);(0x1.4e9fbe76c8b44p+5);(0x1.999999999999ap-5);(-0x1.5946207b352a8p+14);(0);(-0x1.5946207b352a8p+14);(0x1.24ecc96c7015cp-10);(0);(0);(0x1.3da2f8bdec5f4p-4);(0);(0x1.3da2f8bdec5f4p-4);(0x1.5f2353f7ced91p+7);(0x1.b3ae147ae147bp+3);(0);(0x1.b3ae147ae147bp+3);(0);(-0x1.89873ffac1d2ap-1);(-75);(-0x1.89873ffac1d2ap-1)]);
(77760%Z, [(-0x1.60b645a1cac08p+5);(0x1.3a1cac083126fp+2);(0x1.451eb851eb852p-1);(0x1.35c083126e979p+5);(-0x1.3126e978d4fdfp-2);(-0x1.020c49ba5e354p-3);(0x1.35c083126e979p+5);(-0x1.020c49ba5e354p-3);(-0x1.60558c5974e66p+14);(0);(-0x1.60558c5974e66p+14);(0x1.bc5b3a8e46545p-9);(0);(0);(0x1.817ca2120e1f8p-4);(0);(0x1.817ca2120e1f8p-4);(0x1.5f08b43958106p+7);(0x1.0849ba5e353f8p+4);(0);(0x1.0849ba5e353f8p+4);(0);(-0x1.4ae536501e258p-1);(-75);(-0x1.4ae536501e258p-1)]);
(77820%Z, [(-0x1.64624dd2f1aa0p+5);(0x1.3c7ae147ae148p+2);(0x1.bf7ced916872bp+0);(0x1.b9b645a1cac08p+4);(0x1.53f7ced916873p-2);(-0x1.3d47ae147ae14p+3);(0x1.b9b645a1cac08p+4);(-0x1.3d47ae147ae14p+3);(0);(0);(0);(0x1.1058bdb150f06p-8);(0);(0);(0x1.6c4d65e460675p-4);(0);(0x1.6c4d65e460675p-4);(0x1.b2810624dd2f2p+7);(0x1.352b020c49ba6p+4);(0);(0x1.352b020c49ba6p+4);(0x1.38d4fdf3b645ap-1);(0);(-75);(0)]);
(77880%Z, [(-0x1.50bc6a7ef9db2p+5);(0x1.16b020c49ba5ep+3);(0x1.9c6a7ef9db22dp+2);(0x1.b6d0e56041893p+4);(0x1.1fbe76c8b4396p+0);(0x1.9c6a7ef9db22dp+0);(0x1.b6d0e56041893p+4);(0x1.9c6a7ef9db22dp+0);(0);(0);(0);(0x1.45871dc1061a2p-7);(0x1.83cdcaa3a7ba7p-6);(0x1.bddad29ef3cb9p+0);(0x1.1e90795f676eap-4);(0);(0x1.1e90795f676eap-4);(0x1.124e147ae147bp+8);(0x1.330e560418937p+4);(0);(0x1.330e560418937p+4);(0x1.fbe76c8b43958p-2);(0);(-75);(0)]);
(77940%Z, [(-0x1.43fdf3b645a1dp+5);(0x1.16c083126e979p+3);(0x1.c2b020c49ba5ep+2);(0x1.0549ba5e353f8p+5);(0x1.43b645a1cac08p+2);(0x1.9f126e978d4fep+3);(0x1.0549ba5e353f8p+5);(0x1.9f126e978d4fep+3);(0);(0);(0);(0x1.5e70a3ac171fbp-7);(0x1.1eacc51a7bd74p-3);(0x1.f65ee0b60dc39p+1);(0x1.ac386d2ed783ep-5);(0);(0x1.ac386d2ed783ep-5);(0x1.691f3b645a1cbp+8);(0x1.2e083126e978dp+4);(0);(0x1.2e083126e978dp+4);(0x1.47ae147ae147bp-2);(0);(-75);(0)]);
(78000%Z, [(-0x1.3f189374bc6a8p+5);(0x1.1bf7ced916873p+3);(0x1.d99999999999ap+2);(0x1.2d22d0e560419p+5);(0x1.b645a1cac0831p+2);(0x1.4e04189374bc7p+4);(0x1.2d22d0e560419p+5);(0x1.4e04189374bc7p+4);(0);(0);(0);(0x1.6d587308b6320p-7);(0x1.cd629ad4d8091p-3);(0x1.0dc14a0201b7ep+2);(0x1.68d5410f94c88p-5);(0);(0x1.68d5410f94c88p-5);(0x1.a5a9374bc6a7fp+8);(0x1.292b020c49ba6p+4);(0);(0x1.292b020c49ba6p+4);(0x1.ed916872b020cp-3);(0);(-75);(0)]);
(78060%Z, [(-0x1.3c26e978d4fdfp+5);(0x1.fcccccccccccdp+2);(0x1.d9eb851eb851fp+2);(0x1.439ba5e353f7dp+5);(0x1.1b22d0e560419p+2);(0x1.4b5c28f5c28f6p+4);(0x1.439ba5e353f7dp+5);(0x1.4b5c28f5c28f6p+4);(0);(0);(0);(0x1.6d91fec598502p-7);(0x1.c9b6967f88cc4p-3);(0x1.2e8caeba12351p+1);(0x1.4dfefbf401c50p-5);(0);(0x1.4dfefbf401c50p-5);(0x1.c1595810624ddp+8);(0x1.2522d0e560419p+4);(0);(0x1.2522d0e560419p+4);(0x1.ae147ae147ae1p-3);(0);(-75);(0)]);
(78120%Z, [(-0x1.3d22d0e560419p+5);(0x1.a4ac083126e98p+2);(0x1.a3020c49ba5e3p+2);(0x1.4c872b020c49cp+5);(0);(0x1.e170a3d70a3d7p+3);(0x1.4c872b020c49cp+5);(0x1.e170a3d70a3d7p+3);(0);(0);(0);(0x1.49d83b3ff2087p-7);(0x1.4c820ab1b4c37p-3);(0x1.66762fb21f4c7p-3);(0x1.49731098d477cp-5);(0);(0x1.49731098d477cp-5);(0x1.c372f1a9fbe77p+8);(0x1.227ef9db22d0ep+4);(0);(0x1.227ef9db22d0ep+4);(0x1.a5e353f7ced91p-3);(0);(-75);(0)]);
(78180%Z, [(-0x1.3bfbe76c8b439p+5);(0x1.fc083126e978dp+2);(0x1.ec9ba5e353f7dp+2);(0x1.4f53f7ced9168p+5);(0x1.1fbe76c8b4396p-1);(0x1.29d70a3d70a3dp+4);(0x1.4f53f7ced9168p+5);(0x1.29d70a3d70a3dp+4);(0);(0);(0);(0x1.79b2738532da4p-7);(0x1.9b67201fb01e9p-3);(0x1.abc37331d0dd8p-2);(0x1.4230fcf80dc33p-5);(0);(0x1.4230fcf80dc33p-5);(0x1.c861cac083127p+8);(0x1.1f2f1a9fbe76dp+4);(0);(0x1.1f2f1a9fbe76dp+4);(0x1.999999999999ap-3);(0);(-75);(0)]);
(78240%Z, [(-0x1.0472b020c49bap+5);(0x1.84d4fdf3b645ap+3);(0x1.6e3d70a3d70a4p+3);(0x1.54851eb851eb8p+5);(0x1.047ae147ae148p+1);(0x1.1d1eb851eb852p+5);(0x1.54851eb851eb8p+5);(0x1.1d1eb851eb852p+5);(0);(0);(0);(0x1.0adee0f67a703p-6);(0x1.89d641eb87cdfp-2);(0x1.03178831e82f8p+0);(0x1.34091c087442cp-5);(0);(0x1.34091c087442cp-5);(0x1.d2d374bc6a7f0p+8);(0x1.18dd2f1a9fbe7p+4);(0);(0x1.18dd2f1a9fbe7p+4);(0x1.7ef9db22d0e56p-3);(0);(-75);(0)]);
(78300%Z, [(-0x1.6cbc6a7ef9db2p+4);(0x1.a7cac083126e9p+4);(0x1.74b851eb851ecp+4);(0x1.5dd916872b021p+5);(0x1.3a3d70a3d70a4p+1);(0x1.24b126e978d50p+6);(0x1.5dd916872b021p+5);(0x1.24b126e978d50p+6);(0);(0);(0);(0x1.00c521dda059ap-5);(0x1.944ac87b2e748p-1);(0x1.6f5bc97f6565ep+0);(0x1.1e81cb46bacf7p-5);(0);(0x1.1e81cb46bacf7p-5);(0x1.deedd2f1a9fbep+8);(0x1.0c00000000000p+4);(0);(0x1.0c00000000000p+4);(0x1.5a1cac083126fp-3);(0);(-75);(0)]);
(78360%Z, [(-0x1.b8dd2f1a9fbe7p+3);(0x1.9ce147ae147aep+5);(0x1.110c49ba5e354p+5);(0x1.6c33333333333p+5);(0x1.7ef9db22d0e56p-2);(0x1.d773b645a1cacp+6);(0x1.6c33333333333p+5);(0x1.d773b645a1cacp+6);(0);(0);(0);(0x1.718b025214cacp-5);(0x1.459b9c283f395p+0);(0x1.6e7d45501642ep+0);(0x1.02e44b6e935b9p-5);(0);(0x1.02e44b6e935b9p-5);(0x1.e94fdf3b645a2p+8);(0x1.eed0e56041893p+3);(0);(0x1.eed0e56041893p+3);(0x1.3126e978d4fdfp-3);(0);(-75);(0)]);
(78420%Z, [(0x1.04dd2f1a9fbe7p+1);(0x1.04072b020c49cp+6);(0x1.f8624dd2f1aa0p+4);(0x1.7f9db22d0e560p+5);(0);(0x1.250ac083126e9p+7);(0x1.7f9db22d0e560p+5);(0x1.250ac083126e9p+7);(0);(0);(0);(0x1.566861be36062p-5);(0x1.94c74070de648p+0);(0x1.a3985cadaaf39p+0);(0x1.c7325918a009fp-6);(0);(0x1.c7325918a009fp-6);(0x1.f317ced916873p+8);(0x1.bbb645a1cac08p+3);(0);(0x1.bbb645a1cac08p+3);(0x1.0624dd2f1a9fcp-3);(0);(-75);(0)]);
(78480%Z, [(0x1.c5ba5e353f7cfp+3);(0x1.c776c8b439581p+5);(0x1.0f1a9fbe76c8bp+5);(0x1.8b7ced916872bp+5);(0);(0x1.34dfbe76c8b44p+7);(0x1.8b7ced916872bp+5);(0x1.34dfbe76c8b44p+7);(0);(0);(0);(0x1.6ea239fc252a0p-5);(0x1.aaa50ec2bb7bfp+0);(0x1.b9b9b13c229b1p+0);(0x1.89acbc8c0ce92p-6);(0);(0x1.89acbc8c0ce92p-6);(0x1.fb2189374bc6ap+8);(0x1.85f3b645a1cacp+3);(0);(0x1.85f3b645a1cacp+3);(0x1.be76c8b439581p-4);(0);(-75);(0)]);
(78540%Z, [(0x1.d395810624dd3p+3);(0x1.c3916872b020cp+5);(0x1.798b439581062p+5);(0x1.919fbe76c8b44p+5);(0);(0x1.50e7ef9db22d1p+7);(0x1.919fbe76c8b44p+5);(0x1.50e7ef9db22d1p+7);(0);(0);(0);(0x1.f87699646a8dcp-5);(0x1.d15dec6f5476ap+0);(0x1.e409bcc23da7bp+0);(0x1.4ad794a6eb91bp-6);(0);(0x1.4ad794a6eb91bp-6);(0x1.006fdf3b645a2p+9);(0x1.4b645a1cac083p+3);(0);(0x1.4b645a1cac083p+3);(0x1.70a3d70a3d70ap-4);(0);(-75);(0)]);
(78600%Z, [(0x1.b4bc6a7ef9db2p+2);(0x1.88f3b645a1cacp+5);(0x1.6ba5e353f7ceep+5);(0x1.afa5e353f7ceep+5);(0x1.3083126e978d5p+2);(0x1.4039db22d0e56p+7);(0x1.afa5e353f7ceep+5);(0x1.4039db22d0e56p+7);(0);(0);(0);(0x1.e662853056092p-5);(0x1.ba53ab22d8f2fp+0);(0x1.73292801fcaf7p+1);(0x1.0c2c5e2cdc012p-6);(0);(0x1.0c2c5e2cdc012p-6);(0x1.073147ae147aep+9);(0x1.13b645a1cac08p+3);(0);(0x1.13b645a1cac08p+3);(0x1.1eb851eb851ecp-4);(0);(-75);(0)]);
(78660%Z, [(-0x1.e126e978d4fdfp+2);(0x1.64a3d70a3d70ap+4);(0x1.1153f7ced9168p+4);(0x1.cbcac083126e9p+5);(0x1.0ab851eb851ecp+4);(0x1.a7fef9db22d0ep+6);(0x1.cbcac083126e9p+5);(0x1.a7fef9db22d0ep+6);(0);(0);(0);(0x1.7e2f7b17ce52ep-6);(0x1.24d4c5949f33ep+0);(0x1.b8275a6cb306bp+2);(0x1.c51dabe27179cp-7);(0);(0x1.c51dabe27179cp-7);(0x1.0dcd70a3d70a4p+9);(0x1.dd916872b020cp+2);(0);(0x1.dd916872b020cp+2);(0x1.db22d0e560419p-5);(0);(-75);(0)]);
(78720%Z, [(-0x1.7b26e978d4fdfp+4);(0x1.c916872b020c5p+1);(-0x1.0b851eb851eb8p+0);(0x1.cc00000000000p+5);(0x1.f333333333333p-1);(0x1.2a6e978d4fdf4p+5);(0x1.cc00000000000p+5);(0x1.2a6e978d4fdf4p+5);(0);(0);(0);(0x1.3536ee7ea3492p-12);(0x1.9c37afef9c5a9p-2);(0x1.9847efd8c0760p+1);(0x1.040bfe3b03e21p-6);(0);(0x1.040bfe3b03e21p-6);(0x1.f64bc6a7ef9dbp+8);(0x1.fe45a1cac0831p+2);(0);(0x1.fe45a1cac0831p+2);(0x1.2b020c49ba5e3p-4);(0);(-75);(0)]);
(78780%Z, [(-0x1.03f7ced916873p+5);(-0x1.151eb851eb852p+1);(-0x1.d6c8b43958106p+2);(0x1.ace5604189375p+5);(-0x1.8c49ba5e353f8p-2);(0x1.66a7ef9db22d1p+3);(0x1.ace5604189375p+5);(0x1.66a7ef9db22d1p+3);(0);(0);(0);(-0x1.fa1cbc235c509p-8);(0x1.ef69c540916aap-4);(0x1.20e298e6ec32cp-4);(0x1.64bec679cc74cp-6);(0);(0x1.64bec679cc74cp-6);(0x1.9d14bc6a7ef9ep+8);(0x1.1fced916872b0p+3);(0);(0x1.1fced916872b0p+3);(0x1.db22d0e560419p-4);(0);(-75);(0)]);
(78840%Z, [(-0x1.274fdf3b645a2p+5);(-0x1.3bf7ced916873p+2);(-0x1.634395810624ep+3);(0x1.864189374bc6ap+5);(-0x1.0dd2f1a9fbe77p-1);(-0x1.2c9ba5e353f7dp+2);(0x1.864189374bc6ap+5);(-0x1.2c9ba5e353f7dp+2);(0);(0);(0);(-0x1.98fcbba7e15b0p-7);(0x1.ef893a50debfcp-12);(0);(0x1.b8ed1bf7ad4b2p-6);(0);(0x1.b8ed1bf7ad4b2p-6);(0x1.6f2f1a9fbe76dp+8);(0x1.3c395810624ddp+3);(0);(0x1.3c395810624ddp+3);(0x1.ba5e353f7ced9p-5);(0);(-75);(0)]);
(78900%Z, [(-0x1.4a8b439581062p+5);(-0x1.a0c49ba5e353fp+2);(-0x1.6e04189374bc7p+3);(0x1.a2a7ef9db22d1p+5);(-0x1.be76c8b439581p-4);(-0x1.c2e147ae147aep+2);(0x1.a2a7ef9db22d1p+5);(-0x1.c2e147ae147aep+2);(-0x1.0f4e0d9620685p+13);(0);(-0x1.0f4e0d9620685p+13);(-0x1.a05e84c5a20b3p-7);(0);(0);(0x1.cb790fb65668cp-6);(0);(0x1.cb790fb65668cp-6);(0x1.670c49ba5e354p+8);(0x1.42353f7ced917p+3);(0);(0x1.42353f7ced917p+3);(0);(-0x1.a17ebaf102364p-2);(-75);(-0x1.a17ebaf102364p-2)]);
(78960%Z, [(-0x1.64d916872b021p+5);(-0x1.46353f7ced917p+2);(-0x1.1a45a1cac0831p+3);(0x1.dbef9db22d0e5p+5);(-0x1.d70a3d70a3d71p-4);(0x1.b53f7ced91687p-1);(0x1.dbef9db22d0e5p+5);(0x1.b53f7ced91687p-1);(-0x1.5e8b1dffc547ap+12);(0);(-0x1.5e8b1dffc547ap+12);(-0x1.29b0930555d55p-7);(0);(0);(0x1.ddfc9ff92f2b6p-6);(0);(0x1.ddfc9ff92f2b6p-6);(0x1.5faf9db22d0e5p+8);(0x1.4851eb851eb85p+3);(0);(0x1.4851eb851eb85p+3);(0);(-0x1.08d10f51ac9b0p-2);(-75);(-0x1.08d10f51ac9b0p-2)]);
(79020%Z, [(-0x1.7d16872b020c5p+5);(-0x1.bb851eb851eb8p+1);(-0x1.efbe76c8b4396p+2);(0x1.cdbc6a7ef9db2p+5);(-0x1.6e978d4fdf3b6p-2);(-0x1.7cac083126e98p+0);(0x1.cdbc6a7ef9db2p+5);(-0x1.7cac083126e98p+0);(-0x1.5697661cffeb0p+13);(0);(-0x1.5697661cffeb0p+13);(-0x1.f977a5a8f17b5p-8);(0);(0);(0x1.0fa9c12f09d8cp-5);(0);(0x1.0fa9c12f09d8cp-5);(0x1.4a4395810624ep+8);(0x1.5e76c8b439581p+3);(0);(0x1.5e76c8b439581p+3);(0);(-0x1.e52bd3c361134p-2);(-75);(-0x1.e52bd3c361134p-2)]);
(79080%Z, [(-0x1.9df9db22d0e56p+5);(-0x1.0af1a9fbe76c9p+2);(-0x1.00c49ba5e353fp+3);(0x1.efac083126e98p+5);(-0x1.24dd2f1a9fbe7p-3);(-0x1.1020c49ba5e35p+1);(0x1.efac083126e98p+5);(-0x1.1020c49ba5e35p+1);(-0x1.22db9d78811b2p+14);(0);(-0x1.22db9d78811b2p+14);(-0x1.fd7a69a8902c9p-8);(0);(0);(0x1.1d9b1b79d909fp-5);(0);(0x1.1d9b1b79d909fp-5);(0x1.4285604189375p+8);(0x1.67d70a3d70a3dp+3);(0);(0x1.67d70a3d70a3dp+3);(0);(-0x1.9193b3a68b19ap-1);(-75);(-0x1.9193b3a68b19ap-1)]);
(79140%Z, [(-0x1.c1c28f5c28f5cp+5);(-0x1.6374bc6a7ef9ep+2);(-0x1.315810624dd2fp+3);(0x1.134cccccccccdp+6);(0);(-0x1.3ef9db22d0e56p+1);(0x1.134cccccccccdp+6);(-0x1.3ef9db22d0e56p+1);(-0x1.af01bda5119cep+14);(0);(-0x1.af01bda5119cep+14);(-0x1.3299db32ec109p-7);(0);(0);(0x1.1d7dbf487fcb9p-5);(0);(0x1.1d7dbf487fcb9p-5);(0x1.426395810624ep+8);(0x1.67851eb851eb8p+3);(0);(0x1.67851eb851eb8p+3);(0);(-0x1.2a1c044284dfdp+0);(-75);(-0x1.2a1c044284dfdp+0)]);
(79200%Z, [(-0x1.e845a1cac0831p+5);(-0x1.0cc49ba5e353fp+3);(-0x1.8c51eb851eb85p+3);(0x1.39072b020c49cp+6);(0);(-0x1.c7ced916872b0p+1);(0x1.39072b020c49cp+6);(-0x1.c7ced916872b0p+1);(-0x1.3ba6423e18698p+15);(0);(-0x1.3ba6423e18698p+15);(-0x1.9aeb28578d04bp-7);(0);(0);(0x1.1d53cddd6e04cp-5);(0);(0x1.1d53cddd6e04cp-5);(0x1.423604189374cp+8);(0x1.6722d0e560419p+3);(0);(0x1.6722d0e560419p+3);(0);(-0x1.b5ca6ca03c4b1p+0);(-75);(-0x1.b5ca6ca03c4b1p+0)]);
(79260%Z, [(-0x1.094cccccccccdp+6);(-0x1.52978d4fdf3b6p+3);(-0x1.cec083126e979p+3);(0x1.63c7ae147ae14p+6);(0);(-0x1.3604189374bc7p+1);(0x1.63c7ae147ae14p+6);(-0x1.3604189374bc7p+1);(-0x1.7fc2574927914p+15);(0);(-0x1.7fc2574927914p+15);(-0x1.e12721d7ec0fbp-7);(0);(0);(0x1.1d2391d57ff9bp-5);(0);(0x1.1d2391d57ff9bp-5);(0x1.420083126e979p+8);(0x1.66a7ef9db22d1p+3);(0);(0x1.66a7ef9db22d1p+3);(0);(-0x1.0adf505d0fa59p+1);(-75);(-0x1.0adf505d0fa59p+1)]);
(79320%Z, [(-0x1.19f5c28f5c28fp+6);(-0x1.54dd2f1a9fbe7p+3);(-0x1.c4fdf3b645a1dp+3);(0x1.7a6353f7ced91p+6);(0);(-0x1.676c8b4395810p-1);(0x1.7a6353f7ced91p+6);(-0x1.676c8b4395810p-1);(-0x1.937fb9018e758p+15);(0);(-0x1.937fb9018e758p+15);(-0x1.cbe75f1f4a482p-7);(0);(0);(0x1.1cf56eac86057p-5);(0);(0x1.1cf56eac86057p-5);(0x1.41cd916872b02p+8);(0x1.66353f7ced917p+3);(0);(0x1.66353f7ced917p+3);(0);(-0x1.191e108c3f3e0p+1);(-75);(-0x1.191e108c3f3e0p+1)]);
(79380%Z, [(-0x1.284dd2f1a9fbep+6);(-0x1.650624dd2f1aap+3);(-0x1.045a1cac08312p+4);(0x1.88db22d0e5604p+6);(0);(-0x1.a51eb851eb852p+1);(0x1.88db22d0e5604p+6);(-0x1.a51eb851eb852p+1);(-0x1.f0078028a1dfcp+15);(0);(-0x1.f0078028a1dfcp+15);(-0x1.0f10896519096p-6);(0);(0);(0x1.1cbee807bbb62p-5);(0);(0x1.1cbee807bbb62p-5);(0x1.419126e978d50p+8);(0x1.65a9fbe76c8b4p+3);(0);(0x1.65a9fbe76c8b4p+3);(0);(-0x1.5a786c226809dp+1);(-75);(-0x1.5a786c226809dp+1)]);
(79440%Z, [(-0x1.382b020c49ba6p+6);(-0x1.9e353f7ced917p+3);(-0x1.24083126e978dp+4);(0x1.aca3d70a3d70ap+6);(0);(-0x1.0a1cac083126fp+1);(0x1.aca3d70a3d70ap+6);(-0x1.0a1cac083126fp+1);(-0x1.153eb0db8bac7p+16);(0);(-0x1.153eb0db8bac7p+16);(-0x1.31115a7063eb3p-6);(0);(0);(0x1.1c8216c61522ap-5);(0);(0x1.1c8216c61522ap-5);(0x1.414cccccccccdp+8);(0x1.6516872b020c5p+3);(0);(0x1.6516872b020c5p+3);(0);(-0x1.848d3ae685db7p+1);(-75);(-0x1.848d3ae685db7p+1)]);
(79500%Z, [(-0x1.4525e353f7ceep+6);(-0x1.e10624dd2f1aap+3);(-0x1.145604189374cp+4);(0x1.c073b645a1cacp+6);(0);(-0x1.7a5e353f7ced9p+0);(0x1.c073b645a1cacp+6);(-0x1.7a5e353f7ced9p+0);(-0x1.2a06cf4d16335p+16);(0);(-0x1.2a06cf4d16335p+16);(-0x1.18abfe202bef7p-6);(0);(0);(0x1.1c49774256bcap-5);(0);(0x1.1c49774256bcap-5);(0x1.410e147ae147bp+8);(0x1.648b439581062p+3);(0);(0x1.648b439581062p+3);(0);(-0x1.a2b2bfdb4cc25p+1);(-75);(-0x1.a2b2bfdb4cc25p+1)]);
(79560%Z, [(-0x1.5323d70a3d70ap+6);(-0x1.fe6e978d4fdf4p+3);(-0x1.1fef9db22d0e5p+4);(0x1.d1322d0e56042p+6);(0);(-0x1.376c8b4395810p+1);(0x1.d1322d0e56042p+6);(-0x1.376c8b4395810p+1);(-0x1.4c3dd37e90ff9p+16);(0);(-0x1.4c3dd37e90ff9p+16);(-0x1.243370c5badfcp-6);(0);(0);(0x1.1c0ebedfa43fep-5);(0);(0x1.1c0ebedfa43fep-5);(0x1.40ccccccccccdp+8);(0x1.63f7ced916873p+3);(0);(0x1.63f7ced916873p+3);(0);(-0x1.d407357e670e3p+1);(-75);(-0x1.d407357e670e3p+1)]);
(79620%Z, [(-0x1.60a2d0e560419p+6);(-0x1.feb020c49ba5ep+3);(-0x1.2b95810624dd3p+4);(0x1.e5ec8b4395810p+6);(0);(-0x1.5c28f5c28f5c3p+0);(0x1.e5ec8b4395810p+6);(-0x1.5c28f5c28f5c3p+0);(-0x1.5f5d6628240b8p+16);(0);(-0x1.5f5d6628240b8p+16);(-0x1.2ed245b291b82p-6);(0);(0);(0x1.1bd1ed9dfdac7p-5);(0);(0x1.1bd1ed9dfdac7p-5);(0x1.4088f5c28f5c3p+8);(0x1.635c28f5c28f6p+3);(0);(0x1.635c28f5c28f6p+3);(0);(-0x1.f0504816f0069p+1);(-75);(-0x1.f0504816f0069p+1)]);
(79680%Z, [(-0x1.4fe6666666666p+6);(-0x1.d4e5604189375p+3);(-0x1.53eb851eb851fp+4);(0x1.e8cdd2f1a9fbep+6);(0);(0x1.29db22d0e5604p+1);(0x1.e8cdd2f1a9fbep+6);(0x1.29db22d0e5604p+1);(-0x1.3ea2a324c8366p+16);(0);(-0x1.3ea2a324c8366p+16);(-0x1.62824b7447a58p-6);(0);(0);(0x1.1b8aa00192a73p-5);(0);(0x1.1b8aa00192a73p-5);(0x1.40395810624ddp+8);(0x1.62b020c49ba5ep+3);(0);(0x1.62b020c49ba5ep+3);(0);(-0x1.c2b50b0f27bb3p+1);(-75);(-0x1.c2b50b0f27bb3p+1)]);
(79740%Z, [(-0x1.0a4dd2f1a9fbep+6);(-0x1.08c083126e979p+4);(-0x1.d30a3d70a3d71p+4);(0x1.cec28f5c28f5cp+6);(0);(0x1.b020c49ba5e35p+1);(0x1.cec28f5c28f5cp+6);(0x1.b020c49ba5e35p+1);(-0x1.0f274ac9afe1ep+16);(0);(-0x1.0f274ac9afe1ep+16);(-0x1.0684e480c8925p-5);(0);(0);(0x1.1b21c475e6363p-5);(0);(0x1.1b21c475e6363p-5);(0x1.3fc353f7ced91p+8);(0x1.61a9fbe76c8b4p+3);(0);(0x1.61a9fbe76c8b4p+3);(0);(-0x1.7ff77af64063ap+1);(-75);(-0x1.7ff77af64063ap+1)]);
(79800%Z, [(-0x1.6d76c8b439581p+5);(-0x1.b28f5c28f5c29p+3);(-0x1.120624dd2f1aap+5);(0x1.9b00000000000p+6);(0);(0x1.277ced916872bp+3);(0x1.9b00000000000p+6);(0x1.277ced916872bp+3);(-0x1.1a99bfce3150ep+15);(0);(-0x1.1a99bfce3150ep+15);(-0x1.407a0de31791fp-5);(0);(0);(0x1.1a9fbe76c8b44p-5);(0);(0x1.1a9fbe76c8b44p-5);(0x1.3f32b020c49bap+8);(0x1.60624dd2f1aa0p+3);(0);(0x1.60624dd2f1aa0p+3);(0);(-0x1.90331e3a7daa5p+0);(-75);(-0x1.90331e3a7daa5p+0)]);
(79860%Z, [(-0x1.0a2b020c49ba6p+5);(-0x1.7e8f5c28f5c29p+3);(-0x1.2acac083126e9p+5);(0x1.47b22d0e56042p+6);(-0x1.a1cac083126e9p-3);(-0x1.b645a1cac0831p-1);(0x1.47b22d0e56042p+6);(-0x1.b645a1cac0831p-1);(-0x1.32aea201cd5fap+15);(0);(-0x1.32aea201cd5fap+15);(-0x1.68ad73403e898p-5);(0);(0);(0x1.24f8726d04e62p-5);(0);(0x1.24f8726d04e62p-5);(0x1.357df3b645a1dp+8);(0x1.622d0e5604189p+3);(0);(0x1.622d0e5604189p+3);(0);(-0x1.af2da122fad6dp+0);(-75);(-0x1.af2da122fad6dp+0)]);
(79920%Z, [(-0x1.c0a7ef9db22d1p+4);(-0x1.7e0c49ba5e354p+3);(-0x1.26e147ae147aep+5);(0x1.3f147ae147ae1p+6);(-0x1.d2f1a9fbe76c9p-3);(0x1.59db22d0e5604p+1);(0x1.3f147ae147ae1p+6);(0x1.59db22d0e5604p+1);(-0x1.cd62e5119ce07p+14);(0);(-0x1.cd62e5119ce07p+14);(-0x1.63da09f724ba2p-5);(0);(0);(0x1.2f4f0d844d014p-5);(0);(0x1.2f4f0d844d014p-5);(0x1.2c795810624ddp+8);(0x1.6400000000000p+3);(0);(0x1.6400000000000p+3);(0);(-0x1.428198f1d3ed5p+0);(-75);(-0x1.428198f1d3ed5p+0)]);
(79980%Z, [(-0x1.dad4fdf3b645ap+4);(-0x1.525604189374cp+3);(-0x1.1aae147ae147bp+5);(0x1.25e978d4fdf3bp+6);(-0x1.9db22d0e56042p-3);(-0x1.278d4fdf3b646p+1);(0x1.25e978d4fdf3bp+6);(-0x1.278d4fdf3b646p+1);(-0x1.27a116f2a5a47p+15);(0);(-0x1.27a116f2a5a47p+15);(-0x1.560306c596f88p-5);(0);(0);(0x1.36eb4e981387ap-5);(0);(0x1.36eb4e981387ap-5);(0x1.26a6e978d4fdfp+8);(0x1.65db22d0e5604p+3);(0);(0x1.65db22d0e5604p+3);(0);(-0x1.9b0dd82fd75e2p+0);(-75);(-0x1.9b0dd82fd75e2p+0)]);
(80040%Z, [(-0x1.22c8b43958106p+5);(-0x1.74ac083126e98p+3);(-0x1.09e353f7ced91p+5);(0x1.3d1eb851eb852p+6);(-0x1.8f5c28f5c28f6p-3);(-0x1.126e978d4fdf4p+1);(0x1.3d1eb851eb852p+6);(-0x1.126e978d4fdf4p+1);(-0x1.63ed98f32378bp+15);(0);(-0x1.63ed98f32378bp+15);(-0x1.3d70a9356df60p-5);(0);(0);(0x1.3e8ff327aa68fp-5);(0);(0x1.3e8ff327aa68fp-5);(0x1.21283126e978dp+8);(0x1.67d70a3d70a3dp+3);(0);(0x1.67d70a3d70a3dp+3);(0);(-0x1.ecb9cb6848bebp+0);(-75);(-0x1.ecb9cb6848bebp+0)]);
(80100%Z, [(-0x1.7cb851eb851ecp+5);(-0x1.e30a3d70a3d71p+3);(-0x1.de28f5c28f5c3p+4);(0x1.5d3a5e353f7cfp+6);(0);(-0x1.50d4fdf3b645ap+2);(0x1.5d3a5e353f7cfp+6);(-0x1.50d4fdf3b645ap+2);(-0x1.f7f309c8c9321p+15);(0);(-0x1.f7f309c8c9321p+15);(-0x1.16fdad954f072p-5);(0);(0);(0x1.3e1437c5692b4p-5);(0);(0x1.3e1437c5692b4p-5);(0x1.20b8d4fdf3b64p+8);(0x1.66b851eb851ecp+3);(0);(0x1.66b851eb851ecp+3);(0);(-0x1.5e9dc725c3deep+1);(-75);(-0x1.5e9dc725c3deep+1)]);
(80160%Z, [(-0x1.ddc083126e979p+5);(-0x1.c7020c49ba5e3p+3);(-0x1.949374bc6a7f0p+4);(0x1.8bdf3b645a1cbp+6);(0);(-0x1.072b020c49ba6p-2);(0x1.8bdf3b645a1cbp+6);(-0x1.072b020c49ba6p-2);(-0x1.ff2a2ce075f70p+15);(0);(-0x1.ff2a2ce075f70p+15);(-0x1.c4754fe3422f2p-6);(0);(0);(0x1.3daf8df7a4e7bp-5);(0);(0x1.3daf8df7a4e7bp-5);(0x1.205eb851eb852p+8);(0x1.65db22d0e5604p+3);(0);(0x1.65db22d0e5604p+3);(0);(-0x1.652599ed7c6fcp+1);(-75);(-0x1.652599ed7c6fcp+1)]);
(80220%Z, [(-0x1.02c8b43958106p+6);(-0x1.d2d916872b021p+3);(-0x1.7f9999999999ap+4);(0x1.92cfdf3b645a2p+6);(-0x1.1cac083126e98p-3);(-0x1.58d4fdf3b645ap+1);(0x1.92cfdf3b645a2p+6);(-0x1.58d4fdf3b645ap+1);(-0x1.2579106c22681p+16);(0);(-0x1.2579106c22681p+16);(-0x1.a70c940d12b81p-6);(0);(0);(0x1.483a96d4c33b5p-5);(0);(0x1.483a96d4c33b5p-5);(0x1.18f4bc6a7ef9ep+8);(0x1.68395810624ddp+3);(0);(0x1.68395810624ddp+3);(0);(-0x1.97c74fb549f95p+1);(-75);(-0x1.97c74fb549f95p+1)]);
(80280%Z, [(-0x1.0a1374bc6a7f0p+6);(-0x1.f9810624dd2f2p+3);(-0x1.4f4395810624ep+4);(0x1.9d4083126e979p+6);(-0x1.d70a3d70a3d71p-4);(-0x1.26e978d4fdf3bp-4);(0x1.9d4083126e979p+6);(-0x1.26e978d4fdf3bp-4);(-0x1.267b010abb44ep+16);(0);(-0x1.267b010abb44ep+16);(-0x1.6418c3c63de77p-6);(0);(0);(0x1.52d234eb9a177p-5);(0);(0x1.52d234eb9a177p-5);(0x1.120f9db22d0e5p+8);(0x1.6ab851eb851ecp+3);(0);(0x1.6ab851eb851ecp+3);(0);(-0x1.96a0ba1f4b1eep+1);(-75);(-0x1.96a0ba1f4b1eep+1)]);
(80340%Z, [(-0x1.12a5e353f7ceep+6);(-0x1.d570a3d70a3d7p+3);(-0x1.4449ba5e353f8p+4);(0x1.97916872b020cp+6);(-0x1.ced916872b021p-4);(-0x1.d22d0e5604189p+0);(0x1.97916872b020cp+6);(-0x1.d22d0e5604189p+0);(-0x1.4015d7c6540ccp+16);(0);(-0x1.4015d7c6540ccp+16);(-0x1.5551ec05f811ap-6);(0);(0);(0x1.5d6bebe1650a4p-5);(0);(0x1.5d6bebe1650a4p-5);(0x1.0b9a5e353f7cfp+8);(0x1.6d3f7ced91687p+3);(0);(0x1.6d3f7ced91687p+3);(0);(-0x1.b71ceaf251c19p+1);(-75);(-0x1.b71ceaf251c19p+1)]);
(80400%Z, [(-0x1.17989374bc6a8p+6);(-0x1.c4fdf3b645a1dp+3);(-0x1.3d95810624dd3p+4);(0x1.9e449ba5e353fp+6);(0);(-0x1.5916872b020c5p-2);(0x1.9e449ba5e353fp+6);(-0x1.5916872b020c5p-2);(-0x1.44d2807d2c7b9p+16);(0);(-0x1.44d2807d2c7b9p+16);(-0x1.49b7a4469bc5cp-6);(0);(0);(0x1.5d1c3ac929aa2p-5);(0);(0x1.5d1c3ac929aa2p-5);(0x1.0b5ef9db22d0ep+8);(0x1.6c9ba5e353f7dp+3);(0);(0x1.6c9ba5e353f7dp+3);(0);(-0x1.bea454de7ea60p+1);(-75);(-0x1.bea454de7ea60p+1)]);
(80460%Z, [(-0x1.1c0e560418937p+6);(-0x1.fda1cac083127p+3);(-0x1.206e978d4fdf4p+4);(0x1.a120c49ba5e35p+6);(0);(-0x1.5eb851eb851ecp-1);(0x1.a120c49ba5e35p+6);(-0x1.5eb851eb851ecp-1);(-0x1.4e749a6612839p+16);(0);(-0x1.4e749a6612839p+16);(-0x1.23408c62238bap-6);(0);(0);(0x1.5cd4ed2cbea4fp-5);(0);(0x1.5cd4ed2cbea4fp-5);(0x1.0b2ac083126e9p+8);(0x1.6c10624dd2f1bp+3);(0);(0x1.6c10624dd2f1bp+3);(0);(-0x1.ccb7d41743e96p+1);(-75);(-0x1.ccb7d41743e96p+1)]);
(80520%Z, [(-0x1.20ee978d4fdf4p+6);(-0x1.f178d4fdf3b64p+3);(-0x1.1916872b020c5p+4);(0x1.a5810624dd2f2p+6);(0);(0x1.db22d0e560419p-6);(0x1.a5810624dd2f2p+6);(0x1.db22d0e560419p-6);(-0x1.4e0b210ff9724p+16);(0);(-0x1.4e0b210ff9724p+16);(-0x1.18a1a1fbbdd10p-6);(0);(0);(0x1.5c8fb86f47b67p-5);(0);(0x1.5c8fb86f47b67p-5);(0x1.0af851eb851ecp+8);(0x1.6b7ced916872bp+3);(0);(0x1.6b7ced916872bp+3);(0);(-0x1.ccec95bff0457p+1);(-75);(-0x1.ccec95bff0457p+1)]);
(80580%Z, [(-0x1.2a7be76c8b439p+6);(-0x1.fab020c49ba5ep+3);(-0x1.2a624dd2f1aa0p+4);(0x1.aa50e56041893p+6);(0);(-0x1.4333333333333p+1);(0x1.aa50e56041893p+6);(-0x1.4333333333333p+1);(-0x1.718e858ec95c0p+16);(0);(-0x1.718e858ec95c0p+16);(-0x1.2dd2407f211d6p-6);(0);(0);(0x1.5c4651f3e89a9p-5);(0);(0x1.5c4651f3e89a9p-5);(0x1.0ac20c49ba5e3p+8);(0x1.6ae978d4fdf3bp+3);(0);(0x1.6ae978d4fdf3bp+3);(0);(-0x1.ff2aae297396dp+1);(-75);(-0x1.ff2aae297396dp+1)]);
(80640%Z, [(-0x1.35fef9db22d0ep+6);(-0x1.fa5604189374cp+3);(-0x1.21b645a1cac08p+4);(0x1.ba4dd2f1a9fbep+6);(0);(-0x1.b4395810624ddp-1);(0x1.ba4dd2f1a9fbep+6);(-0x1.b4395810624ddp-1);(-0x1.7d8b665604189p+16);(0);(-0x1.7d8b665604189p+16);(-0x1.1e47d42a0e467p-6);(0);(0);(0x1.5c011d3671ac1p-5);(0);(0x1.5c011d3671ac1p-5);(0x1.0a8e978d4fdf4p+8);(0x1.6a5e353f7ced9p+3);(0);(0x1.6a5e353f7ced9p+3);(0);(-0x1.08894c447c30dp+2);(-75);(-0x1.08894c447c30dp+2)]);
(80700%Z, [(-0x1.3cdf3b645a1cbp+6);(-0x1.eeb851eb851ecp+3);(-0x1.300c49ba5e354p+4);(0x1.b61ba5e353f7dp+6);(-0x1.7be76c8b43958p-2);(-0x1.21a9fbe76c8b4p+2);(0x1.b61ba5e353f7dp+6);(-0x1.21a9fbe76c8b4p+2);(-0x1.bd2fe2617c1bep+16);(0);(-0x1.bd2fe2617c1bep+16);(-0x1.2e3b1c0acd8e7p-6);(0);(0);(0x1.8763a19008206p-5);(0);(0x1.8763a19008206p-5);(0x1.e9fdf3b645a1dp+7);(0x1.768f5c28f5c29p+3);(0);(0x1.768f5c28f5c29p+3);(0);(-0x1.2afe9b7bf1e8ep+2);(-75);(-0x1.2afe9b7bf1e8ep+2)]);
(80760%Z, [(-0x1.4015810624dd3p+6);(-0x1.aa872b020c49cp+3);(-0x1.1cfdf3b645a1dp+4);(0x1.b30b439581062p+6);(0);(-0x1.3353f7ced9168p+1);(0x1.b30b439581062p+6);(-0x1.3353f7ced9168p+1);(-0x1.def4762b6ae7dp+16);(0);(-0x1.def4762b6ae7dp+16);(-0x1.0f6f7ee8e9381p-6);(0);(0);(0x1.871a3b14a9047p-5);(0);(0x1.871a3b14a9047p-5);(0x1.e9a872b020c4ap+7);(0x1.760c49ba5e354p+3);(0);(0x1.760c49ba5e354p+3);(0);(-0x1.42ae297396d09p+2);(-75);(-0x1.42ae297396d09p+2)]);
(80820%Z, [(-0x1.43fae147ae148p+6);(-0x1.9cccccccccccdp+3);(-0x1.06d4fdf3b645ap+4);(0x1.b9916872b020cp+6);(0);(0x1.1a9fbe76c8b44p-4);(0x1.b9916872b020cp+6);(0x1.1a9fbe76c8b44p-4);(-0x1.ddfb569446738p+16);(0);(-0x1.ddfb569446738p+16);(-0x1.e0b0190cec4cap-7);(0);(0);(0x1.86d71f36262ccp-5);(0);(0x1.86d71f36262ccp-5);(0x1.e95cac083126fp+7);(0x1.75916872b020cp+3);(0);(0x1.75916872b020cp+3);(0);(-0x1.4287fcb923a2ap+2);(-75);(-0x1.4287fcb923a2ap+2)]);
(80880%Z, [(-0x1.4bb95810624ddp+6);(-0x1.994fdf3b645a2p+3);(-0x1.f7ae147ae147bp+3);(0x1.b9e5604189375p+6);(0);(-0x1.f9db22d0e5604p-1);(0x1.b9e5604189375p+6);(-0x1.f9db22d0e5604p-1);(-0x1.ebe08ee631f8ap+16);(0);(-0x1.ebe08ee631f8ap+16);(-0x1.c41f293b0cc66p-7);(0);(0);(0x1.869a4df47f994p-5);(0);(0x1.869a4df47f994p-5);(0x1.e91604189374cp+7);(0x1.751eb851eb852p+3);(0);(0x1.751eb851eb852p+3);(0);(-0x1.4c646f1561911p+2);(-75);(-0x1.4c646f1561911p+2)]);
(80940%Z, [(-0x1.52e24dd2f1aa0p+6);(-0x1.39916872b020cp+3);(-0x1.5a49ba5e353f8p+4);(0x1.c1353f7ced917p+6);(0);(-0x1.ee353f7ced917p+1);(0x1.c1353f7ced917p+6);(-0x1.ee353f7ced917p+1);(-0x1.111659930be0ep+17);(0);(-0x1.111659930be0ep+17);(-0x1.5942917507e9ep-6);(0);(0);(0x1.863e07a28bb0ap-5);(0);(0x1.863e07a28bb0ap-5);(0x1.e8a76c8b43958p+7);(0x1.7472b020c49bap+3);(0);(0x1.7472b020c49bap+3);(0);(-0x1.725c67dfe32a0p+2);(-75);(-0x1.725c67dfe32a0p+2)]);
(81000%Z, [(-0x1.5ab4395810625p+6);(-0x1.3353f7ced9168p+1);(-0x1.acd0e56041893p+4);(0x1.cc116872b020cp+6);(0);(-0x1.b8d4fdf3b645ap-1);(0x1.cc116872b020cp+6);(-0x1.b8d4fdf3b645ap-1);(-0x1.17243597f62b7p+17);(0);(-0x1.17243597f62b7p+17);(-0x1.bef60a07ebb1cp-6);(0);(0);(0x1.85c67dfe32a06p-5);(0);(0x1.85c67dfe32a06p-5);(0x1.e81810624dd2fp+7);(0x1.7395810624dd3p+3);(0);(0x1.7395810624dd3p+3);(0);(-0x1.7be8e60807358p+2);(-75);(-0x1.7be8e60807358p+2)]);
(81060%Z, [(-0x1.64a0c49ba5e35p+6);(-0x1.73b645a1cac08p+0);(-0x1.9883126e978d5p+4);(0x1.cdbd70a3d70a4p+6);(0);(-0x1.6978d4fdf3b64p-1);(0x1.cdbd70a3d70a4p+6);(-0x1.6978d4fdf3b64p-1);(-0x1.1c1bb16f0068ep+17);(0);(-0x1.1c1bb16f0068ep+17);(-0x1.a40598c635031p-6);(0);(0);(0x1.85553ef6b5d46p-5);(0);(0x1.85553ef6b5d46p-5);(0x1.e790e56041893p+7);(0x1.72c083126e979p+3);(0);(0x1.72c083126e979p+3);(0);(-0x1.83a36e2eb1c43p+2);(-75);(-0x1.83a36e2eb1c43p+2)]);
(81120%Z, [(-0x1.503f7ced91687p+6);(-0x1.06a7ef9db22d1p+2);(-0x1.556c8b4395810p+4);(0x1.cbc9ba5e353f8p+6);(0);(0x1.5c49ba5e353f8p+2);(0x1.cbc9ba5e353f8p+6);(0x1.5c49ba5e353f8p+2);(-0x1.ebb02504816f0p+16);(0);(-0x1.ebb02504816f0p+16);(-0x1.4e6e175fc3093p-6);(0);(0);(0x1.84fb1183b6028p-5);(0);(0x1.84fb1183b6028p-5);(0x1.e725e353f7ceep+7);(0x1.721cac083126fp+3);(0);(0x1.721cac083126fp+3);(0);(-0x1.4f674d1633483p+2);(-75);(-0x1.4f674d1633483p+2)]);
(81180%Z, [(-0x1.09f2b020c49bap+6);(-0x1.9820c49ba5e35p+3);(-0x1.4b5c28f5c28f6p+4);(0x1.b24fdf3b645a2p+6);(0);(0x1.14189374bc6a8p+3);(0x1.b24fdf3b645a2p+6);(0x1.14189374bc6a8p+3);(-0x1.725c711b1d92bp+16);(0);(-0x1.725c711b1d92bp+16);(-0x1.4c3be3051d763p-6);(0);(0);(0x1.84a0e410b630bp-5);(0);(0x1.84a0e410b630bp-5);(0x1.e6bb645a1cac1p+7);(0x1.7170a3d70a3d7p+3);(0);(0x1.7170a3d70a3d7p+3);(0);(-0x1.f7fac1d29dc72p+1);(-75);(-0x1.f7fac1d29dc72p+1)]);
(81240%Z, [(-0x1.6cd916872b021p+5);(-0x1.a1e353f7ced91p+3);(-0x1.cee5604189375p+4);(0x1.80ccccccccccdp+6);(0);(0x1.1353f7ced9168p+3);(0x1.80ccccccccccdp+6);(0x1.1353f7ced9168p+3);(-0x1.f2bb03497b741p+15);(0);(-0x1.f2bb03497b741p+15);(-0x1.0343b70ef5665p-5);(0);(0);(0x1.84167a95c853cp-5);(0);(0x1.84167a95c853cp-5);(0x1.e6147ae147ae1p+7);(0x1.7072b020c49bap+3);(0);(0x1.7072b020c49bap+3);(0);(-0x1.52afcce1c5825p+1);(-75);(-0x1.52afcce1c5825p+1)]);
(81300%Z, [(-0x1.c726e978d4fdfp+4);(-0x1.a2d916872b021p+3);(-0x1.244bc6a7ef9dbp+5);(0x1.485e353f7ced9p+6);(0);(0x1.01374bc6a7efap+2);(0x1.485e353f7ced9p+6);(0x1.01374bc6a7efap+2);(-0x1.81b50493c89f4p+15);(0);(-0x1.81b50493c89f4p+15);(-0x1.59e26463accdbp-5);(0);(0);(0x1.835bd512ec6bdp-5);(0);(0x1.835bd512ec6bdp-5);(0x1.e533b645a1cacp+7);(0x1.6f126e978d4fep+3);(0);(0x1.6f126e978d4fep+3);(0);(-0x1.061da7b0b3919p+1);(-75);(-0x1.061da7b0b3919p+1)]);
(81360%Z, [(-0x1.5a20c49ba5e35p+4);(-0x1.750624dd2f1aap+3);(-0x1.28b020c49ba5ep+5);(0x1.273e76c8b4396p+6);(0);(0x1.b7ced916872b0p+1);(0x1.273e76c8b4396p+6);(0x1.b7ced916872b0p+1);(-0x1.2112b36a400fcp+15);(0);(-0x1.2112b36a400fcp+15);(-0x1.63c1a0c9b99cfp-5);(0);(0);(0x1.829cfdd228566p-5);(0);(0x1.829cfdd228566p-5);(0x1.e44c49ba5e354p+7);(0x1.6db22d0e56042p+3);(0);(0x1.6db22d0e56042p+3);(0);(-0x1.89b66f9335d25p+0);(-75);(-0x1.89b66f9335d25p+0)]);
(81420%Z, [(-0x1.a9c6a7ef9db23p+4);(-0x1.68083126e978dp+3);(-0x1.054189374bc6ap+5);(0x1.132c083126e98p+6);(0);(-0x1.b99999999999ap+0);(0x1.132c083126e98p+6);(-0x1.b99999999999ap+0);(-0x1.5198f2f5989dfp+15);(0);(-0x1.5198f2f5989dfp+15);(-0x1.3832fcac8e68ep-5);(0);(0);(0x1.81f53825e13b2p-5);(0);(0x1.81f53825e13b2p-5);(0x1.e38189374bc6ap+7);(0x1.6c7ae147ae148p+3);(0);(0x1.6c7ae147ae148p+3);(0);(-0x1.cd3ae685db76bp+0);(-75);(-0x1.cd3ae685db76bp+0)]);
(81480%Z, [(-0x1.0528f5c28f5c3p+5);(-0x1.4204189374bc7p+3);(-0x1.a86e978d4fdf4p+4);(0x1.1db53f7ced917p+6);(0);(0x1.1872b020c49bap+1);(0x1.1db53f7ced917p+6);(0x1.1872b020c49bap+1);(-0x1.13f79d288ce70p+15);(0);(-0x1.13f79d288ce70p+15);(-0x1.ee98036c71177p-6);(0);(0);(0x1.816f0068db8bbp-5);(0);(0x1.816f0068db8bbp-5);(0x1.e2e1cac083127p+7);(0x1.6b851eb851eb8p+3);(0);(0x1.6b851eb851eb8p+3);(0);(-0x1.7a0ba1f4b1ee2p+0);(-75);(-0x1.7a0ba1f4b1ee2p+0)]);
(81540%Z, [(-0x1.5504189374bc7p+5);(-0x1.5a2d0e5604189p+3);(-0x1.7e72b020c49bap+4);(0x1.1e178d4fdf3b6p+6);(0);(-0x1.74ccccccccccdp+2);(0x1.1e178d4fdf3b6p+6);(-0x1.74ccccccccccdp+2);(-0x1.b7ca38f084620p+15);(0);(-0x1.b7ca38f084620p+15);(-0x1.b8033162ce815p-6);(0);(0);(0x1.80f776c4827b7p-5);(0);(0x1.80f776c4827b7p-5);(0x1.e253f7ced9168p+7);(0x1.6aa7ef9db22d1p+3);(0);(0x1.6aa7ef9db22d1p+3);(0);(-0x1.2e62cba732df5p+1);(-75);(-0x1.2e62cba732df5p+1)]);
(81600%Z, [(-0x1.c27ef9db22d0ep+5);(-0x1.e50e560418937p+3);(-0x1.6353f7ced9168p+4);(0x1.5db645a1cac08p+6);(0);(-0x1.9010624dd2f1bp+2);(0x1.5db645a1cac08p+6);(-0x1.9010624dd2f1bp+2);(-0x1.33cb15e3fbbd8p+16);(0);(-0x1.33cb15e3fbbd8p+16);(-0x1.85411d00c1c6ep-6);(0);(0);(0x1.808c8259e1f3ap-5);(0);(0x1.808c8259e1f3ap-5);(0x1.e1d604189374cp+7);(0x1.69e353f7ced91p+3);(0);(0x1.69e353f7ced91p+3);(0);(-0x1.a9c2e33eff195p+1);(-75);(-0x1.a9c2e33eff195p+1)]);
(81660%Z, [(-0x1.01b4395810625p+6);(-0x1.ddba5e353f7cfp+3);(-0x1.1b53f7ced9168p+4);(0x1.83c5a1cac0831p+6);(0);(-0x1.e76c8b4395810p-4);(0x1.83c5a1cac0831p+6);(-0x1.e76c8b4395810p-4);(-0x1.3578d822bbecbp+16);(0);(-0x1.3578d822bbecbp+16);(-0x1.1dcfa9760595cp-6);(0);(0);(0x1.803cd141a6938p-5);(0);(0x1.803cd141a6938p-5);(0x1.e17ae147ae148p+7);(0x1.695810624dd2fp+3);(0);(0x1.695810624dd2fp+3);(0);(-0x1.ad47ae147ae14p+1);(-75);(-0x1.ad47ae147ae14p+1)]);
(81720%Z, [(-0x1.02e24dd2f1aa0p+6);(-0x1.f6e147ae147aep+3);(-0x1.168b439581062p+4);(0x1.8227ef9db22d1p+6);(0);(-0x1.4e978d4fdf3b6p+0);(0x1.8227ef9db22d1p+6);(-0x1.4e978d4fdf3b6p+0);(-0x1.47db532617c1cp+16);(0);(-0x1.47db532617c1cp+16);(-0x1.181ea506b525ep-6);(0);(0);(0x1.7fef39085f4a1p-5);(0);(0x1.7fef39085f4a1p-5);(0x1.e120c49ba5e35p+7);(0x1.68ccccccccccdp+3);(0);(0x1.68ccccccccccdp+3);(0);(-0x1.c792e1ef73c0cp+1);(-75);(-0x1.c792e1ef73c0cp+1)]);
(81780%Z, [(-0x1.0acbc6a7ef9dbp+6);(-0x1.23be76c8b4396p+4);(-0x1.2accccccccccdp+4);(0x1.911db22d0e560p+6);(0);(-0x1.a9fbe76c8b439p+1);(0x1.911db22d0e560p+6);(-0x1.a9fbe76c8b439p+1);(-0x1.76a8d9426fe72p+16);(0);(-0x1.76a8d9426fe72p+16);(-0x1.2e2023e1dc7e7p-6);(0);(0);(0x1.7f9d6f112fd33p-5);(0);(0x1.7f9d6f112fd33p-5);(0x1.e0c0000000000p+7);(0x1.683126e978d50p+3);(0);(0x1.683126e978d50p+3);(0);(-0x1.0525460aa64c3p+2);(-75);(-0x1.0525460aa64c3p+2)]);
(81840%Z, [(-0x1.08dc28f5c28f6p+6);(-0x1.a147ae147ae14p+3);(-0x1.e7f7ced916873p+3);(0x1.9570a3d70a3d7p+6);(0);(0x1.b6d916872b021p+2);(0x1.9570a3d70a3d7p+6);(0x1.b6d916872b021p+2);(-0x1.163b81fbe76c9p+16);(0);(-0x1.163b81fbe76c9p+16);(-0x1.cb96ac545c4dbp-7);(0);(0);(0x1.7f5c6c11a1123p-5);(0);(0x1.7f5c6c11a1123p-5);(0x1.e076c8b439581p+7);(0x1.67be76c8b4396p+3);(0);(0x1.67be76c8b4396p+3);(0);(-0x1.83991bc558644p+1);(-75);(-0x1.83991bc558644p+1)]);
(81900%Z, [(-0x1.06926e978d4fep+6);(-0x1.ad6872b020c4ap+3);(-0x1.1af1a9fbe76c9p+4);(0x1.729cac083126fp+6);(0);(-0x1.05e353f7ced91p+2);(0x1.729cac083126fp+6);(-0x1.05e353f7ced91p+2);(-0x1.4fc87fe32a066p+16);(0);(-0x1.4fc87fe32a066p+16);(-0x1.222442299b2efp-6);(0);(0);(0x1.7f0cbaf965b21p-5);(0);(0x1.7f0cbaf965b21p-5);(0x1.e01999999999ap+7);(0x1.672b020c49ba6p+3);(0);(0x1.672b020c49ba6p+3);(0);(-0x1.d4663c74fb54ap+1);(-75);(-0x1.d4663c74fb54ap+1)]);
(81960%Z, [(-0x1.087df3b645a1dp+6);(-0x1.d11eb851eb852p+3);(-0x1.08d0e56041893p+4);(0x1.8dba5e353f7cfp+6);(0);(0x1.1c8b439581062p+1);(0x1.8dba5e353f7cfp+6);(0x1.1c8b439581062p+1);(-0x1.308625ba0a527p+16);(0);(-0x1.308625ba0a527p+16);(-0x1.0340062a6685fp-6);(0);(0);(0x1.7ec3547e06962p-5);(0);(0x1.7ec3547e06962p-5);(0x1.dfc6a7ef9db23p+7);(0x1.66b020c49ba5ep+3);(0);(0x1.66b020c49ba5ep+3);(0);(-0x1.a9ad42c3c9eedp+1);(-75);(-0x1.a9ad42c3c9eedp+1)]);
(82020%Z, [(-0x1.0a4dd2f1a9fbep+6);(-0x1.c25604189374cp+3);(-0x1.0845a1cac0831p+4);(0x1.804395810624ep+6);(0);(-0x1.199999999999ap+0);(0x1.804395810624ep+6);(-0x1.199999999999ap+0);(-0x1.3fff143222920p+16);(0);(-0x1.3fff143222920p+16);(-0x1.0667ce1a7fb31p-6);(0);(0);(0x1.7e7c06e19b90fp-5);(0);(0x1.7e7c06e19b90fp-5);(0x1.df72b020c49bap+7);(0x1.662d0e5604189p+3);(0);(0x1.662d0e5604189p+3);(0);(-0x1.bfc9eecbfb15bp+1);(-75);(-0x1.bfc9eecbfb15bp+1)]);
(82080%Z, [(-0x1.0b9a9fbe76c8bp+6);(-0x1.c333333333333p+3);(-0x1.31df3b645a1cbp+4);(0x1.8b48b43958106p+6);(0);(-0x1.4c49ba5e353f8p+0);(0x1.8b48b43958106p+6);(-0x1.4c49ba5e353f8p+0);(-0x1.523edc2d8c2a4p+16);(0);(-0x1.523edc2d8c2a4p+16);(-0x1.3947745dcae16p-6);(0);(0);(0x1.7e23f24d8fd5dp-5);(0);(0x1.7e23f24d8fd5dp-5);(0x1.df0d4fdf3b646p+7);(0x1.6589374bc6a7fp+3);(0);(0x1.6589374bc6a7fp+3);(0);(-0x1.da8ac5c13fd0dp+1);(-75);(-0x1.da8ac5c13fd0dp+1)]);
(82140%Z, [(-0x1.0e66666666666p+6);(-0x1.45a1cac083127p+3);(-0x1.2b6c8b4395810p+4);(0x1.8d0e560418937p+6);(0);(0x1.63126e978d4fep+1);(0x1.8d0e560418937p+6);(0x1.63126e978d4fep+1);(-0x1.2b3c9edbb59dep+16);(0);(-0x1.2b3c9edbb59dep+16);(-0x1.307b327b525bcp-6);(0);(0);(0x1.7dd00f776c482p-5);(0);(0x1.7dd00f776c482p-5);(0x1.deab020c49ba6p+7);(0x1.64f5c28f5c28fp+3);(0);(0x1.64f5c28f5c28fp+3);(0);(-0x1.a43c9eecbfb16p+1);(-75);(-0x1.a43c9eecbfb16p+1)]);
(82200%Z, [(-0x1.134083126e979p+6);(-0x1.f449ba5e353f8p+2);(-0x1.37cac083126e9p+4);(0x1.7dda1cac08312p+6);(0);(-0x1.4ed916872b021p-1);(0x1.7dda1cac08312p+6);(-0x1.4ed916872b021p-1);(-0x1.346efe8fb00bdp+16);(0);(-0x1.346efe8fb00bdp+16);(-0x1.44d34e712734ap-6);(0);(0);(0x1.7d75e2046c765p-5);(0);(0x1.7d75e2046c765p-5);(0x1.de4189374bc6ap+7);(0x1.6451eb851eb85p+3);(0);(0x1.6451eb851eb85p+3);(0);(-0x1.b1b2d4d4024b3p+1);(-75);(-0x1.b1b2d4d4024b3p+1)]);
(82260%Z, [(-0x1.1600000000000p+6);(-0x1.fdf3b645a1cacp+0);(-0x1.a420c49ba5e35p+4);(0x1.8552f1a9fbe77p+6);(0);(-0x1.ac083126e978dp-2);(0x1.8552f1a9fbe77p+6);(-0x1.ac083126e978dp-2);(-0x1.3a510a8e0c9dap+16);(0);(-0x1.3a510a8e0c9dap+16);(-0x1.cf3cff0ee951fp-6);(0);(0);(0x1.7cf80dc33721dp-5);(0);(0x1.7cf80dc33721dp-5);(0x1.dda9fbe76c8b4p+7);(0x1.636c8b4395810p+3);(0);(0x1.636c8b4395810p+3);(0);(-0x1.bb5158b827fa2p+1);(-75);(-0x1.bb5158b827fa2p+1)]);
(82320%Z, [(-0x1.1e0e560418937p+6);(0x1.1e5604189374cp+1);(-0x1.d8b851eb851ecp+4);(0x1.89020c49ba5e3p+6);(0);(-0x1.2353f7ced9168p-1);(0x1.89020c49ba5e3p+6);(-0x1.2353f7ced9168p-1);(-0x1.42532edbb59dep+16);(0);(-0x1.42532edbb59dep+16);(-0x1.093bb33475529p-5);(0);(0);(0x1.7c6540cc78e9fp-5);(0);(0x1.7c6540cc78e9fp-5);(0x1.dcfb645a1cac1p+7);(0x1.625e353f7ced9p+3);(0);(0x1.625e353f7ced9p+3);(0);(-0x1.c8115df6555c5p+1);(-75);(-0x1.c8115df6555c5p+1)]);
(82380%Z, [(-0x1.232f1a9fbe76dp+6);(0x1.b126e978d4fdfp-2);(-0x1.9a10624dd2f1bp+4);(0x1.8b52f1a9fbe77p+6);(0);(0x1.a8f5c28f5c28fp-1);(0x1.8b52f1a9fbe77p+6);(0x1.a8f5c28f5c28fp-1);(-0x1.36a7cb37c99afp+16);(0);(-0x1.36a7cb37c99afp+16);(-0x1.c0b2e316bb2d7p-6);(0);(0);(0x1.7beb9e492bc30p-5);(0);(0x1.7beb9e492bc30p-5);(0x1.dc67ef9db22d1p+7);(0x1.61810624dd2f2p+3);(0);(0x1.61810624dd2f2p+3);(0);(-0x1.b8956c0d6f545p+1);(-75);(-0x1.b8956c0d6f545p+1)]);
(82440%Z, [(-0x1.255d2f1a9fbe7p+6);(-0x1.995810624dd2fp+0);(-0x1.71c28f5c28f5cp+4);(0x1.872f1a9fbe76dp+6);(0);(-0x1.04189374bc6a8p-2);(0x1.872f1a9fbe76dp+6);(-0x1.04189374bc6a8p-2);(-0x1.3a3909ff2e48fp+16);(0);(-0x1.3a3909ff2e48fp+16);(-0x1.8dbbb5226128ep-6);(0);(0);(0x1.7b7c7820a30dbp-5);(0);(0x1.7b7c7820a30dbp-5);(0x1.dbe5604189375p+7);(0x1.60bc6a7ef9db2p+3);(0);(0x1.60bc6a7ef9db2p+3);(0);(-0x1.be93f290abb45p+1);(-75);(-0x1.be93f290abb45p+1)]);
(82500%Z, [(-0x1.2689374bc6a7fp+6);(-0x1.010624dd2f1aap-1);(-0x1.4a6a7ef9db22dp+4);(0x1.84ef9db22d0e5p+6);(0);(0x1.39374bc6a7efap+1);(0x1.84ef9db22d0e5p+6);(0x1.39374bc6a7efap+1);(-0x1.17d19ef2a5a47p+16);(0);(-0x1.17d19ef2a5a47p+16);(-0x1.5b6bcc00f4f28p-6);(0);(0);(0x1.7b1c0010c6f7ap-5);(0);(0x1.7b1c0010c6f7ap-5);(0x1.db74395810625p+7);(0x1.6010624dd2f1bp+3);(0);(0x1.6010624dd2f1bp+3);(0);(-0x1.8e2291fb3fa6ep+1);(-75);(-0x1.8e2291fb3fa6ep+1)]);
(82560%Z, [(-0x1.1178d4fdf3b64p+6);(0x1.10624dd2f1aa0p-2);(-0x1.4fc6a7ef9db23p+4);(0x1.6f23d70a3d70ap+6);(0);(0x1.5916872b020c5p+1);(0x1.6f23d70a3d70ap+6);(0x1.5916872b020c5p+1);(-0x1.e3cf0e50c5eb3p+15);(0);(-0x1.e3cf0e50c5eb3p+15);(-0x1.684e3d4fc1b44p-6);(0);(0);(0x1.7ab7564302b41p-5);(0);(0x1.7ab7564302b41p-5);(0x1.dafe76c8b4396p+7);(0x1.5f5c28f5c28f6p+3);(0);(0x1.5f5c28f5c28f6p+3);(0);(-0x1.585681ecd4aa1p+1);(-75);(-0x1.585681ecd4aa1p+1)]);
(82620%Z, [(-0x1.9ef9db22d0e56p+5);(-0x1.3cccccccccccdp+1);(-0x1.933b645a1cac1p+4);(0x1.51e353f7ced91p+6);(0);(0x1.3b020c49ba5e3p+2);(0x1.51e353f7ced91p+6);(0x1.3b020c49ba5e3p+2);(-0x1.595f23886594bp+15);(0);(-0x1.595f23886594bp+15);(-0x1.c7490a0a1a0a4p-6);(0);(0);(0x1.7a398201cd5fap-5);(0);(0x1.7a398201cd5fap-5);(0x1.da6872b020c4ap+7);(0x1.5e76c8b439581p+3);(0);(0x1.5e76c8b439581p+3);(0);(-0x1.ebc2b94d94079p+0);(-75);(-0x1.ebc2b94d94079p+0)]);
(82680%Z, [(-0x1.0a6e978d4fdf4p+5);(-0x1.6189374bc6a7fp+2);(-0x1.f34395810624ep+4);(0x1.23fdf3b645a1dp+6);(0);(0x1.7ba5e353f7ceep+1);(0x1.23fdf3b645a1dp+6);(0x1.7ba5e353f7ceep+1);(-0x1.05f1b5f06f694p+15);(0);(-0x1.05f1b5f06f694p+15);(-0x1.278c3b622bc43p-5);(0);(0);(0x1.799806f262889p-5);(0);(0x1.799806f262889p-5);(0x1.d9a45a1cac083p+7);(0x1.5d4fdf3b645a2p+3);(0);(0x1.5d4fdf3b645a2p+3);(0);(-0x1.7564d7f0ed3d8p+0);(-75);(-0x1.7564d7f0ed3d8p+0)]);
(82740%Z, [(-0x1.6ab4395810625p+4);(-0x1.7b22d0e560419p+2);(-0x1.fe624dd2f1aa0p+4);(0x1.00a0c49ba5e35p+6);(0);(0x1.d4fdf3b645a1dp+1);(0x1.00a0c49ba5e35p+6);(0x1.d4fdf3b645a1dp+1);(-0x1.3dc61c193b3a7p+14);(0);(-0x1.3dc61c193b3a7p+14);(-0x1.32e2a09e9b8c1p-5);(0);(0);(0x1.78ee286727568p-5);(0);(0x1.78ee286727568p-5);(0x1.d8d89374bc6a8p+7);(0x1.5c189374bc6a8p+3);(0);(0x1.5c189374bc6a8p+3);(0);(-0x1.c5bc01a36e2ebp-1);(-75);(-0x1.c5bc01a36e2ebp-1)]);
(82800%Z, [(-0x1.130624dd2f1aap+4);(-0x1.b8c49ba5e353fp+2);(-0x1.fd6872b020c4ap+4);(0x1.bd978d4fdf3b6p+5);(0);(-0x1.b851eb851eb85p-3);(0x1.bd978d4fdf3b6p+5);(-0x1.b851eb851eb85p-3);(-0x1.49e2c63497b74p+14);(0);(-0x1.49e2c63497b74p+14);(-0x1.3614af3993f57p-5);(0);(0);(0x1.784230fcf80dcp-5);(0);(0x1.784230fcf80dcp-5);(0x1.d80ac083126e9p+7);(0x1.5ae147ae147aep+3);(0);(0x1.5ae147ae147aep+3);(0);(-0x1.d82fd75e2046cp-1);(-75);(-0x1.d82fd75e2046cp-1)]);
(82860%Z, [(-0x1.3d4fdf3b645a2p+4);(-0x1.02b020c49ba5ep+1);(-0x1.95374bc6a7efap+4);(0x1.9ca5e353f7ceep+5);(0);(0x1.19a9fbe76c8b4p+2);(0x1.9ca5e353f7ceep+5);(0x1.19a9fbe76c8b4p+2);(-0x1.4948bc9bc7714p+12);(0);(-0x1.4948bc9bc7714p+12);(-0x1.e856b64520f16p-6);(0);(0);(0x1.77b9e060fe47ap-5);(0);(0x1.77b9e060fe47ap-5);(0x1.d768f5c28f5c3p+7);(0x1.59f3b645a1cacp+3);(0);(0x1.59f3b645a1cacp+3);(0);(-0x1.d7f62b6ae7d56p-3);(-75);(-0x1.d7f62b6ae7d56p-3)]);
(82920%Z, [(-0x1.9bced916872b0p+4);(0x1.ec8b439581062p+1);(-0x1.97ae147ae147bp+3);(0x1.34851eb851eb8p+5);(-0x1.b645a1cac0831p-3);(0x1.dc49ba5e353f8p+1);(0x1.34851eb851eb8p+5);(0x1.dc49ba5e353f8p+1);(0);(0);(0);(-0x1.da58d17d60a8ep-7);(0x1.8f3135d7fe2e4p-6);(0);(0x1.7ec3547e06962p-5);(0);(0x1.7ec3547e06962p-5);(0x1.d6ae978d4fdf4p+7);(0x1.5fdf3b645a1cbp+3);(0);(0x1.5fdf3b645a1cbp+3);(0x1.374bc6a7ef9dbp-6);(0);(-75);(0)]);
(82980%Z, [(-0x1.0bc6a7ef9db23p+5);(0x1.80624dd2f1aa0p+2);(-0x1.0b5c28f5c28f6p+3);(0x1.1de5604189375p+5);(-0x1.c6a7ef9db22d1p-3);(-0x1.3a5e353f7ced9p-2);(0x1.1de5604189375p+5);(-0x1.3a5e353f7ced9p-2);(0);(0);(0);(-0x1.26aa4e47b6a2fp-7);(0x1.c4b9e391097d3p-6);(0);(0x1.85814940bbb1fp-5);(0);(0x1.85814940bbb1fp-5);(0x1.d6926e978d4fep+7);(0x1.65fbe76c8b439p+3);(0);(0x1.65fbe76c8b439p+3);(0x1.0624dd2f1a9fcp-7);(0);(-75);(0)]);
(83040%Z, [(-0x1.7bd4fdf3b645ap+5);(0x1.674bc6a7ef9dbp+2);(-0x1.1b33333333333p+3);(0x1.67d916872b021p+5);(-0x1.df3b645a1cac1p-3);(-0x1.7de353f7ced91p+2);(0x1.67d916872b021p+5);(-0x1.7de353f7ced91p+2);(-0x1.2739e57fb6998p+14);(0);(-0x1.2739e57fb6998p+14);(-0x1.2bf86be1fb5d3p-7);(0);(0);(0x1.9040bfe3b03e2p-5);(0);(0x1.9040bfe3b03e2p-5);(0x1.d1c0000000000p+7);(0x1.6c189374bc6a8p+3);(0);(0x1.6c189374bc6a8p+3);(0);(-0x1.927fa1a0cf180p-1);(-75);(-0x1.927fa1a0cf180p-1)]);
(83100%Z, [(-0x1.a74dd2f1a9fbep+5);(0x1.125e353f7ced9p+2);(-0x1.bc395810624ddp+2);(0x1.b5ba5e353f7cfp+5);(-0x1.f7ced916872b0p-3);(-0x1.18d4fdf3b645ap+0);(0x1.b5ba5e353f7cfp+5);(-0x1.18d4fdf3b645ap+0);(-0x1.64ecce924f228p+14);(0);(-0x1.64ecce924f228p+14);(-0x1.9488b8a0c5ddcp-8);(0);(0);(0x1.a0817fc7607c4p-5);(0);(0x1.a0817fc7607c4p-5);(0x1.c732b020c49bap+7);(0x1.724dd2f1a9fbep+3);(0);(0x1.724dd2f1a9fbep+3);(0);(-0x1.deeb702602c91p-1);(-75);(-0x1.deeb702602c91p-1)]);
(83160%Z, [(-0x1.b1916872b020cp+5);(0x1.324dd2f1a9fbep+2);(-0x1.a6c8b43958106p+2);(0x1.b6f3b645a1cacp+5);(0);(-0x1.25a1cac083127p+0);(0x1.b6f3b645a1cacp+5);(-0x1.25a1cac083127p+0);(-0x1.a5774baf10236p+14);(0);(-0x1.a5774baf10236p+14);(-0x1.74dc75e22f5f9p-8);(0);(0);(0x1.a0620ab713272p-5);(0);(0x1.a0620ab713272p-5);(0x1.c71ba5e353f7dp+7);(0x1.721cac083126fp+3);(0);(0x1.721cac083126fp+3);(0);(-0x1.1b06a2b1704ffp+0);(-75);(-0x1.1b06a2b1704ffp+0)]);
(83220%Z, [(-0x1.c01a9fbe76c8bp+5);(0x1.6989374bc6a7fp+2);(-0x1.b22d0e5604189p+2);(0x1.c43d70a3d70a4p+5);(0);(-0x1.3c6a7ef9db22dp-1);(0x1.c43d70a3d70a4p+5);(-0x1.3c6a7ef9db22dp-1);(-0x1.c83fd56eac860p+14);(0);(-0x1.c83fd56eac860p+14);(-0x1.7cf370a584896p-8);(0);(0);(0x1.a04295a6c5d20p-5);(0);(0x1.a04295a6c5d20p-5);(0x1.c704189374bc7p+7);(0x1.71eb851eb851fp+3);(0);(0x1.71eb851eb851fp+3);(0);(-0x1.32acd9e83e426p+0);(-75);(-0x1.32acd9e83e426p+0)]);
(83280%Z, [(-0x1.cfdf3b645a1cbp+5);(0x1.7cfdf3b645a1dp+2);(-0x1.aaf1a9fbe76c9p+2);(0x1.d00e560418937p+5);(0);(-0x1.64dd2f1a9fbe7p-1);(0x1.d00e560418937p+5);(-0x1.64dd2f1a9fbe7p-1);(-0x1.ef6e3888f861ap+14);(0);(-0x1.ef6e3888f861ap+14);(-0x1.6e26a42e9df82p-8);(0);(0);(0x1.a0232096787cfp-5);(0);(0x1.a0232096787cfp-5);(0x1.c6ed916872b02p+7);(0x1.71c28f5c28f5cp+3);(0);(0x1.71c28f5c28f5cp+3);(0);(-0x1.4d475a31a4bdcp+0);(-75);(-0x1.4d475a31a4bdcp+0)]);
(83340%Z, [(-0x1.e0a1cac083127p+5);(0x1.654fdf3b645a2p+2);(-0x1.849ba5e353f7dp+2);(0x1.df9ba5e353f7dp+5);(0);(-0x1.3c6a7ef9db22dp-1);(0x1.df9ba5e353f7dp+5);(-0x1.3c6a7ef9db22dp-1);(-0x1.0916ea79bbadcp+15);(0);(-0x1.0916ea79bbadcp+15);(-0x1.351bc0a5cd03bp-8);(0);(0);(0x1.a007dd4413554p-5);(0);(0x1.a007dd4413554p-5);(0x1.c6dba5e353f7dp+7);(0x1.719999999999ap+3);(0);(0x1.719999999999ap+3);(0);(-0x1.64ec41dd1a21fp+0);(-75);(-0x1.64ec41dd1a21fp+0)]);
(83400%Z, [(-0x1.e0e147ae147aep+5);(0x1.a810624dd2f1bp+1);(-0x1.c51eb851eb852p+0);(0x1.de624dd2f1aa0p+5);(-0x1.b645a1cac0831p-3);(0x1.045a1cac08312p+0);(0x1.de624dd2f1aa0p+5);(0x1.045a1cac08312p+0);(-0x1.d8f9a9ccb7d41p+14);(0);(-0x1.d8f9a9ccb7d41p+14);(0x1.8f85ef6db691dp-11);(0);(0);(0x1.b068123810e88p-5);(0);(0x1.b068123810e88p-5);(0x1.bd3c6a7ef9db2p+7);(0x1.78083126e978dp+3);(0);(0x1.78083126e978dp+3);(0);(-0x1.38e0221426fe7p+0);(-75);(-0x1.38e0221426fe7p+0)]);
(83460%Z, [(-0x1.e426e978d4fdfp+5);(0x1.226e978d4fdf4p+1);(0x1.ab851eb851eb8p+0);(0x1.a6db22d0e5604p+5);(0x1.3333333333333p-3);(-0x1.c9374bc6a7efap+1);(0x1.a6db22d0e5604p+5);(-0x1.c9374bc6a7efap+1);(-0x1.7eb3abc408d8fp+14);(0);(-0x1.7eb3abc408d8fp+14);(0x1.38f76d5f53f88p-8);(0);(0);(0x1.b0079a2834d27p-5);(0);(0x1.b0079a2834d27p-5);(0x1.c5645a1cac083p+7);(0x1.7e978d4fdf3b6p+3);(0);(0x1.7e978d4fdf3b6p+3);(0);(-0x1.f1148fd9fd36fp-1);(-75);(-0x1.f1148fd9fd36fp-1)]);
(83520%Z, [(-0x1.f1e147ae147aep+5);(0x1.453f7ced91687p+1);(0x1.23b645a1cac08p+1);(0x1.baf7ced916873p+5);(0);(-0x1.05a1cac083127p+1);(0x1.baf7ced916873p+5);(-0x1.05a1cac083127p+1);(-0x1.f1b2b497b7415p+14);(0);(-0x1.f1b2b497b7415p+14);(0x1.74fe2ec48e8fdp-8);(0);(0);(0x1.b01c92ddbdb5ep-5);(0);(0x1.b01c92ddbdb5ep-5);(0x1.c585a1cac0831p+7);(0x1.7ec083126e979p+3);(0);(0x1.7ec083126e979p+3);(0);(-0x1.4366516db0dd8p+0);(-75);(-0x1.4366516db0dd8p+0)]);
(83580%Z, [(-0x1.035c28f5c28f6p+6);(0x1.66a7ef9db22d1p+1);(0x1.3d70a3d70a3d7p+1);(0x1.d16872b020c4ap+5);(0);(-0x1.61cac083126e9p+0);(0x1.d16872b020c4ap+5);(-0x1.61cac083126e9p+0);(-0x1.1fb4af9db22d1p+15);(0);(-0x1.1fb4af9db22d1p+15);(0x1.905c03361565cp-8);(0);(0);(0x1.b033a4723ab00p-5);(0);(0x1.b033a4723ab00p-5);(0x1.c5a978d4fdf3bp+7);(0x1.7ef1a9fbe76c9p+3);(0);(0x1.7ef1a9fbe76c9p+3);(0);(-0x1.75e4a38327675p+0);(-75);(-0x1.75e4a38327675p+0)]);
(83640%Z, [(-0x1.0d89374bc6a7fp+6);(0x1.15e353f7ced91p+1);(0x1.e3126e978d4fep+0);(0x1.f04fdf3b645a2p+5);(0);(-0x1.4978d4fdf3b64p+0);(0x1.f04fdf3b645a2p+5);(-0x1.4978d4fdf3b64p+0);(-0x1.43e69a97e132bp+15);(0);(-0x1.43e69a97e132bp+15);(0x1.6ded6e57f762dp-8);(0);(0);(0x1.b0468448cf7cbp-5);(0);(0x1.b0468448cf7cbp-5);(0x1.c5ca3d70a3d71p+7);(0x1.7f22d0e560419p+3);(0);(0x1.7f22d0e560419p+3);(0);(-0x1.a50d0678c0054p+0);(-75);(-0x1.a50d0678c0054p+0)]);
(83700%Z, [(-0x1.142e147ae147bp+6);(0x1.5ac083126e979p+1);(0x1.310624dd2f1aap+1);(0x1.003645a1cac08p+6);(0);(0x1.999999999999ap-4);(0x1.003645a1cac08p+6);(0x1.999999999999ap-4);(-0x1.4116e6b3bb83dp+15);(0);(-0x1.4116e6b3bb83dp+15);(0x1.9ef6a5b93799ap-8);(0);(0);(0x1.b05faebc408d9p-5);(0);(0x1.b05faebc408d9p-5);(0x1.c5ee978d4fdf4p+7);(0x1.7f53f7ced9168p+3);(0);(0x1.7f53f7ced9168p+3);(0);(-0x1.a13e81450efddp+0);(-75);(-0x1.a13e81450efddp+0)]);
(83760%Z, [(-0x1.1bc189374bc6ap+6);(0x1.dc28f5c28f5c3p+1);(0x1.a26e978d4fdf4p+1);(0x1.f749ba5e353f8p+5);(0x1.70a3d70a3d70ap-3);(-0x1.b7ced916872b0p-1);(0x1.f749ba5e353f8p+5);(-0x1.b7ced916872b0p-1);(-0x1.593ec8548a9bdp+15);(0);(-0x1.593ec8548a9bdp+15);(0x1.e6151d48903cap-8);(0);(0);(0x1.be878fabda0e0p-5);(0);(0x1.be878fabda0e0p-5);(0x1.c2d1eb851eb85p+7);(0x1.892f1a9fbe76dp+3);(0);(0x1.892f1a9fbe76dp+3);(0);(-0x1.b56abde3fbbd8p+0);(-75);(-0x1.b56abde3fbbd8p+0)]);
(83820%Z, [(-0x1.2495810624dd3p+6);(0x1.de978d4fdf3b6p+1);(0x1.a47ae147ae148p+1);(0x1.023a5e353f7cfp+6);(0x1.0624dd2f1a9fcp-4);(-0x1.804189374bc6ap+0);(0x1.023a5e353f7cfp+6);(-0x1.804189374bc6ap+0);(-0x1.83726a2b17050p+15);(0);(-0x1.83726a2b17050p+15);(0x1.f1cdb82f30f01p-8);(0);(0);(0x1.c3526527a2058p-5);(0);(0x1.c3526527a2058p-5);(0x1.c1ef9db22d0e5p+7);(0x1.8c9ba5e353f7dp+3);(0);(0x1.8c9ba5e353f7dp+3);(0);(-0x1.e6f694467381dp+0);(-75);(-0x1.e6f694467381dp+0)]);
(83880%Z, [(-0x1.2d83126e978d5p+6);(0x1.15f3b645a1cacp+2);(0x1.e0e5604189375p+1);(0x1.0ac5a1cac0831p+6);(0);(-0x1.2b851eb851eb8p-1);(0x1.0ac5a1cac0831p+6);(-0x1.2b851eb851eb8p-1);(-0x1.93e5e5dcc63f1p+15);(0);(-0x1.93e5e5dcc63f1p+15);(0x1.1173db4408ee6p-7);(0);(0);(0x1.c373f316e3715p-5);(0);(0x1.c373f316e3715p-5);(0x1.c21c28f5c28f6p+7);(0x1.8ce5604189375p+3);(0);(0x1.8ce5604189375p+3);(0);(-0x1.fb7fe08aefb2bp+0);(-75);(-0x1.fb7fe08aefb2bp+0)]);
(83940%Z, [(-0x1.3822d0e560419p+6);(0x1.554fdf3b645a2p+2);(0x1.1a0c49ba5e354p+2);(0x1.0e7df3b645a1dp+6);(0);(-0x1.570a3d70a3d71p-1);(0x1.0e7df3b645a1dp+6);(-0x1.570a3d70a3d71p-1);(-0x1.a6c030053e2d6p+15);(0);(-0x1.a6c030053e2d6p+15);(0x1.2e6b62cf830a9p-7);(0);(0);(0x1.c399b2c40d0abp-5);(0);(0x1.c399b2c40d0abp-5);(0x1.c24d4fdf3b646p+7);(0x1.8d2f1a9fbe76dp+3);(0);(0x1.8d2f1a9fbe76dp+3);(0);(-0x1.0977318fc5048p+1);(-75);(-0x1.0977318fc5048p+1)]);
(84000%Z, [(-0x1.295d2f1a9fbe7p+6);(0x1.703126e978d50p+2);(0x1.0e353f7ced917p+2);(0x1.0d1cac083126fp+6);(0);(0x1.74dd2f1a9fbe7p+1);(0x1.0d1cac083126fp+6);(0x1.74dd2f1a9fbe7p+1);(-0x1.54d376501e258p+15);(0);(-0x1.54d376501e258p+15);(0x1.26103501698c9p-7);(0);(0);(0x1.c3bd5992428d4p-5);(0);(0x1.c3bd5992428d4p-5);(0x1.c27c6a7ef9db2p+7);(0x1.8d78d4fdf3b64p+3);(0);(0x1.8d78d4fdf3b64p+3);(0);(-0x1.ab63b256ffc11p+0);(-75);(-0x1.ab63b256ffc11p+0)]);
(84060%Z, [(-0x1.a7db22d0e5604p+5);(0x1.ee978d4fdf3b6p+1);(0x1.716872b020c4ap+0);(0x1.bfccccccccccdp+5);(0);(0x1.099999999999ap+3);(0x1.bfccccccccccdp+5);(0x1.099999999999ap+3);(-0x1.ad8a8044284e0p+13);(0);(-0x1.ad8a8044284e0p+13);(0x1.37d2d5248a230p-8);(0);(0);(0x1.c3cc07aaef2c7p-5);(0);(0x1.c3cc07aaef2c7p-5);(0x1.c29916872b021p+7);(0x1.8da1cac083127p+3);(0);(0x1.8da1cac083127p+3);(0);(-0x1.0c45cbbc2b94ep-1);(-75);(-0x1.0c45cbbc2b94ep-1)]);
(84120%Z, [(-0x1.c9e76c8b43958p+4);(-0x1.378d4fdf3b646p+1);(-0x1.46e978d4fdf3bp+2);(0x1.328d4fdf3b646p+5);(0);(0x1.14395810624ddp+1);(0x1.328d4fdf3b646p+5);(0x1.14395810624ddp+1);(-0x1.757efe878fabep+12);(0);(-0x1.757efe878fabep+12);(-0x1.2ccf96d69badap-8);(0);(0);(0x1.c3b0c4588a04dp-5);(0);(0x1.c3b0c4588a04dp-5);(0x1.c28a3d70a3d71p+7);(0x1.8d78d4fdf3b64p+3);(0);(0x1.8d78d4fdf3b64p+3);(0);(-0x1.d1c193b3a68b2p-3);(-75);(-0x1.d1c193b3a68b2p-3)]);
(84180%Z, [(-0x1.60ed916872b02p+4);(-0x1.3b126e978d4fep+2);(-0x1.d0624dd2f1aa0p+2);(0x1.16ac083126e98p+5);(-0x1.28f5c28f5c28fp-3);(0x1.cdd2f1a9fbe77p-2);(0x1.16ac083126e98p+5);(0x1.cdd2f1a9fbe77p-2);(-0x1.100ad657fb69ap+12);(0);(-0x1.100ad657fb69ap+12);(-0x1.eb8925831c54ap-8);(0);(0);(0x1.d640e9d51b4fep-5);(0);(0x1.d640e9d51b4fep-5);(0x1.be6f1a9fbe76dp+7);(0x1.9a04189374bc7p+3);(0);(0x1.9a04189374bc7p+3);(0);(-0x1.48c3f3e0370cep-3);(-75);(-0x1.48c3f3e0370cep-3)]);
(84240%Z, [(-0x1.39604189374bcp+4);(-0x1.665604189374cp+2);(-0x1.05374bc6a7efap+3);(0x1.0ad2f1a9fbe77p+5);(-0x1.0d4fdf3b645a2p-2);(-0x1.072b020c49ba6p-2);(0x1.0ad2f1a9fbe77p+5);(-0x1.072b020c49ba6p-2);(-0x1.49dfaee631f8ap+12);(0);(-0x1.49dfaee631f8ap+12);(-0x1.1c5b2a731b2abp-7);(0);(0);(0x1.f6d330941c821p-5);(0);(0x1.f6d330941c821p-5);(0x1.b809ba5e353f8p+7);(0x1.b028f5c28f5c3p+3);(0);(0x1.b028f5c28f5c3p+3);(0);(-0x1.7a43fe5c91d15p-3);(-75);(-0x1.7a43fe5c91d15p-3)]);
(84300%Z, [(-0x1.4d2b020c49ba6p+4);(-0x1.2947ae147ae14p+2);(-0x1.cd2f1a9fbe76dp+2);(0x1.0689374bc6a7fp+5);(-0x1.2b020c49ba5e3p-4);(0x1.22d0e56041893p-4);(0x1.0689374bc6a7fp+5);(0x1.22d0e56041893p-4);(-0x1.39fe1b5d89481p+12);(0);(-0x1.39fe1b5d89481p+12);(-0x1.e765297a77c05p-8);(0);(0);(0x1.00010c6f7a0b6p-4);(0);(0x1.00010c6f7a0b6p-4);(0x1.b64dd2f1a9fbep+7);(0x1.b64dd2f1a9fbep+3);(0);(0x1.b64dd2f1a9fbep+3);(0);(-0x1.630014f8b588ep-3);(-75);(-0x1.630014f8b588ep-3)]);
(84360%Z, [(-0x1.98f9db22d0e56p+4);(-0x1.1df3b645a1cacp+2);(-0x1.c3126e978d4fep+2);(0x1.0fa3d70a3d70ap+5);(-0x1.d2f1a9fbe76c9p-4);(-0x1.9e147ae147ae1p+1);(0x1.0fa3d70a3d70ap+5);(-0x1.9e147ae147ae1p+1);(-0x1.047c086ad2dcbp+14);(0);(-0x1.047c086ad2dcbp+14);(-0x1.d2ee4efd9414fp-8);(0);(0);(0x1.0df69878316a0p-4);(0);(0x1.0df69878316a0p-4);(0x1.b1a2d0e560419p+7);(0x1.c947ae147ae14p+3);(0);(0x1.c947ae147ae14p+3);(0);(-0x1.1a86d71f36263p-1);(-75);(-0x1.1a86d71f36263p-1)]);
(84420%Z, [(-0x1.159374bc6a7f0p+5);(-0x1.5a9fbe76c8b44p+2);(-0x1.447ae147ae148p+3);(0x1.56020c49ba5e3p+5);(-0x1.fbe76c8b43958p-6);(-0x1.e20c49ba5e354p+2);(0x1.56020c49ba5e3p+5);(-0x1.e20c49ba5e354p+2);(-0x1.56176689ca18cp+15);(0);(-0x1.56176689ca18cp+15);(-0x1.5547c5916f28bp-7);(0);(0);(0x1.1285a921ccd96p-4);(0);(0x1.1285a921ccd96p-4);(0x1.b016872b020c5p+7);(0x1.cf5c28f5c28f6p+3);(0);(0x1.cf5c28f5c28f6p+3);(0);(-0x1.6f25c3dee7818p+0);(-75);(-0x1.6f25c3dee7818p+0)]);
(84480%Z, [(-0x1.7270a3d70a3d7p+5);(-0x1.da3d70a3d70a4p+1);(-0x1.78b4395810625p+3);(0x1.bde353f7ced91p+5);(0);(-0x1.82f1a9fbe76c9p+2);(0x1.bde353f7ced91p+5);(-0x1.82f1a9fbe76c9p+2);(-0x1.0011f47991bc5p+16);(0);(-0x1.0011f47991bc5p+16);(-0x1.7a924262502c4p-7);(0);(0);(0x1.126527a20578ep-4);(0);(0x1.126527a20578ep-4);(0x1.aff2b020c49bap+7);(0x1.cef9db22d0e56p+3);(0);(0x1.cef9db22d0e56p+3);(0);(-0x1.13d566cf41f21p+1);(-75);(-0x1.13d566cf41f21p+1)]);
(84540%Z, [(-0x1.9e147ae147ae1p+5);(-0x1.25810624dd2f2p+1);(-0x1.b2147ae147ae1p+3);(0x1.fc3f7ced91687p+5);(0);(-0x1.05810624dd2f2p+2);(0x1.fc3f7ced91687p+5);(-0x1.05810624dd2f2p+2);(-0x1.39880f78feef6p+16);(0);(-0x1.39880f78feef6p+16);(-0x1.b1a1224f0a544p-7);(0);(0);(0x1.123f67f4dbdf9p-4);(0);(0x1.123f67f4dbdf9p-4);(0x1.afc7ae147ae14p+7);(0x1.ce8f5c28f5c29p+3);(0);(0x1.ce8f5c28f5c29p+3);(0);(-0x1.52af251c193b4p+1);(-75);(-0x1.52af251c193b4p+1)]);
(84600%Z, [(-0x1.b1df3b645a1cbp+5);(0x1.810624dd2f1aap-3);(-0x1.db6c8b4395810p+3);(0x1.0ce24dd2f1aa0p+6);(-0x1.4189374bc6a7fp-3);(-0x1.d70a3d70a3d71p+0);(0x1.0ce24dd2f1aa0p+6);(-0x1.d70a3d70a3d71p+0);(-0x1.53687b2fec56dp+16);(0);(-0x1.53687b2fec56dp+16);(-0x1.dc21690653d71p-7);(0);(0);(0x1.1a48b65237048p-4);(0);(0x1.1a48b65237048p-4);(0x1.a8e04189374bcp+7);(0x1.d47ae147ae148p+3);(0);(0x1.d47ae147ae148p+3);(0);(-0x1.6a5460aa64c30p+1);(-75);(-0x1.6a5460aa64c30p+1)]);
(84660%Z, [(-0x1.c25a1cac08312p+5);(-0x1.94fdf3b645a1dp+0);(-0x1.372b020c49ba6p+3);(0x1.0c0f5c28f5c29p+6);(-0x1.3d70a3d70a3d7p-3);(-0x1.7b645a1cac083p-1);(0x1.0c0f5c28f5c29p+6);(-0x1.7b645a1cac083p-1);(-0x1.5dd26b7f38c54p+16);(0);(-0x1.5dd26b7f38c54p+16);(-0x1.03cf57ec7b12fp-7);(0);(0);(0x1.225fa658c4bd3p-4);(0);(0x1.225fa658c4bd3p-4);(0x1.a273b645a1cacp+7);(0x1.daa7ef9db22d1p+3);(0);(0x1.daa7ef9db22d1p+3);(0);(-0x1.70b4e11dbca97p+1);(-75);(-0x1.70b4e11dbca97p+1)]);
(84720%Z, [(-0x1.d900000000000p+5);(-0x1.36c8b43958106p+2);(-0x1.c3b645a1cac08p+2);(0x1.0b9eb851eb852p+6);(-0x1.810624dd2f1aap-5);(-0x1.0b95810624dd3p+2);(0x1.0b9eb851eb852p+6);(-0x1.0b95810624dd3p+2);(-0x1.989dd84b5dcc6p+16);(0);(-0x1.989dd84b5dcc6p+16);(-0x1.22f44bc1ca654p-8);(0);(0);(0x1.2a80064a9cdc4p-4);(0);(0x1.2a80064a9cdc4p-4);(0x1.9c6e147ae147bp+7);(0x1.e0e5604189375p+3);(0);(0x1.e0e5604189375p+3);(0);(-0x1.a9873ffac1d2ap+1);(-75);(-0x1.a9873ffac1d2ap+1)]);
(84780%Z, [(-0x1.f01cac083126fp+5);(-0x1.1db22d0e56042p+2);(-0x1.dcdd2f1a9fbe7p+2);(0x1.171cac083126fp+6);(-0x1.74bc6a7ef9db2p-4);(-0x1.0f7ced916872bp+2);(0x1.171cac083126fp+6);(-0x1.0f7ced916872bp+2);(-0x1.d4455a5e353f8p+16);(0);(-0x1.d4455a5e353f8p+16);(-0x1.289e84bae543cp-8);(0);(0);(0x1.329f59ccfaeffp-4);(0);(0x1.329f59ccfaeffp-4);(0x1.96bae147ae148p+7);(0x1.e72b020c49ba6p+3);(0);(0x1.e72b020c49ba6p+3);(0);(-0x1.e2398201cd5fap+1);(-75);(-0x1.e2398201cd5fap+1)]);
(84840%Z, [(-0x1.ffeb851eb851fp+5);(-0x1.116872b020c4ap+2);(-0x1.4a9fbe76c8b44p+2);(0x1.1a84189374bc7p+6);(-0x1.2f1a9fbe76c8bp-4);(-0x1.6f9db22d0e560p+1);(0x1.1a84189374bc7p+6);(-0x1.6f9db22d0e560p+1);(-0x1.fca963c361134p+16);(0);(-0x1.fca963c361134p+16);(-0x1.654eb94b90a22p-10);(0);(0);(0x1.3edd8b60f1b26p-4);(0);(0x1.3edd8b60f1b26p-4);(0x1.8ec7ae147ae14p+7);(0x1.f0b4395810625p+3);(0);(0x1.f0b4395810625p+3);(0);(-0x1.012253111f0c3p+2);(-75);(-0x1.012253111f0c3p+2)]);
(84900%Z, [(-0x1.0a9eb851eb852p+6);(-0x1.27ae147ae147bp+2);(-0x1.473b645a1cac1p+2);(0x1.1a8f5c28f5c29p+6);(-0x1.26e978d4fdf3bp-5);(-0x1.722d0e5604189p+2);(0x1.1a8f5c28f5c29p+6);(-0x1.722d0e5604189p+2);(-0x1.2700c367a0f91p+17);(0);(-0x1.2700c367a0f91p+17);(-0x1.18f49898bda69p-10);(0);(0);(0x1.470435efa615bp-4);(0);(0x1.470435efa615bp-4);(0x1.89d374bc6a7f0p+7);(0x1.f7126e978d4fep+3);(0);(0x1.f7126e978d4fep+3);(0);(-0x1.26f640639d5e5p+2);(-75);(-0x1.26f640639d5e5p+2)]);
(84960%Z, [(-0x1.120d4fdf3b646p+6);(-0x1.7020c49ba5e35p+1);(-0x1.c604189374bc7p+1);(0x1.226353f7ced91p+6);(0);(-0x1.2b645a1cac083p+1);(0x1.226353f7ced91p+6);(-0x1.2b645a1cac083p+1);(-0x1.3772d6978d4fep+17);(0);(-0x1.3772d6978d4fep+17);(0x1.554dba480fe42p-10);(0);(0);(0x1.47000431bde83p-4);(0);(0x1.47000431bde83p-4);(0x1.89e147ae147aep+7);(0x1.f71a9fbe76c8bp+3);(0);(0x1.f71a9fbe76c8bp+3);(0);(-0x1.37dcf0307f23dp+2);(-75);(-0x1.37dcf0307f23dp+2)]);
(85020%Z, [(-0x1.1c4cccccccccdp+6);(-0x1.9020c49ba5e35p+1);(-0x1.c1cac083126e9p+1);(0x1.2589374bc6a7fp+6);(0);(-0x1.152f1a9fbe76dp+2);(0x1.2589374bc6a7fp+6);(-0x1.152f1a9fbe76dp+2);(-0x1.55e67f4bc6a7fp+17);(0);(-0x1.55e67f4bc6a7fp+17);(0x1.818b050146a70p-10);(0);(0);(0x1.46fbd273d5babp-4);(0);(0x1.46fbd273d5babp-4);(0x1.89ef1a9fbe76dp+7);(0x1.f72b020c49ba6p+3);(0);(0x1.f72b020c49ba6p+3);(0);(-0x1.56b463497b741p+2);(-75);(-0x1.56b463497b741p+2)]);
(85080%Z, [(-0x1.26a7ef9db22d1p+6);(-0x1.849ba5e353f7dp+1);(-0x1.a95810624dd2fp+1);(0x1.2d09374bc6a7fp+6);(0);(-0x1.30e5604189375p+2);(0x1.2d09374bc6a7fp+6);(-0x1.30e5604189375p+2);(-0x1.7765bb98c7e28p+17);(0);(-0x1.7765bb98c7e28p+17);(0x1.0e71ddbde0cbbp-9);(0);(0);(0x1.46f9b994e1a3fp-4);(0);(0x1.46f9b994e1a3fp-4);(0x1.89fef9db22d0ep+7);(0x1.f73b645a1cac1p+3);(0);(0x1.f73b645a1cac1p+3);(0);(-0x1.790917d6b65aap+2);(-75);(-0x1.790917d6b65aap+2)]);
(85140%Z, [(-0x1.2e0624dd2f1aap+6);(-0x1.46a7ef9db22d1p+1);(-0x1.6eb851eb851ecp+1);(0x1.3152f1a9fbe77p+6);(0);(-0x1.25f3b645a1cacp+2);(0x1.3152f1a9fbe77p+6);(-0x1.25f3b645a1cacp+2);(-0x1.97b04bcd35a86p+17);(0);(-0x1.97b04bcd35a86p+17);(0x1.7d08695b0d6cdp-9);(0);(0);(0x1.46fac6045baf5p-4);(0);(0x1.46fac6045baf5p-4);(0x1.8a10e56041893p+7);(0x1.f753f7ced9168p+3);(0);(0x1.f753f7ced9168p+3);(0);(-0x1.9a1a8ac5c13fdp+2);(-75);(-0x1.9a1a8ac5c13fdp+2)]);
(85200%Z, [(-0x1.367ae147ae148p+6);(-0x1.a4bc6a7ef9db2p+1);(-0x1.b7ef9db22d0e5p+1);(0x1.345d2f1a9fbe7p+6);(0);(-0x1.d04189374bc6ap+2);(0x1.345d2f1a9fbe7p+6);(-0x1.d04189374bc6ap+2);(-0x1.cab167dbf4880p+17);(0);(-0x1.cab167dbf4880p+17);(0x1.459433d417efbp-9);(0);(0);(0x1.46fac6045baf5p-4);(0);(0x1.46fac6045baf5p-4);(0x1.8a20c49ba5e35p+7);(0x1.f7645a1cac083p+3);(0);(0x1.f7645a1cac083p+3);(0);(-0x1.ce85b18548a9cp+2);(-75);(-0x1.ce85b18548a9cp+2)]);
(85260%Z, [(-0x1.40dc28f5c28f6p+6);(-0x1.ed0e560418937p+1);(-0x1.cb020c49ba5e3p+1);(0x1.34ef9db22d0e5p+6);(0);(-0x1.4d6872b020c4ap+3);(0x1.34ef9db22d0e5p+6);(-0x1.4d6872b020c4ap+3);(-0x1.09f9c669ad42cp+18);(0);(-0x1.09f9c669ad42cp+18);(0x1.63f26dc62c1ecp-9);(0);(0);(0x1.46fbd273d5babp-4);(0);(0x1.46fbd273d5babp-4);(0x1.8a3126e978d50p+7);(0x1.f77ced916872bp+3);(0);(0x1.f77ced916872bp+3);(0);(-0x1.0d342edbb59dep+3);(-75);(-0x1.0d342edbb59dep+3)]);
(85320%Z, [(-0x1.45a8f5c28f5c3p+6);(-0x1.b333333333333p-2);(-0x1.126e978d4fdf4p+0);(0x1.2ffef9db22d0ep+6);(0);(-0x1.ba6e978d4fdf4p+2);(0x1.2ffef9db22d0ep+6);(-0x1.ba6e978d4fdf4p+2);(-0x1.22477c0346dc6p+18);(0);(-0x1.22477c0346dc6p+18);(0x1.9d16a6b58be88p-8);(0);(0);(0x1.47064ece9a2c6p-4);(0);(0x1.47064ece9a2c6p-4);(0x1.8a4c49ba5e354p+7);(0x1.f7ae147ae147bp+3);(0);(0x1.f7ae147ae147bp+3);(0);(-0x1.26be37de939ebp+3);(-75);(-0x1.26be37de939ebp+3)]);
(85380%Z, [(-0x1.48d4fdf3b645ap+6);(0x1.93f7ced916873p+0);(0x1.645a1cac08312p-2);(0x1.2b3b645a1cac1p+6);(0);(-0x1.5e45a1cac0831p+2);(0x1.2b3b645a1cac1p+6);(-0x1.5e45a1cac0831p+2);(-0x1.358578faacd9fp+18);(0);(-0x1.358578faacd9fp+18);(0x1.0f495e98bca4ep-7);(0);(0);(0x1.471715c63ae25p-4);(0);(0x1.471715c63ae25p-4);(0x1.8a6d916872b02p+7);(0x1.f7f7ced916873p+3);(0);(0x1.f7f7ced916873p+3);(0);(-0x1.3abe0ded288cep+3);(-75);(-0x1.3abe0ded288cep+3)]);
(85440%Z, [(-0x1.350c49ba5e354p+6);(0x1.e872b020c49bap-1);(0x1.78d4fdf3b645ap-5);(0x1.249ba5e353f7dp+6);(0);(-0x1.8e147ae147ae1p+1);(0x1.249ba5e353f7dp+6);(-0x1.8e147ae147ae1p+1);(-0x1.407454d1b7176p+18);(0);(-0x1.407454d1b7176p+18);(0x1.08b6ddcd25374p-7);(0);(0);(0x1.4726d04e618cep-4);(0);(0x1.4726d04e618cep-4);(0x1.8a8dd2f1a9fbep+7);(0x1.f8395810624ddp+3);(0);(0x1.f8395810624ddp+3);(0);(-0x1.466516db0dd83p+3);(-75);(-0x1.466516db0dd83p+3)]);
(85500%Z, [(-0x1.e2db22d0e5604p+5);(0x1.ed0e560418937p-1);(-0x1.2353f7ced9168p-1);(0x1.270a3d70a3d71p+6);(0);(0x1.b9810624dd2f2p+3);(0x1.270a3d70a3d71p+6);(0x1.b9810624dd2f2p+3);(-0x1.0ff2976944674p+18);(0);(-0x1.0ff2976944674p+18);(0x1.da506e01904dfp-8);(0);(0);(0x1.47357e670e2c1p-4);(0);(0x1.47357e670e2c1p-4);(0x1.8aab851eb851fp+7);(0x1.f872b020c49bap+3);(0);(0x1.f872b020c49bap+3);(0);(-0x1.13e5de15ca6cap+3);(-75);(-0x1.13e5de15ca6cap+3)]);
(85560%Z, [(-0x1.470624dd2f1aap+5);(0x1.c7ae147ae147bp-1);(-0x1.1dd2f1a9fbe77p+1);(0x1.3274bc6a7ef9ep+6);(0);(0x1.1324dd2f1a9fcp+5);(0x1.3274bc6a7ef9ep+6);(0x1.1324dd2f1a9fcp+5);(-0x1.2e116676c8b44p+17);(0);(-0x1.2e116676c8b44p+17);(0x1.16339e122444ep-8);(0);(0);(0x1.4739b024f6599p-4);(0);(0x1.4739b024f6599p-4);(0x1.8ac083126e979p+7);(0x1.f89374bc6a7f0p+3);(0);(0x1.f89374bc6a7f0p+3);(0);(-0x1.2ea161e4f7660p+2);(-75);(-0x1.2ea161e4f7660p+2)]);
(85620%Z, [(-0x1.e6189374bc6a8p+4);(-0x1.13b645a1cac08p+2);(-0x1.266e978d4fdf4p+4);(0x1.0c51eb851eb85p+6);(0);(0x1.bfa5e353f7ceep+3);(0x1.0c51eb851eb85p+6);(0x1.bfa5e353f7ceep+3);(-0x1.9769e4f0d844dp+16);(0);(-0x1.9769e4f0d844dp+16);(-0x1.2a1cb415c6bbcp-6);(0);(0);(0x1.470110a137f39p-4);(0);(0x1.470110a137f39p-4);(0x1.8a90e56041893p+7);(0x1.f800000000000p+3);(0);(0x1.f800000000000p+3);(0);(-0x1.94f66a5508701p+1);(-75);(-0x1.94f66a5508701p+1)]);
(85680%Z, [(-0x1.a7ef9db22d0e5p+4);(-0x1.1f8d4fdf3b646p+3);(-0x1.778d4fdf3b646p+4);(0x1.f06a7ef9db22dp+5);(0);(0x1.8c8b439581062p+1);(0x1.f06a7ef9db22dp+5);(0x1.8c8b439581062p+1);(-0x1.6bda1b886594bp+16);(0);(-0x1.6bda1b886594bp+16);(-0x1.9cd4ccf66851ap-6);(0);(0);(0x1.46b484d76ab58p-4);(0);(0x1.46b484d76ab58p-4);(0x1.8a4ac083126e9p+7);(0x1.f733333333333p+3);(0);(0x1.f733333333333p+3);(0);(-0x1.69c58255b035cp+1);(-75);(-0x1.69c58255b035cp+1)]);
(85740%Z, [(-0x1.b5f3b645a1cacp+4);(-0x1.6410624dd2f1bp+3);(-0x1.37c28f5c28f5cp+4);(0x1.dd6e978d4fdf4p+5);(0);(0x1.b1a9fbe76c8b4p+0);(0x1.dd6e978d4fdf4p+5);(0x1.b1a9fbe76c8b4p+0);(-0x1.54075e89ca18cp+16);(0);(-0x1.54075e89ca18cp+16);(-0x1.4e21abcc4c1e6p-6);(0);(0);(0x1.46759ab6d00b4p-4);(0);(0x1.46759ab6d00b4p-4);(0x1.8a147ae147ae1p+7);(0x1.f6872b020c49cp+3);(0);(0x1.f6872b020c49cp+3);(0);(-0x1.52410b630a915p+1);(-75);(-0x1.52410b630a915p+1)]);
(85800%Z, [(-0x1.098b439581062p+5);(-0x1.ff9db22d0e560p+3);(-0x1.156872b020c4ap+4);(0x1.e124dd2f1a9fcp+5);(0);(-0x1.9810624dd2f1bp+2);(0x1.e124dd2f1a9fcp+5);(-0x1.9810624dd2f1bp+2);(-0x1.adb06f6fd21ffp+16);(0);(-0x1.adb06f6fd21ffp+16);(-0x1.20d19c3f66476p-6);(0);(0);(0x1.463cfb3311a54p-4);(0);(0x1.463cfb3311a54p-4);(0x1.89e6e978d4fdfp+7);(0x1.f5fbe76c8b439p+3);(0);(0x1.f5fbe76c8b439p+3);(0);(-0x1.ac8c9320d9946p+1);(-75);(-0x1.ac8c9320d9946p+1)]);
(85860%Z, [(-0x1.38e5604189375p+5);(-0x1.32872b020c49cp+4);(-0x1.034395810624ep+4);(0x1.0bb95810624ddp+6);(0);(-0x1.e2c083126e979p+2);(0x1.0bb95810624ddp+6);(-0x1.e2c083126e979p+2);(-0x1.0be1668a71de7p+17);(0);(-0x1.0be1668a71de7p+17);(-0x1.fad2c48885a01p-7);(0);(0);(0x1.460bb2bba98eep-4);(0);(0x1.460bb2bba98eep-4);(0x1.89c0000000000p+7);(0x1.f578d4fdf3b64p+3);(0);(0x1.f578d4fdf3b64p+3);(0);(-0x1.0c4a0e410b631p+2);(-75);(-0x1.0c4a0e410b631p+2)]);
(85920%Z, [(-0x1.66020c49ba5e3p+5);(-0x1.2a8b439581062p+4);(-0x1.dfef9db22d0e5p+3);(0x1.1db020c49ba5ep+6);(0);(-0x1.bf1a9fbe76c8bp+2);(0x1.1db020c49ba5ep+6);(-0x1.bf1a9fbe76c8bp+2);(-0x1.3d001ded288cep+17);(0);(-0x1.3d001ded288cep+17);(-0x1.b612b690f631fp-7);(0);(0);(0x1.45dfa871a3b15p-4);(0);(0x1.45dfa871a3b15p-4);(0x1.899eb851eb852p+7);(0x1.f50e560418937p+3);(0);(0x1.f50e560418937p+3);(0);(-0x1.3ea25d8d79d0ap+2);(-75);(-0x1.3ea25d8d79d0ap+2)]);
(85980%Z, [(-0x1.86ced916872b0p+5);(-0x1.fac8b43958106p+3);(-0x1.8bd70a3d70a3dp+3);(0x1.28fbe76c8b439p+6);(0);(-0x1.67ef9db22d0e5p+1);(0x1.28fbe76c8b439p+6);(-0x1.67ef9db22d0e5p+1);(-0x1.50c578ff97247p+17);(0);(-0x1.50c578ff97247p+17);(-0x1.3ac05ace82af7p-7);(0);(0);(0x1.45be1a8262457p-4);(0);(0x1.45be1a8262457p-4);(0x1.8988b43958106p+7);(0x1.f4bc6a7ef9db2p+3);(0);(0x1.f4bc6a7ef9db2p+3);(0);(-0x1.534f61672324dp+2);(-75);(-0x1.534f61672324dp+2)]);
(86040%Z, [(-0x1.8bd916872b021p+5);(-0x1.0dc28f5c28f5cp+4);(-0x1.9ae978d4fdf3bp+3);(0x1.2c4189374bc6ap+6);(0);(-0x1.077ced916872bp+2);(0x1.2c4189374bc6ap+6);(-0x1.077ced916872bp+2);(-0x1.6db85a0275254p+17);(0);(-0x1.6db85a0275254p+17);(-0x1.493e62665198ap-7);(0);(0);(0x1.459c8c9320d99p-4);(0);(0x1.459c8c9320d99p-4);(0x1.8971a9fbe76c9p+7);(0x1.f46a7ef9db22dp+3);(0);(0x1.f46a7ef9db22dp+3);(0);(-0x1.7126bf8769ec3p+2);(-75);(-0x1.7126bf8769ec3p+2)]);
(86100%Z, [(-0x1.89978d4fdf3b6p+5);(-0x1.0dba5e353f7cfp+4);(-0x1.90b4395810625p+3);(0x1.3148b43958106p+6);(0);(-0x1.20e5604189375p+1);(0x1.3148b43958106p+6);(-0x1.20e5604189375p+1);(-0x1.7d97d34a2339cp+17);(0);(-0x1.7d97d34a2339cp+17);(-0x1.32c132e5b0738p-7);(0);(0);(0x1.457c0b1359792p-4);(0);(0x1.457c0b1359792p-4);(0x1.895c28f5c28f6p+7);(0x1.f420c49ba5e35p+3);(0);(0x1.f420c49ba5e35p+3);(0);(-0x1.81f36262cba73p+2);(-75);(-0x1.81f36262cba73p+2)]);
(86160%Z, [(-0x1.870e560418937p+5);(-0x1.0d53f7ced9168p+4);(-0x1.8e872b020c49cp+3);(0x1.32a0c49ba5e35p+6);(0);(-0x1.83126e978d4fep+0);(0x1.32a0c49ba5e35p+6);(-0x1.83126e978d4fep+0);(-0x1.8839d3c9eecc0p+17);(0);(-0x1.8839d3c9eecc0p+17);(-0x1.2d10da42d7152p-7);(0);(0);(0x1.455c96030c240p-4);(0);(0x1.455c96030c240p-4);(0x1.89472b020c49cp+7);(0x1.f3d70a3d70a3dp+3);(0);(0x1.f3d70a3d70a3dp+3);(0);(-0x1.8d23f67f4dbe0p+2);(-75);(-0x1.8d23f67f4dbe0p+2)]);
(86220%Z, [(-0x1.88c28f5c28f5cp+5);(-0x1.0b4fdf3b645a2p+4);(-0x1.86d916872b021p+3);(0x1.33e6666666666p+6);(0);(-0x1.0a7ef9db22d0ep+0);(0x1.33e6666666666p+6);(-0x1.0a7ef9db22d0ep+0);(-0x1.8f8b2573eab36p+17);(0);(-0x1.8f8b2573eab36p+17);(-0x1.2004d82bfb867p-7);(0);(0);(0x1.453e2d6238da4p-4);(0);(0x1.453e2d6238da4p-4);(0x1.8933333333333p+7);(0x1.f38d4fdf3b646p+3);(0);(0x1.f38d4fdf3b646p+3);(0);(-0x1.950092ccf6be3p+2);(-75);(-0x1.950092ccf6be3p+2)]);
(86280%Z, [(-0x1.88916872b020cp+5);(-0x1.fced916872b02p+3);(-0x1.73ced916872b0p+3);(0x1.345b22d0e5604p+6);(0);(0x1.fae147ae147aep-2);(0x1.345b22d0e5604p+6);(0x1.fae147ae147aep-2);(-0x1.8c10e2f837b4ap+17);(0);(-0x1.8c10e2f837b4ap+17);(-0x1.065a8d1450192p-7);(0);(0);(0x1.4521dda059a74p-4);(0);(0x1.4521dda059a74p-4);(0x1.8921cac083127p+7);(0x1.f34bc6a7ef9dbp+3);(0);(0x1.f34bc6a7ef9dbp+3);(0);(-0x1.91adc0980b242p+2);(-75);(-0x1.91adc0980b242p+2)]);
(86340%Z, [(-0x1.887ae147ae148p+5);(-0x1.07b645a1cac08p+4);(-0x1.81a1cac083127p+3);(0x1.30f9db22d0e56p+6);(-0x1.6666666666666p-3);(-0x1.8624dd2f1a9fcp+0);(0x1.30f9db22d0e56p+6);(-0x1.8624dd2f1a9fcp+0);(-0x1.96c79ef694467p+17);(0);(-0x1.96c79ef694467p+17);(-0x1.192c20f03a902p-7);(0);(0);(0x1.4feef5ec80c74p-4);(0);(0x1.4feef5ec80c74p-4);(0x1.812872b020c4ap+7);(0x1.f96872b020c4ap+3);(0);(0x1.f96872b020c4ap+3);(0);(-0x1.978f9b13165d4p+2);(-75);(-0x1.978f9b13165d4p+2)]);
(86400%Z, [(-0x1.8a2b020c49ba6p+5);(-0x1.026a7ef9db22dp+4);(-0x1.7828f5c28f5c3p+3);(0x1.29ccccccccccdp+6);(-0x1.51eb851eb851fp-3);(-0x1.722d0e5604189p+1);(0x1.29ccccccccccdp+6);(-0x1.722d0e5604189p+1);(-0x1.ab1d1a5aee632p+17);(0);(-0x1.ab1d1a5aee632p+17);(-0x1.09dd0e0d89d66p-7);(0);(0);(0x1.5abd1aa821f2ap-4);(0);(0x1.5abd1aa821f2ap-4);(0x1.79b126e978d50p+7);(0x1.ff8d4fdf3b646p+3);(0);(0x1.ff8d4fdf3b646p+3);(0);(-0x1.a72599ed7c6fcp+2);(-75);(-0x1.a72599ed7c6fcp+2)]);
(86460%Z, [(-0x1.8f5e353f7ced9p+5);(-0x1.0e395810624ddp+4);(-0x1.809ba5e353f7dp+3);(0x1.25fced916872bp+6);(0);(-0x1.553f7ced91687p+2);(0x1.25fced916872bp+6);(-0x1.553f7ced91687p+2);(-0x1.d09aa941205bcp+17);(0);(-0x1.d09aa941205bcp+17);(-0x1.0f5a1016ce78ap-7);(0);(0);(0x1.5a9da597d49d8p-4);(0);(0x1.5a9da597d49d8p-4);(0x1.79a147ae147aep+7);(0x1.ff4bc6a7ef9dbp+3);(0);(0x1.ff4bc6a7ef9dbp+3);(0);(-0x1.cd50dae3e6c4cp+2);(-75);(-0x1.cd50dae3e6c4cp+2)]);
(86520%Z, [(-0x1.90978d4fdf3b6p+5);(-0x1.e1374bc6a7efap+3);(-0x1.509374bc6a7f0p+3);(0x1.20c7ae147ae14p+6);(-0x1.25e353f7ced91p-2);(-0x1.dc49ba5e353f8p+1);(0x1.20c7ae147ae14p+6);(-0x1.dc49ba5e353f8p+1);(-0x1.eac43f381d7dcp+17);(0);(-0x1.eac43f381d7dcp+17);(-0x1.92525288381d5p-8);(0);(0);(0x1.705b7cfe58601p-4);(0);(0x1.705b7cfe58601p-4);(0x1.6c1999999999ap+7);(0x1.05f3b645a1cacp+4);(0);(0x1.05f3b645a1cacp+4);(0);(-0x1.dc3c74fb549f9p+2);(-75);(-0x1.dc3c74fb549f9p+2)]);
(86580%Z, [(-0x1.8df7ced916873p+5);(-0x1.920c49ba5e354p+3);(-0x1.1b9db22d0e560p+3);(0x1.17624dd2f1aa0p+6);(0);(-0x1.53b645a1cac08p+0);(0x1.17624dd2f1aa0p+6);(-0x1.53b645a1cac08p+0);(-0x1.f418e2c083127p+17);(0);(-0x1.f418e2c083127p+17);(-0x1.04f2ae07e5a79p-8);(0);(0);(0x1.704577d955715p-4);(0);(0x1.704577d955715p-4);(0x1.6c189374bc6a8p+7);(0x1.05e353f7ced91p+4);(0);(0x1.05e353f7ced91p+4);(0);(-0x1.e5a8826aa8eb4p+2);(-75);(-0x1.e5a8826aa8eb4p+2)]);
(86640%Z, [(-0x1.94ae147ae147bp+5);(-0x1.62e978d4fdf3bp+3);(-0x1.32978d4fdf3b6p+3);(0x1.15e04189374bcp+6);(-0x1.f3b645a1cac08p-5);(-0x1.d99999999999ap+0);(0x1.15e04189374bcp+6);(-0x1.d99999999999ap+0);(-0x1.008d35cc63f14p+18);(0);(-0x1.008d35cc63f14p+18);(-0x1.3ce9c04d8d7c8p-8);(0);(0);(0x1.75a31a4bdba0ap-4);(0);(0x1.75a31a4bdba0ap-4);(0x1.68f4395810625p+7);(0x1.076872b020c4ap+4);(0);(0x1.076872b020c4ap+4);(0);(-0x1.efa3c21187e7cp+2);(-75);(-0x1.efa3c21187e7cp+2)]);
(86700%Z, [(-0x1.8cc8b43958106p+5);(-0x1.79374bc6a7efap+2);(-0x1.f6a7ef9db22d1p+2);(0x1.0fd810624dd2fp+6);(-0x1.34395810624ddp-2);(0x1.14083126e978dp+2);(0x1.0fd810624dd2fp+6);(0x1.14083126e978dp+2);(-0x1.e2c6aae147ae1p+17);(0);(-0x1.e2c6aae147ae1p+17);(-0x1.5ca3c4ebace1dp-9);(0);(0);(0x1.85f17bd8be729p-4);(0);(0x1.85f17bd8be729p-4);(0x1.601a9fbe76c8bp+7);(0x1.0c28f5c28f5c3p+4);(0);(0x1.0c28f5c28f5c3p+4);(0);(-0x1.c9955714b9cb7p+2);(-75);(-0x1.c9955714b9cb7p+2)]);
(86760%Z, [(-0x1.874bc6a7ef9dbp+5);(-0x1.d2f1a9fbe76c9p+2);(-0x1.b883126e978d5p+2);(0x1.0a3126e978d50p+6);(0);(0x1.ba9fbe76c8b44p+1);(0x1.0a3126e978d50p+6);(0x1.ba9fbe76c8b44p+1);(-0x1.ca76c35a85879p+17);(0);(-0x1.ca76c35a85879p+17);(-0x1.c9cb908caa9ddp-10);(0);(0);(0x1.85dfa871a3b15p-4);(0);(0x1.85dfa871a3b15p-4);(0x1.60224dd2f1aa0p+7);(0x1.0c24dd2f1a9fcp+4);(0);(0x1.0c24dd2f1a9fcp+4);(0);(-0x1.b1a415f45e0b5p+2);(-75);(-0x1.b1a415f45e0b5p+2)]);
(86820%Z, [(-0x1.90a1cac083127p+5);(-0x1.4b2b020c49ba6p+3);(-0x1.0f6c8b4395810p+3);(0x1.07ccccccccccdp+6);(-0x1.fbe76c8b43958p-4);(-0x1.8ac083126e979p+1);(0x1.07ccccccccccdp+6);(-0x1.8ac083126e979p+1);(-0x1.e025d102de00dp+17);(0);(-0x1.e025d102de00dp+17);(-0x1.f3605f6641fe5p-9);(0);(0);(0x1.90b1feeb2d0a2p-4);(0);(0x1.90b1feeb2d0a2p-4);(0x1.5aa1cac083127p+7);(0x1.0f47ae147ae14p+4);(0);(0x1.0f47ae147ae14p+4);(0);(-0x1.c1192641b328bp+2);(-75);(-0x1.c1192641b328bp+2)]);
(86880%Z, [(-0x1.865810624dd2fp+5);(-0x1.6820c49ba5e35p+2);(-0x1.861cac083126fp+3);(0x1.ff49ba5e353f8p+5);(-0x1.449ba5e353f7dp-2);(-0x1.822d0e5604189p+1);(0x1.ff49ba5e353f8p+5);(-0x1.822d0e5604189p+1);(-0x1.f55d41c779a6bp+17);(0);(-0x1.f55d41c779a6bp+17);(-0x1.11a1681a1ab36p-7);(0);(0);(0x1.a6612839042d9p-4);(0);(0x1.a6612839042d9p-4);(0x1.506f1a9fbe76dp+7);(0x1.1589374bc6a7fp+4);(0);(0x1.1589374bc6a7fp+4);(0);(-0x1.cac3f3e0370cep+2);(-75);(-0x1.cac3f3e0370cep+2)]);
(86940%Z, [(-0x1.5b22d0e560419p+5);(0x1.8395810624dd3p+0);(-0x1.0c4189374bc6ap+4);(0x1.e6d70a3d70a3dp+5);(-0x1.c28f5c28f5c29p-1);(0x1.54bc6a7ef9db2p+0);(0x1.e6d70a3d70a3dp+5);(0x1.54bc6a7ef9db2p+0);(-0x1.ec015ba92a305p+17);(0);(-0x1.ec015ba92a305p+17);(-0x1.cecbeafa8a4a4p-7);(0);(0);(0x1.c16f0068db8bbp-4);(0);(0x1.c16f0068db8bbp-4);(0x1.4509374bc6a7fp+7);(0x1.1d4fdf3b645a2p+4);(0);(0x1.1d4fdf3b645a2p+4);(0);(-0x1.b5a176ddaceeep+2);(-75);(-0x1.b5a176ddaceeep+2)]);
(87000%Z, [(-0x1.059ba5e353f7dp+5);(0x1.c1db22d0e5604p+2);(-0x1.9fbe76c8b4396p+3);(0x1.bfb645a1cac08p+5);(-0x1.699999999999ap+1);(0x1.cf33333333333p+3);(0x1.bfb645a1cac08p+5);(0x1.cf33333333333p+3);(-0x1.863975a1cac08p+17);(0);(-0x1.863975a1cac08p+17);(-0x1.3f1137e0c1f73p-7);(0);(0);(0x1.015e39713ad5cp-3);(0);(0x1.015e39713ad5cp-3);(0x1.2ebef9db22d0ep+7);(0x1.305e353f7ced9p+4);(0);(0x1.305e353f7ced9p+4);(0);(-0x1.43dcf0307f23dp+2);(-75);(-0x1.43dcf0307f23dp+2)]);
(87060%Z, [(-0x1.82b4395810625p+4);(0x1.9374bc6a7ef9ep+3);(-0x1.fbf7ced916873p+3);(0x1.6e0a3d70a3d71p+5);(-0x1.0ed916872b021p+2);(0x1.c2d916872b021p+3);(0x1.6e0a3d70a3d71p+5);(0x1.c2d916872b021p+3);(-0x1.2329b6978d4fep+17);(0);(-0x1.2329b6978d4fep+17);(-0x1.df6a73bc3a587p-7);(0);(0);(0x1.324f227d028a2p-3);(0);(0x1.324f227d028a2p-3);(0x1.163ef9db22d0ep+7);(0x1.4ced916872b02p+4);(0);(0x1.4ced916872b02p+4);(0);(-0x1.b6bc947064ecfp+1);(-75);(-0x1.b6bc947064ecfp+1)]);
(87120%Z, [(-0x1.4b9db22d0e560p+4);(0x1.d1e353f7ced91p+3);(-0x1.22978d4fdf3b6p+4);(0x1.1dd70a3d70a3dp+5);(-0x1.5a1cac083126fp+2);(0x1.7f9db22d0e560p+2);(0x1.1dd70a3d70a3dp+5);(0x1.7f9db22d0e560p+2);(-0x1.f20a8d70a3d71p+16);(0);(-0x1.f20a8d70a3d71p+16);(-0x1.2d8e990a7d877p-6);(0);(0);(0x1.6e0d23d4f15e8p-3);(0);(0x1.6e0d23d4f15e8p-3);(0x1.013ef9db22d0ep+7);(0x1.6fd70a3d70a3dp+4);(0);(0x1.6fd70a3d70a3dp+4);(0);(-0x1.529b7bf1e8e61p+1);(-75);(-0x1.529b7bf1e8e61p+1)]);
(87180%Z, [(-0x1.34d916872b021p+4);(0x1.8c3126e978d50p+3);(-0x1.ec20c49ba5e35p+3);(0x1.bffbe76c8b439p+4);(-0x1.9c7ae147ae148p+2);(-0x1.7e76c8b439581p-1);(0x1.bffbe76c8b439p+4);(-0x1.7e76c8b439581p-1);(-0x1.fc8bded288ce7p+16);(0);(-0x1.fc8bded288ce7p+16);(-0x1.f9bc99f9bbc34p-7);(0);(0);(0x1.bf811f4f50a03p-3);(0);(0x1.bf811f4f50a03p-3);(0x1.db7be76c8b439p+6);(0x1.9f95810624dd3p+4);(0);(0x1.9f95810624dd3p+4);(0);(-0x1.318adab9f559bp+1);(-75);(-0x1.318adab9f559bp+1)]);
(87240%Z, [(-0x1.493b645a1cac1p+4);(0x1.a87ae147ae148p+3);(-0x1.025604189374cp+4);(0x1.76e5604189375p+4);(-0x1.b2d0e56041893p+2);(-0x1.b47ae147ae148p+2);(0x1.76e5604189375p+4);(-0x1.b47ae147ae148p+2);(-0x1.2e3a443611340p+17);(-0x1.e93d88b75ea68p+12);(-0x1.3d84307c84b5ep+17);(-0x1.0d4c18dd46979p-6);(0);(0);(0x1.0000000000000p-2);(0x1.ba3443d46b26cp-7);(0x1.0dd1a21ea3593p-2);(0x1.bdab020c49ba6p+6);(0x1.bda9fbe76c8b4p+4);(0x1.810624dd2f1aap+0);(0x1.d5ba5e353f7cfp+4);(0);(-0x1.52c7b890d5a5cp+1);(-0x1.3d7d6b65a9a80p+1);(-0x1.51b0dd82fd75ep+1)]);
(87300%Z, [(-0x1.875c28f5c28f6p+4);(0x1.17be76c8b4396p+3);(-0x1.989374bc6a7f0p+3);(0x1.ba5e353f7ced9p+5);(-0x1.a6872b020c49cp+2);(0x1.435810624dd2fp+4);(0x1.9fdf3b645a1cbp+3);(-0x1.6174bc6a7ef9ep+4);(-0x1.700021355475ap+16);(0);(-0x1.700021355475ap+16);(-0x1.dfd8983210737p-7);(0x1.bb6627d22c074p-2);(0);(0x1.0000000000000p-2);(0x1.ec80c73abc947p-7);(0x1.0f640639d5e4ap-2);(0x1.e823d70a3d70ap+6);(0x1.e824dd2f1a9fcp+4);(0x1.d5810624dd2f2p+0);(0x1.02be76c8b4396p+5);(0);(-0x1.774c6e6d9be4dp+0);(0);(-0x1.61e8e60807358p+0)]);
(87360%Z, [(-0x1.ef22d0e560419p+4);(0x1.c189374bc6a7fp+2);(-0x1.267ef9db22d0ep+4);(0x1.7c04189374bc7p+5);(-0x1.b916872b020c5p+1);(0x1.ba9fbe76c8b44p+0);(0x1.7b4bc6a7ef9dbp+3);(-0x1.0f5e353f7ced9p+5);(-0x1.929b077318fc5p+16);(0);(-0x1.929b077318fc5p+16);(-0x1.5d5728dbc15c5p-6);(0x1.673c37beb32e9p-2);(0);(0x1.079ee02a77a2dp-2);(0);(0x1.079ee02a77a2dp-2);(0x1.05f9db22d0e56p+7);(0x1.0dc6a7ef9db23p+5);(0);(0x1.0dc6a7ef9db23p+5);(0);(-0x1.7381d7dbf4880p+0);(-75);(-0x1.7381d7dbf4880p+0)]);
(87420%Z, [(-0x1.037ef9db22d0ep+5);(0x1.0dfbe76c8b439p+3);(-0x1.2f5810624dd2fp+4);(0x1.43810624dd2f2p+5);(-0x1.0b126e978d4fep+2);(-0x1.ac6a7ef9db22dp+2);(0x1.e3851eb851eb8p+3);(-0x1.002d0e5604189p+5);(-0x1.1b3270ff97247p+17);(-0x1.582fe90364389p+12);(-0x1.25f3f04816f00p+17);(-0x1.5fba857778b27p-6);(0x1.d187b4bfbac08p-3);(0);(0x1.0000000000000p-2);(0x1.87ad080b673c5p-7);(0x1.0c3d68405b39ep-2);(0x1.0cc10624dd2f2p+7);(0x1.0cc083126e979p+5);(0x1.9b22d0e560419p+0);(0x1.199999999999ap+5);(0);(-0x1.066ca03c4b09fp+1);(-0x1.a0ee8d10f51adp+0);(-0x1.03f67f4dbdf8fp+1)]);
(87480%Z, [(-0x1.eae5604189375p+4);(0x1.d322d0e560419p+2);(-0x1.61e353f7ced91p+3);(0x1.1322d0e560419p+5);(-0x1.f3b645a1cac08p-1);(-0x1.0624dd2f1a9fcp+0);(0x1.1a3126e978d50p+4);(-0x1.1c7ae147ae148p+4);(-0x1.405467b7e9100p+17);(-0x1.34ec9529fe005p+12);(-0x1.49fbcc60aa64cp+17);(-0x1.650b320d435f8p-7);(0x1.1b3739fdfd9c5p-3);(0);(0x1.0000000000000p-2);(0x1.105e1c15097c8p-7);(0x1.0882f0e0a84bep-2);(0x1.138dd2f1a9fbep+7);(0x1.138d4fdf3b646p+5);(0x1.251eb851eb852p+0);(0x1.1cb645a1cac08p+5);(0);(-0x1.21f06f6944674p+1);(-0x1.06d0917d6b65bp+1);(-0x1.2110f51ac9afep+1)]);
(87540%Z, [(-0x1.e3d70a3d70a3dp+4);(0x1.8322d0e560419p+2);(-0x1.c6147ae147ae1p+2);(0x1.a8189374bc6a8p+5);(-0x1.32f1a9fbe76c9p+1);(0x1.353f7ced91687p+4);(0x1.e4ac083126e98p+3);(-0x1.28978d4fdf3b6p+4);(-0x1.147a877318fc5p+17);(0);(-0x1.147a877318fc5p+17);(-0x1.874025b4f0623p-8);(0x1.14a1a0a424e2ep-2);(0);(0x1.0000000000000p-2);(0x1.07b784662bae0p-7);(0x1.083dbc23315d7p-2);(0x1.1d170a3d70a3dp+7);(0x1.1d16872b020c5p+5);(0x1.25a1cac083127p+0);(0x1.264395810624ep+5);(0);(-0x1.e38476f2a5a47p+0);(0);(-0x1.d4562e09fe868p+0)]);
(87600%Z, [(-0x1.125604189374cp+5);(0x1.c1374bc6a7efap+2);(-0x1.c978d4fdf3b64p+3);(0x1.e8b645a1cac08p+5);(-0x1.3020c49ba5e35p+2);(0x1.d89ba5e353f7dp+3);(0x1.566e978d4fdf4p+3);(-0x1.1cf1a9fbe76c9p+5);(-0x1.6c212927913e8p+16);(0);(-0x1.6c212927913e8p+16);(-0x1.108b687e6e9afp-6);(0x1.1666244c3a963p-1);(0);(0x1.0000000000000p-2);(0x1.06a2b1704ff43p-7);(0x1.0835158b827fap-2);(0x1.2e0cccccccccdp+7);(0x1.2e0c49ba5e354p+5);(0x1.35c28f5c28f5cp+0);(0x1.37bc6a7ef9db2p+5);(0);(-0x1.2bc01a36e2eb2p+0);(0);(-0x1.2267620ee8d11p+0)]);
(87660%Z, [(-0x1.1e4bc6a7ef9dbp+5);(0x1.a04189374bc6ap+2);(-0x1.f43126e978d50p+3);(0x1.8789374bc6a7fp+5);(-0x1.eae147ae147aep+1);(0x1.8b4395810624ep-3);(0x1.6666666666666p+3);(-0x1.2c645a1cac083p+5);(-0x1.8f94dbd3c3611p+16);(0);(-0x1.8f94dbd3c3611p+16);(-0x1.267143642dd1fp-6);(0x1.8da65fd0a0161p-2);(0);(0x1.0000000000000p-2);(0x1.4dad31fcd24e1p-7);(0x1.0a6d698fe6927p-2);(0x1.37b1a9fbe76c9p+7);(0x1.37b22d0e56042p+5);(0x1.9645a1cac0831p+0);(0x1.44645a1cac083p+5);(0);(-0x1.3ed86ec17ebafp+0);(0);(-0x1.325072085b185p+0)]);
(87720%Z, [(-0x1.25e353f7ced91p+5);(0x1.727ef9db22d0ep+2);(-0x1.d74bc6a7ef9dbp+3);(0x1.e028f5c28f5c3p+5);(-0x1.3b851eb851eb8p+2);(0x1.2d47ae147ae14p+3);(0x1.fbe76c8b43958p+2);(-0x1.555810624dd2fp+5);(-0x1.1ed2c5810624ep+16);(0);(-0x1.1ed2c5810624ep+16);(-0x1.19a9bf818aaf2p-6);(0x1.1fc5a840507d2p-1);(0);(0x1.0000000000000p-2);(0x1.e481f53825e14p-8);(0x1.079207d4e0978p-2);(0x1.4c08b43958106p+7);(0x1.4c083126e978dp+5);(0x1.3a1cac083126fp+0);(0x1.55db22d0e5604p+5);(0);(-0x1.ad14e3bcd35a8p-1);(0);(-0x1.a0b8cfbfc6541p-1)]);
(87780%Z, [(-0x1.3b24dd2f1a9fcp+5);(0x1.4a4dd2f1a9fbep+2);(-0x1.35d70a3d70a3dp+4);(0x1.f349ba5e353f8p+5);(-0x1.6083126e978d5p+2);(0x1.a74bc6a7ef9dbp+1);(0x1.884189374bc6ap+2);(-0x1.a7ccccccccccdp+5);(-0x1.06e639426fe72p+16);(0);(-0x1.06e639426fe72p+16);(-0x1.7a2f3b56ee236p-6);(0x1.36f6ead87b81bp-1);(0);(0x1.0000000000000p-2);(0x1.c2f405f6ba062p-8);(0x1.070bd017dae82p-2);(0x1.5e6c8b4395810p+7);(0x1.5e6c8b4395810p+5);(0x1.34bc6a7ef9db2p+0);(0x1.68126e978d4fep+5);(0);(-0x1.74816f0068db9p-1);(0);(-0x1.6a8049667b5f2p-1)]);
(87840%Z, [(-0x1.3d1a9fbe76c8bp+5);(0x1.677ced916872bp+2);(-0x1.1fd2f1a9fbe77p+4);(0x1.bcd70a3d70a3dp+5);(-0x1.e353f7ced9168p+2);(-0x1.fa7ef9db22d0ep+1);(0x1.9ad0e56041893p+2);(-0x1.a924dd2f1a9fcp+5);(-0x1.56cb0098b2e9dp+16);(0);(-0x1.56cb0098b2e9dp+16);(-0x1.5d8ab5253b4dep-6);(0x1.0fc312e4b41f3p-1);(0);(0x1.0000000000000p-2);(0x1.46d3f9e7b80aap-6);(0x1.146d3f9e7b80bp-2);(0x1.6503126e978d5p+7);(0x1.65020c49ba5e3p+5);(0x1.c7ced916872b0p+1);(0x1.817ef9db22d0ep+5);(0);(-0x1.dd1394317acc5p-1);(0);(-0x1.b9b7bf1e8e608p-1)]);
(87900%Z, [(-0x1.31c49ba5e353fp+5);(0x1.8916872b020c5p+2);(-0x1.90dd2f1a9fbe7p+3);(0x1.67ac083126e98p+5);(-0x1.2c6a7ef9db22dp+2);(-0x1.15d2f1a9fbe77p+2);(0x1.e0b4395810625p+2);(-0x1.4e4fdf3b645a2p+5);(-0x1.a4a1ede69ad43p+16);(0);(-0x1.a4a1ede69ad43p+16);(-0x1.d7cdc748a9671p-7);(0x1.9dcf36b4720d1p-2);(0);(0x1.0000000000000p-2);(0x1.eab367a0f9097p-6);(0x1.1eab367a0f909p-2);(0x1.694c49ba5e354p+7);(0x1.694bc6a7ef9dbp+5);(0x1.5a3d70a3d70a4p+2);(0x1.9495810624dd3p+5);(0x1.0624dd2f1a9fcp-10);(-0x1.216e58a32f449p+0);(0);(-0x1.025b9628cbd12p+0)]);
(87960%Z, [(-0x1.2cced916872b0p+5);(0x1.8a7ef9db22d0ep+2);(-0x1.2795810624dd3p+3);(0x1.2db645a1cac08p+5);(-0x1.06978d4fdf3b6p+2);(-0x1.c4083126e978dp+2);(0x1.161cac083126fp+3);(-0x1.20ae147ae147bp+5);(-0x1.09ef139f559b4p+17);(0);(-0x1.09ef139f559b4p+17);(-0x1.4eddc91e6c7cbp-7);(0x1.40b5c49d7e55ap-2);(0);(0x1.0000000000000p-2);(0x1.69ee45c358afcp-5);(0x1.2d3dc8b86b160p-2);(0x1.68bf7ced91687p+7);(0x1.68be76c8b4396p+5);(0x1.fe04189374bc7p+2);(0x1.a8810624dd2f2p+5);(0x1.0624dd2f1a9fcp-10);(-0x1.6eeac8605681fp+0);(0);(-0x1.3793dd97f62b7p+0)]);
(88020%Z, [(-0x1.2b45a1cac0831p+5);(0x1.37ae147ae147bp+2);(-0x1.577ced916872bp+2);(0x1.ee083126e978dp+4);(-0x1.c3f7ced916873p+1);(-0x1.51eb851eb851fp+3);(0x1.45604189374bcp+3);(-0x1.f44dd2f1a9fbep+4);(-0x1.5d19310cb295fp+17);(0);(-0x1.5d19310cb295fp+17);(-0x1.5bd7ed1165d8fp-8);(0x1.c9af335ed21d7p-3);(0);(0x1.0000000000000p-2);(0x1.074538ef34d6ap-4);(0x1.41d14e3bcd35bp-2);(0x1.6377ced916873p+7);(0x1.6376c8b439581p+5);(0x1.6d916872b020cp+3);(0x1.bedb22d0e5604p+5);(0x1.47ae147ae147bp-7);(-0x1.e960956c0d6f5p+0);(0);(-0x1.84d551d68c693p+0)]);
(88080%Z, [(-0x1.2651eb851eb85p+5);(0x1.1676c8b439581p+2);(-0x1.828f5c28f5c29p+1);(0x1.a424dd2f1a9fcp+4);(-0x1.e395810624dd3p+0);(-0x1.62d916872b021p+3);(0x1.7b7ced916872bp+3);(-0x1.97d70a3d70a3dp+4);(-0x1.acdddbcd35a86p+17);(0);(-0x1.acdddbcd35a86p+17);(-0x1.31414092166d8p-9);(0x1.3e449c11431e6p-3);(0);(0x1.0000000000000p-2);(0x1.3d976ff3ade22p-4);(0x1.4f65dbfceb789p-2);(0x1.60a978d4fdf3bp+7);(0x1.60a9fbe76c8b4p+5);(0x1.b5810624dd2f2p+3);(0x1.ce0a3d70a3d71p+5);(0x1.47ae147ae147bp-7);(-0x1.2f866e43aa79cp+1);(0);(-0x1.ce809d495182bp+0)]);
(88140%Z, [(-0x1.2445a1cac0831p+5);(0x1.0428f5c28f5c3p+2);(-0x1.b5c28f5c28f5cp+0);(0x1.79a1cac083127p+4);(-0x1.92f1a9fbe76c9p-1);(-0x1.6ba5e353f7ceep+3);(0x1.a9c28f5c28f5cp+3);(-0x1.5a9374bc6a7f0p+4);(-0x1.fc18962b6ae7dp+17);(0);(-0x1.fc18962b6ae7dp+17);(-0x1.5dbf4dde2f4acp-11);(0x1.c7218cc29b9b8p-4);(0);(0x1.0000000000000p-2);(0x1.659af9ebe9c88p-4);(0x1.5966be7afa722p-2);(0x1.5ebef9db22d0ep+7);(0x1.5ebe76c8b4396p+5);(0x1.e9f3b645a1cacp+3);(0x1.d93b645a1cac1p+5);(0x1.26e978d4fdf3bp-7);(-0x1.6a20ee8d10f52p+1);(0);(-0x1.0bbfc6540cc79p+1)]);
(88200%Z, [(-0x1.2845a1cac0831p+5);(0x1.b4395810624ddp+1);(-0x1.b851eb851eb85p-1);(0x1.6722d0e560419p+4);(-0x1.ef9db22d0e560p-4);(-0x1.852f1a9fbe76dp+3);(0x1.d926e978d4fdfp+3);(-0x1.3d26e978d4fdfp+4);(-0x1.28236ed5cfaadp+18);(0);(-0x1.28236ed5cfaadp+18);(0x1.ad7c7a79eeae7p-12);(0x1.528caa47e7a03p-4);(0);(0x1.0000000000000p-2);(0x1.64cb5bb384fd3p-4);(0x1.5932d6ece13f5p-2);(0x1.60bbe76c8b439p+7);(0x1.60bc6a7ef9db2p+5);(0x1.eb9db22d0e560p+3);(0x1.dba3d70a3d70ap+5);(0x1.cac083126e979p-8);(-0x1.a472085b18549p+1);(0);(-0x1.36e5de15ca6cap+1)]);
(88260%Z, [(-0x1.31353f7ced917p+5);(0x1.70624dd2f1aa0p+1);(-0x1.e24dd2f1a9fbep-2);(0x1.6a5a1cac08312p+4);(0);(-0x1.a31a9fbe76c8bp+3);(0x1.03645a1cac083p+4);(-0x1.38872b020c49cp+4);(-0x1.5592694467382p+18);(0);(-0x1.5592694467382p+18);(0x1.d9714af0ea0d8p-11);(0x1.1c72b7828db96p-4);(0);(0x1.0000000000000p-2);(0x1.59d99029ae4f3p-4);(0x1.5676640a6b93dp-2);(0x1.638ed916872b0p+7);(0x1.638f5c28f5c29p+5);(0x1.e05a1cac08312p+3);(0x1.dba5e353f7ceep+5);(0x1.89374bc6a7efap-8);(-0x1.e1dcc63f14120p+1);(0);(-0x1.67079e59f2baap+1)]);
(88320%Z, [(-0x1.2a1eb851eb852p+5);(0x1.55c28f5c28f5cp+0);(-0x1.b4395810624ddp-3);(0x1.71d2f1a9fbe77p+4);(0);(-0x1.a0f5c28f5c28fp+3);(0x1.1b126e978d4fep+4);(-0x1.27374bc6a7efap+4);(-0x1.82b6e652bd3c3p+18);(0);(-0x1.82b6e652bd3c3p+18);(0x1.425dc88819948p-10);(0x1.df41997d6a0e1p-5);(0);(0x1.0000000000000p-2);(0x1.50afe60c38f36p-4);(0x1.542bf9830e3cep-2);(0x1.65f5c28f5c28fp+7);(0x1.65f5c28f5c28fp+5);(0x1.d6c8b43958106p+3);(0x1.dba7ef9db22d1p+5);(0x1.47ae147ae147bp-8);(-0x1.0f714b9cb6849p+2);(0);(-0x1.970e2c12ad81bp+1)]);
(88380%Z, [(-0x1.c21cac083126fp+4);(0x1.a7ae147ae147bp+0);(-0x1.89374bc6a7efap-7);(0x1.7866666666666p+4);(0);(-0x1.7b645a1cac083p+1);(0x1.29810624dd2f2p+4);(-0x1.f947ae147ae14p+2);(-0x1.8ca2ebf141206p+18);(0);(-0x1.8ca2ebf141206p+18);(0x1.85058dde7a744p-10);(0x1.b3e829ca7ebedp-5);(0);(0x1.0000000000000p-2);(0x1.486cebbba55d2p-4);(0x1.521b3aeee9574p-2);(0x1.68276c8b43958p+7);(0x1.6826e978d4fdfp+5);(0x1.ce0c49ba5e354p+3);(0x1.dba9fbe76c8b4p+5);(0x1.47ae147ae147bp-8);(-0x1.14e9ccb7d4174p+2);(0);(-0x1.a1bef49cf56ebp+1)]);
(88440%Z, [(-0x1.e4ccccccccccdp+3);(0x1.96c8b43958106p+1);(0x1.3645a1cac0831p-1);(0x1.7ef9db22d0e56p+4);(0);(0x1.923d70a3d70a4p+3);(0x1.2610624dd2f1bp+4);(0x1.c0c49ba5e353fp+2);(-0x1.60281e594af4fp+18);(0);(-0x1.60281e594af4fp+18);(0x1.28e82ba2f1064p-9);(0x1.eb4fffc7a0e8fp-5);(0);(0x1.0000000000000p-2);(0x1.3f5c6c11a1123p-4);(0x1.4fd71b0468449p-2);(0x1.6a9999999999ap+7);(0x1.6a9999999999ap+5);(0x1.c45a1cac08312p+3);(0x1.dbb020c49ba5ep+5);(0x1.89374bc6a7efap-8);(-0x1.e7cc8de2ac322p+1);(0);(-0x1.7290ff9724745p+1)]);
(88500%Z, [(-0x1.f70a3d70a3d71p+2);(0x1.48f5c28f5c28fp+2);(0x1.2ed916872b021p+0);(0x1.8733333333333p+4);(0);(0x1.6e9ba5e353f7dp+4);(0x1.08dd2f1a9fbe7p+4);(0x1.e08b439581062p+3);(-0x1.0f707a0902de0p+18);(0);(-0x1.0f707a0902de0p+18);(0x1.88c73964fb824p-9);(0x1.5d0038dff06b1p-4);(0);(0x1.0000000000000p-2);(0x1.3301eabbcb1cdp-4);(0x1.4cc07aaef2c73p-2);(0x1.6dfb645a1cac1p+7);(0x1.6dfbe76c8b439p+5);(0x1.b6e978d4fdf3bp+3);(0x1.dbb645a1cac08p+5);(0x1.0624dd2f1a9fcp-7);(-0x1.735a31a4bdba1p+1);(0);(-0x1.1cf66a5508701p+1)]);
(88560%Z, [(-0x1.17b645a1cac08p+3);(0x1.150e560418937p+2);(0x1.bf7ced916872bp-2);(0x1.934bc6a7ef9dbp+4);(0);(0x1.53b22d0e56042p+4);(0x1.b7d70a3d70a3dp+3);(0x1.38a3d70a3d70ap+3);(-0x1.89f817b4a233ap+17);(0);(-0x1.89f817b4a233ap+17);(0x1.0d0dda8922feep-9);(0x1.fa986a19a440ep-4);(0);(0x1.0000000000000p-2);(0x1.21d96e9bbf0dcp-4);(0x1.48765ba6efc37p-2);(0x1.72c6a7ef9db23p+7);(0x1.72c6a7ef9db23p+5);(0x1.a3ced916872b0p+3);(0x1.dbba5e353f7cfp+5);(0x1.47ae147ae147bp-7);(-0x1.09389b52007ddp+1);(0);(-0x1.9cadff822bbedp+0)]);
(88620%Z, [(-0x1.7f6c8b4395810p+3);(0x1.b7ef9db22d0e5p+1);(-0x1.5d2f1a9fbe76dp-2);(0x1.a5020c49ba5e3p+4);(0);(0x1.16d4fdf3b645ap+4);(0x1.50c49ba5e353fp+3);(0x1.a353f7ced9168p+0);(-0x1.103d48d4fdf3bp+17);(0);(-0x1.103d48d4fdf3bp+17);(0x1.17a46173b85e8p-10);(0x1.5cf07ba897e43p-3);(0);(0x1.0000000000000p-2);(0x1.0b48d3ae685dbp-4);(0x1.42d234eb9a177p-2);(0x1.7943126e978d5p+7);(0x1.794395810624ep+5);(0x1.89e353f7ced91p+3);(0x1.dbbc6a7ef9db2p+5);(0x1.a9fbe76c8b439p-7);(-0x1.67505d0fa58f7p+0);(0);(-0x1.1c9d9d3458cd2p+0)]);
(88680%Z, [(-0x1.373b645a1cac1p+4);(0x1.4ac083126e979p+0);(-0x1.ec083126e978dp+1);(0x1.bde76c8b43958p+4);(0);(0x1.775c28f5c28f6p+2);(0x1.ff1a9fbe76c8bp+2);(-0x1.c09374bc6a7f0p+3);(-0x1.d0e7e70a3d70ap+16);(0);(-0x1.d0e7e70a3d70ap+16);(-0x1.bacbee55889dap-9);(0x1.b770976cc3a2bp-3);(0);(0x1.0000000000000p-2);(0x1.e08d08919ef95p-5);(0x1.3c11a11233df3p-2);(0x1.814c49ba5e354p+7);(0x1.814bc6a7ef9dbp+5);(0x1.69a1cac083127p+3);(0x1.dbb4395810625p+5);(0x1.89374bc6a7efap-7);(-0x1.2c0053e2d6239p+0);(0);(-0x1.e5974e65bea0cp-1)]);
(88740%Z, [(-0x1.bcd0e56041893p+4);(-0x1.6b645a1cac083p+2);(-0x1.390624dd2f1aap+3);(0x1.ddeb851eb851fp+4);(0);(-0x1.ac83126e978d5p+3);(0x1.0d1eb851eb852p+3);(-0x1.16ced916872b0p+5);(-0x1.4b2ef009d4952p+17);(0);(-0x1.4b2ef009d4952p+17);(-0x1.6588c5e1cc0d6p-7);(0x1.da4826b54b7bdp-3);(0);(0x1.0000000000000p-2);(0x1.a93293d102bc7p-5);(0x1.3526527a20579p-2);(0x1.89d999999999ap+7);(0x1.89d916872b021p+5);(0x1.47126e978d4fep+3);(0x1.db9db22d0e560p+5);(0x1.26e978d4fdf3bp-7);(-0x1.a29c779a6b50bp+0);(0);(-0x1.5a53b8e4b87bep+0)]);
(88800%Z, [(-0x1.1ca7ef9db22d1p+5);(-0x1.58fdf3b645a1dp+3);(-0x1.8189374bc6a7fp+3);(0x1.025a1cac08312p+5);(0);(-0x1.a1df3b645a1cbp+4);(0x1.8395810624dd3p+3);(-0x1.72645a1cac083p+5);(-0x1.027b683611340p+18);(0);(-0x1.027b683611340p+18);(-0x1.c352e600fb52ap-7);(0x1.be0958186fe36p-3);(0);(0x1.0000000000000p-2);(0x1.779207d4e0978p-5);(0x1.2ef240fa9c12fp-2);(0x1.91d26e978d4fep+7);(0x1.91d2f1a9fbe77p+5);(0x1.26c083126e979p+3);(0x1.db83126e978d5p+5);(0);(-0x1.4160956c0d6f5p+1);(0);(-0x1.0f342edbb59dep+1)]);
(88860%Z, [(-0x1.2fccccccccccdp+5);(-0x1.5a45a1cac0831p+3);(-0x1.50ccccccccccdp+3);(0x1.14d2f1a9fbe77p+5);(0);(-0x1.8b7ced916872bp+4);(0x1.03b645a1cac08p+4);(-0x1.58b4395810625p+5);(-0x1.5cc6e6de00d1bp+18);(0);(-0x1.5cc6e6de00d1bp+18);(-0x1.83a0f456d4781p-7);(0x1.960240212d4c4p-3);(0);(0x1.0000000000000p-2);(0x1.4c51116a8b8f1p-5);(0x1.298a222d5171ep-2);(0x1.990ac083126e9p+7);(0x1.990a3d70a3d71p+5);(0x1.09810624dd2f2p+3);(0x1.db6a7ef9db22dp+5);(0);(-0x1.ab3daf8df7a4ep+1);(0);(-0x1.6efc7a398201dp+1)]);
(88920%Z, [(-0x1.2cf7ced916873p+5);(-0x1.d4dd2f1a9fbe7p+2);(-0x1.ccac083126e98p+2);(0x1.277ced916872bp+5);(0);(-0x1.e6b020c49ba5ep+3);(0x1.289ba5e353f7dp+4);(-0x1.0cdb22d0e5604p+5);(-0x1.9470b0226809dp+18);(0);(-0x1.9470b0226809dp+18);(-0x1.f2bbc9c530764p-8);(0x1.96987023d4708p-3);(0);(0x1.0000000000000p-2);(0x1.22cecc814d728p-5);(0x1.2459d99029ae5p-2);(0x1.a03f7ced91687p+7);(0x1.a03f7ced91687p+5);(0x1.d8d4fdf3b645ap+2);(0x1.db5a1cac08312p+5);(0);(-0x1.e7ab21815a07bp+1);(0);(-0x1.aa4f765fd8adbp+1)]);
(88980%Z, [(-0x1.4cb851eb851ecp+5);(-0x1.62147ae147ae1p+3);(-0x1.4bf7ced916873p+3);(0x1.2f9ba5e353f7dp+5);(0);(-0x1.914395810624ep+4);(0x1.4249ba5e353f8p+4);(-0x1.5716872b020c5p+5);(-0x1.efdf3695e9e1bp+18);(0);(-0x1.efdf3695e9e1bp+18);(-0x1.7ec2d3a4ad490p-7);(0x1.899119ee3db5cp-3);(0);(0x1.0000000000000p-2);(0x1.f865d7cb2d906p-6);(0x1.1f865d7cb2d90p-2);(0x1.a726e978d4fdfp+7);(0x1.a726e978d4fdfp+5);(0x1.a0e5604189375p+2);(0x1.db4395810624ep+5);(0);(-0x1.26e536501e258p+2);(0);(-0x1.0616c61522a6fp+2)]);
(89040%Z, [(-0x1.7770a3d70a3d7p+5);(-0x1.456872b020c4ap+3);(-0x1.09374bc6a7efap+4);(0x1.360c49ba5e354p+5);(0);(-0x1.175810624dd2fp+5);(0x1.6472b020c49bap+4);(-0x1.9b2d0e5604189p+5);(-0x1.380f73fbe76c9p+19);(0);(-0x1.380f73fbe76c9p+19);(-0x1.40839e04b84b9p-6);(0x1.6c2ece49a48ecp-3);(0);(0x1.0000000000000p-2);(0x1.b37867f0aa21ap-6);(0x1.1b37867f0aa22p-2);(0x1.ad72b020c49bap+7);(0x1.ad72b020c49bap+5);(0x1.6d3f7ced91687p+2);(0x1.db1a9fbe76c8bp+5);(0);(-0x1.6f318fc504817p+2);(0);(-0x1.4b3f290abb44ep+2)]);
(89100%Z, [(-0x1.74ced916872b0p+5);(0x1.7ced916872b02p-3);(-0x1.945a1cac08312p+3);(0x1.4b2d0e5604189p+5);(0);(-0x1.1a76c8b439581p+4);(0x1.77db22d0e5604p+4);(-0x1.1c7ae147ae148p+5);(-0x1.593245460aa65p+19);(0);(-0x1.593245460aa65p+19);(-0x1.dd78ac0e3b572p-7);(0x1.8bbb664808826p-3);(0);(0x1.0000000000000p-2);(0x1.6b69db65ecc3ep-6);(0x1.16b69db65ecc4p-2);(0x1.b4472b020c49cp+7);(0x1.b447ae147ae14p+5);(0x1.35b22d0e56042p+2);(0x1.dafbe76c8b439p+5);(0);(-0x1.909691a75cd0cp+2);(0);(-0x1.6f42c3c9eecc0p+2)]);
(89160%Z, [(-0x1.6f6e978d4fdf4p+5);(0x1.f604189374bc7p+1);(-0x1.665e353f7ced9p+3);(0x1.659fbe76c8b44p+5);(0);(-0x1.1020c49ba5e35p+3);(0x1.7e00000000000p+4);(-0x1.d54bc6a7ef9dbp+4);(-0x1.69f4324ea4a8cp+19);(0);(-0x1.69f4324ea4a8cp+19);(-0x1.a1df4dd8d0e71p-7);(0x1.cc4b73f1bf4a8p-3);(0);(0x1.0000000000000p-2);(0x1.1b10fd7e45804p-6);(0x1.11b10fd7e4580p-2);(0x1.bc3020c49ba5ep+7);(0x1.bc2f1a9fbe76dp+5);(0x1.eb22d0e560419p+1);(0x1.dae353f7ced91p+5);(0);(-0x1.9cd57bc7f77afp+2);(0);(-0x1.818f7121ab4b7p+2)]);
(89220%Z, [(-0x1.7d872b020c49cp+5);(0x1.93b645a1cac08p+2);(-0x1.29d70a3d70a3dp+4);(0x1.7ed4fdf3b645ap+5);(-0x1.cdd2f1a9fbe77p-2);(-0x1.930a3d70a3d71p+3);(0x1.82c8b43958106p+4);(-0x1.2233333333333p+5);(-0x1.8298bdc361134p+19);(0);(-0x1.8298bdc361134p+19);(-0x1.6a1dc08540c72p-6);(0x1.05ac3c5e80131p-2);(0);(0x1.0000000000000p-2);(0x1.dd441355475a3p-7);(0x1.0eea209aaa3adp-2);(0x1.c21604189374cp+7);(0x1.c216872b020c5p+5);(0x1.a395810624dd3p+1);(0x1.dc4fdf3b645a2p+5);(0);(-0x1.b3b69984a0e41p+2);(0);(-0x1.9b29888f861a6p+2)]);
(89280%Z, [(-0x1.9a3b645a1cac1p+5);(0x1.5bb645a1cac08p+2);(-0x1.3c20c49ba5e35p+4);(0x1.8ee978d4fdf3bp+5);(-0x1.9c28f5c28f5c3p-1);(-0x1.08b851eb851ecp+4);(0x1.86189374bc6a8p+4);(-0x1.50395810624ddp+5);(-0x1.a207787a0f909p+19);(0);(-0x1.a207787a0f909p+19);(-0x1.818f21459ff25p-6);(0x1.1997673a4bd64p-2);(0);(0x1.0000000000000p-2);(0x1.a7f3cf70153bdp-7);(0x1.0d3f9e7b80a9ep-2);(0x1.c6f95810624ddp+7);(0x1.c6f9db22d0e56p+5);(0x1.78b4395810625p+1);(0x1.de851eb851eb8p+5);(0);(-0x1.d2e26d4801f75p+2);(0);(-0x1.bb53f7ced9168p+2)]);
(89340%Z, [(-0x1.b4d2f1a9fbe77p+5);(0x1.0a9fbe76c8b44p+1);(-0x1.91374bc6a7efap+3);(0x1.aeccccccccccdp+5);(0);(-0x1.66b020c49ba5ep+3);(0x1.88ed916872b02p+4);(-0x1.44020c49ba5e3p+5);(-0x1.b7af432b020c5p+19);(0);(-0x1.b7af432b020c5p+19);(-0x1.d89ea7a06d735p-7);(0x1.43b0c65bef6a0p-2);(0);(0x1.0000000000000p-2);(0x1.ba7fc32ebe597p-8);(0x1.06e9ff0cbaf96p-2);(0x1.d1d2f1a9fbe77p+7);(0x1.d1d2f1a9fbe77p+5);(0x1.92b020c49ba5ep+0);(0x1.de6872b020c4ap+5);(0);(-0x1.dfffac1d29dc7p+2);(0);(-0x1.d308461f9f01cp+2)]);
(89400%Z, [(-0x1.afdf3b645a1cbp+5);(0x1.5cac083126e98p+0);(-0x1.75e353f7ced91p+2);(0x1.0a50e56041893p+6);(-0x1.189374bc6a7f0p+0);(0x1.c1374bc6a7efap+2);(0x1.8249ba5e353f8p+4);(-0x1.1b5604189374cp+5);(-0x1.bafc1f3404ea5p+19);(0);(-0x1.bafc1f3404ea5p+19);(-0x1.5709a71dbba7bp-8);(0x1.77f67b46f32e9p-2);(0);(0x1.03ffef39085f5p-2);(0);(0x1.03ffef39085f5p-2);(0x1.d95db22d0e560p+7);(0x1.e0c28f5c28f5cp+5);(0);(0x1.e0c28f5c28f5cp+5);(0);(-0x1.d487fcb923a2ap+2);(-75);(-0x1.d487fcb923a2ap+2)]);
(89460%Z, [(-0x1.a8e147ae147aep+5);(0x1.64189374bc6a8p+0);(-0x1.12e147ae147aep+2);(0x1.afe353f7ced91p+4);(-0x1.4bc6a7ef9db23p-2);(-0x1.d5851eb851eb8p+4);(0x1.afe353f7ced91p+4);(-0x1.d5851eb851eb8p+4);(-0x1.ee8114189374cp+19);(-0x1.21d86fe47991cp+14);(-0x1.f78fd79db22d1p+19);(0x1.9d90f50550210p-10);(0);(0);(0x1.0000000000000p-2);(0x1.55821294573a8p-8);(0x1.0556084a515cfp-2);(0x1.d7bdf3b645a1dp+7);(0x1.d7be76c8b4396p+5);(0x1.3a9fbe76c8b44p+0);(0x1.e19374bc6a7f0p+5);(0);(-0x1.0a5d78811b1d9p+3);(-0x1.d427d028a1dfcp+2);(-0x1.09b4b72c5197ap+3)]);
(89520%Z, [(-0x1.715810624dd2fp+5);(0x1.795810624dd2fp+1);(-0x1.25a1cac083127p+1);(0x1.23d2f1a9fbe77p+5);(0);(-0x1.2126e978d4fdfp+3);(0x1.9c6e978d4fdf4p+4);(-0x1.3bcac083126e9p+4);(-0x1.03bb599db22d1p+20);(0);(-0x1.03bb599db22d1p+20);(0x1.f00e705b31d4ep-9);(0x1.ea78e4ee2bc22p-5);(0);(0x1.0431bde82d7b6p-2);(0);(0x1.0431bde82d7b6p-2);(0x1.d9d78d4fdf3b6p+7);(0x1.e19ba5e353f7dp+5);(0);(0x1.e19ba5e353f7dp+5);(0);(-0x1.133a7daa4fca4p+3);(-75);(-0x1.133a7daa4fca4p+3)]);
(89580%Z, [(-0x1.478b439581062p+5);(0x1.0fae147ae147bp+2);(-0x1.30e5604189375p+0);(0x1.a36c8b4395810p+4);(0);(-0x1.759999999999ap+3);(0x1.a36c8b4395810p+4);(-0x1.759999999999ap+3);(-0x1.0dfe3bc6a7efap+20);(0);(-0x1.0dfe3bc6a7efap+20);(0x1.87a4fa75d26a2p-8);(0);(0);(0x1.042d8c2a454dep-2);(0);(0x1.042d8c2a454dep-2);(0x1.d9eb851eb851fp+7);(0x1.e1a7ef9db22d1p+5);(0);(0x1.e1a7ef9db22d1p+5);(0);(-0x1.1e30014f8b589p+3);(-75);(-0x1.1e30014f8b589p+3)]);
(89640%Z, [(-0x1.2c9ba5e353f7dp+5);(0x1.4020c49ba5e35p+3);(-0x1.3b22d0e560419p+0);(0x1.9ec8b43958106p+4);(0);(-0x1.7083126e978d5p+1);(0x1.9ec8b43958106p+4);(-0x1.7083126e978d5p+1);(-0x1.10860a24dd2f2p+20);(0);(-0x1.10860a24dd2f2p+20);(0x1.8bb7aead7cfb5p-8);(0);(0);(0x1.04299d883ba34p-2);(0);(0x1.04299d883ba34p-2);(0x1.d9fef9db22d0ep+7);(0x1.e1b4395810625p+5);(0);(0x1.e1b4395810625p+5);(0);(-0x1.2132378ab0c89p+3);(-75);(-0x1.2132378ab0c89p+3)]);
(89700%Z, [(-0x1.29872b020c49cp+5);(0x1.312f1a9fbe76dp+3);(-0x1.20c49ba5e353fp-2);(0x1.9d70a3d70a3d7p+4);(0);(-0x1.0c28f5c28f5c3p+1);(0x1.9d70a3d70a3d7p+4);(-0x1.0c28f5c28f5c3p+1);(-0x1.125d7851eb852p+20);(0);(-0x1.125d7851eb852p+20);(0x1.dbe8f475b3357p-8);(0);(0);(0x1.0426351deefe5p-2);(0);(0x1.0426351deefe5p-2);(0x1.da1374bc6a7f0p+7);(0x1.e1c28f5c28f5cp+5);(0);(0x1.e1c28f5c28f5cp+5);(0);(-0x1.2336b8f9b1316p+3);(-75);(-0x1.2336b8f9b1316p+3)]);
(89760%Z, [(-0x1.e12b020c49ba6p+4);(0x1.70a3d70a3d70ap+3);(0x1.0666666666666p+0);(0x1.9c872b020c49cp+4);(0);(0x1.0828f5c28f5c3p+3);(0x1.9c872b020c49cp+4);(0x1.0828f5c28f5c3p+3);(-0x1.0b1bfc3d70a3dp+20);(0);(-0x1.0b1bfc3d70a3dp+20);(0x1.2476417ac99fcp-7);(0);(0);(0x1.0423d9231c64cp-2);(0);(0x1.0423d9231c64cp-2);(0x1.da2978d4fdf3bp+7);(0x1.e1d4fdf3b645ap+5);(0);(0x1.e1d4fdf3b645ap+5);(0);(-0x1.1b88ce703afb8p+3);(-75);(-0x1.1b88ce703afb8p+3)]);
(89820%Z, [(-0x1.3374bc6a7ef9ep+4);(0x1.26083126e978dp+4);(0x1.39374bc6a7efap+1);(0x1.a004189374bc7p+4);(0);(0x1.b9be76c8b4396p+4);(0x1.a004189374bc7p+4);(0x1.b9be76c8b4396p+4);(-0x1.e5afcf652bd3cp+19);(0);(-0x1.e5afcf652bd3cp+19);(0x1.5c9cf97577507p-7);(0);(0);(0x1.0422467be553bp-2);(0);(0x1.0422467be553bp-2);(0x1.da420c49ba5e3p+7);(0x1.e1eb851eb851fp+5);(0);(0x1.e1eb851eb851fp+5);(0);(-0x1.018240b780347p+3);(-75);(-0x1.018240b780347p+3)]);
(89880%Z, [(-0x1.0f020c49ba5e3p+3);(0x1.f2353f7ced917p+3);(0x1.4b851eb851eb8p+1);(0x1.a9e353f7ced91p+4);(0x1.9ba5e353f7ceep-3);(0x1.24126e978d4fep+5);(0x1.a9e353f7ced91p+4);(0x1.24126e978d4fep+5);(-0x1.a5829ba5e353fp+19);(-0x1.96a66f73c0c20p+14);(-0x1.b237cf21ff2e5p+19);(0x1.5969fea15b2f0p-7);(0);(0);(0x1.0000000000000p-2);(0x1.b6d43d03968d7p-8);(0x1.06db50f40e5a3p-2);(0x1.d6fbe76c8b439p+7);(0x1.d6fbe76c8b439p+5);(0x1.93b645a1cac08p+0);(0x1.e39999999999ap+5);(0);(-0x1.c801f75104d55p+2);(-0x1.00a027525460bp+3);(-0x1.c980346dc5d64p+2)]);
(89940%Z, [(-0x1.1978d4fdf3b64p+1);(0x1.a3126e978d4fep+3);(0x1.4ae147ae147aep+1);(0x1.d0b645a1cac08p+5);(0x1.be76c8b439581p-4);(0x1.1eb74bc6a7efap+6);(0x1.852f1a9fbe76dp+4);(0x1.2f51eb851eb85p+5);(-0x1.396ef704816f0p+19);(-0x1.8bef2786c2268p+13);(-0x1.3f9eb3a29c77ap+19);(0x1.a85bd43c2cd70p-8);(0x1.018fc3ace880ep-2);(0);(0x1.0000000000000p-2);(0x1.38ac18f81e8a3p-8);(0x1.04e2b063e07a3p-2);(0x1.dc2a7ef9db22dp+7);(0x1.dc2b020c49ba6p+5);(0x1.22d0e56041893p+0);(0x1.e54189374bc6ap+5);(0);(-0x1.4c3760bf5d788p+2);(-0x1.579945b6c3761p+2);(-0x1.4c6defc7a3982p+2)]);
(90000%Z, [(-0x1.a604189374bc7p+1);(0x1.4e353f7ced917p+3);(0x1.9db22d0e56042p+0);(0x1.b8ccccccccccdp+5);(0x1.a9fbe76c8b439p-4);(0x1.ffbe76c8b4396p+5);(0x1.6a66666666666p+4);(0x1.f849ba5e353f8p+4);(-0x1.ccc6f060aa64cp+18);(-0x1.233d37db6e504p+13);(-0x1.d5e0da1ff2e49p+18);(0x1.c319f0970163ep-8);(0x1.5929f546e9737p-3);(0);(0x1.0000000000000p-2);(0x1.36f7e3d1cc101p-8);(0x1.04dbdf8f47304p-2);(0x1.de9fbe76c8b44p+7);(0x1.de9fbe76c8b44p+5);(0x1.228f5c28f5c29p+0);(0x1.e7b4395810625p+5);(0);(-0x1.e3694467381d8p+1);(-0x1.f719a415f45e1p+1);(-0x1.e3c74fb549f95p+1)]);
(90060%Z, [(-0x1.d83126e978d50p+2);(0x1.fb74bc6a7ef9ep+2);(0x1.28f5c28f5c28fp-3);(0x1.1e0a3d70a3d71p+5);(0x1.26e978d4fdf3bp-7);(0x1.23ac083126e98p+5);(0x1.62353f7ced917p+4);(0x1.6d78d4fdf3b64p+4);(-0x1.63d8d3020c49cp+18);(-0x1.9c850c61d8623p+12);(-0x1.6a4ae73333333p+18);(0x1.2ca6a71e3c811p-8);(0x1.3417413a32000p-4);(0);(0x1.0000000000000p-2);(0x1.1f601797cc3a0p-8);(0x1.047d805e5f30ep-2);(0x1.e01fbe76c8b44p+7);(0x1.e01eb851eb852p+5);(0x1.0d916872b020cp+0);(0x1.e88b439581062p+5);(0);(-0x1.72ee631f8a090p+1);(-0x1.7f1704ff4341ap+1);(-0x1.73242070b8cfcp+1)]);
(90120%Z, [(-0x1.9c9374bc6a7f0p+3);(0x1.975c28f5c28f6p+2);(-0x1.cac083126e979p-1);(0x1.8ee5604189375p+4);(0);(0x1.181cac083126fp+4);(0x1.5851eb851eb85p+4);(0x1.c3126e978d4fep+3);(-0x1.2cba7ae631f8ap+18);(0);(-0x1.2cba7ae631f8ap+18);(0x1.814031736a85ep-9);(0x1.16d3765f2ce13p-6);(0);(0x1.042528ae74f2fp-2);(0);(0x1.042528ae74f2fp-2);(0x1.e0c8b43958106p+7);(0x1.e8916872b020cp+5);(0);(0x1.e8916872b020cp+5);(0);(-0x1.33827fa1a0cf2p+1);(-75);(-0x1.33827fa1a0cf2p+1)]);
(90180%Z, [(-0x1.ebb645a1cac08p+3);(0x1.4ad0e56041893p+2);(-0x1.ad916872b020cp-1);(0x1.52f9db22d0e56p+4);(0);(0x1.44d4fdf3b645ap+3);(0x1.52f9db22d0e56p+4);(0x1.44d4fdf3b645ap+3);(-0x1.090af1a6b50b1p+18);(0);(-0x1.090af1a6b50b1p+18);(0x1.7087fd64f019bp-9);(0);(0);(0x1.041aef6f8f041p-2);(0);(0x1.041aef6f8f041p-2);(0x1.e0e147ae147aep+7);(0x1.e8978d4fdf3b6p+5);(0);(0x1.e8978d4fdf3b6p+5);(0);(-0x1.0eed1394317adp+1);(-75);(-0x1.0eed1394317adp+1)]);
(90240%Z, [(-0x1.9de76c8b43958p+4);(0x1.4b4395810624ep+2);(-0x1.595810624dd2fp+2);(0x1.430a3d70a3d71p+4);(0);(-0x1.7978d4fdf3b64p+2);(0x1.430a3d70a3d71p+4);(-0x1.7978d4fdf3b64p+2);(-0x1.1dc782dc5d639p+18);(0);(-0x1.1dc782dc5d639p+18);(-0x1.a6586ed6f849dp-9);(0);(0);(0x1.040d0aaa7ded7p-2);(0);(0x1.040d0aaa7ded7p-2);(0x1.e0f4395810625p+7);(0x1.e8916872b020cp+5);(0);(0x1.e8916872b020cp+5);(0);(-0x1.23d8adab9f55ap+1);(-75);(-0x1.23d8adab9f55ap+1)]);
(90300%Z, [(-0x1.0cd916872b021p+5);(0x1.65e353f7ced91p+0);(-0x1.84ed916872b02p+2);(0x1.4c6e978d4fdf4p+4);(-0x1.f7ced916872b0p-4);(-0x1.1a189374bc6a8p+4);(0x1.4c6e978d4fdf4p+4);(-0x1.1a189374bc6a8p+4);(-0x1.5bc2fff487fccp+18);(-0x1.60c4f9a06a6e3p+12);(-0x1.614613da5119dp+18);(-0x1.01eb928ab19f5p-8);(0);(0);(0x1.0000000000000p-2);(0x1.4152b0a6fc58bp-8);(0x1.05054ac29bf16p-2);(0x1.dfeb851eb851fp+7);(0x1.dfeb851eb851fp+5);(0x1.2d4fdf3b645a2p+0);(0x1.e95604189374cp+5);(0);(-0x1.69bf9c62a1b5cp+1);(-0x1.2457d1782d384p+1);(-0x1.6869d7342edbbp+1)]);
(90360%Z, [(-0x1.0a66666666666p+5);(0x1.b2f1a9fbe76c9p+0);(-0x1.09ba5e353f7cfp+2);(0x1.0dd916872b021p+5);(-0x1.c28f5c28f5c29p-4);(-0x1.10e5604189375p+1);(0x1.4f0e560418937p+4);(-0x1.dd810624dd2f2p+3);(-0x1.73ff6856d5cfbp+18);(-0x1.89ff201bc98a2p+12);(-0x1.7a2764d6a161ep+18);(-0x1.525f735811640p-10);(0x1.636dfbb110d99p-4);(0);(0x1.0000000000000p-2);(0x1.1c4b90214ad36p-8);(0x1.04712e40852b5p-2);(0x1.e1c3126e978d5p+7);(0x1.e1c28f5c28f5cp+5);(0x1.0b851eb851eb8p+0);(0x1.ea1eb851eb852p+5);(0);(-0x1.8249e44fa0514p+1);(-0x1.706887a8d64d8p+1);(-0x1.81fbe76c8b439p+1)]);
(90420%Z, [(-0x1.153d70a3d70a4p+5);(0x1.516872b020c4ap+1);(-0x1.d73b645a1cac1p+2);(0x1.0110624dd2f1bp+5);(-0x1.3b645a1cac083p-4);(-0x1.d4dd2f1a9fbe7p+2);(0x1.605a1cac08312p+4);(-0x1.16fdf3b645a1dp+4);(-0x1.a03f90dd2f1aap+18);(-0x1.b8202107b7846p+12);(-0x1.a7201161e4f76p+18);(-0x1.409acfcf8b990p-8);(0x1.adb9e20e7d714p-5);(0);(0x1.0000000000000p-2);(0x1.1e96c3fc43b2ep-8);(0x1.047a5b0ff10edp-2);(0x1.e271a9fbe76c9p+7);(0x1.e272b020c49bap+5);(0x1.0e147ae147ae1p+0);(0x1.eae147ae147aep+5);(0);(-0x1.b018e757928e1p+1);(-0x1.9817ebaf10236p+1);(-0x1.afaf102363b25p+1)]);
(90480%Z, [(-0x1.1c0c49ba5e354p+5);(0x1.610624dd2f1aap+1);(-0x1.d116872b020c5p+2);(0x1.29126e978d4fep+5);(-0x1.2d0e560418937p-3);(-0x1.8395810624dd3p+1);(0x1.67c6a7ef9db23p+4);(-0x1.1ad4fdf3b645ap+4);(-0x1.c7158be5c91d1p+18);(-0x1.ecbce835dedf2p+12);(-0x1.cec87f86c2268p+18);(-0x1.253bceb834646p-8);(0x1.263d1b6967f89p-4);(0);(0x1.0000000000000p-2);(0x1.212513b5bf6a1p-8);(0x1.0484944ed6fdbp-2);(0x1.e31f3b645a1cbp+7);(0x1.e31eb851eb852p+5);(0x1.10e5604189375p+0);(0x1.eba5e353f7ceep+5);(0);(-0x1.d85532617c1bep+1);(-0x1.c4d2b2bfdb4ccp+1);(-0x1.d7fe5c91d14e4p+1)]);
(90540%Z, [(-0x1.12bc6a7ef9db2p+5);(0x1.ba9fbe76c8b44p+1);(-0x1.628f5c28f5c29p+2);(0x1.c06a7ef9db22dp+4);(0);(-0x1.0cbc6a7ef9db2p+3);(0x1.83db22d0e5604p+4);(-0x1.85db22d0e5604p+3);(-0x1.ec4ea135a8588p+18);(0);(-0x1.ec4ea135a8588p+18);(-0x1.0f0ce33d519a2p-9);(0x1.19fd41b4ab42ep-6);(0);(0x1.042aed1394318p-2);(0);(0x1.042aed1394318p-2);(0x1.e3c189374bc6ap+7);(0x1.eba1cac083127p+5);(0);(0x1.eba1cac083127p+5);(0);(-0x1.f6a843808850ap+1);(-75);(-0x1.f6a843808850ap+1)]);
(90600%Z, [(-0x1.19ba5e353f7cfp+5);(0x1.2570a3d70a3d7p+2);(-0x1.d116872b020c5p+2);(0x1.9049ba5e353f8p+4);(0);(-0x1.9c20c49ba5e35p+3);(0x1.9049ba5e353f8p+4);(-0x1.9c20c49ba5e35p+3);(-0x1.0ccab13d07c85p+19);(0);(-0x1.0ccab13d07c85p+19);(-0x1.0cdc067b9a2a4p-8);(0);(0);(0x1.041e9af5ba2bep-2);(0);(0x1.041e9af5ba2bep-2);(0x1.e3cfdf3b645a2p+7);(0x1.eb9999999999ap+5);(0);(0x1.eb9999999999ap+5);(0);(-0x1.128beb5b2d4d4p+2);(-75);(-0x1.128beb5b2d4d4p+2)]);
(90660%Z, [(-0x1.1500000000000p+5);(0x1.7374bc6a7ef9ep+2);(-0x1.672b020c49ba6p+2);(0x1.99c6a7ef9db23p+4);(0);(-0x1.1a5604189374cp+3);(0x1.99c6a7ef9db23p+4);(-0x1.1a5604189374cp+3);(-0x1.1c4ce7df3b646p+19);(0);(-0x1.1c4ce7df3b646p+19);(-0x1.cb953f41df488p-10);(0);(0);(0x1.0413db7f17375p-2);(0);(0x1.0413db7f17375p-2);(0x1.e3e0c49ba5e35p+7);(0x1.eb95810624dd3p+5);(0);(0x1.eb95810624dd3p+5);(0);(-0x1.22c49ba5e353fp+2);(-75);(-0x1.22c49ba5e353fp+2)]);
(90720%Z, [(-0x1.3374bc6a7ef9ep+5);(0x1.5f1a9fbe76c8bp+1);(-0x1.3bd70a3d70a3dp+2);(0x1.9f604189374bcp+4);(0);(-0x1.d53f7ced91687p+3);(0x1.9f604189374bcp+4);(-0x1.d53f7ced91687p+3);(-0x1.3613975182a99p+19);(0);(-0x1.3613975182a99p+19);(-0x1.7d5f514948c94p-11);(0);(0);(0x1.0409e55c0fcb5p-2);(0);(0x1.0409e55c0fcb5p-2);(0x1.e3f1a9fbe76c9p+7);(0x1.eb9374bc6a7f0p+5);(0);(0x1.eb9374bc6a7f0p+5);(0);(-0x1.3d6b11c6d1e11p+2);(-75);(-0x1.3d6b11c6d1e11p+2)]);
(90780%Z, [(-0x1.34d0e56041893p+5);(0x1.50c49ba5e353fp+1);(-0x1.c0c49ba5e353fp+1);(0x1.a6d0e56041893p+4);(0);(-0x1.a1a1cac083127p+3);(0x1.a6d0e56041893p+4);(-0x1.a1a1cac083127p+3);(-0x1.4d047ff141206p+19);(0);(-0x1.4d047ff141206p+19);(0x1.60c10af7aac6fp-10);(0);(0);(0x1.04013ec460ed8p-2);(0);(0x1.04013ec460ed8p-2);(0x1.e4049ba5e353fp+7);(0x1.eb978d4fdf3b6p+5);(0);(0x1.eb978d4fdf3b6p+5);(0);(-0x1.5565d3996fa83p+2);(-75);(-0x1.5565d3996fa83p+2)]);
(90840%Z, [(-0x1.2026e978d4fdfp+5);(0x1.2a2d0e5604189p+2);(-0x1.f395810624dd3p+1);(0x1.abced916872b0p+4);(0);(-0x1.10c49ba5e353fp+3);(0x1.abced916872b0p+4);(-0x1.10c49ba5e353fp+3);(-0x1.5c00653a92a30p+19);(0);(-0x1.5c00653a92a30p+19);(0x1.18873568ed7f5p-10);(0);(0);(0x1.03f8db4890929p-2);(0);(0x1.03f8db4890929p-2);(0x1.e41604189374cp+7);(0x1.eb9999999999ap+5);(0);(0x1.eb9999999999ap+5);(0);(-0x1.653a14cec41ddp+2);(-75);(-0x1.653a14cec41ddp+2)]);
(90900%Z, [(-0x1.2f3b645a1cac1p+5);(0x1.30e5604189375p+2);(-0x1.1b22d0e560419p+2);(0x1.ae4dd2f1a9fbep+4);(0);(-0x1.556872b020c4ap+3);(0x1.ae4dd2f1a9fbep+4);(-0x1.556872b020c4ap+3);(-0x1.6ec1a74467382p+19);(0);(-0x1.6ec1a74467382p+19);(0x1.2287696b538b1p-11);(0);(0);(0x1.03f034b0e1b4cp-2);(0);(0x1.03f034b0e1b4cp-2);(0x1.e4276c8b43958p+7);(0x1.eb9999999999ap+5);(0);(0x1.eb9999999999ap+5);(0);(-0x1.78ce4649906cdp+2);(-75);(-0x1.78ce4649906cdp+2)]);
(90960%Z, [(-0x1.fb3f7ced91687p+4);(0x1.ac9ba5e353f7dp+2);(-0x1.0872b020c49bap+1);(0x1.b08b439581062p+4);(0);(-0x1.374bc6a7ef9dbp-5);(0x1.b08b439581062p+4);(-0x1.374bc6a7ef9dbp-5);(-0x1.6ed2e8e703afbp+19);(0);(-0x1.6ed2e8e703afbp+19);(0x1.e4e6f4ec25ad9p-9);(0);(0);(0x1.03e9a6f826edbp-2);(0);(0x1.03e9a6f826edbp-2);(0x1.e43ae147ae148p+7);(0x1.eba1cac083127p+5);(0);(0x1.eba1cac083127p+5);(0);(-0x1.794317acc4ef9p+2);(-75);(-0x1.794317acc4ef9p+2)]);
(91020%Z, [(-0x1.2495810624dd3p+5);(0x1.bdb22d0e56042p+1);(-0x1.0f9db22d0e560p+1);(0x1.b09fbe76c8b44p+4);(0);(-0x1.0589374bc6a7fp+3);(0x1.b09fbe76c8b44p+4);(-0x1.0589374bc6a7fp+3);(-0x1.7d30dd2b020c5p+19);(0);(-0x1.7d30dd2b020c5p+19);(0x1.dc3cac58b8fecp-9);(0);(0);(0x1.03e3193f6c26ap-2);(0);(0x1.03e3193f6c26ap-2);(0x1.e44ed916872b0p+7);(0x1.eba9fbe76c8b4p+5);(0);(0x1.eba9fbe76c8b4p+5);(0);(-0x1.880639d5e4a38p+2);(-75);(-0x1.880639d5e4a38p+2)]);
(91080%Z, [(-0x1.249ba5e353f7dp+5);(0x1.d5e353f7ced91p+1);(-0x1.d3b645a1cac08p+0);(0x1.b1b645a1cac08p+4);(0);(-0x1.e7ef9db22d0e5p+2);(0x1.b1b645a1cac08p+4);(-0x1.e7ef9db22d0e5p+2);(-0x1.8a9788bc6a7f0p+19);(0);(-0x1.8a9788bc6a7f0p+19);(0x1.0e7b6ddf81855p-8);(0);(0);(0x1.03dccea28fe26p-2);(0);(0x1.03dccea28fe26p-2);(0x1.e4624dd2f1aa0p+7);(0x1.ebb22d0e56042p+5);(0);(0x1.ebb22d0e56042p+5);(0);(-0x1.961cac083126fp+2);(-75);(-0x1.961cac083126fp+2)]);
(91140%Z, [(-0x1.0d7ae147ae148p+5);(0x1.00b4395810625p+2);(-0x1.5eb851eb851ecp-1);(0x1.b251eb851eb85p+4);(0);(-0x1.9b851eb851eb8p+1);(0x1.b251eb851eb85p+4);(-0x1.9b851eb851eb8p+1);(-0x1.903e236c8b439p+19);(0);(-0x1.903e236c8b439p+19);(0x1.7427443c9ae5fp-8);(0);(0);(0x1.03d7d3910c2c6p-2);(0);(0x1.03d7d3910c2c6p-2);(0x1.e477ced916873p+7);(0x1.ebbc6a7ef9db2p+5);(0);(0x1.ebbc6a7ef9db2p+5);(0);(-0x1.9c366516db0dep+2);(-75);(-0x1.9c366516db0dep+2)]);
(91200%Z, [(-0x1.d5ced916872b0p+4);(0x1.f46a7ef9db22dp+2);(0x1.2b020c49ba5e3p-2);(0x1.b276c8b439581p+4);(0);(0x1.79ba5e353f7cfp+2);(0x1.b276c8b439581p+4);(0x1.79ba5e353f7cfp+2);(-0x1.85de48816f007p+19);(0);(-0x1.85de48816f007p+19);(0x1.c80b71f916accp-8);(0);(0);(0x1.03d35eb7457c1p-2);(0);(0x1.03d35eb7457c1p-2);(0x1.e48dd2f1a9fbep+7);(0x1.ebcac083126e9p+5);(0);(0x1.ebcac083126e9p+5);(0);(-0x1.919e59f2ba9d2p+2);(-75);(-0x1.919e59f2ba9d2p+2)]);
(91260%Z, [(-0x1.99cac083126e9p+4);(0x1.1e353f7ced917p+3);(0x1.683126e978d50p+0);(0x1.b23d70a3d70a4p+4);(0x1.126e978d4fdf4p-3);(0x1.8072b020c49bap+3);(0x1.b23d70a3d70a4p+4);(0x1.8072b020c49bap+3);(-0x1.70bfdf39c0ebfp+19);(-0x1.7700fed288ce7p+14);(-0x1.7c77e72fec56dp+19);(0x1.0f74fd82f8178p-7);(0);(0);(0x1.0000000000000p-2);(0x1.fa00e27e0ef9ap-8);(0x1.07e80389f83bep-2);(0x1.df74395810625p+7);(0x1.df74bc6a7ef9ep+5);(0x1.d9db22d0e5604p+0);(0x1.ee4395810624ep+5);(0);(-0x1.85696e58a32f4p+2);(-0x1.90b1704ff4342p+2);(-0x1.85bff04577d95p+2)]);
(91320%Z, [(-0x1.1e4189374bc6ap+5);(0x1.3f3b645a1cac1p+3);(-0x1.9ef9db22d0e56p+3);(0x1.d53b645a1cac1p+5);(-0x1.d16872b020c4ap+1);(0x1.03eb851eb851fp+4);(0x1.785a1cac08312p+4);(-0x1.2e3126e978d50p+4);(-0x1.61ebe3eecbfb1p+19);(0);(-0x1.61ebe3eecbfb1p+19);(-0x1.e7707c94d107fp-7);(0x1.3a8d14fbe5942p-2);(0);(0x1.0000000000000p-2);(0x1.a5b0ff10ecb75p-7);(0x1.0d2d87f88765cp-2);(0x1.dc09ba5e353f8p+7);(0x1.dc0a3d70a3d71p+5);(0x1.8810624dd2f1bp+1);(0x1.f48b439581062p+5);(0);(-0x1.77e61cffeb075p+2);(0);(-0x1.65205bc01a36ep+2)]);
(91380%Z, [(-0x1.111eb851eb852p+5);(0x1.9bae147ae147bp+3);(-0x1.14bc6a7ef9db2p+4);(0x1.73db22d0e5604p+5);(-0x1.647ae147ae148p+2);(0x1.2b851eb851eb8p+1);(0x1.7ab851eb851ecp+4);(-0x1.478d4fdf3b646p+4);(-0x1.607314d013a93p+19);(0);(-0x1.607314d013a93p+19);(-0x1.4f23d49b78410p-6);(0x1.f82b236f45de0p-3);(0);(0x1.0000000000000p-2);(0x1.782d38476f2a6p-6);(0x1.1782d38476f2ap-2);(0x1.d25999999999ap+7);(0x1.d25a1cac08312p+5);(0x1.56a7ef9db22d1p+2);(0x1.fd2d0e5604189p+5);(0);(-0x1.7e3dee78183f9p+2);(0);(-0x1.5d7564302b40fp+2)]);
(91440%Z, [(-0x1.f42d0e5604189p+4);(0x1.0cb4395810625p+4);(-0x1.3d47ae147ae14p+4);(0x1.3b10624dd2f1bp+5);(-0x1.2ad0e56041893p+2);(0x1.ab020c49ba5e3p-2);(0x1.757ced916872bp+4);(-0x1.f3ef9db22d0e5p+3);(-0x1.62868e04ea4a9p+19);(0);(-0x1.62868e04ea4a9p+19);(-0x1.837a1d7d69624p-6);(0x1.627e93d9bc1e8p-3);(0);(0x1.0000000000000p-2);(0x1.0d716d2aa5c5fp-5);(0x1.21ae2da554b8cp-2);(0x1.c8e147ae147aep+7);(0x1.c8e147ae147aep+5);(0x1.e0e5604189375p+2);(0x1.027ef9db22d0ep+6);(0);(-0x1.88b04ab606b7bp+2);(0);(-0x1.5a240b780346ep+2)]);
(91500%Z, [(-0x1.4ba1cac083127p+4);(0x1.1f8d4fdf3b646p+4);(-0x1.648b439581062p+2);(0x1.0bb4395810625p+5);(-0x1.30a3d70a3d70ap+2);(0x1.4604189374bc7p+4);(0x1.6d89374bc6a7fp+4);(0x1.3851eb851eb85p+3);(-0x1.3f81e05d63886p+19);(0);(-0x1.3f81e05d63886p+19);(-0x1.72756861e9292p-8);(0x1.d541adf5463dap-4);(0);(0x1.0000000000000p-2);(0x1.7cd67fd3f5b60p-5);(0x1.2f9acffa7eb6cp-2);(0x1.bbfb645a1cac1p+7);(0x1.bbfbe76c8b439p+5);(0x1.4a3d70a3d70a4p+3);(0x1.0745a1cac0831p+6);(0x1.0624dd2f1a9fcp-10);(-0x1.6b9fd36f7e3d2p+2);(0);(-0x1.31a027525460bp+2)]);
(91560%Z, [(-0x1.bfb645a1cac08p+3);(0x1.d4ccccccccccdp+3);(0x1.59e353f7ced91p+3);(0x1.d3c28f5c28f5cp+4);(0x1.43d70a3d70a3dp+0);(0x1.4fc083126e979p+5);(0x1.5574bc6a7ef9ep+4);(0x1.109999999999ap+5);(-0x1.e9b108f9096bcp+18);(0);(-0x1.e9b108f9096bcp+18);(0x1.ec8c04db86f9ep-7);(0x1.5ce8bbeba905fp-4);(0);(0x1.0000000000000p-2);(0x1.d79f23465625ap-5);(0x1.3af3e468cac4bp-2);(0x1.b489ba5e353f8p+7);(0x1.b489374bc6a7fp+5);(0x1.921cac083126fp+3);(0x1.0c883126e978dp+6);(0x1.0624dd2f1a9fcp-7);(-0x1.1a63736cdf267p+2);(0);(-0x1.c9adea897635ep+1)]);
(91620%Z, [(-0x1.547ef9db22d0ep+4);(0x1.f051eb851eb85p+2);(0x1.2c8b439581062p+2);(0x1.a2a7ef9db22d1p+4);(0x1.db22d0e560419p-2);(0x1.1cccccccccccdp+4);(0x1.2f22d0e560419p+4);(0x1.528f5c28f5c29p+3);(-0x1.a84c7d9ce075fp+18);(0);(-0x1.a84c7d9ce075fp+18);(0x1.df70128c9f8b2p-8);(0x1.3f2039307842ep-4);(0);(0x1.0000000000000p-2);(0x1.11569f4906035p-4);(0x1.4455a7d24180dp-2);(0x1.aee6666666666p+7);(0x1.aee76c8b43958p+5);(0x1.cc189374bc6a8p+3);(0x1.10f5c28f5c28fp+6);(0x1.89374bc6a7efap-8);(-0x1.ee656abde3fbcp+1);(0);(-0x1.851e646f15619p+1)]);
(91680%Z, [(-0x1.d4ed916872b02p+4);(0x1.228f5c28f5c29p+1);(-0x1.12f1a9fbe76c9p+0);(0x1.885a1cac08312p+4);(0x1.26e978d4fdf3bp-6);(-0x1.c9374bc6a7efap+1);(0x1.216872b020c4ap+4);(-0x1.403126e978d50p+3);(-0x1.b4411874538efp+18);(0);(-0x1.b4411874538efp+18);(0x1.32daf3ac09b3bp-16);(0x1.1c683878976b7p-4);(0);(0x1.0000000000000p-2);(0x1.1ad96a6a0125ap-4);(0x1.46b65a9a80496p-2);(0x1.ae4624dd2f1aap+7);(0x1.ae45a1cac0831p+5);(0x1.db645a1cac083p+3);(0x1.128f5c28f5c29p+6);(0x1.0624dd2f1a9fcp-8);(-0x1.fd158b827fa1ap+1);(0);(-0x1.8db4cc2507208p+1)]);
(91740%Z, [(-0x1.048b439581062p+5);(0x1.d99999999999ap+0);(-0x1.ae147ae147ae1p-1);(0x1.731a9fbe76c8bp+4);(-0x1.353f7ced91687p-3);(-0x1.1072b020c49bap+3);(0x1.26e5604189375p+4);(-0x1.a8dd2f1a9fbe7p+3);(-0x1.d1f38a617c1bep+18);(0);(-0x1.d1f38a617c1bep+18);(0x1.49ef375ae0206p-12);(0x1.a51812706fff9p-5);(0);(0x1.0000000000000p-2);(0x1.4ed80a17b0f6bp-4);(0x1.53b60285ec3dbp-2);(0x1.a64083126e979p+7);(0x1.a63f7ced91687p+5);(0x1.1424dd2f1a9fcp+4);(0x1.1829fbe76c8b4p+6);(0x1.0624dd2f1a9fcp-8);(-0x1.155b813016484p+2);(0);(-0x1.a08366516db0ep+1)]);
(91800%Z, [(-0x1.263b645a1cac1p+5);(-0x1.22d0e56041893p-1);(-0x1.28f5c28f5c28fp+0);(0x1.5395810624dd3p+4);(0x1.4dd2f1a9fbe77p-3);(-0x1.11ef9db22d0e5p+4);(0x1.2e395810624ddp+4);(-0x1.374bc6a7ef9dbp+4);(-0x1.069e52ecbfb16p+19);(0);(-0x1.069e52ecbfb16p+19);(-0x1.78e670b7ce0d1p-14);(0x1.9cdf5ecabba59p-6);(0);(0x1.0000000000000p-2);(0x1.688df37329c34p-4);(0x1.5a237cdcca70dp-2);(0x1.a28d4fdf3b646p+7);(0x1.a28d4fdf3b646p+5);(0x1.26c083126e979p+4);(0x1.1af6c8b439581p+6);(0x1.0624dd2f1a9fcp-10);(-0x1.3bef1fddebd90p+2);(0);(-0x1.d14de7ea5f84dp+1)]);
(91860%Z, [(-0x1.397ae147ae148p+5);(0x1.4bc6a7ef9db23p-2);(-0x1.c7ae147ae147bp-2);(0x1.3c8f5c28f5c29p+4);(-0x1.6a7ef9db22d0ep-2);(-0x1.3dfbe76c8b439p+4);(0x1.3fa1cac083127p+4);(-0x1.3ae978d4fdf3bp+4);(-0x1.28c7567d566cfp+19);(-0x1.89bc624dd2f1bp+10);(-0x1.298c34ae7d567p+19);(0x1.ad81d8dda73a9p-11);(0x1.5b67afbc9ba74p-9);(0);(0x1.0000000000000p-2);(0x1.c49ba5e353f7dp-4);(0x1.7126e978d4fdfp-2);(0x1.91e4dd2f1a9fcp+7);(0x1.91e5604189375p+5);(0x1.6347ae147ae14p+4);(0x1.21c395810624ep+6);(0);(-0x1.7519ce075f6fdp+2);(-0x1.126e978d4fdf4p-5);(-0x1.01daf8df7a4e8p+2)]);
(91920%Z, [(-0x1.22645a1cac083p+5);(0x1.23ced916872b0p+3);(0x1.823d70a3d70a4p+2);(0x1.2da5e353f7ceep+4);(0x1.f2b020c49ba5ep-2);(-0x1.ce147ae147ae1p+0);(0x1.4076c8b439581p+4);(-0x1.420c49ba5e354p-1);(-0x1.29e24cc8b4396p+19);(-0x1.6b0d1842b734bp+12);(-0x1.2cb866f9db22dp+19);(0x1.29806c76f6ac7p-7);(0);(0);(0x1.0000000000000p-2);(0x1.e0bd44998d046p-4);(0x1.782f512663411p-2);(0x1.8e3df3b645a1dp+7);(0x1.8e3d70a3d70a4p+5);(0x1.75eb851eb851fp+4);(0x1.249a9fbe76c8bp+6);(0);(-0x1.7a45cbbc2b94ep+2);(-0x1.e108c3f3e0371p-4);(-0x1.02277c45cbbc3p+2)]);
(91980%Z, [(-0x1.3945a1cac0831p+5);(0x1.b7851eb851eb8p+3);(0x1.1cdd2f1a9fbe7p+3);(0x1.2b74bc6a7ef9ep+4);(0x1.589374bc6a7f0p-1);(0x1.6ef9db22d0e56p+1);(0x1.37e353f7ced91p+4);(0x1.d24dd2f1a9fbep+1);(-0x1.237b03c01a36ep+19);(-0x1.0cd76e9680e06p+13);(-0x1.27ae617a786c2p+19);(0x1.a29d0ded53800p-7);(0);(0);(0x1.0000000000000p-2);(0x1.0491afc04c8bdp-3);(0x1.8248d7e02645ep-2);(0x1.8932b020c49bap+7);(0x1.8933333333333p+5);(0x1.90395810624ddp+4);(0x1.28a6e978d4fdfp+6);(0);(-0x1.76c154c985f07p+2);(-0x1.4cdc8754f3776p-3);(-0x1.f476f2a5a469dp+1)]);
(92040%Z, [(-0x1.579ba5e353f7dp+5);(0x1.871a9fbe76c8bp+3);(0x1.e4fdf3b645a1dp+2);(0x1.188b439581062p+4);(0x1.21cac083126e9p+0);(-0x1.1f0a3d70a3d71p+2);(0x1.2ff7ced916873p+4);(-0x1.82b020c49ba5ep+1);(-0x1.28ca5b41f212dp+19);(-0x1.b190b913e8145p+13);(-0x1.2f909e26809d5p+19);(0x1.6d9b8ee73909bp-7);(0);(0);(0x1.0000000000000p-2);(0x1.3ad538ac18f82p-3);(0x1.9d6a9c560c7c1p-2);(0x1.795b22d0e5604p+7);(0x1.795a1cac08312p+5);(0x1.d0147ae147ae1p+4);(0x1.30b22d0e56042p+6);(0);(-0x1.8dfddebd9018ep+2);(-0x1.cf08461f9f01cp-3);(-0x1.f43419e300150p+1)]);
(92100%Z, [(-0x1.6cc8b43958106p+5);(0x1.73b645a1cac08p+3);(0x1.c666666666666p+2);(0x1.0b3f7ced91687p+4);(0x1.eb851eb851eb8p-3);(-0x1.3e0c49ba5e354p+3);(0x1.294395810624ep+4);(-0x1.0204189374bc7p+3);(-0x1.36f6b4f41f213p+19);(-0x1.42508324c8366p+14);(-0x1.4109390d844d0p+19);(0x1.5d1254c14d67cp-7);(0);(0);(0x1.0000000000000p-2);(0x1.4554b8bef8cebp-3);(0x1.a2aa5c5f7c676p-2);(0x1.76a24dd2f1aa0p+7);(0x1.76a1cac083127p+5);(0x1.dc189374bc6a8p+4);(0x1.32570a3d70a3dp+6);(0);(-0x1.a48ede54b48d4p+2);(-0x1.4fa58f7121ab5p-2);(-0x1.07396d0917d6bp+2)]);
(92160%Z, [(-0x1.7f20c49ba5e35p+5);(0x1.5f851eb851eb8p+3);(0x1.a3e76c8b43958p+2);(0x1.0ff3b645a1cacp+4);(0x1.989374bc6a7f0p-2);(-0x1.9e5604189374cp+3);(0x1.2849ba5e353f8p+4);(-0x1.6db22d0e56042p+3);(-0x1.4b0d3676c8b44p+19);(-0x1.97d84605681edp+14);(-0x1.57cbf8a71de6ap+19);(0x1.49fb3641b0798p-7);(0);(0);(0x1.0000000000000p-2);(0x1.554434e3369bap-3);(0x1.aaa21a719b4ddp-2);(0x1.7290e56041893p+7);(0x1.72916872b020cp+5);(0x1.edfbe76c8b439p+4);(0x1.34c7ae147ae14p+6);(0);(-0x1.c568c692f6e83p+2);(-0x1.996fa82e87d2cp-2);(-0x1.17e74299d883cp+2)]);
(92220%Z, [(-0x1.96e76c8b43958p+5);(0x1.8eb851eb851ecp+3);(0x1.d0b4395810625p+2);(0x1.14189374bc6a8p+4);(0);(-0x1.bc624dd2f1aa0p+3);(0x1.28f5c28f5c28fp+4);(-0x1.92a7ef9db22d1p+3);(-0x1.612b62ab367a1p+19);(-0x1.e1332fad6cb53p+14);(-0x1.7034fc28f5c29p+19);(0x1.69868163edbb3p-7);(0);(0);(0x1.0000000000000p-2);(0x1.54d0dcfcc5b8ep-3);(0x1.aa686e7e62dc7p-2);(0x1.72d0624dd2f1bp+7);(0x1.72d0e56041893p+5);(0x1.eda9fbe76c8b4p+4);(0x1.34d2f1a9fbe77p+6);(0);(-0x1.e441b328b6d87p+2);(-0x1.e385c67dfe32ap-2);(-0x1.2c10e02214270p+2)]);
(92280%Z, [(-0x1.a6ef9db22d0e5p+5);(0x1.c7ced916872b0p+3);(0x1.06a7ef9db22d1p+3);(0x1.1ced916872b02p+4);(0);(-0x1.936c8b4395810p+3);(0x1.2a4189374bc6ap+4);(-0x1.78c49ba5e353fp+3);(-0x1.75dda7c6a7efap+19);(-0x1.08088ad81adebp+15);(-0x1.865e307381d7ep+19);(0x1.92c8af86c0ceep-7);(0);(0);(0x1.0000000000000p-2);(0x1.54623d0bfa094p-3);(0x1.aa311e85fd04ap-2);(0x1.730fdf3b645a2p+7);(0x1.7310624dd2f1bp+5);(0x1.ed604189374bcp+4);(0x1.34df3b645a1cbp+6);(0);(-0x1.008e60807357ep+3);(-0x1.09835158b8280p-1);(-0x1.3e65bea0ba1f5p+2)]);
(92340%Z, [(-0x1.bea5e353f7ceep+5);(0x1.9a45a1cac0831p+3);(0x1.c7df3b645a1cbp+2);(0x1.22b4395810625p+4);(0);(-0x1.1b78d4fdf3b64p+4);(0x1.2b9db22d0e560p+4);(-0x1.128b439581062p+4);(-0x1.940749bcd35a8p+19);(-0x1.17b80d551d68cp+15);(-0x1.a582ca92a3055p+19);(0x1.675a6cb306a81p-7);(0);(0);(0x1.0000000000000p-2);(0x1.53f5b5fa22707p-3);(0x1.a9fadafd11383p-2);(0x1.734cccccccccdp+7);(0x1.734bc6a7ef9dbp+5);(0x1.ed126e978d4fep+4);(0x1.34ea7ef9db22dp+6);(0);(-0x1.15a4fca42aed1p+3);(-0x1.197e132b55ef2p-1);(-0x1.582de00d1b717p+2)]);
(92400%Z, [(-0x1.d8353f7ced917p+5);(0x1.349374bc6a7f0p+3);(0x1.3d1eb851eb852p+2);(0x1.26bc6a7ef9db2p+4);(0);(-0x1.a020c49ba5e35p+4);(0x1.2ca3d70a3d70ap+4);(-0x1.9a395810624ddp+4);(-0x1.c118b63611340p+19);(-0x1.2219f14e3bcd3p+15);(-0x1.d33a554af4f0ep+19);(0x1.0ebe08e4ab0fep-7);(0);(0);(0x1.0000000000000p-2);(0x1.538a3b57c4e2fp-3);(0x1.a9c51dabe2718p-2);(0x1.7385a1cac0831p+7);(0x1.73851eb851eb8p+5);(0x1.ecc083126e979p+4);(0x1.34f3b645a1cacp+6);(0);(-0x1.3575cd0bb6ed6p+3);(-0x1.2426fe718a86dp-1);(-0x1.7e392e1ef73c1p+2)]);
(92460%Z, [(-0x1.e47ced916872bp+5);(0x1.132b020c49ba6p+3);(0x1.0b851eb851eb8p+2);(0x1.29126e978d4fep+4);(0);(-0x1.d370a3d70a3d7p+4);(0x1.2a10624dd2f1bp+4);(-0x1.d272b020c49bap+4);(-0x1.f457bced91687p+19);(-0x1.23d5006b7aa26p+15);(-0x1.034a867ae147bp+20);(0x1.de4b4f5eb7f15p-8);(0);(0);(0x1.0000000000000p-2);(0x1.532378ab0c88ap-3);(0x1.a991bc5586445p-2);(0x1.73bb645a1cac1p+7);(0x1.73bc6a7ef9db2p+5);(0x1.ec72b020c49bap+4);(0x1.34fae147ae148p+6);(0);(-0x1.59fa6defc7a3ap+3);(-0x1.261522a6f3f53p-1);(-0x1.a932df505d0fap+2)]);
(92520%Z, [(-0x1.e0ef9db22d0e5p+5);(0x1.7c51eb851eb85p+3);(0x1.6b645a1cac083p+2);(0x1.28b4395810625p+4);(0);(-0x1.802d0e5604189p+4);(0x1.232f1a9fbe76dp+4);(-0x1.85b22d0e56042p+4);(-0x1.0f9403020c49cp+20);(-0x1.1a1c743e963dcp+15);(-0x1.1864e6a3d70a4p+20);(0x1.2c5720f91ee55p-7);(0);(0);(0x1.0000000000000p-2);(0x1.52c5197a24895p-3);(0x1.a9628cbd1244ap-2);(0x1.73f020c49ba5ep+7);(0x1.73ef9db22d0e5p+5);(0x1.ec3126e978d50p+4);(0x1.3504189374bc7p+6);(0);(-0x1.78d10f51ac9b0p+3);(-0x1.1c6d1e108c3f4p-1);(-0x1.ccc1a8ac5c140p+2)]);
(92580%Z, [(-0x1.cc374bc6a7efap+5);(0x1.e820c49ba5e35p+3);(0x1.d6978d4fdf3b6p+2);(0x1.2595810624dd3p+4);(0);(-0x1.091eb851eb852p+4);(0x1.1c4dd2f1a9fbep+4);(-0x1.1266666666666p+4);(-0x1.1ea6cf16872b0p+20);(-0x1.09cc283e425afp+15);(-0x1.26f5305a1cac1p+20);(0x1.700cc2dc08292p-7);(0);(0);(0x1.0000000000000p-2);(0x1.526e115592d99p-3);(0x1.a93708aac96ccp-2);(0x1.7423d70a3d70ap+7);(0x1.7422d0e560419p+5);(0x1.ebf7ced916873p+4);(0x1.350f5c28f5c29p+6);(0);(-0x1.8e8130164840ep+3);(-0x1.0c12ad81adea9p-1);(-0x1.e54a4d2b2bfdbp+2)]);
(92640%Z, [(-0x1.9a5810624dd2fp+5);(0x1.efef9db22d0e5p+3);(0x1.e020c49ba5e35p+2);(0x1.21020c49ba5e3p+4);(0);(-0x1.47645a1cac083p+3);(0x1.15be76c8b4396p+4);(-0x1.5deb851eb851fp+3);(-0x1.28431b6872b02p+20);(-0x1.ebfdebaf10236p+14);(-0x1.2ff31316872b0p+20);(0x1.74a380783570dp-7);(0);(0);(0x1.0000000000000p-2);(0x1.521ab4b72c519p-3);(0x1.a90d5a5b9628dp-2);(0x1.7456872b020c5p+7);(0x1.745604189374cp+5);(0x1.ebc28f5c28f5cp+4);(0x1.351ba5e353f7dp+6);(0);(-0x1.9c8255b035bd5p+3);(-0x1.f05a708ede54bp-2);(-0x1.f495182a9930cp+2)]);
(92700%Z, [(-0x1.0b10624dd2f1bp+5);(0x1.22e5604189375p+4);(0x1.1fd70a3d70a3dp+3);(0x1.1c395810624ddp+4);(0);(0x1.71d2f1a9fbe77p+3);(0x1.14ccccccccccdp+4);(0x1.63020c49ba5e3p+3);(-0x1.1e83039581062p+20);(-0x1.d1edcc985f06fp+14);(-0x1.25cabac8b4396p+20);(0x1.b08acccd22b31p-7);(0);(0);(0x1.0000000000000p-2);(0x1.51ca7d6733ebcp-3);(0x1.a8e53eb399f5ep-2);(0x1.7489ba5e353f8p+7);(0x1.7489374bc6a7fp+5);(0x1.eb916872b020cp+4);(0x1.3528f5c28f5c3p+6);(0);(-0x1.8e79bbadc0981p+3);(-0x1.d630a915379fbp-2);(-0x1.e394af4f0d845p+2)]);
(92760%Z, [(-0x1.b0dd2f1a9fbe7p+3);(0x1.02ac083126e98p+4);(0x1.0df3b645a1cacp+3);(0x1.1ad4fdf3b645ap+4);(0);(0x1.cc0c49ba5e354p+4);(0x1.1ec49ba5e353fp+4);(0x1.cffbe76c8b439p+4);(-0x1.0506463126e98p+20);(-0x1.dfc6a201cd5fap+14);(-0x1.0c8560b851eb8p+20);(0x1.99732e1ff8eecp-7);(0);(0);(0x1.0000000000000p-2);(0x1.51758e219652cp-3);(0x1.a8bac710cb296p-2);(0x1.74be76c8b4396p+7);(0x1.74be76c8b4396p+5);(0x1.eb5810624dd2fp+4);(0x1.35353f7ced917p+6);(0);(-0x1.6962e09fe8683p+3);(-0x1.e461f9f01b867p-2);(-0x1.b8e9ccb7d4174p+2)]);
(92820%Z, [(-0x1.1400000000000p+3);(0x1.7cd4fdf3b645ap+3);(0x1.a50e560418937p+2);(0x1.1e83126e978d5p+4);(0);(0x1.bc2d0e5604189p+4);(0x1.28e147ae147aep+4);(0x1.c68f5c28f5c29p+4);(-0x1.d81c249ba5e35p+19);(-0x1.02202b8bac711p+15);(-0x1.e83e2754c985fp+19);(0x1.4e6ac71e3722bp-7);(0);(0);(0x1.0000000000000p-2);(0x1.51183b60285ecp-3);(0x1.a88c1db0142f6p-2);(0x1.74f4395810625p+7);(0x1.74f3b645a1cacp+5);(0x1.eb16872b020c5p+4);(0x1.354083126e979p+6);(0);(-0x1.4549f94855da2p+3);(-0x1.04c447c30d307p-1);(-0x1.8fdf1172ef0aep+2)]);
(92880%Z, [(-0x1.1d1eb851eb852p+3);(0x1.373b645a1cac1p+3);(0x1.6810624dd2f1bp+2);(0x1.23df3b645a1cbp+4);(0);(0x1.8aed916872b02p+4);(0x1.2d8d4fdf3b646p+4);(0x1.949fbe76c8b44p+4);(-0x1.aba850ef34d6ap+19);(-0x1.1325c3c0c1fc9p+15);(-0x1.bcdaad2b020c5p+19);(0x1.28da3ed04a5acp-7);(0);(0);(0x1.0000000000000p-2);(0x1.50b417ca2120ep-3);(0x1.a85a0be510907p-2);(0x1.752b851eb851fp+7);(0x1.752b020c49ba6p+5);(0x1.ead0e56041893p+4);(0x1.3549ba5e353f8p+6);(0);(-0x1.2561522a6f3f5p+3);(-0x1.162a1b5c7cd8ap-1);(-0x1.6b859c8c9320ep+2)]);
(92940%Z, [(-0x1.be8f5c28f5c29p+3);(0x1.0a978d4fdf3b6p+3);(0x1.377ced916872bp+2);(0x1.28189374bc6a8p+4);(0);(0x1.1bfbe76c8b439p+4);(0x1.2d5810624dd2fp+4);(0x1.213b645a1cac1p+4);(-0x1.8be1aa7e28241p+19);(-0x1.1c5ff0cb295eap+15);(-0x1.9da7a98adab9fp+19);(0x1.0ade14f3ad0b6p-7);(0);(0);(0x1.0000000000000p-2);(0x1.504a2fcefaa47p-3);(0x1.a82517e77d524p-2);(0x1.7563d70a3d70ap+7);(0x1.75645a1cac083p+5);(0x1.ea7ef9db22d0ep+4);(0x1.3551eb851eb85p+6);(0);(-0x1.0ea8826aa8eb4p+3);(-0x1.1fb2aae297397p-1);(-0x1.51743e963dc48p+2)]);
(93000%Z, [(-0x1.5ff7ced916873p+4);(0x1.02e978d4fdf3bp+3);(0x1.1ae147ae147aep+2);(0x1.2a1cac083126fp+4);(0);(0x1.24ac083126e98p+3);(0x1.2b1a9fbe76c8bp+4);(0x1.269fbe76c8b44p+3);(-0x1.7bb281e28240bp+19);(-0x1.1e181f0d844d0p+15);(-0x1.8d9403d3c3611p+19);(0x1.f213d925cb969p-8);(0);(0);(0x1.0000000000000p-2);(0x1.4fdc9c4da9004p-3);(0x1.a7ee4e26d4802p-2);(0x1.759db22d0e560p+7);(0x1.759db22d0e560p+5);(0x1.ea2d0e5604189p+4);(0x1.355a1cac08312p+6);(0);(-0x1.02ffac1d29dc7p+3);(-0x1.21a36e2eb1c43p-1);(-0x1.43fe86833c600p+2)]);
(93060%Z, [(-0x1.cbdf3b645a1cbp+4);(0x1.3ea7ef9db22d1p+2);(0x1.25c28f5c28f5cp+1);(0x1.2a9374bc6a7f0p+4);(0);(-0x1.672b020c49ba6p+1);(0x1.2a28f5c28f5c3p+4);(-0x1.6a7ef9db22d0ep+1);(-0x1.80ad0a083126fp+19);(-0x1.1d5df60bf5d79p+15);(-0x1.9282e96872b02p+19);(0x1.42da453060c5fp-8);(0);(0);(0x1.0000000000000p-2);(0x1.4f6ad70e6f2e9p-3);(0x1.a7b56b8737974p-2);(0x1.75d604189374cp+7);(0x1.75d4fdf3b645ap+5);(0x1.e9ced916872b0p+4);(0x1.355e353f7ced9p+6);(0);(-0x1.063be22e5de16p+3);(-0x1.211c6d1e108c4p-1);(-0x1.47fe08aefb2abp+2)]);
(93120%Z, [(-0x1.0f1a9fbe76c8bp+5);(0x1.119999999999ap+2);(0x1.e189374bc6a7fp+0);(0x1.2ae5604189375p+4);(0);(-0x1.21a1cac083127p+3);(0x1.2b604189374bcp+4);(-0x1.20ac083126e98p+3);(-0x1.90887904816f0p+19);(-0x1.1e371d4e8fb01p+15);(-0x1.a26bead9e83e4p+19);(0x1.20a30db6a1e82p-8);(0);(0);(0x1.0000000000000p-2);(0x1.4ef99806f2629p-3);(0x1.a77ccc0379314p-2);(0x1.760d4fdf3b646p+7);(0x1.760c49ba5e354p+5);(0x1.e970a3d70a3d7p+4);(0x1.356353f7ced91p+6);(0);(-0x1.113150dae3e6cp+3);(-0x1.222fad6cb5350p-1);(-0x1.552a305532618p+2)]);
(93180%Z, [(-0x1.1e9fbe76c8b44p+5);(0x1.19374bc6a7efap+2);(0x1.01eb851eb851fp+1);(0x1.2b9db22d0e560p+4);(0);(-0x1.5624dd2f1a9fcp+3);(0x1.2c9ba5e353f7dp+4);(-0x1.543126e978d50p+3);(-0x1.a33857a92a305p+19);(-0x1.1ff0e630a9153p+15);(-0x1.b537660c49ba6p+19);(0x1.2bdc7cc31f240p-8);(0);(0);(0x1.0000000000000p-2);(0x1.4e8af81626b2fp-3);(0x1.a7457c0b13598p-2);(0x1.764395810624ep+7);(0x1.764395810624ep+5);(0x1.e916872b020c5p+4);(0x1.35676c8b43958p+6);(0);(-0x1.1e2c669057d18p+3);(-0x1.2426fe718a86dp-1);(-0x1.64c34c1a8ac5cp+2)]);
(93240%Z, [(-0x1.2195810624dd3p+5);(0x1.e89374bc6a7f0p+1);(0x1.d3f7ced916873p+0);(0x1.29db22d0e5604p+4);(0x1.22d0e56041893p-3);(-0x1.796872b020c4ap+3);(0x1.2cbc6a7ef9db2p+4);(-0x1.73a5e353f7ceep+3);(-0x1.b7a2a0793dd98p+19);(-0x1.24fed9e59f2bbp+15);(-0x1.c9f28e17c1bdap+19);(0x1.1c6ef682d3af7p-8);(0);(0);(0x1.0000000000000p-2);(0x1.564e8b7e4de3cp-3);(0x1.ab2745bf26f1ep-2);(0x1.74526e978d4fep+7);(0x1.7451eb851eb85p+5);(0x1.f1d70a3d70a3dp+4);(0x1.369fbe76c8b44p+6);(0);(-0x1.2e32df505d0fap+3);(-0x1.240cc78e9f6a9p-1);(-0x1.748b6d86ec17fp+2)]);
(93300%Z, [(-0x1.193d70a3d70a4p+5);(0x1.97ced916872b0p+1);(0x1.8c49ba5e353f8p+0);(0x1.26a7ef9db22d1p+4);(0x1.374bc6a7ef9dbp-4);(-0x1.7dc28f5c28f5cp+3);(0x1.2b26e978d4fdfp+4);(-0x1.74bc6a7ef9db2p+3);(-0x1.cc1c66f5c28f6p+19);(-0x1.2ce731bc55864p+15);(-0x1.deeada1205bc0p+19);(0x1.05bf5ca1c1864p-8);(0);(0);(0x1.0000000000000p-2);(0x1.589acbc8c0ce9p-3);(0x1.ac4d65e460675p-2);(0x1.73d26e978d4fep+7);(0x1.73d2f1a9fbe77p+5);(0x1.f483126e978d5p+4);(0x1.370a3d70a3d71p+6);(0);(-0x1.3d41b328b6d87p+3);(-0x1.2a58f7121ab4bp-1);(-0x1.857342edbb59ep+2)]);
(93360%Z, [(-0x1.15d4fdf3b645ap+5);(0x1.0bc6a7ef9db23p+2);(0x1.da5e353f7ced9p+0);(0x1.2733333333333p+4);(0);(-0x1.47c6a7ef9db23p+3);(0x1.293b645a1cac1p+4);(-0x1.43ae147ae147bp+3);(-0x1.dde426ded288dp+19);(-0x1.307de53f7ced9p+15);(-0x1.f0ec052f1a9fcp+19);(0x1.1f9c52868a9e3p-8);(0);(0);(0x1.0000000000000p-2);(0x1.582ecaeea63b7p-3);(0x1.ac176577531dbp-2);(0x1.7406a7ef9db23p+7);(0x1.740624dd2f1aap+5);(0x1.f42d0e5604189p+4);(0x1.370e560418937p+6);(0);(-0x1.49d1633482be9p+3);(-0x1.2e1ef73c0c1fdp-1);(-0x1.94692f6e8294ap+2)]);
(93420%Z, [(-0x1.1beb851eb851fp+5);(0x1.4051eb851eb85p+2);(0x1.f9db22d0e5604p+0);(0x1.27f7ced916873p+4);(0);(-0x1.4051eb851eb85p+3);(0x1.274fdf3b645a2p+4);(-0x1.41a9fbe76c8b4p+3);(-0x1.ef8f59fbe76c9p+19);(-0x1.2f55e80dc3372p+15);(-0x1.01425c3d70a3dp+20);(0x1.29e9de558b4cdp-8);(0);(0);(0x1.0000000000000p-2);(0x1.57c4e2f37fbf0p-3);(0x1.abe27179bfdf8p-2);(0x1.743a5e353f7cfp+7);(0x1.74395810624ddp+5);(0x1.f3d70a3d70a3dp+4);(0x1.371374bc6a7f0p+6);(0);(-0x1.564de7ea5f84dp+3);(-0x1.2d2c7b890d5a6p-1);(-0x1.a30bb6ed67770p+2)]);
(93480%Z, [(-0x1.20ccccccccccdp+5);(0x1.64dd2f1a9fbe7p+2);(0x1.fdb22d0e56042p+0);(0x1.27a9fbe76c8b4p+4);(0);(-0x1.41c28f5c28f5cp+3);(0x1.250624dd2f1aap+4);(-0x1.47020c49ba5e3p+3);(-0x1.00c2f6a3d70a4p+20);(-0x1.2ab6cb8cfbfc6p+15);(-0x1.0a18ad020c49cp+20);(0x1.2ab3b2ca6d211p-8);(0);(0);(0x1.0000000000000p-2);(0x1.575d9a0f0a5f0p-3);(0x1.abaecd07852f8p-2);(0x1.746c8b4395810p+7);(0x1.746c8b4395810p+5);(0x1.f3851eb851eb8p+4);(0x1.37178d4fdf3b6p+6);(0);(-0x1.630980b242071p+3);(-0x1.28c3f3e0370cep-1);(-0x1.b1c60029f16b1p+2)]);
(93540%Z, [(-0x1.2c83126e978d5p+5);(0x1.68e5604189375p+2);(0x1.451eb851eb852p+0);(0x1.240c49ba5e354p+4);(0x1.5a1cac083126fp-2);(-0x1.82147ae147ae1p+3);(0x1.21ced916872b0p+4);(-0x1.86872b020c49cp+3);(-0x1.0b7cf628f5c29p+20);(-0x1.26cc0613d31bap+15);(-0x1.14b3565a1cac1p+20);(0x1.dcda610a06134p-9);(0);(0);(0x1.0000000000000p-2);(0x1.5f266ba493c8ap-3);(0x1.af9335d249e45p-2);(0x1.728189374bc6ap+7);(0x1.72810624dd2f2p+5);(0x1.fc395810624ddp+4);(0x1.384ed916872b0p+6);(0);(-0x1.746eac8605682p+3);(-0x1.1fd8adab9f55ap-1);(-0x1.c1abf33871609p+2)])
].

(** tests/pysnobal_config.ini and the defaults of pysnobal_core_config.ini *)
Definition gold_params := mkParams 2061 60000%Z (0x1.47ae147ae147bp-7) 0.25 false.
Definition gold_cfg : ModelCfg float := mkCfg 60 15 1 60 10 1.
Definition gold_heights := mkHeights 5 5 (0x1.999999999999ap-4).
Definition gold_ic : InitSnow float := mkInitSnow 0 0 0 0 0 (0x1.47ae147ae147bp-8).

(** The gold file is rounded (3 to 9 decimals): absolute 6e-4 or relative 1e-6. *)
Definition close (a b : float) : bool :=
  (PrimFloat.abs (a - b) <=? 0x1.3a92a30553261p-11)
  || (PrimFloat.abs (a - b) <=? 0x1.0c6f7a0b5ed8dp-20 * PrimFloat.abs b).
Fixpoint close_list (a : list float) (b : list (String.string * option float)) : bool :=
  match a, b with
  | [], [] => true
  | x :: a, (_, Some y) :: b => close x y && close_list a b
  | _, _ => false
  end.
Fixpoint close_rows (a : list (Z * list float)) (b : list (Z * list (String.string * option float))) : bool :=
  match a, b with
  | [], [] => true
  | (d, x) :: a, (e, y) :: b => (d =? e)%Z && close_list x y && close_rows a b
  | _, _ => false
  end.

(** Evaluated by the virtual machine while this file is compiled; the compiled file
    keeps only the answer, so that coqchk need not repeat the run.  If the answer
    were [false] the Example would not compile. *)
Definition model_reproduces_gold_file : bool := Eval vm_compute in
  match pysnobal_run gold_params 93480%Z gold_cfg gold_ic gold_heights false gold_rows with
  | Ok out => close_rows gold_out out
  | Err _ => false
  end.
Example gold_file_reproduced : model_reproduces_gold_file = true.
Proof. reflexivity. Qed.
