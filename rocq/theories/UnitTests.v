(** * The unit tests of the crate, evaluated in the model

    The test vectors of src/**/*.rs, with literals rounded to f32, run through
    the model under the debug build.  These are tests of the transcription, not
    claims: each [Example] is one #[test] function. *)

From Coq Require Import ZArith Bool List.
From Flocq Require Import Core IEEE754.Binary IEEE754.Bits.
From Verif Require Import Base Float F32Wrap Vector Stats Quaternion TestEnv.
Import ListNotations.
Open Scope Z_scope.

Definition b (z : Z) : f32 := from_bits z.
Definition get (r : res f32) : f32 := match r with Ok x => x | _ => b 0x7FC00000 end.
#[local] Existing Instance env_debug.

(** [|actual - expected| <= err] and [|actual - expected| / expected <= err], in f32. *)
Definition absolute (f : f32 -> f32) (err : Z) (l : list (Z * Z)) : bool :=
  forallb (fun p => fle (F32_abs (fsub (f (b (fst p))) (b (snd p)))) (b err)) l.
Definition relative (f : f32 -> f32) (err : Z) (l : list (Z * Z)) : bool :=
  forallb (fun p => fle (fdiv (F32_abs (fsub (f (b (fst p))) (b (snd p)))) (b (snd p))) (b err)) l.
(** [actual - expected <= err], one sided as in the tests. *)
Definition one_sided (f : f32 -> f32) (err : Z) (l : list (Z * Z)) : bool :=
  forallb (fun p => fle (fsub (f (b (fst p))) (b (snd p))) (b err)) l.
Definition equal (l : list (f32 * Z)) : bool := forallb (fun p => feq (fst p) (b (snd p))) l.

(** float/cos.rs *)
Example unit_cos : absolute F32_cos 0x3B03126F [
   (0x00000000, 0x3F800000); (0x3E0F5C29, 0x3F7D70A4); (0x3E8ED917, 0x3F760419);
   (0x3ED6872B, 0x3F69FBE7); (0x3F0F1AA0, 0x3F591687); (0x3F32B021, 0x3F441893);
   (0x3F56872B, 0x3F2B4396); (0x3F7A1CAC, 0x3F0F1AA0); (0x3F8EF9DB, 0x3EE04189);
   (0x3FA0E560, 0x3E9E353F); (0x3FB2B021, 0x3E322D0E); (0x3FC49BA6, 0x3D0F5C29);
   (0x3FD6872B, 0xBDD70A3D); (0x3FE851EC, 0xBE77CED9); (0x3FFA3D71, 0xBEC00000);
   (0x40060419, 0xBF000000); (0x400EF9DB, 0xBF1DB22D); (0x4017EF9E, 0xBF381062);
   (0x4020D4FE, 0xBF4F1AA0); (0x4029CAC1, 0xBF620C4A); (0x4032C083, 0xBF70A3D7);
   (0x403BA5E3, 0xBF7A5E35); (0x40449BA6, 0xBF7F7CEE); (0x404D8106, 0xBF7F7CEE);
   (0x405676C9, 0xBF7A5E35); (0x405F6C8B, 0xBF70A3D7); (0x406851EC, 0xBF620C4A);
   (0x407147AE, 0xBF4F1AA0); (0x407A3D71, 0xBF381062); (0x40819168, 0xBF1DB22D);
   (0x40860C4A, 0xBF000000); (0x408A7EFA, 0xBEC00000); (0x408EF9DB, 0xBE77CED9);
   (0x409374BC, 0xBDD70A3D); (0x4097E76D, 0x3D0F5C29); (0x409C624E, 0x3E322D0E);
   (0x40A0DD2F, 0x3E9E353F); (0x40A54FDF, 0x3EE04189); (0x40A9CAC1, 0x3F0F1AA0);
   (0x40AE3D71, 0x3F2B4396); (0x40B2B852, 0x3F441893); (0x40B73333, 0x3F591687);
   (0x40BBA5E3, 0x3F69FBE7); (0x40C020C5, 0x3F760419); (0x40C49BA6, 0x3F7D70A4);
   (0x40C90E56, 0x3F800000)] = true.
Proof. vm_compute. reflexivity. Qed.

(** float/sin.rs *)
Example unit_sin : absolute F32_sin 0x3B03126F [
   (0x00000000, 0x00000000); (0x3E0F5C29, 0x3E0E5604); (0x3E8ED917, 0x3E8D4FDF);
   (0x3ED6872B, 0x3ED0624E); (0x3F0F1AA0, 0x3F07AE14); (0x3F32B021, 0x3F249BA6);
   (0x3F56872B, 0x3F3E353F); (0x3F7A1CAC, 0x3F543958); (0x3F8EF9DB, 0x3F6624DD);
   (0x3FA0E560, 0x3F7374BC); (0x3FB2B021, 0x3F7C28F6); (0x3FC49BA6, 0x3F7FBE77);
   (0x3FD6872B, 0x3F7EB852); (0x3FE851EC, 0x3F7851EC); (0x3FFA3D71, 0x3F6D4FDF);
   (0x40060419, 0x3F5DB22D); (0x400EF9DB, 0x3F49BA5E); (0x4017EF9E, 0x3F31EB85);
   (0x4020D4FE, 0x3F16872B); (0x4029CAC1, 0x3EF020C5); (0x4032C083, 0x3EAF1AA0);
   (0x403BA5E3, 0x3E54FDF4); (0x40449BA6, 0x3D8F5C29); (0x404D8106, 0xBD8F5C29);
   (0x405676C9, 0xBE54FDF4); (0x405F6C8B, 0xBEAF1AA0); (0x406851EC, 0xBEF020C5);
   (0x407147AE, 0xBF16872B); (0x407A3D71, 0xBF31EB85); (0x40819168, 0xBF49BA5E);
   (0x40860C4A, 0xBF5DB22D); (0x408A7EFA, 0xBF6D4FDF); (0x408EF9DB, 0xBF7851EC);
   (0x409374BC, 0xBF7EB852); (0x4097E76D, 0xBF7FBE77); (0x409C624E, 0xBF7C28F6);
   (0x40A0DD2F, 0xBF7374BC); (0x40A54FDF, 0xBF6624DD); (0x40A9CAC1, 0xBF543958);
   (0x40AE3D71, 0xBF3E353F); (0x40B2B852, 0xBF249BA6); (0x40B73333, 0xBF07AE14);
   (0x40BBA5E3, 0xBED0624E); (0x40C020C5, 0xBE8D4FDF); (0x40C49BA6, 0xBE0E5604);
   (0x40C90E56, 0x00000000)] = true.
Proof. vm_compute. reflexivity. Qed.

(** float/tan.rs *)
Example unit_tan : absolute F32_tan 0x3F19999A [
   (0x00000000, 0x00000000); (0x3E0F5C29, 0x3E10624E); (0x3E8ED917, 0x3E92F1AA);
   (0x3ED6872B, 0x3EE3D70A); (0x3F0F1AA0, 0x3F200000); (0x3F32B021, 0x3F56C8B4);
   (0x3F56872B, 0x3F8E353F); (0x3F7A1CAC, 0x3FBDD2F2); (0x3F8EF9DB, 0x40033333);
   (0x3FA0E560, 0x4044FDF4); (0x3FB2B021, 0x40B578D5); (0x3FC49BA6, 0x41E51687);
   (0x3FD6872B, 0xC1183958); (0x3FE851EC, 0xC0805A1D); (0x3FFA3D71, 0xC01E6666);
   (0x40060419, 0xBFDDB22D); (0x400EF9DB, 0xBFA3D70A); (0x4017EF9E, 0xBF774BC7);
   (0x4020D4FE, 0xBF3A1CAC); (0x4029CAC1, 0xBF083127); (0x4032C083, 0xBEBA5E35);
   (0x403BA5E3, 0xBE5A1CAC); (0x40449BA6, 0xBD8F5C29); (0x404D8106, 0x3D8F5C29);
   (0x405676C9, 0x3E5A1CAC); (0x405F6C8B, 0x3EBA5E35); (0x406851EC, 0x3F083127);
   (0x407147AE, 0x3F3A1CAC); (0x407A3D71, 0x3F774BC7); (0x40819168, 0x3FA3D70A);
   (0x40860C4A, 0x3FDDB22D); (0x408A7EFA, 0x401E6666); (0x408EF9DB, 0x40805A1D);
   (0x409374BC, 0x41183958); (0x4097E76D, 0xC1E51687); (0x409C624E, 0xC0B578D5);
   (0x40A0DD2F, 0xC044FDF4); (0x40A54FDF, 0xC0033333); (0x40A9CAC1, 0xBFBDD2F2);
   (0x40AE3D71, 0xBF8E353F); (0x40B2B852, 0xBF56C8B4); (0x40B73333, 0xBF200000);
   (0x40BBA5E3, 0xBEE3D70A); (0x40C020C5, 0xBE92F1AA); (0x40C49BA6, 0xBE10624E);
   (0x40C90E56, 0x00000000)] = true.
Proof. vm_compute. reflexivity. Qed.

(** float/tan.rs *)
Example unit_tan_zero : feq (F32_tan F32_ZERO) F32_ZERO && is_nan (F32_tan f32_NAN) = true.
Proof. vm_compute. reflexivity. Qed.

(** float/exp.rs *)
Example unit_exp : relative (fun x => get (F32_exp x)) 0x3A83126F [
   (0x33D6BF95, 0x3F800001); (0x358637BD, 0x3F800008); (0x3727C5AC, 0x3F800054);
   (0x38D1B717, 0x3F800347); (0x3A83126F, 0x3F8020C9); (0x3C23D70A, 0x3F814953);
   (0x3DCCCCCD, 0x3F8D763E); (0x3F800000, 0x402DF854); (0x41200000, 0x46AC14EE);
   (0xB22BCC77, 0x3F800000); (0xB3D6BF95, 0x3F7FFFFE); (0xB58637BD, 0x3F7FFFEF);
   (0xB727C5AC, 0x3F7FFF58); (0xB8D1B717, 0x3F7FF972); (0xBA83126F, 0x3F7FBE7F);
   (0xBC23D70A, 0x3F7D73E8); (0xBDCCCCCD, 0x3F67A36D); (0xBF800000, 0x3EBC5AB2);
   (0xC1200000, 0x383E6BCE)] = true.
Proof. vm_compute. reflexivity. Qed.

(** float/exp.rs *)
Example unit_exp_low : equal [
   (get (F32_exp (b 0xC9742400)), 0x00000000)] = true.
Proof. vm_compute. reflexivity. Qed.

(** float/ln.rs *)
Example unit_ln : relative F32_ln 0x3A83126F [
   (0x1E3CE508, 0xC23834F1); (0x1FEC1E4A, 0xC22EFF18); (0x219392EF, 0xC225C940);
   (0x233877AA, 0xC21C9367); (0x24E69595, 0xC2135D8E); (0x26901D7D, 0xC20A27B5);
   (0x283424DC, 0xC200F1DC); (0x29E12E13, 0xC1EF7807); (0x2B8CBCCC, 0xC1DD0C55);
   (0x2D2FEBFF, 0xC1CAA0A3); (0x2EDBE6FF, 0xC1B834F1); (0x3089705F, 0xC1A5C940);
   (0x322BCC77, 0xC1935D8E); (0x33D6BF95, 0xC180F1DC); (0x358637BD, 0xC15D0C55);
   (0x3727C5AC, 0xC13834F1); (0x38D1B717, 0xC1135D8E); (0x3A83126F, 0xC0DD0C55);
   (0x3C23D70A, 0xC0935D8E); (0x3DCCCCCD, 0xC0135D8E); (0x41200000, 0x40135D8E);
   (0x42C80000, 0x40935D8E); (0x447A0000, 0x40DD0C55); (0x461C4000, 0x41135D8E);
   (0x47C35000, 0x413834F1); (0x49742400, 0x415D0C55); (0x4B189680, 0x4180F1DC);
   (0x4CBEBC20, 0x41935D8E); (0x4E6E6B28, 0x41A5C940); (0x501502F9, 0x41B834F1);
   (0x51BA43B7, 0x41CAA0A3); (0x5368D4A5, 0x41DD0C55); (0x551184E7, 0x41EF7807);
   (0x56B5E621, 0x4200F1DC); (0x58635FA9, 0x420A27B5); (0x5A0E1BCA, 0x42135D8E);
   (0x5BB1A2BC, 0x421C9367); (0x5D5E0B6B, 0x4225C940); (0x5F0AC723, 0x422EFF18)] = true.
Proof. vm_compute. reflexivity. Qed.

(** float/ln.rs *)
Example unit_ln_one : equal [
   (F32_ln F32_ONE, 0x00000000)] = true.
Proof. vm_compute. reflexivity. Qed.

(** float/log2.rs *)
Example unit_log2 : relative F32_log2 0x3A83126F [
   (0x1E3CE508, 0xC284E08B); (0x1FEC1E4A, 0xC27C776F); (0x219392EF, 0xC26F2DC7);
   (0x233877AA, 0xC261E420); (0x24E69595, 0xC2549A78); (0x26901D7D, 0xC24750D1);
   (0x283424DC, 0xC23A0729); (0x29E12E13, 0xC22CBD82); (0x2B8CBCCC, 0xC21F73DA);
   (0x2D2FEBFF, 0xC2122A33); (0x2EDBE6FF, 0xC204E08B); (0x3089705F, 0xC1EF2DC7);
   (0x322BCC77, 0xC1D49A78); (0x33D6BF95, 0xC1BA0729); (0x358637BD, 0xC19F73DA);
   (0x3727C5AC, 0xC184E08B); (0x38D1B717, 0xC1549A78); (0x3A83126F, 0xC11F73DA);
   (0x3C23D70A, 0xC0D49A78); (0x3DCCCCCD, 0xC0549A78); (0x41200000, 0x40549A78);
   (0x42C80000, 0x40D49A78); (0x447A0000, 0x411F73DA); (0x461C4000, 0x41549A78);
   (0x47C35000, 0x4184E08B); (0x49742400, 0x419F73DA); (0x4B189680, 0x41BA0729);
   (0x4CBEBC20, 0x41D49A78); (0x4E6E6B28, 0x41EF2DC7); (0x501502F9, 0x4204E08B);
   (0x51BA43B7, 0x42122A33); (0x5368D4A5, 0x421F73DA); (0x551184E7, 0x422CBD82);
   (0x56B5E621, 0x423A0729); (0x58635FA9, 0x424750D1); (0x5A0E1BCA, 0x42549A78);
   (0x5BB1A2BC, 0x4261E420); (0x5D5E0B6B, 0x426F2DC7); (0x5F0AC723, 0x427C776F)] = true.
Proof. vm_compute. reflexivity. Qed.

(** float/log2.rs *)
Example unit_log2_one : equal [
   (F32_log2 F32_ONE, 0x00000000)] = true.
Proof. vm_compute. reflexivity. Qed.

(** float/log10.rs *)
Example unit_log10 : relative F32_log10 0x3A83126F [
   (0x1E3CE508, 0xC1A00000); (0x1FEC1E4A, 0xC1980000); (0x219392EF, 0xC1900000);
   (0x233877AA, 0xC1880000); (0x24E69595, 0xC1800000); (0x26901D7D, 0xC1700000);
   (0x283424DC, 0xC1600000); (0x29E12E13, 0xC1500000); (0x2B8CBCCC, 0xC1400000);
   (0x2D2FEBFF, 0xC1300000); (0x2EDBE6FF, 0xC1200000); (0x3089705F, 0xC1100000);
   (0x322BCC77, 0xC1000000); (0x33D6BF95, 0xC0E00000); (0x358637BD, 0xC0C00000);
   (0x3727C5AC, 0xC0A00000); (0x38D1B717, 0xC0800000); (0x3A83126F, 0xC0400000);
   (0x3C23D70A, 0xC0000000); (0x3DCCCCCD, 0xBF800000); (0x41200000, 0x3F800000);
   (0x42C80000, 0x40000000); (0x447A0000, 0x40400000); (0x461C4000, 0x40800000);
   (0x47C35000, 0x40A00000); (0x49742400, 0x40C00000); (0x4B189680, 0x40E00000);
   (0x4CBEBC20, 0x41000000); (0x4E6E6B28, 0x41100000); (0x501502F9, 0x41200000);
   (0x51BA43B7, 0x41300000); (0x5368D4A5, 0x41400000); (0x551184E7, 0x41500000);
   (0x56B5E621, 0x41600000); (0x58635FA9, 0x41700000); (0x5A0E1BCA, 0x41800000);
   (0x5BB1A2BC, 0x41880000); (0x5D5E0B6B, 0x41900000); (0x5F0AC723, 0x41980000)] = true.
Proof. vm_compute. reflexivity. Qed.

(** float/log10.rs *)
Example unit_log10_one : equal [
   (F32_log10 F32_ONE, 0x00000000)] = true.
Proof. vm_compute. reflexivity. Qed.

(** float/log.rs *)
Example unit_log_BASE3 : relative (fun x => F32_log x (b 0x40400000)) 0x3A83126F [
   (0x1E3CE508, 0xC227AC19); (0x1FEC1E4A, 0xC21F49E4); (0x219392EF, 0xC216E7B1);
   (0x233877AA, 0xC20E857C); (0x24E69595, 0xC2062348); (0x26901D7D, 0xC1FB8226);
   (0x283424DC, 0xC1EABDBD); (0x29E12E13, 0xC1D9F955); (0x2B8CBCCC, 0xC1C934EB);
   (0x2D2FEBFF, 0xC1B87082); (0x2EDBE6FF, 0xC1A7AC19); (0x3089705F, 0xC196E7B1);
   (0x322BCC77, 0xC1862348); (0x33D6BF95, 0xC16ABDBD); (0x358637BD, 0xC14934EB);
   (0x3727C5AC, 0xC127AC19); (0x38D1B717, 0xC1062348); (0x3A83126F, 0xC0C934EB);
   (0x3C23D70A, 0xC0862348); (0x3DCCCCCD, 0xC0062348); (0x41200000, 0x40062348);
   (0x42C80000, 0x40862348); (0x447A0000, 0x40C934EB); (0x461C4000, 0x41062348);
   (0x47C35000, 0x4127AC19); (0x49742400, 0x414934EB); (0x4B189680, 0x416ABDBD);
   (0x4CBEBC20, 0x41862348); (0x4E6E6B28, 0x4196E7B1); (0x501502F9, 0x41A7AC19);
   (0x51BA43B7, 0x41B87082); (0x5368D4A5, 0x41C934EB); (0x551184E7, 0x41D9F955);
   (0x56B5E621, 0x41EABDBD); (0x58635FA9, 0x41FB8226); (0x5A0E1BCA, 0x42062348);
   (0x5BB1A2BC, 0x420E857C); (0x5D5E0B6B, 0x4216E7B1); (0x5F0AC723, 0x421F49E4)] = true.
Proof. vm_compute. reflexivity. Qed.

(** float/log.rs *)
Example unit_log_BASE5_5 : relative (fun x => F32_log x (b 0x40B00000)) 0x3A83126F [
   (0x1E3CE508, 0xC1D81C3C); (0x1FEC1E4A, 0xC1CD4E06); (0x219392EF, 0xC1C27FD0);
   (0x233877AA, 0xC1B7B19A); (0x24E69595, 0xC1ACE364); (0x26901D7D, 0xC1A2152D);
   (0x283424DC, 0xC19746F7); (0x29E12E13, 0xC18C78C1); (0x2B8CBCCC, 0xC181AA8B);
   (0x2D2FEBFF, 0xC16DB8A9); (0x2EDBE6FF, 0xC1581C3C); (0x3089705F, 0xC1427FD0);
   (0x322BCC77, 0xC12CE364); (0x33D6BF95, 0xC11746F7); (0x358637BD, 0xC101AA8B);
   (0x3727C5AC, 0xC0D81C3C); (0x38D1B717, 0xC0ACE364); (0x3A83126F, 0xC081AA8B);
   (0x3C23D70A, 0xC02CE364); (0x3DCCCCCD, 0xBFACE364); (0x41200000, 0x3FACE364);
   (0x42C80000, 0x402CE364); (0x447A0000, 0x4081AA8B); (0x461C4000, 0x40ACE364);
   (0x47C35000, 0x40D81C3C); (0x49742400, 0x4101AA8B); (0x4B189680, 0x411746F7);
   (0x4CBEBC20, 0x412CE364); (0x4E6E6B28, 0x41427FD0); (0x501502F9, 0x41581C3C);
   (0x51BA43B7, 0x416DB8A9); (0x5368D4A5, 0x4181AA8B); (0x551184E7, 0x418C78C1);
   (0x56B5E621, 0x419746F7); (0x58635FA9, 0x41A2152D); (0x5A0E1BCA, 0x41ACE364);
   (0x5BB1A2BC, 0x41B7B19A); (0x5D5E0B6B, 0x41C27FD0); (0x5F0AC723, 0x41CD4E06)] = true.
Proof. vm_compute. reflexivity. Qed.

(** float/log.rs *)
Example unit_log_BASE12_7 : relative (fun x => F32_log x (b 0x414B3333)) 0x3A83126F [
   (0x1E3CE508, 0xC190F40C); (0x1FEC1E4A, 0xC189B4A5); (0x219392EF, 0xC182753E);
   (0x233877AA, 0xC1766BAE); (0x24E69595, 0xC167ECE0); (0x26901D7D, 0xC1596E12);
   (0x283424DC, 0xC14AEF44); (0x29E12E13, 0xC13C7076); (0x2B8CBCCC, 0xC12DF1A8);
   (0x2D2FEBFF, 0xC11F72DA); (0x2EDBE6FF, 0xC110F40C); (0x3089705F, 0xC102753E);
   (0x322BCC77, 0xC0E7ECE0); (0x33D6BF95, 0xC0CAEF44); (0x358637BD, 0xC0ADF1A8);
   (0x3727C5AC, 0xC090F40C); (0x38D1B717, 0xC067ECE0); (0x3A83126F, 0xC02DF1A8);
   (0x3C23D70A, 0xBFE7ECE0); (0x3DCCCCCD, 0xBF67ECE0); (0x41200000, 0x3F67ECE0);
   (0x42C80000, 0x3FE7ECE0); (0x447A0000, 0x402DF1A8); (0x461C4000, 0x4067ECE0);
   (0x47C35000, 0x4090F40C); (0x49742400, 0x40ADF1A8); (0x4B189680, 0x40CAEF44);
   (0x4CBEBC20, 0x40E7ECE0); (0x4E6E6B28, 0x4102753E); (0x501502F9, 0x4110F40C);
   (0x51BA43B7, 0x411F72DA); (0x5368D4A5, 0x412DF1A8); (0x551184E7, 0x413C7076);
   (0x56B5E621, 0x414AEF44); (0x58635FA9, 0x41596E12); (0x5A0E1BCA, 0x4167ECE0);
   (0x5BB1A2BC, 0x41766BAE); (0x5D5E0B6B, 0x4182753E); (0x5F0AC723, 0x4189B4A5)] = true.
Proof. vm_compute. reflexivity. Qed.

(** float/log.rs *)
Example unit_log_one : equal [
   (F32_log F32_ONE (b 0x40400000), 0x00000000);
   (F32_log F32_ONE (b 0x40B00000), 0x00000000);
   (F32_log F32_ONE (b 0x414B3333), 0x00000000)] = true.
Proof. vm_compute. reflexivity. Qed.

(** float/cosh.rs *)
Example unit_cosh : forallb (fun p => match p with (x, e, m) => fle (F32_abs (fsub (get (F32_cosh (b x))) (b e))) (b m) end) [
   (0x00000000, 0x3F800000, 0x3A83126F); (0x3E0F5C29, 0x3F8147AE, 0x3A83126F);
   (0x3E8ED917, 0x3F84FDF4, 0x3A83126F); (0x3ED6872B, 0x3F8B645A, 0x3A83126F);
   (0x3F0F1AA0, 0x3F947AE1, 0x3A83126F); (0x3F32B021, 0x3FA08312, 0x3A83126F);
   (0x3F56872B, 0x3FAF9DB2, 0x3A83126F); (0x3F7A1CAC, 0x3FC20C4A, 0x3A83126F);
   (0x3F8EF9DB, 0x3FD872B0, 0x3A83126F); (0x3FA0E560, 0x3FF33333, 0x3A83126F);
   (0x3FB2B021, 0x400926E9, 0x3A83126F); (0x3FC49BA6, 0x401B9581, 0x3A83126F);
   (0x3FD6872B, 0x40310625, 0x3A83126F); (0x3FE851EC, 0x4049BA5E, 0x3A83126F);
   (0x3FFA3D71, 0x4066978D, 0x3B03126F); (0x40060419, 0x4083D70A, 0x3B03126F);
   (0x400EF9DB, 0x40971AA0, 0x3B03126F); (0x4017EF9E, 0x40AD5810, 0x3B03126F);
   (0x4020D4FE, 0x40C6C083, 0x3B03126F); (0x4029CAC1, 0x40E449BA, 0x3B449BA6);
   (0x4032C083, 0x410322D1, 0x3B449BA6); (0x403BA5E3, 0x41168B44, 0x3B449BA6);
   (0x40449BA6, 0x412D0E56, 0x3B449BA6); (0x404D8106, 0x4146C083, 0x3B449BA6);
   (0x405676C9, 0x4164872B, 0x3BA3D70A); (0x405F6C8B, 0x41836666, 0x3BA3D70A);
   (0x406851EC, 0x4196F5C3, 0x3BA3D70A); (0x407147AE, 0x41AD9DB2, 0x3BA3D70A);
   (0x407A3D71, 0x41C7AC08, 0x3BA3D70A); (0x40819168, 0x41E56E98, 0x3CA3D70A);
   (0x40860C4A, 0x4203F1AA, 0x3CA3D70A); (0x408A7EFA, 0x42179CAC, 0x3CA3D70A);
   (0x408EF9DB, 0x422E6354, 0x3CA3D70A); (0x409374BC, 0x42489687, 0x3CA3D70A);
   (0x4097E76D, 0x42667DF4, 0x3DBC6A7F); (0x409C624E, 0x42848FDF, 0x3DBC6A7F);
   (0x40A0DD2F, 0x42987B64, 0x3DBC6A7F); (0x40A54FDF, 0x42AF37CF, 0x3DBC6A7F);
   (0x40A9CAC1, 0x42C98C4A, 0x3DBC6A7F); (0x40AE3D71, 0x42E79A1D, 0x3DBC6A7F);
   (0x40B2B852, 0x430533B6, 0x3DBC6A7F); (0x40B73333, 0x431937CF, 0x3DBC6A7F);
   (0x40BBA5E3, 0x433010E5, 0x3DBC6A7F); (0x40C020C5, 0x434A8625, 0x3DBC6A7F);
   (0x40C49BA6, 0x4368F53F, 0x3DBC6A7F); (0x40C90E56, 0x4385D937, 0x3DBC6A7F)] = true.
Proof. vm_compute. reflexivity. Qed.

(** [calc_relative_error]. *)
Definition powf_error (actual expected : f32) : f32 :=
  if is_nan actual && is_nan expected then F32_ZERO
  else if negb (feq expected F32_ZERO) then fdiv (fsub actual expected) expected
  else fdiv (fsub actual expected) (fadd expected (b 0x1E3CE508)).
Definition powi_error (actual expected : f32) : f32 :=
  if (is_nan actual && is_nan expected) || feq actual expected then F32_ZERO
  else if negb (feq expected F32_ZERO) then fdiv (F32_abs (fsub actual expected)) expected
  else fdiv (F32_abs (fsub actual expected)) (fadd expected (b 0x1E3CE508)).

(** float/powf.rs *)
Example unit_powf_POW3 : forallb (fun p => fle (powf_error (get (F32_powf (b 0x40400000) (b (fst p)))) (b (snd p))) (b 0x3B03126F)) [
   (0x9E3CE508, 0x3F800000); (0x9FEC1E4A, 0x3F800000); (0xA19392EF, 0x3F800000);
   (0xA33877AA, 0x3F800000); (0xA4E69595, 0x3F800000); (0xA6901D7D, 0x3F800000);
   (0xA83424DC, 0x3F800000); (0xA9E12E13, 0x3F800000); (0xAB8CBCCC, 0x3F800000);
   (0xAD2FEBFF, 0x3F800000); (0xAEDBE6FF, 0x3F800000); (0xB089705F, 0x3F800000);
   (0xB22BCC77, 0x3F800000); (0xB3D6BF95, 0x3F7FFFFE); (0xB58637BD, 0x3F7FFFEE);
   (0xB727C5AC, 0x3F7FFF48); (0xB8D1B717, 0x3F7FF8CD); (0xBA83126F, 0x3F7FB80A);
   (0xBC23D70A, 0x3F7D33F4); (0xBDCCCCCD, 0x3F655D89); (0xBF800000, 0x3EAAAAAB);
   (0xC1200000, 0x378E0FD3); (0xC2C80000, 0x00000000); (0xC47A0000, 0x00000000);
   (0x1E3CE508, 0x3F800000); (0x1FEC1E4A, 0x3F800000); (0x219392EF, 0x3F800000);
   (0x233877AA, 0x3F800000); (0x24E69595, 0x3F800000); (0x26901D7D, 0x3F800000);
   (0x283424DC, 0x3F800000); (0x29E12E13, 0x3F800000); (0x2B8CBCCC, 0x3F800000);
   (0x2D2FEBFF, 0x3F800000); (0x2EDBE6FF, 0x3F800000); (0x3089705F, 0x3F800000);
   (0x322BCC77, 0x3F800000); (0x33D6BF95, 0x3F800001); (0x358637BD, 0x3F800009);
   (0x3727C5AC, 0x3F80005C); (0x38D1B717, 0x3F80039A); (0x3A83126F, 0x3F802405);
   (0x3C23D70A, 0x3F8169FA); (0x3DCCCCCD, 0x3F8EDD20); (0x3F800000, 0x40400000);
   (0x41200000, 0x4766A900)] = true.
Proof. vm_compute. reflexivity. Qed.

(** float/powf.rs *)
Example unit_powf_POW150 : forallb (fun p => fle (powf_error (get (F32_powf (b 0x43160000) (b (fst p)))) (b (snd p))) (b 0x3B03126F)) [
   (0x9E3CE508, 0x3F800000); (0x9FEC1E4A, 0x3F800000); (0xA19392EF, 0x3F800000);
   (0xA33877AA, 0x3F800000); (0xA4E69595, 0x3F800000); (0xA6901D7D, 0x3F800000);
   (0xA83424DC, 0x3F800000); (0xA9E12E13, 0x3F800000); (0xAB8CBCCC, 0x3F800000);
   (0xAD2FEBFF, 0x3F800000); (0xAEDBE6FF, 0x3F800000); (0xB089705F, 0x3F800000);
   (0xB22BCC77, 0x3F7FFFFF); (0xB3D6BF95, 0x3F7FFFF8); (0xB58637BD, 0x3F7FFFAC);
   (0xB727C5AC, 0x3F7FFCB7); (0xB8D1B717, 0x3F7FDF2C); (0xBA83126F, 0x3F7EB872);
   (0xBC23D70A, 0x3F737D24); (0xBDCCCCCD, 0x3F1B1B57); (0xBF800000, 0x3BDA740E);
   (0xC1200000, 0x1B51A570); (0xC2C80000, 0x00000000); (0xC47A0000, 0x00000000);
   (0xC61C4000, 0x00000000); (0xC7C35000, 0x00000000); (0xC9742400, 0x00000000);
   (0xCB189680, 0x00000000); (0xCCBEBC20, 0x00000000); (0xCE6E6B28, 0x00000000);
   (0xD01502F9, 0x00000000); (0xD1BA43B7, 0x00000000); (0xD368D4A5, 0x00000000);
   (0xD51184E7, 0x00000000); (0xD6B5E621, 0x00000000); (0xD8635FA9, 0x00000000);
   (0xDA0E1BCA, 0x00000000); (0xDBB1A2BC, 0x00000000); (0xDD5E0B6B, 0x00000000);
   (0xDF0AC723, 0x00000000); (0x1E3CE508, 0x3F800000); (0x1FEC1E4A, 0x3F800000);
   (0x219392EF, 0x3F800000); (0x233877AA, 0x3F800000); (0x24E69595, 0x3F800000);
   (0x26901D7D, 0x3F800000); (0x283424DC, 0x3F800000); (0x29E12E13, 0x3F800000);
   (0x2B8CBCCC, 0x3F800000); (0x2D2FEBFF, 0x3F800000); (0x2EDBE6FF, 0x3F800000);
   (0x3089705F, 0x3F800000); (0x322BCC77, 0x3F800000); (0x33D6BF95, 0x3F800004);
   (0x358637BD, 0x3F80002A); (0x3727C5AC, 0x3F8001A4); (0x38D1B717, 0x3F80106C);
   (0x3A83126F, 0x3F80A49A); (0x3C23D70A, 0x3F8693B7); (0x3DCCCCCD, 0x3FD342C9);
   (0x3F800000, 0x43160000); (0x41200000, 0x639C4D29)] = true.
Proof. vm_compute. reflexivity. Qed.

(** float/powf.rs *)
Example unit_powf_misc : forallb (fun p => match p with (x, n, e) => fle (powf_error (get (F32_powf (b x) (b n))) (b e)) (b 0x3B03126F) end) [
   (0xBF1691A4, 0x40000000, 0x3EB11DFE); (0xBF1691A4, 0x404CCCCD, 0x7FC00000);
   (0xBF1691A4, 0x40400000, 0xBE5058AD); (0xC9742400, 0x40800000, 0x6753C21C)] = true.
Proof. vm_compute. reflexivity. Qed.

(** float/powi.rs *)
Example unit_powi : forallb (fun p => match p with (x, n, e) => fle (powi_error (get (F32_powi 40 (b x) (to_i32 (b n)))) (b e)) (b 0x3B03126F) end) [
   (0xC7C35000, 0xC3000000, 0x00000000); (0xC1200000, 0xC3000000, 0x00000000);
   (0xC0400000, 0xC3000000, 0x00000000); (0xC0000000, 0xC3000000, 0x00200000);
   (0xBF800000, 0xC3000000, 0x3F800000); (0x3F800000, 0xC3000000, 0x3F800000);
   (0x40000000, 0xC3000000, 0x00200000); (0x40400000, 0xC3000000, 0x00000000);
   (0x41200000, 0xC3000000, 0x00000000); (0x47C35000, 0xC3000000, 0x00000000);
   (0xC7C35000, 0xC2FE0000, 0x80000000); (0xC1200000, 0xC2FE0000, 0x80000000);
   (0xC0400000, 0xC2FE0000, 0x80000000); (0xC0000000, 0xC2FE0000, 0x80400000);
   (0xBF800000, 0xC2FE0000, 0xBF800000); (0x3F800000, 0xC2FE0000, 0x3F800000);
   (0x40000000, 0xC2FE0000, 0x00400000); (0x40400000, 0xC2FE0000, 0x00000000);
   (0x41200000, 0xC2FE0000, 0x00000000); (0x47C35000, 0xC2FE0000, 0x00000000);
   (0xC7C35000, 0xC2FC0000, 0x00000000); (0xC1200000, 0xC2FC0000, 0x00000000);
   (0xC0400000, 0xC2FC0000, 0x00000000); (0xC0000000, 0xC2FC0000, 0x00800000);
   (0xBF800000, 0xC2FC0000, 0x3F800000); (0x3F800000, 0xC2FC0000, 0x3F800000);
   (0x40000000, 0xC2FC0000, 0x00800000); (0x40400000, 0xC2FC0000, 0x00000000);
   (0x41200000, 0xC2FC0000, 0x00000000); (0x47C35000, 0xC2FC0000, 0x00000000);
   (0xC7C35000, 0xC2FA0000, 0x80000000); (0xC1200000, 0xC2FA0000, 0x80000000);
   (0xC0400000, 0xC2FA0000, 0x80000000); (0xC0000000, 0xC2FA0000, 0x81000000);
   (0xBF800000, 0xC2FA0000, 0xBF800000); (0x3F800000, 0xC2FA0000, 0x3F800000);
   (0x40000000, 0xC2FA0000, 0x01000000); (0x40400000, 0xC2FA0000, 0x00000000);
   (0x41200000, 0xC2FA0000, 0x00000000); (0x47C35000, 0xC2FA0000, 0x00000000);
   (0xC7C35000, 0xC2F80000, 0x00000000); (0xC1200000, 0xC2F80000, 0x00000000);
   (0xC0400000, 0xC2F80000, 0x00000000); (0xC0000000, 0xC2F80000, 0x01800000);
   (0xBF800000, 0xC2F80000, 0x3F800000); (0x3F800000, 0xC2F80000, 0x3F800000);
   (0x40000000, 0xC2F80000, 0x01800000); (0x40400000, 0xC2F80000, 0x00000000);
   (0x41200000, 0xC2F80000, 0x00000000); (0x47C35000, 0xC2F80000, 0x00000000);
   (0xC7C35000, 0xC2F60000, 0x80000000); (0xC1200000, 0xC2F60000, 0x80000000);
   (0xC0400000, 0xC2F60000, 0x80000000); (0xC0000000, 0xC2F60000, 0x82000000);
   (0xBF800000, 0xC2F60000, 0xBF800000); (0x3F800000, 0xC2F60000, 0x3F800000);
   (0x40000000, 0xC2F60000, 0x02000000); (0x40400000, 0xC2F60000, 0x00000000);
   (0x41200000, 0xC2F60000, 0x00000000); (0x47C35000, 0xC2F60000, 0x00000000);
   (0xC7C35000, 0xC2F40000, 0x00000000); (0xC1200000, 0xC2F40000, 0x00000000);
   (0xC0400000, 0xC2F40000, 0x00000000); (0xC0000000, 0xC2F40000, 0x02800000);
   (0xBF800000, 0xC2F40000, 0x3F800000); (0x3F800000, 0xC2F40000, 0x3F800000);
   (0x40000000, 0xC2F40000, 0x02800000); (0x40400000, 0xC2F40000, 0x00000000);
   (0x41200000, 0xC2F40000, 0x00000000); (0x47C35000, 0xC2F40000, 0x00000000);
   (0xC7C35000, 0xC2F20000, 0x80000000); (0xC1200000, 0xC2F20000, 0x80000000);
   (0xC0400000, 0xC2F20000, 0x80000000); (0xC0000000, 0xC2F20000, 0x83000000);
   (0xBF800000, 0xC2F20000, 0xBF800000); (0x3F800000, 0xC2F20000, 0x3F800000);
   (0x40000000, 0xC2F20000, 0x03000000); (0x40400000, 0xC2F20000, 0x00000000);
   (0x41200000, 0xC2F20000, 0x00000000); (0x47C35000, 0xC2F20000, 0x00000000);
   (0xC7C35000, 0xC2F00000, 0x00000000); (0xC1200000, 0xC2F00000, 0x00000000);
   (0xC0400000, 0xC2F00000, 0x00000000); (0xC0000000, 0xC2F00000, 0x03800000);
   (0xBF800000, 0xC2F00000, 0x3F800000); (0x3F800000, 0xC2F00000, 0x3F800000);
   (0x40000000, 0xC2F00000, 0x03800000); (0x40400000, 0xC2F00000, 0x00000000);
   (0x41200000, 0xC2F00000, 0x00000000); (0x47C35000, 0xC2F00000, 0x00000000);
   (0xC7C35000, 0xC2EE0000, 0x80000000); (0xC1200000, 0xC2EE0000, 0x80000000);
   (0xC0400000, 0xC2EE0000, 0x80000000); (0xC0000000, 0xC2EE0000, 0x84000000);
   (0xBF800000, 0xC2EE0000, 0xBF800000); (0x3F800000, 0xC2EE0000, 0x3F800000);
   (0x40000000, 0xC2EE0000, 0x04000000); (0x40400000, 0xC2EE0000, 0x00000000);
   (0x41200000, 0xC2EE0000, 0x00000000); (0x47C35000, 0xC2EE0000, 0x00000000);
   (0xC7C35000, 0xC2EC0000, 0x00000000); (0xC1200000, 0xC2EC0000, 0x00000000);
   (0xC0400000, 0xC2EC0000, 0x00000000); (0xC0000000, 0xC2EC0000, 0x04800000);
   (0xBF800000, 0xC2EC0000, 0x3F800000); (0x3F800000, 0xC2EC0000, 0x3F800000);
   (0x40000000, 0xC2EC0000, 0x04800000); (0x40400000, 0xC2EC0000, 0x00000000);
   (0x41200000, 0xC2EC0000, 0x00000000); (0x47C35000, 0xC2EC0000, 0x00000000);
   (0xC7C35000, 0xC2EA0000, 0x80000000); (0xC1200000, 0xC2EA0000, 0x80000000);
   (0xC0400000, 0xC2EA0000, 0x80000000); (0xC0000000, 0xC2EA0000, 0x85000000);
   (0xBF800000, 0xC2EA0000, 0xBF800000); (0x3F800000, 0xC2EA0000, 0x3F800000);
   (0x40000000, 0xC2EA0000, 0x05000000); (0x40400000, 0xC2EA0000, 0x00000000);
   (0x41200000, 0xC2EA0000, 0x00000000); (0x47C35000, 0xC2EA0000, 0x00000000);
   (0xC7C35000, 0xC2E80000, 0x00000000); (0xC1200000, 0xC2E80000, 0x00000000);
   (0xC0400000, 0xC2E80000, 0x00000000); (0xC0000000, 0xC2E80000, 0x05800000);
   (0xBF800000, 0xC2E80000, 0x3F800000); (0x3F800000, 0xC2E80000, 0x3F800000);
   (0x40000000, 0xC2E80000, 0x05800000); (0x40400000, 0xC2E80000, 0x00000000);
   (0x41200000, 0xC2E80000, 0x00000000); (0x47C35000, 0xC2E80000, 0x00000000);
   (0xC7C35000, 0xC2E60000, 0x80000000); (0xC1200000, 0xC2E60000, 0x80000000);
   (0xC0400000, 0xC2E60000, 0x80000000); (0xC0000000, 0xC2E60000, 0x86000000);
   (0xBF800000, 0xC2E60000, 0xBF800000); (0x3F800000, 0xC2E60000, 0x3F800000);
   (0x40000000, 0xC2E60000, 0x06000000); (0x40400000, 0xC2E60000, 0x00000000);
   (0x41200000, 0xC2E60000, 0x00000000); (0x47C35000, 0xC2E60000, 0x00000000);
   (0xC7C35000, 0xC2E40000, 0x00000000); (0xC1200000, 0xC2E40000, 0x00000000);
   (0xC0400000, 0xC2E40000, 0x00000000); (0xC0000000, 0xC2E40000, 0x06800000);
   (0xBF800000, 0xC2E40000, 0x3F800000); (0x3F800000, 0xC2E40000, 0x3F800000);
   (0x40000000, 0xC2E40000, 0x06800000); (0x40400000, 0xC2E40000, 0x00000000);
   (0x41200000, 0xC2E40000, 0x00000000); (0x47C35000, 0xC2E40000, 0x00000000);
   (0xC7C35000, 0xC2E20000, 0x80000000); (0xC1200000, 0xC2E20000, 0x80000000);
   (0xC0400000, 0xC2E20000, 0x80000000); (0xC0000000, 0xC2E20000, 0x87000000);
   (0xBF800000, 0xC2E20000, 0xBF800000); (0x3F800000, 0xC2E20000, 0x3F800000);
   (0x40000000, 0xC2E20000, 0x07000000); (0x40400000, 0xC2E20000, 0x00000000);
   (0x41200000, 0xC2E20000, 0x00000000); (0x47C35000, 0xC2E20000, 0x00000000);
   (0xC7C35000, 0xC2E00000, 0x00000000); (0xC1200000, 0xC2E00000, 0x00000000);
   (0xC0400000, 0xC2E00000, 0x00000000); (0xC0000000, 0xC2E00000, 0x07800000);
   (0xBF800000, 0xC2E00000, 0x3F800000); (0x3F800000, 0xC2E00000, 0x3F800000);
   (0x40000000, 0xC2E00000, 0x07800000); (0x40400000, 0xC2E00000, 0x00000000);
   (0x41200000, 0xC2E00000, 0x00000000); (0x47C35000, 0xC2E00000, 0x00000000);
   (0xC7C35000, 0xC2DE0000, 0x80000000); (0xC1200000, 0xC2DE0000, 0x80000000);
   (0xC0400000, 0xC2DE0000, 0x80000000); (0xC0000000, 0xC2DE0000, 0x88000000);
   (0xBF800000, 0xC2DE0000, 0xBF800000); (0x3F800000, 0xC2DE0000, 0x3F800000);
   (0x40000000, 0xC2DE0000, 0x08000000); (0x40400000, 0xC2DE0000, 0x00000000);
   (0x41200000, 0xC2DE0000, 0x00000000); (0x47C35000, 0xC2DE0000, 0x00000000);
   (0xC7C35000, 0xC2DC0000, 0x00000000); (0xC1200000, 0xC2DC0000, 0x00000000);
   (0xC0400000, 0xC2DC0000, 0x00000000); (0xC0000000, 0xC2DC0000, 0x08800000);
   (0xBF800000, 0xC2DC0000, 0x3F800000); (0x3F800000, 0xC2DC0000, 0x3F800000);
   (0x40000000, 0xC2DC0000, 0x08800000); (0x40400000, 0xC2DC0000, 0x00000000);
   (0x41200000, 0xC2DC0000, 0x00000000); (0x47C35000, 0xC2DC0000, 0x00000000);
   (0xC7C35000, 0xC2DA0000, 0x80000000); (0xC1200000, 0xC2DA0000, 0x80000000);
   (0xC0400000, 0xC2DA0000, 0x80000000); (0xC0000000, 0xC2DA0000, 0x89000000);
   (0xBF800000, 0xC2DA0000, 0xBF800000); (0x3F800000, 0xC2DA0000, 0x3F800000);
   (0x40000000, 0xC2DA0000, 0x09000000); (0x40400000, 0xC2DA0000, 0x00000000);
   (0x41200000, 0xC2DA0000, 0x00000000); (0x47C35000, 0xC2DA0000, 0x00000000);
   (0xC7C35000, 0xC2D80000, 0x00000000); (0xC1200000, 0xC2D80000, 0x00000000);
   (0xC0400000, 0xC2D80000, 0x00000000); (0xC0000000, 0xC2D80000, 0x09800000);
   (0xBF800000, 0xC2D80000, 0x3F800000); (0x3F800000, 0xC2D80000, 0x3F800000);
   (0x40000000, 0xC2D80000, 0x09800000); (0x40400000, 0xC2D80000, 0x00000000);
   (0x41200000, 0xC2D80000, 0x00000000); (0x47C35000, 0xC2D80000, 0x00000000);
   (0xC7C35000, 0xC2D60000, 0x80000000); (0xC1200000, 0xC2D60000, 0x80000000);
   (0xC0400000, 0xC2D60000, 0x80000000); (0xC0000000, 0xC2D60000, 0x8A000000);
   (0xBF800000, 0xC2D60000, 0xBF800000); (0x3F800000, 0xC2D60000, 0x3F800000);
   (0x40000000, 0xC2D60000, 0x0A000000); (0x40400000, 0xC2D60000, 0x00000000);
   (0x41200000, 0xC2D60000, 0x00000000); (0x47C35000, 0xC2D60000, 0x00000000);
   (0xC7C35000, 0xC2D40000, 0x00000000); (0xC1200000, 0xC2D40000, 0x00000000);
   (0xC0400000, 0xC2D40000, 0x00000000); (0xC0000000, 0xC2D40000, 0x0A800000);
   (0xBF800000, 0xC2D40000, 0x3F800000); (0x3F800000, 0xC2D40000, 0x3F800000);
   (0x40000000, 0xC2D40000, 0x0A800000); (0x40400000, 0xC2D40000, 0x00000000);
   (0x41200000, 0xC2D40000, 0x00000000); (0x47C35000, 0xC2D40000, 0x00000000);
   (0xC7C35000, 0xC2D20000, 0x80000000); (0xC1200000, 0xC2D20000, 0x80000000);
   (0xC0400000, 0xC2D20000, 0x80000000); (0xC0000000, 0xC2D20000, 0x8B000000);
   (0xBF800000, 0xC2D20000, 0xBF800000); (0x3F800000, 0xC2D20000, 0x3F800000);
   (0x40000000, 0xC2D20000, 0x0B000000); (0x40400000, 0xC2D20000, 0x00000000);
   (0x41200000, 0xC2D20000, 0x00000000); (0x47C35000, 0xC2D20000, 0x00000000);
   (0xC7C35000, 0xC2D00000, 0x00000000); (0xC1200000, 0xC2D00000, 0x00000000);
   (0xC0400000, 0xC2D00000, 0x00000000); (0xC0000000, 0xC2D00000, 0x0B800000);
   (0xBF800000, 0xC2D00000, 0x3F800000); (0x3F800000, 0xC2D00000, 0x3F800000);
   (0x40000000, 0xC2D00000, 0x0B800000); (0x40400000, 0xC2D00000, 0x00000000);
   (0x41200000, 0xC2D00000, 0x00000000); (0x47C35000, 0xC2D00000, 0x00000000);
   (0xC7C35000, 0xC2CE0000, 0x80000000); (0xC1200000, 0xC2CE0000, 0x80000000);
   (0xC0400000, 0xC2CE0000, 0x80000000); (0xC0000000, 0xC2CE0000, 0x8C000000);
   (0xBF800000, 0xC2CE0000, 0xBF800000); (0x3F800000, 0xC2CE0000, 0x3F800000);
   (0x40000000, 0xC2CE0000, 0x0C000000); (0x40400000, 0xC2CE0000, 0x00000000);
   (0x41200000, 0xC2CE0000, 0x00000000); (0x47C35000, 0xC2CE0000, 0x00000000);
   (0xC7C35000, 0xC2CC0000, 0x00000000); (0xC1200000, 0xC2CC0000, 0x00000000);
   (0xC0400000, 0xC2CC0000, 0x00000000); (0xC0000000, 0xC2CC0000, 0x0C800000);
   (0xBF800000, 0xC2CC0000, 0x3F800000); (0x3F800000, 0xC2CC0000, 0x3F800000);
   (0x40000000, 0xC2CC0000, 0x0C800000); (0x40400000, 0xC2CC0000, 0x00000000);
   (0x41200000, 0xC2CC0000, 0x00000000); (0x47C35000, 0xC2CC0000, 0x00000000);
   (0xC7C35000, 0xC2CA0000, 0x80000000); (0xC1200000, 0xC2CA0000, 0x80000000);
   (0xC0400000, 0xC2CA0000, 0x80000000); (0xC0000000, 0xC2CA0000, 0x8D000000);
   (0xBF800000, 0xC2CA0000, 0xBF800000); (0x3F800000, 0xC2CA0000, 0x3F800000);
   (0x40000000, 0xC2CA0000, 0x0D000000); (0x40400000, 0xC2CA0000, 0x00000000);
   (0x41200000, 0xC2CA0000, 0x00000000); (0x47C35000, 0xC2CA0000, 0x00000000);
   (0xC7C35000, 0xC2C80000, 0x00000000); (0xC1200000, 0xC2C80000, 0x00000000);
   (0xC0400000, 0xC2C80000, 0x00000000); (0xC0000000, 0xC2C80000, 0x0D800000);
   (0xBF800000, 0xC2C80000, 0x3F800000); (0x3F800000, 0xC2C80000, 0x3F800000);
   (0x40000000, 0xC2C80000, 0x0D800000); (0x40400000, 0xC2C80000, 0x00000000);
   (0x41200000, 0xC2C80000, 0x00000000); (0x47C35000, 0xC2C80000, 0x00000000);
   (0xC7C35000, 0xC2C60000, 0x80000000); (0xC1200000, 0xC2C60000, 0x80000000);
   (0xC0400000, 0xC2C60000, 0x80000000); (0xC0000000, 0xC2C60000, 0x8E000000);
   (0xBF800000, 0xC2C60000, 0xBF800000); (0x3F800000, 0xC2C60000, 0x3F800000);
   (0x40000000, 0xC2C60000, 0x0E000000); (0x40400000, 0xC2C60000, 0x00000000);
   (0x41200000, 0xC2C60000, 0x00000000); (0x47C35000, 0xC2C60000, 0x00000000);
   (0xC7C35000, 0xC2C40000, 0x00000000); (0xC1200000, 0xC2C40000, 0x00000000);
   (0xC0400000, 0xC2C40000, 0x00000000); (0xC0000000, 0xC2C40000, 0x0E800000);
   (0xBF800000, 0xC2C40000, 0x3F800000); (0x3F800000, 0xC2C40000, 0x3F800000);
   (0x40000000, 0xC2C40000, 0x0E800000); (0x40400000, 0xC2C40000, 0x00000000);
   (0x41200000, 0xC2C40000, 0x00000000); (0x47C35000, 0xC2C40000, 0x00000000);
   (0xC7C35000, 0xC2C20000, 0x80000000); (0xC1200000, 0xC2C20000, 0x80000000);
   (0xC0400000, 0xC2C20000, 0x80000000); (0xC0000000, 0xC2C20000, 0x8F000000);
   (0xBF800000, 0xC2C20000, 0xBF800000); (0x3F800000, 0xC2C20000, 0x3F800000);
   (0x40000000, 0xC2C20000, 0x0F000000); (0x40400000, 0xC2C20000, 0x00000000);
   (0x41200000, 0xC2C20000, 0x00000000); (0x47C35000, 0xC2C20000, 0x00000000);
   (0xC7C35000, 0xC2C00000, 0x00000000); (0xC1200000, 0xC2C00000, 0x00000000);
   (0xC0400000, 0xC2C00000, 0x00000000); (0xC0000000, 0xC2C00000, 0x0F800000);
   (0xBF800000, 0xC2C00000, 0x3F800000); (0x3F800000, 0xC2C00000, 0x3F800000);
   (0x40000000, 0xC2C00000, 0x0F800000); (0x40400000, 0xC2C00000, 0x00000000);
   (0x41200000, 0xC2C00000, 0x00000000); (0x47C35000, 0xC2C00000, 0x00000000);
   (0xC7C35000, 0xC2BE0000, 0x80000000); (0xC1200000, 0xC2BE0000, 0x80000000);
   (0xC0400000, 0xC2BE0000, 0x80000000); (0xC0000000, 0xC2BE0000, 0x90000000);
   (0xBF800000, 0xC2BE0000, 0xBF800000); (0x3F800000, 0xC2BE0000, 0x3F800000);
   (0x40000000, 0xC2BE0000, 0x10000000); (0x40400000, 0xC2BE0000, 0x00000000);
   (0x41200000, 0xC2BE0000, 0x00000000); (0x47C35000, 0xC2BE0000, 0x00000000);
   (0xC7C35000, 0xC2BC0000, 0x00000000); (0xC1200000, 0xC2BC0000, 0x00000000);
   (0xC0400000, 0xC2BC0000, 0x00000001); (0xC0000000, 0xC2BC0000, 0x10800000);
   (0xBF800000, 0xC2BC0000, 0x3F800000); (0x3F800000, 0xC2BC0000, 0x3F800000);
   (0x40000000, 0xC2BC0000, 0x10800000); (0x40400000, 0xC2BC0000, 0x00000001);
   (0x41200000, 0xC2BC0000, 0x00000000); (0x47C35000, 0xC2BC0000, 0x00000000);
   (0xC7C35000, 0xC2BA0000, 0x80000000); (0xC1200000, 0xC2BA0000, 0x80000000);
   (0xC0400000, 0xC2BA0000, 0x80000003); (0xC0000000, 0xC2BA0000, 0x91000000);
   (0xBF800000, 0xC2BA0000, 0xBF800000); (0x3F800000, 0xC2BA0000, 0x3F800000);
   (0x40000000, 0xC2BA0000, 0x11000000); (0x40400000, 0xC2BA0000, 0x00000003);
   (0x41200000, 0xC2BA0000, 0x00000000); (0x47C35000, 0xC2BA0000, 0x00000000);
   (0xC7C35000, 0xC2B80000, 0x00000000); (0xC1200000, 0xC2B80000, 0x00000000);
   (0xC0400000, 0xC2B80000, 0x00000009); (0xC0000000, 0xC2B80000, 0x11800000);
   (0xBF800000, 0xC2B80000, 0x3F800000); (0x3F800000, 0xC2B80000, 0x3F800000);
   (0x40000000, 0xC2B80000, 0x11800000); (0x40400000, 0xC2B80000, 0x00000009);
   (0x41200000, 0xC2B80000, 0x00000000); (0x47C35000, 0xC2B80000, 0x00000000);
   (0xC7C35000, 0xC2B60000, 0x80000000); (0xC1200000, 0xC2B60000, 0x80000000);
   (0xC0400000, 0xC2B60000, 0x8000001B); (0xC0000000, 0xC2B60000, 0x92000000);
   (0xBF800000, 0xC2B60000, 0xBF800000); (0x3F800000, 0xC2B60000, 0x3F800000);
   (0x40000000, 0xC2B60000, 0x12000000); (0x40400000, 0xC2B60000, 0x0000001B);
   (0x41200000, 0xC2B60000, 0x00000000); (0x47C35000, 0xC2B60000, 0x00000000);
   (0xC7C35000, 0xC2B40000, 0x00000000); (0xC1200000, 0xC2B40000, 0x00000000);
   (0xC0400000, 0xC2B40000, 0x00000052); (0xC0000000, 0xC2B40000, 0x12800000);
   (0xBF800000, 0xC2B40000, 0x3F800000); (0x3F800000, 0xC2B40000, 0x3F800000);
   (0x40000000, 0xC2B40000, 0x12800000); (0x40400000, 0xC2B40000, 0x00000052);
   (0x41200000, 0xC2B40000, 0x00000000); (0x47C35000, 0xC2B40000, 0x00000000);
   (0xC7C35000, 0xC2B20000, 0x80000000); (0xC1200000, 0xC2B20000, 0x80000000);
   (0xC0400000, 0xC2B20000, 0x800000F5); (0xC0000000, 0xC2B20000, 0x93000000);
   (0xBF800000, 0xC2B20000, 0xBF800000); (0x3F800000, 0xC2B20000, 0x3F800000);
   (0x40000000, 0xC2B20000, 0x13000000); (0x40400000, 0xC2B20000, 0x000000F5);
   (0x41200000, 0xC2B20000, 0x00000000); (0x47C35000, 0xC2B20000, 0x00000000);
   (0xC7C35000, 0xC2B00000, 0x00000000); (0xC1200000, 0xC2B00000, 0x00000000);
   (0xC0400000, 0xC2B00000, 0x000002E0); (0xC0000000, 0xC2B00000, 0x13800000);
   (0xBF800000, 0xC2B00000, 0x3F800000); (0x3F800000, 0xC2B00000, 0x3F800000);
   (0x40000000, 0xC2B00000, 0x13800000); (0x40400000, 0xC2B00000, 0x000002E0);
   (0x41200000, 0xC2B00000, 0x00000000); (0x47C35000, 0xC2B00000, 0x00000000);
   (0xC7C35000, 0xC2AE0000, 0x80000000); (0xC1200000, 0xC2AE0000, 0x80000000);
   (0xC0400000, 0xC2AE0000, 0x800008A0); (0xC0000000, 0xC2AE0000, 0x94000000);
   (0xBF800000, 0xC2AE0000, 0xBF800000); (0x3F800000, 0xC2AE0000, 0x3F800000);
   (0x40000000, 0xC2AE0000, 0x14000000); (0x40400000, 0xC2AE0000, 0x000008A0);
   (0x41200000, 0xC2AE0000, 0x00000000); (0x47C35000, 0xC2AE0000, 0x00000000);
   (0xC7C35000, 0xC2AC0000, 0x00000000); (0xC1200000, 0xC2AC0000, 0x00000000);
   (0xC0400000, 0xC2AC0000, 0x000019DF); (0xC0000000, 0xC2AC0000, 0x14800000);
   (0xBF800000, 0xC2AC0000, 0x3F800000); (0x3F800000, 0xC2AC0000, 0x3F800000);
   (0x40000000, 0xC2AC0000, 0x14800000); (0x40400000, 0xC2AC0000, 0x000019DF);
   (0x41200000, 0xC2AC0000, 0x00000000); (0x47C35000, 0xC2AC0000, 0x00000000);
   (0xC7C35000, 0xC2AA0000, 0x80000000); (0xC1200000, 0xC2AA0000, 0x80000000);
   (0xC0400000, 0xC2AA0000, 0x80004D9C); (0xC0000000, 0xC2AA0000, 0x95000000);
   (0xBF800000, 0xC2AA0000, 0xBF800000); (0x3F800000, 0xC2AA0000, 0x3F800000);
   (0x40000000, 0xC2AA0000, 0x15000000); (0x40400000, 0xC2AA0000, 0x00004D9C);
   (0x41200000, 0xC2AA0000, 0x00000000); (0x47C35000, 0xC2AA0000, 0x00000000);
   (0xC7C35000, 0xC2A80000, 0x00000000); (0xC1200000, 0xC2A80000, 0x00000000);
   (0xC0400000, 0xC2A80000, 0x0000E8D5); (0xC0000000, 0xC2A80000, 0x15800000);
   (0xBF800000, 0xC2A80000, 0x3F800000); (0x3F800000, 0xC2A80000, 0x3F800000);
   (0x40000000, 0xC2A80000, 0x15800000); (0x40400000, 0xC2A80000, 0x0000E8D5);
   (0x41200000, 0xC2A80000, 0x00000000); (0x47C35000, 0xC2A80000, 0x00000000);
   (0xC7C35000, 0xC2A60000, 0x80000000); (0xC1200000, 0xC2A60000, 0x80000000);
   (0xC0400000, 0xC2A60000, 0x8002BA80); (0xC0000000, 0xC2A60000, 0x96000000);
   (0xBF800000, 0xC2A60000, 0xBF800000); (0x3F800000, 0xC2A60000, 0x3F800000);
   (0x40000000, 0xC2A60000, 0x16000000); (0x40400000, 0xC2A60000, 0x0002BA80);
   (0x41200000, 0xC2A60000, 0x00000000); (0x47C35000, 0xC2A60000, 0x00000000);
   (0xC7C35000, 0xC2A40000, 0x00000000); (0xC1200000, 0xC2A40000, 0x00000000);
   (0xC0400000, 0xC2A40000, 0x00082F7F); (0xC0000000, 0xC2A40000, 0x16800000);
   (0xBF800000, 0xC2A40000, 0x3F800000); (0x3F800000, 0xC2A40000, 0x3F800000);
   (0x40000000, 0xC2A40000, 0x16800000); (0x40400000, 0xC2A40000, 0x00082F7F);
   (0x41200000, 0xC2A40000, 0x00000000); (0x47C35000, 0xC2A40000, 0x00000000);
   (0xC7C35000, 0xC2A20000, 0x80000000); (0xC1200000, 0xC2A20000, 0x80000000);
   (0xC0400000, 0xC2A20000, 0x80188E7C); (0xC0000000, 0xC2A20000, 0x97000000);
   (0xBF800000, 0xC2A20000, 0xBF800000); (0x3F800000, 0xC2A20000, 0x3F800000);
   (0x40000000, 0xC2A20000, 0x17000000); (0x40400000, 0xC2A20000, 0x00188E7C);
   (0x41200000, 0xC2A20000, 0x00000000); (0x47C35000, 0xC2A20000, 0x00000000);
   (0xC7C35000, 0xC2A00000, 0x00000000); (0xC1200000, 0xC2A00000, 0x00000000);
   (0xC0400000, 0xC2A00000, 0x0049AB73); (0xC0000000, 0xC2A00000, 0x17800000);
   (0xBF800000, 0xC2A00000, 0x3F800000); (0x3F800000, 0xC2A00000, 0x3F800000);
   (0x40000000, 0xC2A00000, 0x17800000); (0x40400000, 0xC2A00000, 0x0049AB73);
   (0x41200000, 0xC2A00000, 0x00000000); (0x47C35000, 0xC2A00000, 0x00000000);
   (0xC7C35000, 0xC29E0000, 0x80000000); (0xC1200000, 0xC29E0000, 0x80000000);
   (0xC0400000, 0xC29E0000, 0x80DD0259); (0xC0000000, 0xC29E0000, 0x98000000);
   (0xBF800000, 0xC29E0000, 0xBF800000); (0x3F800000, 0xC29E0000, 0x3F800000);
   (0x40000000, 0xC29E0000, 0x18000000); (0x40400000, 0xC29E0000, 0x00DD0259);
   (0x41200000, 0xC29E0000, 0x00000000); (0x47C35000, 0xC29E0000, 0x00000000);
   (0xC7C35000, 0xC29C0000, 0x00000000); (0xC1200000, 0xC29C0000, 0x00000000);
   (0xC0400000, 0xC29C0000, 0x01A5C1C3); (0xC0000000, 0xC29C0000, 0x18800000);
   (0xBF800000, 0xC29C0000, 0x3F800000); (0x3F800000, 0xC29C0000, 0x3F800000);
   (0x40000000, 0xC29C0000, 0x18800000); (0x40400000, 0xC29C0000, 0x01A5C1C3);
   (0x41200000, 0xC29C0000, 0x00000000); (0x47C35000, 0xC29C0000, 0x00000000);
   (0xC7C35000, 0xC29A0000, 0x80000000); (0xC1200000, 0xC29A0000, 0x80000000);
   (0xC0400000, 0xC29A0000, 0x8278A2A4); (0xC0000000, 0xC29A0000, 0x99000000);
   (0xBF800000, 0xC29A0000, 0xBF800000); (0x3F800000, 0xC29A0000, 0x3F800000);
   (0x40000000, 0xC29A0000, 0x19000000); (0x40400000, 0xC29A0000, 0x0278A2A4);
   (0x41200000, 0xC29A0000, 0x00000000); (0x47C35000, 0xC29A0000, 0x00000000);
   (0xC7C35000, 0xC2980000, 0x00000000); (0xC1200000, 0xC2980000, 0x00000000);
   (0xC0400000, 0xC2980000, 0x033A79FB); (0xC0000000, 0xC2980000, 0x19800000);
   (0xBF800000, 0xC2980000, 0x3F800000); (0x3F800000, 0xC2980000, 0x3F800000);
   (0x40000000, 0xC2980000, 0x19800000); (0x40400000, 0xC2980000, 0x033A79FB);
   (0x41200000, 0xC2980000, 0x00000000); (0x47C35000, 0xC2980000, 0x00000000);
   (0xC7C35000, 0xC2960000, 0x80000000); (0xC1200000, 0xC2960000, 0x80000000);
   (0xC0400000, 0xC2960000, 0x840BDB7C); (0xC0000000, 0xC2960000, 0x9A000000);
   (0xBF800000, 0xC2960000, 0xBF800000); (0x3F800000, 0xC2960000, 0x3F800000);
   (0x40000000, 0xC2960000, 0x1A000000); (0x40400000, 0xC2960000, 0x040BDB7C);
   (0x41200000, 0xC2960000, 0x00000000); (0x47C35000, 0xC2960000, 0x00000000);
   (0xC7C35000, 0xC2940000, 0x00000000); (0xC1200000, 0xC2940000, 0x00000000);
   (0xC0400000, 0xC2940000, 0x04D1C93B); (0xC0000000, 0xC2940000, 0x1A800000);
   (0xBF800000, 0xC2940000, 0x3F800000); (0x3F800000, 0xC2940000, 0x3F800000);
   (0x40000000, 0xC2940000, 0x1A800000); (0x40400000, 0xC2940000, 0x04D1C93B);
   (0x41200000, 0xC2940000, 0x00000000); (0x47C35000, 0xC2940000, 0x00000000);
   (0xC7C35000, 0xC2920000, 0x80000000); (0xC1200000, 0xC2920000, 0x80000000);
   (0xC0400000, 0xC2920000, 0x859D56EC); (0xC0000000, 0xC2920000, 0x9B000000);
   (0xBF800000, 0xC2920000, 0xBF800000); (0x3F800000, 0xC2920000, 0x3F800000);
   (0x40000000, 0xC2920000, 0x1B000000); (0x40400000, 0xC2920000, 0x059D56EC);
   (0x41200000, 0xC2920000, 0x00000000); (0x47C35000, 0xC2920000, 0x00000000);
   (0xC7C35000, 0xC2900000, 0x00000000); (0xC1200000, 0xC2900000, 0x00000000);
   (0xC0400000, 0xC2900000, 0x066C0262); (0xC0000000, 0xC2900000, 0x1B800000);
   (0xBF800000, 0xC2900000, 0x3F800000); (0x3F800000, 0xC2900000, 0x3F800000);
   (0x40000000, 0xC2900000, 0x1B800000); (0x40400000, 0xC2900000, 0x066C0262);
   (0x41200000, 0xC2900000, 0x00000000); (0x47C35000, 0xC2900000, 0x00000000);
   (0xC7C35000, 0xC28E0000, 0x80000000); (0xC1200000, 0xC28E0000, 0x80000000);
   (0xC0400000, 0xC28E0000, 0x873101C9); (0xC0000000, 0xC28E0000, 0x9C000000);
   (0xBF800000, 0xC28E0000, 0xBF800000); (0x3F800000, 0xC28E0000, 0x3F800000);
   (0x40000000, 0xC28E0000, 0x1C000000); (0x40400000, 0xC28E0000, 0x073101C9);
   (0x41200000, 0xC28E0000, 0x00000000); (0x47C35000, 0xC28E0000, 0x00000000);
   (0xC7C35000, 0xC28C0000, 0x00000000); (0xC1200000, 0xC28C0000, 0x00000000);
   (0xC0400000, 0xC28C0000, 0x0804C157); (0xC0000000, 0xC28C0000, 0x1C800000);
   (0xBF800000, 0xC28C0000, 0x3F800000); (0x3F800000, 0xC28C0000, 0x3F800000);
   (0x40000000, 0xC28C0000, 0x1C800000); (0x40400000, 0xC28C0000, 0x0804C157);
   (0x41200000, 0xC28C0000, 0x00000000); (0x47C35000, 0xC28C0000, 0x00000000);
   (0xC7C35000, 0xC28A0000, 0x80000000); (0xC1200000, 0xC28A0000, 0x80000000);
   (0xC0400000, 0xC28A0000, 0x88C72203); (0xC0000000, 0xC28A0000, 0x9D000000);
   (0xBF800000, 0xC28A0000, 0xBF800000); (0x3F800000, 0xC28A0000, 0x3F800000);
   (0x40000000, 0xC28A0000, 0x1D000000); (0x40400000, 0xC28A0000, 0x08C72203);
   (0x41200000, 0xC28A0000, 0x00000000); (0x47C35000, 0xC28A0000, 0x00000000);
   (0xC7C35000, 0xC2880000, 0x00000000); (0xC1200000, 0xC2880000, 0x00000000);
   (0xC0400000, 0xC2880000, 0x09955982); (0xC0000000, 0xC2880000, 0x1D800000);
   (0xBF800000, 0xC2880000, 0x3F800000); (0x3F800000, 0xC2880000, 0x3F800000);
   (0x40000000, 0xC2880000, 0x1D800000); (0x40400000, 0xC2880000, 0x09955982);
   (0x41200000, 0xC2880000, 0x00000000); (0x47C35000, 0xC2880000, 0x00000000);
   (0xC7C35000, 0xC2860000, 0x80000000); (0xC1200000, 0xC2860000, 0x80000000);
   (0xC0400000, 0xC2860000, 0x8A600643); (0xC0000000, 0xC2860000, 0x9E000000);
   (0xBF800000, 0xC2860000, 0xBF800000); (0x3F800000, 0xC2860000, 0x3F800000);
   (0x40000000, 0xC2860000, 0x1E000000); (0x40400000, 0xC2860000, 0x0A600643);
   (0x41200000, 0xC2860000, 0x00000000); (0x47C35000, 0xC2860000, 0x00000000);
   (0xC7C35000, 0xC2840000, 0x00000000); (0xC1200000, 0xC2840000, 0x00000000);
   (0xC0400000, 0xC2840000, 0x0B2804B2); (0xC0000000, 0xC2840000, 0x1E800000);
   (0xBF800000, 0xC2840000, 0x3F800000); (0x3F800000, 0xC2840000, 0x3F800000);
   (0x40000000, 0xC2840000, 0x1E800000); (0x40400000, 0xC2840000, 0x0B2804B2);
   (0x41200000, 0xC2840000, 0x00000000); (0x47C35000, 0xC2840000, 0x00000000);
   (0xC7C35000, 0xC2820000, 0x80000000); (0xC1200000, 0xC2820000, 0x80000000);
   (0xC0400000, 0xC2820000, 0x8BFC070B); (0xC0000000, 0xC2820000, 0x9F000000);
   (0xBF800000, 0xC2820000, 0xBF800000); (0x3F800000, 0xC2820000, 0x3F800000);
   (0x40000000, 0xC2820000, 0x1F000000); (0x40400000, 0xC2820000, 0x0BFC070B);
   (0x41200000, 0xC2820000, 0x00000000); (0x47C35000, 0xC2820000, 0x00000000);
   (0xC7C35000, 0xC2800000, 0x00000000); (0xC1200000, 0xC2800000, 0x00000000);
   (0xC0400000, 0xC2800000, 0x0CBD0549); (0xC0000000, 0xC2800000, 0x1F800000);
   (0xBF800000, 0xC2800000, 0x3F800000); (0x3F800000, 0xC2800000, 0x3F800000);
   (0x40000000, 0xC2800000, 0x1F800000); (0x40400000, 0xC2800000, 0x0CBD0549);
   (0x41200000, 0xC2800000, 0x00000000); (0x47C35000, 0xC2800000, 0x00000000);
   (0xC7C35000, 0xC27C0000, 0x80000000); (0xC1200000, 0xC27C0000, 0x80000000);
   (0xC0400000, 0xC27C0000, 0x8D8DC3F6); (0xC0000000, 0xC27C0000, 0xA0000000);
   (0xBF800000, 0xC27C0000, 0xBF800000); (0x3F800000, 0xC27C0000, 0x3F800000);
   (0x40000000, 0xC27C0000, 0x20000000); (0x40400000, 0xC27C0000, 0x0D8DC3F6);
   (0x41200000, 0xC27C0000, 0x00000000); (0x47C35000, 0xC27C0000, 0x00000000);
   (0xC7C35000, 0xC2780000, 0x00000000); (0xC1200000, 0xC2780000, 0x00000000);
   (0xC0400000, 0xC2780000, 0x0E54A5F2); (0xC0000000, 0xC2780000, 0x20800000);
   (0xBF800000, 0xC2780000, 0x3F800000); (0x3F800000, 0xC2780000, 0x3F800000);
   (0x40000000, 0xC2780000, 0x20800000); (0x40400000, 0xC2780000, 0x0E54A5F2);
   (0x41200000, 0xC2780000, 0x00000000); (0x47C35000, 0xC2780000, 0x00000000);
   (0xC7C35000, 0xC2740000, 0x80000000); (0xC1200000, 0xC2740000, 0x80000000);
   (0xC0400000, 0xC2740000, 0x8F1F7C75); (0xC0000000, 0xC2740000, 0xA1000000);
   (0xBF800000, 0xC2740000, 0xBF800000); (0x3F800000, 0xC2740000, 0x3F800000);
   (0x40000000, 0xC2740000, 0x21000000); (0x40400000, 0xC2740000, 0x0F1F7C75);
   (0x41200000, 0xC2740000, 0x00000000); (0x47C35000, 0xC2740000, 0x00000000);
   (0xC7C35000, 0xC2700000, 0x00000000); (0xC1200000, 0xC2700000, 0x00000000);
   (0xC0400000, 0xC2700000, 0x0FEF3AB0); (0xC0000000, 0xC2700000, 0x21800000);
   (0xBF800000, 0xC2700000, 0x3F800000); (0x3F800000, 0xC2700000, 0x3F800000);
   (0x40000000, 0xC2700000, 0x21800000); (0x40400000, 0xC2700000, 0x0FEF3AB0);
   (0x41200000, 0xC2700000, 0x00000000); (0x47C35000, 0xC2700000, 0x00000000);
   (0xC7C35000, 0xC26C0000, 0x80000000); (0xC1200000, 0xC26C0000, 0x80000000);
   (0xC0400000, 0xC26C0000, 0x90B36C04); (0xC0000000, 0xC26C0000, 0xA2000000);
   (0xBF800000, 0xC26C0000, 0xBF800000); (0x3F800000, 0xC26C0000, 0x3F800000);
   (0x40000000, 0xC26C0000, 0x22000000); (0x40400000, 0xC26C0000, 0x10B36C04);
   (0x41200000, 0xC26C0000, 0x00000000); (0x47C35000, 0xC26C0000, 0x00000000);
   (0xC7C35000, 0xC2680000, 0x00000000); (0xC1200000, 0xC2680000, 0x00000000);
   (0xC0400000, 0xC2680000, 0x11869103); (0xC0000000, 0xC2680000, 0x22800000);
   (0xBF800000, 0xC2680000, 0x3F800000); (0x3F800000, 0xC2680000, 0x3F800000);
   (0x40000000, 0xC2680000, 0x22800000); (0x40400000, 0xC2680000, 0x11869103);
   (0x41200000, 0xC2680000, 0x00000000); (0x47C35000, 0xC2680000, 0x00000000);
   (0xC7C35000, 0xC2640000, 0x80000000); (0xC1200000, 0xC2640000, 0x80000000);
   (0xC0400000, 0xC2640000, 0x9249D984); (0xC0000000, 0xC2640000, 0xA3000000);
   (0xBF800000, 0xC2640000, 0xBF800000); (0x3F800000, 0xC2640000, 0x3F800000);
   (0x40000000, 0xC2640000, 0x23000000); (0x40400000, 0xC2640000, 0x1249D984);
   (0x41200000, 0xC2640000, 0x00000000); (0x47C35000, 0xC2640000, 0x00000000);
   (0xC7C35000, 0xC2600000, 0x00000000); (0xC1200000, 0xC2600000, 0x00000000);
   (0xC0400000, 0xC2600000, 0x13176323); (0xC0000000, 0xC2600000, 0x23800000);
   (0xBF800000, 0xC2600000, 0x3F800000); (0x3F800000, 0xC2600000, 0x3F800000);
   (0x40000000, 0xC2600000, 0x23800000); (0x40400000, 0xC2600000, 0x13176323);
   (0x41200000, 0xC2600000, 0x00000000); (0x47C35000, 0xC2600000, 0x00000000);
   (0xC7C35000, 0xC25C0000, 0x80000000); (0xC1200000, 0xC25C0000, 0x80000000);
   (0xC0400000, 0xC25C0000, 0x93E314B5); (0xC0000000, 0xC25C0000, 0xA4000000);
   (0xBF800000, 0xC25C0000, 0xBF800000); (0x3F800000, 0xC25C0000, 0x3F800000);
   (0x40000000, 0xC25C0000, 0x24000000); (0x40400000, 0xC25C0000, 0x13E314B5);
   (0x41200000, 0xC25C0000, 0x00000000); (0x47C35000, 0xC25C0000, 0x00000000);
   (0xC7C35000, 0xC2580000, 0x00000000); (0xC1200000, 0xC2580000, 0x00000000);
   (0xC0400000, 0xC2580000, 0x14AA4F88); (0xC0000000, 0xC2580000, 0x24800000);
   (0xBF800000, 0xC2580000, 0x3F800000); (0x3F800000, 0xC2580000, 0x3F800000);
   (0x40000000, 0xC2580000, 0x24800000); (0x40400000, 0xC2580000, 0x14AA4F88);
   (0x41200000, 0xC2580000, 0x00000000); (0x47C35000, 0xC2580000, 0x00000000);
   (0xC7C35000, 0xC2540000, 0x80000000); (0xC1200000, 0xC2540000, 0x80000000);
   (0xC0400000, 0xC2540000, 0x957F774C); (0xC0000000, 0xC2540000, 0xA5000000);
   (0xBF800000, 0xC2540000, 0xBF800000); (0x3F800000, 0xC2540000, 0x3F800000);
   (0x40000000, 0xC2540000, 0x25000000); (0x40400000, 0xC2540000, 0x157F774C);
   (0x41200000, 0xC2540000, 0x00000000); (0x47C35000, 0xC2540000, 0x00000000);
   (0xC7C35000, 0xC2500000, 0x00000000); (0xC1200000, 0xC2500000, 0x00000000);
   (0xC0400000, 0xC2500000, 0x163F9979); (0xC0000000, 0xC2500000, 0x25800000);
   (0xBF800000, 0xC2500000, 0x3F800000); (0x3F800000, 0xC2500000, 0x3F800000);
   (0x40000000, 0xC2500000, 0x25800000); (0x40400000, 0xC2500000, 0x163F9979);
   (0x41200000, 0xC2500000, 0x00000000); (0x47C35000, 0xC2500000, 0x00000000);
   (0xC7C35000, 0xC24C0000, 0x80000000); (0xC1200000, 0xC24C0000, 0x80000000);
   (0xC0400000, 0xC24C0000, 0x970FB31A); (0xC0000000, 0xC24C0000, 0xA6000000);
   (0xBF800000, 0xC24C0000, 0xBF800000); (0x3F800000, 0xC24C0000, 0x3F800000);
   (0x40000000, 0xC24C0000, 0x26000000); (0x40400000, 0xC24C0000, 0x170FB31A);
   (0x41200000, 0xC24C0000, 0x00000000); (0x47C35000, 0xC24C0000, 0x00000000);
   (0xC7C35000, 0xC2480000, 0x00000000); (0xC1200000, 0xC2480000, 0x00000000);
   (0xC0400000, 0xC2480000, 0x17D78CA8); (0xC0000000, 0xC2480000, 0x26800000);
   (0xBF800000, 0xC2480000, 0x3F800000); (0x3F800000, 0xC2480000, 0x3F800000);
   (0x40000000, 0xC2480000, 0x26800000); (0x40400000, 0xC2480000, 0x17D78CA8);
   (0x41200000, 0xC2480000, 0x00000000); (0x47C35000, 0xC2480000, 0x00000000);
   (0xC7C35000, 0xC2440000, 0x80000000); (0xC1200000, 0xC2440000, 0x80000000);
   (0xC0400000, 0xC2440000, 0x98A1A97E); (0xC0000000, 0xC2440000, 0xA7000000);
   (0xBF800000, 0xC2440000, 0xBF800000); (0x3F800000, 0xC2440000, 0x3F800000);
   (0x40000000, 0xC2440000, 0x27000000); (0x40400000, 0xC2440000, 0x18A1A97E);
   (0x41200000, 0xC2440000, 0x00000000); (0x47C35000, 0xC2440000, 0x00000000);
   (0xC7C35000, 0xC2400000, 0x00000000); (0xC1200000, 0xC2400000, 0x00000000);
   (0xC0400000, 0xC2400000, 0x19727E3D); (0xC0000000, 0xC2400000, 0x27800000);
   (0xBF800000, 0xC2400000, 0x3F800000); (0x3F800000, 0xC2400000, 0x3F800000);
   (0x40000000, 0xC2400000, 0x27800000); (0x40400000, 0xC2400000, 0x19727E3D);
   (0x41200000, 0xC2400000, 0x00000000); (0x47C35000, 0xC2400000, 0x00000000);
   (0xC7C35000, 0xC23C0000, 0x80000000); (0xC1200000, 0xC23C0000, 0x80000000);
   (0xC0400000, 0xC23C0000, 0x9A35DEAE); (0xC0000000, 0xC23C0000, 0xA8000000);
   (0xBF800000, 0xC23C0000, 0xBF800000); (0x3F800000, 0xC23C0000, 0x3F800000);
   (0x40000000, 0xC23C0000, 0x28000000); (0x40400000, 0xC23C0000, 0x1A35DEAE);
   (0x41200000, 0xC23C0000, 0x00000000); (0x47C35000, 0xC23C0000, 0x00000000);
   (0xC7C35000, 0xC2380000, 0x00000000); (0xC1200000, 0xC2380000, 0x00000000);
   (0xC0400000, 0xC2380000, 0x1B086702); (0xC0000000, 0xC2380000, 0x28800000);
   (0xBF800000, 0xC2380000, 0x3F800000); (0x3F800000, 0xC2380000, 0x3F800000);
   (0x40000000, 0xC2380000, 0x28800000); (0x40400000, 0xC2380000, 0x1B086702);
   (0x41200000, 0xC2380000, 0x00000000); (0x47C35000, 0xC2380000, 0x00000000);
   (0xC7C35000, 0xC2340000, 0x80000000); (0xC1200000, 0xC2340000, 0x80000000);
   (0xC0400000, 0xC2340000, 0x9BCC9A83); (0xC0000000, 0xC2340000, 0xA9000000);
   (0xBF800000, 0xC2340000, 0xBF800000); (0x3F800000, 0xC2340000, 0x3F800000);
   (0x40000000, 0xC2340000, 0x29000000); (0x40400000, 0xC2340000, 0x1BCC9A83);
   (0x41200000, 0xC2340000, 0x00000000); (0x47C35000, 0xC2340000, 0x00000000);
   (0xC7C35000, 0xC2300000, 0x00000000); (0xC1200000, 0xC2300000, 0x00000007);
   (0xC0400000, 0xC2300000, 0x1C9973E2); (0xC0000000, 0xC2300000, 0x29800000);
   (0xBF800000, 0xC2300000, 0x3F800000); (0x3F800000, 0xC2300000, 0x3F800000);
   (0x40000000, 0xC2300000, 0x29800000); (0x40400000, 0xC2300000, 0x1C9973E2);
   (0x41200000, 0xC2300000, 0x00000007); (0x47C35000, 0xC2300000, 0x00000000);
   (0xC7C35000, 0xC22C0000, 0x80000000); (0xC1200000, 0xC22C0000, 0x80000047);
   (0xC0400000, 0xC22C0000, 0x9D662DD4); (0xC0000000, 0xC22C0000, 0xAA000000);
   (0xBF800000, 0xC22C0000, 0xBF800000); (0x3F800000, 0xC22C0000, 0x3F800000);
   (0x40000000, 0xC22C0000, 0x2A000000); (0x40400000, 0xC22C0000, 0x1D662DD4);
   (0x41200000, 0xC22C0000, 0x00000047); (0x47C35000, 0xC22C0000, 0x00000000);
   (0xC7C35000, 0xC2280000, 0x00000000); (0xC1200000, 0xC2280000, 0x000002CA);
   (0xC0400000, 0xC2280000, 0x1E2CA25F); (0xC0000000, 0xC2280000, 0x2A800000);
   (0xBF800000, 0xC2280000, 0x3F800000); (0x3F800000, 0xC2280000, 0x3F800000);
   (0x40000000, 0xC2280000, 0x2A800000); (0x40400000, 0xC2280000, 0x1E2CA25F);
   (0x41200000, 0xC2280000, 0x000002CA); (0x47C35000, 0xC2280000, 0x00000000);
   (0xC7C35000, 0xC2240000, 0x80000000); (0xC1200000, 0xC2240000, 0x80001BE0);
   (0xC0400000, 0xC2240000, 0x9F0179C7); (0xC0000000, 0xC2240000, 0xAB000000);
   (0xBF800000, 0xC2240000, 0xBF800000); (0x3F800000, 0xC2240000, 0x3F800000);
   (0x40000000, 0xC2240000, 0x2B000000); (0x40400000, 0xC2240000, 0x1F0179C7);
   (0x41200000, 0xC2240000, 0x00001BE0); (0x47C35000, 0xC2240000, 0x00000000);
   (0xC7C35000, 0xC2200000, 0x00000000); (0xC1200000, 0xC2200000, 0x000116C2);
   (0xC0400000, 0xC2200000, 0x1FC236AB); (0xC0000000, 0xC2200000, 0x2B800000);
   (0xBF800000, 0xC2200000, 0x3F800000); (0x3F800000, 0xC2200000, 0x3F800000);
   (0x40000000, 0xC2200000, 0x2B800000); (0x40400000, 0xC2200000, 0x1FC236AB);
   (0x41200000, 0xC2200000, 0x000116C2); (0x47C35000, 0xC2200000, 0x00000000);
   (0xC7C35000, 0xC21C0000, 0x80000000); (0xC1200000, 0xC21C0000, 0x800AE398);
   (0xC0400000, 0xC21C0000, 0xA091A900); (0xC0000000, 0xC21C0000, 0xAC000000);
   (0xBF800000, 0xC21C0000, 0xBF800000); (0x3F800000, 0xC21C0000, 0x3F800000);
   (0x40000000, 0xC21C0000, 0x2C000000); (0x40400000, 0xC21C0000, 0x2091A900);
   (0x41200000, 0xC21C0000, 0x000AE398); (0x47C35000, 0xC21C0000, 0x00000000);
   (0xC7C35000, 0xC2180000, 0x00000000); (0xC1200000, 0xC2180000, 0x006CE3EE);
   (0xC0400000, 0xC2180000, 0x215A7D80); (0xC0000000, 0xC2180000, 0x2C800000);
   (0xBF800000, 0xC2180000, 0x3F800000); (0x3F800000, 0xC2180000, 0x3F800000);
   (0x40000000, 0xC2180000, 0x2C800000); (0x40400000, 0xC2180000, 0x215A7D80);
   (0x41200000, 0xC2180000, 0x006CE3EE); (0x47C35000, 0xC2180000, 0x00000000);
   (0xC7C35000, 0xC2140000, 0x80000000); (0xC1200000, 0xC2140000, 0x82081CEA);
   (0xC0400000, 0xC2140000, 0xA223DE20); (0xC0000000, 0xC2140000, 0xAD000000);
   (0xBF800000, 0xC2140000, 0xBF800000); (0x3F800000, 0xC2140000, 0x3F800000);
   (0x40000000, 0xC2140000, 0x2D000000); (0x40400000, 0xC2140000, 0x2223DE20);
   (0x41200000, 0xC2140000, 0x02081CEA); (0x47C35000, 0xC2140000, 0x00000000);
   (0xC7C35000, 0xC2100000, 0x00000000); (0xC1200000, 0xC2100000, 0x03AA2425);
   (0xC0400000, 0xC2100000, 0x22F5CD30); (0xC0000000, 0xC2100000, 0x2D800000);
   (0xBF800000, 0xC2100000, 0x3F800000); (0x3F800000, 0xC2100000, 0x3F800000);
   (0x40000000, 0xC2100000, 0x2D800000); (0x40400000, 0xC2100000, 0x22F5CD30);
   (0x41200000, 0xC2100000, 0x03AA2425); (0x47C35000, 0xC2100000, 0x00000000);
   (0xC7C35000, 0xC20C0000, 0x80000000); (0xC1200000, 0xC20C0000, 0x8554AD2E);
   (0xC0400000, 0xC20C0000, 0xA3B859E4); (0xC0000000, 0xC20C0000, 0xAE000000);
   (0xBF800000, 0xC20C0000, 0xBF800000); (0x3F800000, 0xC20C0000, 0x3F800000);
   (0x40000000, 0xC20C0000, 0x2E000000); (0x40400000, 0xC20C0000, 0x23B859E4);
   (0x41200000, 0xC20C0000, 0x0554AD2E); (0x47C35000, 0xC20C0000, 0x00000000);
   (0xC7C35000, 0xC2080000, 0x00000000); (0xC1200000, 0xC2080000, 0x0704EC3D);
   (0xC0400000, 0xC2080000, 0x248A436B); (0xC0000000, 0xC2080000, 0x2E800000);
   (0xBF800000, 0xC2080000, 0x3F800000); (0x3F800000, 0xC2080000, 0x3F800000);
   (0x40000000, 0xC2080000, 0x2E800000); (0x40400000, 0xC2080000, 0x248A436B);
   (0x41200000, 0xC2080000, 0x0704EC3D); (0x47C35000, 0xC2080000, 0x00000000);
   (0xC7C35000, 0xC2040000, 0x80000000); (0xC1200000, 0xC2040000, 0x88A6274C);
   (0xC0400000, 0xC2040000, 0xA54F6520); (0xC0000000, 0xC2040000, 0xAF000000);
   (0xBF800000, 0xC2040000, 0xBF800000); (0x3F800000, 0xC2040000, 0x3F800000);
   (0x40000000, 0xC2040000, 0x2F000000); (0x40400000, 0xC2040000, 0x254F6520);
   (0x41200000, 0xC2040000, 0x08A6274C); (0x47C35000, 0xC2040000, 0x00000000);
   (0xC7C35000, 0xC2000000, 0x00000000); (0xC1200000, 0xC2000000, 0x0A4FB11F);
   (0xC0400000, 0xC2000000, 0x261B8BD8); (0xC0000000, 0xC2000000, 0x2F800000);
   (0xBF800000, 0xC2000000, 0x3F800000); (0x3F800000, 0xC2000000, 0x3F800000);
   (0x40000000, 0xC2000000, 0x2F800000); (0x40400000, 0xC2000000, 0x261B8BD8);
   (0x41200000, 0xC2000000, 0x0A4FB11F); (0x47C35000, 0xC2000000, 0x00000000);
   (0xC7C35000, 0xC1F80000, 0x80000000); (0xC1200000, 0xC1F80000, 0x8C01CEB3);
   (0xC0400000, 0xC1F80000, 0xA6E951C4); (0xC0000000, 0xC1F80000, 0xB0000000);
   (0xBF800000, 0xC1F80000, 0xBF800000); (0x3F800000, 0xC1F80000, 0x3F800000);
   (0x40000000, 0xC1F80000, 0x30000000); (0x40400000, 0xC1F80000, 0x26E951C4);
   (0x41200000, 0xC1F80000, 0x0C01CEB3); (0x47C35000, 0xC1F80000, 0x00000000);
   (0xC7C35000, 0xC1F00000, 0x00000000); (0xC1200000, 0xC1F00000, 0x0DA24260);
   (0xC0400000, 0xC1F00000, 0x27AEFD53); (0xC0000000, 0xC1F00000, 0x30800000);
   (0xBF800000, 0xC1F00000, 0x3F800000); (0x3F800000, 0xC1F00000, 0x3F800000);
   (0x40000000, 0xC1F00000, 0x30800000); (0x40400000, 0xC1F00000, 0x27AEFD53);
   (0x41200000, 0xC1F00000, 0x0DA24260); (0x47C35000, 0xC1F00000, 0x00000000);
   (0xC7C35000, 0xC1E80000, 0x80000000); (0xC1200000, 0xC1E80000, 0x8F4AD2F8);
   (0xC0400000, 0xC1E80000, 0xA8833DFE); (0xC0000000, 0xC1E80000, 0xB1000000);
   (0xBF800000, 0xC1E80000, 0xBF800000); (0x3F800000, 0xC1E80000, 0x3F800000);
   (0x40000000, 0xC1E80000, 0x31000000); (0x40400000, 0xC1E80000, 0x28833DFE);
   (0x41200000, 0xC1E80000, 0x0F4AD2F8); (0x47C35000, 0xC1E80000, 0x00000000);
   (0xC7C35000, 0xC1E00000, 0x00000000); (0xC1200000, 0xC1E00000, 0x10FD87B6);
   (0xC0400000, 0xC1E00000, 0x2944DCFE); (0xC0000000, 0xC1E00000, 0x31800000);
   (0xBF800000, 0xC1E00000, 0x3F800000); (0x3F800000, 0xC1E00000, 0x3F800000);
   (0x40000000, 0xC1E00000, 0x31800000); (0x40400000, 0xC1E00000, 0x2944DCFE);
   (0x41200000, 0xC1E00000, 0x10FD87B6); (0x47C35000, 0xC1E00000, 0x00000000);
   (0xC7C35000, 0xC1D80000, 0x80000000); (0xC1200000, 0xC1D80000, 0x929E74D2);
   (0xC0400000, 0xC1D80000, 0xAA13A5BE); (0xC0000000, 0xC1D80000, 0xB2000000);
   (0xBF800000, 0xC1D80000, 0xBF800000); (0x3F800000, 0xC1D80000, 0x3F800000);
   (0x40000000, 0xC1D80000, 0x32000000); (0x40400000, 0xC1D80000, 0x2A13A5BE);
   (0x41200000, 0xC1D80000, 0x129E74D2); (0x47C35000, 0xC1D80000, 0x00000000);
   (0xC7C35000, 0xC1D00000, 0x00000000); (0xC1200000, 0xC1D00000, 0x14461206);
   (0xC0400000, 0xC1D00000, 0x2ADD789D); (0xC0000000, 0xC1D00000, 0x32800000);
   (0xBF800000, 0xC1D00000, 0x3F800000); (0x3F800000, 0xC1D00000, 0x3F800000);
   (0x40000000, 0xC1D00000, 0x32800000); (0x40400000, 0xC1D00000, 0x2ADD789D);
   (0x41200000, 0xC1D00000, 0x14461206); (0x47C35000, 0xC1D00000, 0x00000000);
   (0xC7C35000, 0xC1C80000, 0x80000000); (0xC1200000, 0xC1C80000, 0x95F79688);
   (0xC0400000, 0xC1C80000, 0xABA61A76); (0xC0000000, 0xC1C80000, 0xB3000000);
   (0xBF800000, 0xC1C80000, 0xBF800000); (0x3F800000, 0xC1C80000, 0x3F800000);
   (0x40000000, 0xC1C80000, 0x33000000); (0x40400000, 0xC1C80000, 0x2BA61A76);
   (0x41200000, 0xC1C80000, 0x15F79688); (0x47C35000, 0xC1C80000, 0x00000000);
   (0xC7C35000, 0xC1C00000, 0x00000000); (0xC1200000, 0xC1C00000, 0x179ABE15);
   (0xC0400000, 0xC1C00000, 0x2C7927B1); (0xC0000000, 0xC1C00000, 0x33800000);
   (0xBF800000, 0xC1C00000, 0x3F800000); (0x3F800000, 0xC1C00000, 0x3F800000);
   (0x40000000, 0xC1C00000, 0x33800000); (0x40400000, 0xC1C00000, 0x2C7927B1);
   (0x41200000, 0xC1C00000, 0x179ABE15); (0x47C35000, 0xC1C00000, 0x00000000);
   (0xC7C35000, 0xC1B80000, 0x80000000); (0xC1200000, 0xC1B80000, 0x99416D9A);
   (0xC0400000, 0xC1B80000, 0xAD3ADDC5); (0xC0000000, 0xC1B80000, 0xB4000000);
   (0xBF800000, 0xC1B80000, 0xBF800000); (0x3F800000, 0xC1B80000, 0x3F800000);
   (0x40000000, 0xC1B80000, 0x34000000); (0x40400000, 0xC1B80000, 0x2D3ADDC5);
   (0x41200000, 0xC1B80000, 0x19416D9A); (0x47C35000, 0xC1B80000, 0x00000000);
   (0xC7C35000, 0xC1B00000, 0x00000000); (0xC1200000, 0xC1B00000, 0x1AF1C901);
   (0xC0400000, 0xC1B00000, 0x2E0C2654); (0xC0000000, 0xC1B00000, 0x34800000);
   (0xBF800000, 0xC1B00000, 0x3F800000); (0x3F800000, 0xC1B00000, 0x3F800000);
   (0x40000000, 0xC1B00000, 0x34800000); (0x40400000, 0xC1B00000, 0x2E0C2654);
   (0x41200000, 0xC1B00000, 0x1AF1C901); (0x47C35000, 0xC1B00000, 0x00000000);
   (0xC7C35000, 0xC1A80000, 0x80000000); (0xC1200000, 0xC1A80000, 0x9C971DA0);
   (0xC0400000, 0xC1A80000, 0xAED2397D); (0xC0000000, 0xC1A80000, 0xB5000000);
   (0xBF800000, 0xC1A80000, 0xBF800000); (0x3F800000, 0xC1A80000, 0x3F800000);
   (0x40000000, 0xC1A80000, 0x35000000); (0x40400000, 0xC1A80000, 0x2ED2397D);
   (0x41200000, 0xC1A80000, 0x1C971DA0); (0x47C35000, 0xC1A80000, 0x00000000);
   (0xC7C35000, 0xC1A00000, 0x00000000); (0xC1200000, 0xC1A00000, 0x1E3CE508);
   (0xC0400000, 0xC1A00000, 0x2F9DAB1E); (0xC0000000, 0xC1A00000, 0x35800000);
   (0xBF800000, 0xC1A00000, 0x3F800000); (0x3F800000, 0xC1A00000, 0x3F800000);
   (0x40000000, 0xC1A00000, 0x35800000); (0x40400000, 0xC1A00000, 0x2F9DAB1E);
   (0x41200000, 0xC1A00000, 0x1E3CE508); (0x47C35000, 0xC1A00000, 0x00000000);
   (0xC7C35000, 0xC1980000, 0x80000000); (0xC1200000, 0xC1980000, 0x9FEC1E4A);
   (0xC0400000, 0xC1980000, 0xB06C80AD); (0xC0000000, 0xC1980000, 0xB6000000);
   (0xBF800000, 0xC1980000, 0xBF800000); (0x3F800000, 0xC1980000, 0x3F800000);
   (0x40000000, 0xC1980000, 0x36000000); (0x40400000, 0xC1980000, 0x306C80AD);
   (0x41200000, 0xC1980000, 0x1FEC1E4A); (0x47C35000, 0xC1980000, 0x00000000);
   (0xC7C35000, 0xC1900000, 0x00000000); (0xC1200000, 0xC1900000, 0x219392EF);
   (0xC0400000, 0xC1900000, 0x31316082); (0xC0000000, 0xC1900000, 0x36800000);
   (0xBF800000, 0xC1900000, 0x3F800000); (0x3F800000, 0xC1900000, 0x3F800000);
   (0x40000000, 0xC1900000, 0x36800000); (0x40400000, 0xC1900000, 0x31316082);
   (0x41200000, 0xC1900000, 0x219392EF); (0x47C35000, 0xC1900000, 0x00000000);
   (0xC7C35000, 0xC1880000, 0x80000000); (0xC1200000, 0xC1880000, 0xA33877AA);
   (0xC0400000, 0xC1880000, 0xB2050861); (0xC0000000, 0xC1880000, 0xB7000000);
   (0xBF800000, 0xC1880000, 0xBF800000); (0x3F800000, 0xC1880000, 0x3F800000);
   (0x40000000, 0xC1880000, 0x37000000); (0x40400000, 0xC1880000, 0x32050861);
   (0x41200000, 0xC1880000, 0x233877AA); (0x47C35000, 0xC1880000, 0x00000000);
   (0xC7C35000, 0xC1800000, 0x00000000); (0xC1200000, 0xC1800000, 0x24E69595);
   (0xC0400000, 0xC1800000, 0x32C78C92); (0xC0000000, 0xC1800000, 0x37800000);
   (0xBF800000, 0xC1800000, 0x3F800000); (0x3F800000, 0xC1800000, 0x3F800000);
   (0x40000000, 0xC1800000, 0x37800000); (0x40400000, 0xC1800000, 0x32C78C92);
   (0x41200000, 0xC1800000, 0x24E69595); (0x47C35000, 0xC1800000, 0x00000000);
   (0xC7C35000, 0xC1700000, 0x80000000); (0xC1200000, 0xC1700000, 0xA6901D7D);
   (0xC0400000, 0xC1700000, 0xB395A96E); (0xC0000000, 0xC1700000, 0xB8000000);
   (0xBF800000, 0xC1700000, 0xBF800000); (0x3F800000, 0xC1700000, 0x3F800000);
   (0x40000000, 0xC1700000, 0x38000000); (0x40400000, 0xC1700000, 0x3395A96E);
   (0x41200000, 0xC1700000, 0x26901D7D); (0x47C35000, 0xC1700000, 0x00000000);
   (0xC7C35000, 0xC1600000, 0x00000000); (0xC1200000, 0xC1600000, 0x283424DC);
   (0xC0400000, 0xC1600000, 0x34607E24); (0xC0000000, 0xC1600000, 0x38800000);
   (0xBF800000, 0xC1600000, 0x3F800000); (0x3F800000, 0xC1600000, 0x3F800000);
   (0x40000000, 0xC1600000, 0x38800000); (0x40400000, 0xC1600000, 0x34607E24);
   (0x41200000, 0xC1600000, 0x283424DC); (0x47C35000, 0xC1600000, 0x00000000);
   (0xC7C35000, 0xC1500000, 0x80000000); (0xC1200000, 0xC1500000, 0xA9E12E13);
   (0xC0400000, 0xC1500000, 0xB5285E9B); (0xC0000000, 0xC1500000, 0xB9000000);
   (0xBF800000, 0xC1500000, 0xBF800000); (0x3F800000, 0xC1500000, 0x3F800000);
   (0x40000000, 0xC1500000, 0x39000000); (0x40400000, 0xC1500000, 0x35285E9B);
   (0x41200000, 0xC1500000, 0x29E12E13); (0x47C35000, 0xC1500000, 0x00000000);
   (0xC7C35000, 0xC1400000, 0x00000000); (0xC1200000, 0xC1400000, 0x2B8CBCCC);
   (0xC0400000, 0xC1400000, 0x35FC8DE9); (0xC0000000, 0xC1400000, 0x39800000);
   (0xBF800000, 0xC1400000, 0x3F800000); (0x3F800000, 0xC1400000, 0x3F800000);
   (0x40000000, 0xC1400000, 0x39800000); (0x40400000, 0xC1400000, 0x35FC8DE9);
   (0x41200000, 0xC1400000, 0x2B8CBCCC); (0x47C35000, 0xC1400000, 0x00000000);
   (0xC7C35000, 0xC1300000, 0x80000000); (0xC1200000, 0xC1300000, 0xAD2FEBFF);
   (0xC0400000, 0xC1300000, 0xB6BD6A6F); (0xC0000000, 0xC1300000, 0xBA000000);
   (0xBF800000, 0xC1300000, 0xBF800000); (0x3F800000, 0xC1300000, 0x3F800000);
   (0x40000000, 0xC1300000, 0x3A000000); (0x40400000, 0xC1300000, 0x36BD6A6F);
   (0x41200000, 0xC1300000, 0x2D2FEBFF); (0x47C35000, 0xC1300000, 0x00000000);
   (0xC7C35000, 0xC1200000, 0x00000000); (0xC1200000, 0xC1200000, 0x2EDBE6FF);
   (0xC0400000, 0xC1200000, 0x378E0FD3); (0xC0000000, 0xC1200000, 0x3A800000);
   (0xBF800000, 0xC1200000, 0x3F800000); (0x3F800000, 0xC1200000, 0x3F800000);
   (0x40000000, 0xC1200000, 0x3A800000); (0x40400000, 0xC1200000, 0x378E0FD3);
   (0x41200000, 0xC1200000, 0x2EDBE6FF); (0x47C35000, 0xC1200000, 0x00000000);
   (0xC7C35000, 0xC1100000, 0x80000000); (0xC1200000, 0xC1100000, 0xB089705F);
   (0xC0400000, 0xC1100000, 0xB85517BC); (0xC0000000, 0xC1100000, 0xBB000000);
   (0xBF800000, 0xC1100000, 0xBF800000); (0x3F800000, 0xC1100000, 0x3F800000);
   (0x40000000, 0xC1100000, 0x3B000000); (0x40400000, 0xC1100000, 0x385517BC);
   (0x41200000, 0xC1100000, 0x3089705F); (0x47C35000, 0xC1100000, 0x00000000);
   (0xC7C35000, 0xC1000000, 0x000116C2); (0xC1200000, 0xC1000000, 0x322BCC77);
   (0xC0400000, 0xC1000000, 0x391FD1CD); (0xC0000000, 0xC1000000, 0x3B800000);
   (0xBF800000, 0xC1000000, 0x3F800000); (0x3F800000, 0xC1000000, 0x3F800000);
   (0x40000000, 0xC1000000, 0x3B800000); (0x40400000, 0xC1000000, 0x391FD1CD);
   (0x41200000, 0xC1000000, 0x322BCC77); (0x47C35000, 0xC1000000, 0x000116C2);
   (0xC7C35000, 0xC0E00000, 0x8554AD2E); (0xC1200000, 0xC0E00000, 0xB3D6BF95);
   (0xC0400000, 0xC0E00000, 0xB9EFBAB4); (0xC0000000, 0xC0E00000, 0xBC000000);
   (0xBF800000, 0xC0E00000, 0xBF800000); (0x3F800000, 0xC0E00000, 0x3F800000);
   (0x40000000, 0xC0E00000, 0x3C000000); (0x40400000, 0xC0E00000, 0x39EFBAB4);
   (0x41200000, 0xC0E00000, 0x33D6BF95); (0x47C35000, 0xC0E00000, 0x0554AD2E);
   (0xC7C35000, 0xC0C00000, 0x0DA24260); (0xC1200000, 0xC0C00000, 0x358637BD);
   (0xC0400000, 0xC0C00000, 0x3AB3CC07); (0xC0000000, 0xC0C00000, 0x3C800000);
   (0xBF800000, 0xC0C00000, 0x3F800000); (0x3F800000, 0xC0C00000, 0x3F800000);
   (0x40000000, 0xC0C00000, 0x3C800000); (0x40400000, 0xC0C00000, 0x3AB3CC07);
   (0x41200000, 0xC0C00000, 0x358637BD); (0x47C35000, 0xC0C00000, 0x0DA24260);
   (0xC7C35000, 0xC0A00000, 0x95F79688); (0xC1200000, 0xC0A00000, 0xB727C5AC);
   (0xC0400000, 0xC0A00000, 0xBB86D905); (0xC0000000, 0xC0A00000, 0xBD000000);
   (0xBF800000, 0xC0A00000, 0xBF800000); (0x3F800000, 0xC0A00000, 0x3F800000);
   (0x40000000, 0xC0A00000, 0x3D000000); (0x40400000, 0xC0A00000, 0x3B86D905);
   (0x41200000, 0xC0A00000, 0x3727C5AC); (0x47C35000, 0xC0A00000, 0x15F79688);
   (0xC7C35000, 0xC0800000, 0x1E3CE508); (0xC1200000, 0xC0800000, 0x38D1B717);
   (0xC0400000, 0xC0800000, 0x3C4A4588); (0xC0000000, 0xC0800000, 0x3D800000);
   (0xBF800000, 0xC0800000, 0x3F800000); (0x3F800000, 0xC0800000, 0x3F800000);
   (0x40000000, 0xC0800000, 0x3D800000); (0x40400000, 0xC0800000, 0x3C4A4588);
   (0x41200000, 0xC0800000, 0x38D1B717); (0x47C35000, 0xC0800000, 0x1E3CE508);
   (0xC7C35000, 0xC0400000, 0xA6901D7D); (0xC1200000, 0xC0400000, 0xBA83126F);
   (0xC0400000, 0xC0400000, 0xBD17B426); (0xC0000000, 0xC0400000, 0xBE000000);
   (0xBF800000, 0xC0400000, 0xBF800000); (0x3F800000, 0xC0400000, 0x3F800000);
   (0x40000000, 0xC0400000, 0x3E000000); (0x40400000, 0xC0400000, 0x3D17B426);
   (0x41200000, 0xC0400000, 0x3A83126F); (0x47C35000, 0xC0400000, 0x26901D7D);
   (0xC7C35000, 0xC0000000, 0x2EDBE6FF); (0xC1200000, 0xC0000000, 0x3C23D70A);
   (0xC0400000, 0xC0000000, 0x3DE38E39); (0xC0000000, 0xC0000000, 0x3E800000);
   (0xBF800000, 0xC0000000, 0x3F800000); (0x3F800000, 0xC0000000, 0x3F800000);
   (0x40000000, 0xC0000000, 0x3E800000); (0x40400000, 0xC0000000, 0x3DE38E39);
   (0x41200000, 0xC0000000, 0x3C23D70A); (0x47C35000, 0xC0000000, 0x2EDBE6FF);
   (0xC7C35000, 0xBF800000, 0xB727C5AC); (0xC1200000, 0xBF800000, 0xBDCCCCCD);
   (0xC0400000, 0xBF800000, 0xBEAAAAAB); (0xC0000000, 0xBF800000, 0xBF000000);
   (0xBF800000, 0xBF800000, 0xBF800000); (0x3F800000, 0xBF800000, 0x3F800000);
   (0x40000000, 0xBF800000, 0x3F000000); (0x40400000, 0xBF800000, 0x3EAAAAAB);
   (0x41200000, 0xBF800000, 0x3DCCCCCD); (0x47C35000, 0xBF800000, 0x3727C5AC);
   (0xC7C35000, 0x00000000, 0x3F800000); (0xC1200000, 0x00000000, 0x3F800000);
   (0xC0400000, 0x00000000, 0x3F800000); (0xC0000000, 0x00000000, 0x3F800000);
   (0xBF800000, 0x00000000, 0x3F800000); (0x3F800000, 0x00000000, 0x3F800000);
   (0x40000000, 0x00000000, 0x3F800000); (0x40400000, 0x00000000, 0x3F800000);
   (0x41200000, 0x00000000, 0x3F800000); (0x47C35000, 0x00000000, 0x3F800000);
   (0xC7C35000, 0x3F800000, 0xC7C35000); (0xC1200000, 0x3F800000, 0xC1200000);
   (0xC0400000, 0x3F800000, 0xC0400000); (0xC0000000, 0x3F800000, 0xC0000000);
   (0xBF800000, 0x3F800000, 0xBF800000); (0x3F800000, 0x3F800000, 0x3F800000);
   (0x40000000, 0x3F800000, 0x40000000); (0x40400000, 0x3F800000, 0x40400000);
   (0x41200000, 0x3F800000, 0x41200000); (0x47C35000, 0x3F800000, 0x47C35000);
   (0xC7C35000, 0x40000000, 0x501502F9); (0xC1200000, 0x40000000, 0x42C80000);
   (0xC0400000, 0x40000000, 0x41100000); (0xC0000000, 0x40000000, 0x40800000);
   (0xBF800000, 0x40000000, 0x3F800000); (0x3F800000, 0x40000000, 0x3F800000);
   (0x40000000, 0x40000000, 0x40800000); (0x40400000, 0x40000000, 0x41100000);
   (0x41200000, 0x40000000, 0x42C80000); (0x47C35000, 0x40000000, 0x501502F9);
   (0xC7C35000, 0x40400000, 0xD8635FA9); (0xC1200000, 0x40400000, 0xC47A0000);
   (0xC0400000, 0x40400000, 0xC1D80000); (0xC0000000, 0x40400000, 0xC1000000);
   (0xBF800000, 0x40400000, 0xBF800000); (0x3F800000, 0x40400000, 0x3F800000);
   (0x40000000, 0x40400000, 0x41000000); (0x40400000, 0x40400000, 0x41D80000);
   (0x41200000, 0x40400000, 0x447A0000); (0x47C35000, 0x40400000, 0x58635FA9);
   (0xC7C35000, 0x40800000, 0x60AD78EC); (0xC1200000, 0x40800000, 0x461C4000);
   (0xC0400000, 0x40800000, 0x42A20000); (0xC0000000, 0x40800000, 0x41800000);
   (0xBF800000, 0x40800000, 0x3F800000); (0x3F800000, 0x40800000, 0x3F800000);
   (0x40000000, 0x40800000, 0x41800000); (0x40400000, 0x40800000, 0x42A20000);
   (0x41200000, 0x40800000, 0x461C4000); (0x47C35000, 0x40800000, 0x60AD78EC);
   (0xC7C35000, 0x40A00000, 0xE9045951); (0xC1200000, 0x40A00000, 0xC7C35000);
   (0xC0400000, 0x40A00000, 0xC3730000); (0xC0000000, 0x40A00000, 0xC2000000);
   (0xBF800000, 0x40A00000, 0xBF800000); (0x3F800000, 0x40A00000, 0x3F800000);
   (0x40000000, 0x40A00000, 0x42000000); (0x40400000, 0x40A00000, 0x43730000);
   (0x41200000, 0x40A00000, 0x47C35000); (0x47C35000, 0x40A00000, 0x69045951);
   (0xC7C35000, 0x40C00000, 0x7149F2CA); (0xC1200000, 0x40C00000, 0x49742400);
   (0xC0400000, 0x40C00000, 0x44364000); (0xC0000000, 0x40C00000, 0x42800000);
   (0xBF800000, 0x40C00000, 0x3F800000); (0x3F800000, 0x40C00000, 0x3F800000);
   (0x40000000, 0x40C00000, 0x42800000); (0x40400000, 0x40C00000, 0x44364000);
   (0x41200000, 0x40C00000, 0x49742400); (0x47C35000, 0x40C00000, 0x7149F2CA);
   (0xC7C35000, 0x40E00000, 0xF99A130C); (0xC1200000, 0x40E00000, 0xCB189680);
   (0xC0400000, 0x40E00000, 0xC508B000); (0xC0000000, 0x40E00000, 0xC3000000);
   (0xBF800000, 0x40E00000, 0xBF800000); (0x3F800000, 0x40E00000, 0x3F800000);
   (0x40000000, 0x40E00000, 0x43000000); (0x40400000, 0x40E00000, 0x4508B000);
   (0x41200000, 0x40E00000, 0x4B189680); (0x47C35000, 0x40E00000, 0x799A130C);
   (0xC7C35000, 0x41000000, 0x7F800000); (0xC1200000, 0x41000000, 0x4CBEBC20);
   (0xC0400000, 0x41000000, 0x45CD0800); (0xC0000000, 0x41000000, 0x43800000);
   (0xBF800000, 0x41000000, 0x3F800000); (0x3F800000, 0x41000000, 0x3F800000);
   (0x40000000, 0x41000000, 0x43800000); (0x40400000, 0x41000000, 0x45CD0800);
   (0x41200000, 0x41000000, 0x4CBEBC20); (0x47C35000, 0x41000000, 0x7F800000);
   (0xC7C35000, 0x41100000, 0xFF800000); (0xC1200000, 0x41100000, 0xCE6E6B28);
   (0xC0400000, 0x41100000, 0xC699C600); (0xC0000000, 0x41100000, 0xC4000000);
   (0xBF800000, 0x41100000, 0xBF800000); (0x3F800000, 0x41100000, 0x3F800000);
   (0x40000000, 0x41100000, 0x44000000); (0x40400000, 0x41100000, 0x4699C600);
   (0x41200000, 0x41100000, 0x4E6E6B28); (0x47C35000, 0x41100000, 0x7F800000);
   (0xC7C35000, 0x41200000, 0x7F800000); (0xC1200000, 0x41200000, 0x501502F9);
   (0xC0400000, 0x41200000, 0x4766A900); (0xC0000000, 0x41200000, 0x44800000);
   (0xBF800000, 0x41200000, 0x3F800000); (0x3F800000, 0x41200000, 0x3F800000);
   (0x40000000, 0x41200000, 0x44800000); (0x40400000, 0x41200000, 0x4766A900);
   (0x41200000, 0x41200000, 0x501502F9); (0x47C35000, 0x41200000, 0x7F800000);
   (0xC7C35000, 0x41300000, 0xFF800000); (0xC1200000, 0x41300000, 0xD1BA43B7);
   (0xC0400000, 0x41300000, 0xC82CFEC0); (0xC0000000, 0x41300000, 0xC5000000);
   (0xBF800000, 0x41300000, 0xBF800000); (0x3F800000, 0x41300000, 0x3F800000);
   (0x40000000, 0x41300000, 0x45000000); (0x40400000, 0x41300000, 0x482CFEC0);
   (0x41200000, 0x41300000, 0x51BA43B7); (0x47C35000, 0x41300000, 0x7F800000);
   (0xC7C35000, 0x41400000, 0x7F800000); (0xC1200000, 0x41400000, 0x5368D4A5);
   (0xC0400000, 0x41400000, 0x4901BF10); (0xC0000000, 0x41400000, 0x45800000);
   (0xBF800000, 0x41400000, 0x3F800000); (0x3F800000, 0x41400000, 0x3F800000);
   (0x40000000, 0x41400000, 0x45800000); (0x40400000, 0x41400000, 0x4901BF10);
   (0x41200000, 0x41400000, 0x5368D4A5); (0x47C35000, 0x41400000, 0x7F800000);
   (0xC7C35000, 0x41500000, 0xFF800000); (0xC1200000, 0x41500000, 0xD51184E7);
   (0xC0400000, 0x41500000, 0xC9C29E98); (0xC0000000, 0x41500000, 0xC6000000);
   (0xBF800000, 0x41500000, 0xBF800000); (0x3F800000, 0x41500000, 0x3F800000);
   (0x40000000, 0x41500000, 0x46000000); (0x40400000, 0x41500000, 0x49C29E98);
   (0x41200000, 0x41500000, 0x551184E7); (0x47C35000, 0x41500000, 0x7F800000);
   (0xC7C35000, 0x41600000, 0x7F800000); (0xC1200000, 0x41600000, 0x56B5E621);
   (0xC0400000, 0x41600000, 0x4A91F6F2); (0xC0000000, 0x41600000, 0x46800000);
   (0xBF800000, 0x41600000, 0x3F800000); (0x3F800000, 0x41600000, 0x3F800000);
   (0x40000000, 0x41600000, 0x46800000); (0x40400000, 0x41600000, 0x4A91F6F2);
   (0x41200000, 0x41600000, 0x56B5E621); (0x47C35000, 0x41600000, 0x7F800000);
   (0xC7C35000, 0x41700000, 0xFF800000); (0xC1200000, 0x41700000, 0xD8635FA9);
   (0xC0400000, 0x41700000, 0xCB5AF26B); (0xC0000000, 0x41700000, 0xC7000000);
   (0xBF800000, 0x41700000, 0xBF800000); (0x3F800000, 0x41700000, 0x3F800000);
   (0x40000000, 0x41700000, 0x47000000); (0x40400000, 0x41700000, 0x4B5AF26B);
   (0x41200000, 0x41700000, 0x58635FA9); (0x47C35000, 0x41700000, 0x7F800000);
   (0xC7C35000, 0x41800000, 0x7F800000); (0xC1200000, 0x41800000, 0x5A0E1BCA);
   (0xC0400000, 0x41800000, 0x4C2435D0); (0xC0000000, 0x41800000, 0x47800000);
   (0xBF800000, 0x41800000, 0x3F800000); (0x3F800000, 0x41800000, 0x3F800000);
   (0x40000000, 0x41800000, 0x47800000); (0x40400000, 0x41800000, 0x4C2435D0);
   (0x41200000, 0x41800000, 0x5A0E1BCA); (0x47C35000, 0x41800000, 0x7F800000);
   (0xC7C35000, 0x41880000, 0xFF800000); (0xC1200000, 0x41880000, 0xDBB1A2BC);
   (0xC0400000, 0x41880000, 0xCCF650B8); (0xC0000000, 0x41880000, 0xC8000000);
   (0xBF800000, 0x41880000, 0xBF800000); (0x3F800000, 0x41880000, 0x3F800000);
   (0x40000000, 0x41880000, 0x48000000); (0x40400000, 0x41880000, 0x4CF650B8);
   (0x41200000, 0x41880000, 0x5BB1A2BC); (0x47C35000, 0x41880000, 0x7F800000);
   (0xC7C35000, 0x41900000, 0x7F800000); (0xC1200000, 0x41900000, 0x5D5E0B6B);
   (0xC0400000, 0x41900000, 0x4DB8BC8A); (0xC0000000, 0x41900000, 0x48800000);
   (0xBF800000, 0x41900000, 0x3F800000); (0x3F800000, 0x41900000, 0x3F800000);
   (0x40000000, 0x41900000, 0x48800000); (0x40400000, 0x41900000, 0x4DB8BC8A);
   (0x41200000, 0x41900000, 0x5D5E0B6B); (0x47C35000, 0x41900000, 0x7F800000);
   (0xC7C35000, 0x41980000, 0xFF800000); (0xC1200000, 0x41980000, 0xDF0AC723);
   (0xC0400000, 0x41980000, 0xCE8A8D68); (0xC0000000, 0x41980000, 0xC9000000);
   (0xBF800000, 0x41980000, 0xBF800000); (0x3F800000, 0x41980000, 0x3F800000);
   (0x40000000, 0x41980000, 0x49000000); (0x40400000, 0x41980000, 0x4E8A8D68);
   (0x41200000, 0x41980000, 0x5F0AC723); (0x47C35000, 0x41980000, 0x7F800000);
   (0xC7C35000, 0x41A00000, 0x7F800000); (0xC1200000, 0x41A00000, 0x60AD78EC);
   (0xC0400000, 0x41A00000, 0x4F4FD41C); (0xC0000000, 0x41A00000, 0x49800000);
   (0xBF800000, 0x41A00000, 0x3F800000); (0x3F800000, 0x41A00000, 0x3F800000);
   (0x40000000, 0x41A00000, 0x49800000); (0x40400000, 0x41A00000, 0x4F4FD41C);
   (0x41200000, 0x41A00000, 0x60AD78EC); (0x47C35000, 0x41A00000, 0x7F800000);
   (0xC7C35000, 0x41A80000, 0xFF800000); (0xC1200000, 0x41A80000, 0xE258D727);
   (0xC0400000, 0x41A80000, 0xD01BDF15); (0xC0000000, 0x41A80000, 0xCA000000);
   (0xBF800000, 0x41A80000, 0xBF800000); (0x3F800000, 0x41A80000, 0x3F800000);
   (0x40000000, 0x41A80000, 0x4A000000); (0x40400000, 0x41A80000, 0x501BDF15);
   (0x41200000, 0x41A80000, 0x6258D727); (0x47C35000, 0x41A80000, 0x7F800000);
   (0xC7C35000, 0x41B00000, 0x7F800000); (0xC1200000, 0x41B00000, 0x64078678);
   (0xC0400000, 0x41B00000, 0x50E9CE9F); (0xC0000000, 0x41B00000, 0x4A800000);
   (0xBF800000, 0x41B00000, 0x3F800000); (0x3F800000, 0x41B00000, 0x3F800000);
   (0x40000000, 0x41B00000, 0x4A800000); (0x40400000, 0x41B00000, 0x50E9CE9F);
   (0x41200000, 0x41B00000, 0x64078678); (0x47C35000, 0x41B00000, 0x7F800000);
   (0xC7C35000, 0x41B80000, 0xFF800000); (0xC1200000, 0x41B80000, 0xE5A96816);
   (0xC0400000, 0x41B80000, 0xD1AF5AF7); (0xC0000000, 0x41B80000, 0xCB000000);
   (0xBF800000, 0x41B80000, 0xBF800000); (0x3F800000, 0x41B80000, 0x3F800000);
   (0x40000000, 0x41B80000, 0x4B000000); (0x40400000, 0x41B80000, 0x51AF5AF7);
   (0x41200000, 0x41B80000, 0x65A96816); (0x47C35000, 0x41B80000, 0x7F800000);
   (0xC7C35000, 0x41C00000, 0x7F800000); (0xC1200000, 0x41C00000, 0x6753C21C);
   (0xC0400000, 0x41C00000, 0x52838439); (0xC0000000, 0x41C00000, 0x4B800000);
   (0xBF800000, 0x41C00000, 0x3F800000); (0x3F800000, 0x41C00000, 0x3F800000);
   (0x40000000, 0x41C00000, 0x4B800000); (0x40400000, 0x41C00000, 0x52838439);
   (0x41200000, 0x41C00000, 0x6753C21C); (0x47C35000, 0x41C00000, 0x7F800000);
   (0xC7C35000, 0x41C80000, 0xFF800000); (0xC1200000, 0x41C80000, 0xE9045951);
   (0xC0400000, 0x41C80000, 0xD3454656); (0xC0000000, 0x41C80000, 0xCC000000);
   (0xBF800000, 0x41C80000, 0xBF800000); (0x3F800000, 0x41C80000, 0x3F800000);
   (0x40000000, 0x41C80000, 0x4C000000); (0x40400000, 0x41C80000, 0x53454656);
   (0x41200000, 0x41C80000, 0x69045951); (0x47C35000, 0x41C80000, 0x7F800000);
   (0xC7C35000, 0x41D00000, 0x7F800000); (0xC1200000, 0x41D00000, 0x6AA56FA6);
   (0xC0400000, 0x41D00000, 0x5413F4C1); (0xC0000000, 0x41D00000, 0x4C800000);
   (0xBF800000, 0x41D00000, 0x3F800000); (0x3F800000, 0x41D00000, 0x3F800000);
   (0x40000000, 0x41D00000, 0x4C800000); (0x40400000, 0x41D00000, 0x5413F4C1);
   (0x41200000, 0x41D00000, 0x6AA56FA6); (0x47C35000, 0x41D00000, 0x7F800000);
   (0xC7C35000, 0x41D80000, 0xFF800000); (0xC1200000, 0x41D80000, 0xEC4ECB8F);
   (0xC0400000, 0x41D80000, 0xD4DDEF21); (0xC0000000, 0x41D80000, 0xCD000000);
   (0xBF800000, 0x41D80000, 0xBF800000); (0x3F800000, 0x41D80000, 0x3F800000);
   (0x40000000, 0x41D80000, 0x4D000000); (0x40400000, 0x41D80000, 0x54DDEF21);
   (0x41200000, 0x41D80000, 0x6C4ECB8F); (0x47C35000, 0x41D80000, 0x7F800000);
   (0xC7C35000, 0x41E00000, 0x7F800000); (0xC1200000, 0x41E00000, 0x6E013F39);
   (0xC0400000, 0x41E00000, 0x55A67359); (0xC0000000, 0x41E00000, 0x4D800000);
   (0xBF800000, 0x41E00000, 0x3F800000); (0x3F800000, 0x41E00000, 0x3F800000);
   (0x40000000, 0x41E00000, 0x4D800000); (0x40400000, 0x41E00000, 0x55A67359);
   (0x41200000, 0x41E00000, 0x6E013F39); (0x47C35000, 0x41E00000, 0x7F800000);
   (0xC7C35000, 0x41E80000, 0xFF800000); (0xC1200000, 0x41E80000, 0xEFA18F08);
   (0xC0400000, 0x41E80000, 0xD679AD05); (0xC0000000, 0x41E80000, 0xCE000000);
   (0xBF800000, 0x41E80000, 0xBF800000); (0x3F800000, 0x41E80000, 0x3F800000);
   (0x40000000, 0x41E80000, 0x4E000000); (0x40400000, 0x41E80000, 0x5679AD05);
   (0x41200000, 0x41E80000, 0x6FA18F08); (0x47C35000, 0x41E80000, 0x7F800000);
   (0xC7C35000, 0x41F00000, 0x7F800000); (0xC1200000, 0x41F00000, 0x7149F2CA);
   (0xC0400000, 0x41F00000, 0x573B41C4); (0xC0000000, 0x41F00000, 0x4E800000);
   (0xBF800000, 0x41F00000, 0x3F800000); (0x3F800000, 0x41F00000, 0x3F800000);
   (0x40000000, 0x41F00000, 0x4E800000); (0x40400000, 0x41F00000, 0x573B41C4);
   (0x41200000, 0x41F00000, 0x7149F2CA); (0x47C35000, 0x41F00000, 0x7F800000);
   (0xC7C35000, 0x41F80000, 0xFF800000); (0xC1200000, 0x41F80000, 0xF2FC6F7C);
   (0xC0400000, 0x41F80000, 0xD80C7153); (0xC0000000, 0x41F80000, 0xCF000000);
   (0xBF800000, 0x41F80000, 0xBF800000); (0x3F800000, 0x41F80000, 0x3F800000);
   (0x40000000, 0x41F80000, 0x4F000000); (0x40400000, 0x41F80000, 0x580C7153);
   (0x41200000, 0x41F80000, 0x72FC6F7C); (0x47C35000, 0x41F80000, 0x7F800000);
   (0xC7C35000, 0x42000000, 0x7F800000); (0xC1200000, 0x42000000, 0x749DC5AE);
   (0xC0400000, 0x42000000, 0x58D2A9FC); (0xC0000000, 0x42000000, 0x4F800000);
   (0xBF800000, 0x42000000, 0x3F800000); (0x3F800000, 0x42000000, 0x3F800000);
   (0x40000000, 0x42000000, 0x4F800000); (0x40400000, 0x42000000, 0x58D2A9FC);
   (0x41200000, 0x42000000, 0x749DC5AE); (0x47C35000, 0x42000000, 0x7F800000);
   (0xC7C35000, 0x42040000, 0xFF800000); (0xC1200000, 0x42040000, 0xF6453719);
   (0xC0400000, 0x42040000, 0xD99DFF7D); (0xC0000000, 0x42040000, 0xD0000000);
   (0xBF800000, 0x42040000, 0xBF800000); (0x3F800000, 0x42040000, 0x3F800000);
   (0x40000000, 0x42040000, 0x50000000); (0x40400000, 0x42040000, 0x599DFF7D);
   (0x41200000, 0x42040000, 0x76453719); (0x47C35000, 0x42040000, 0x7F800000);
   (0xC7C35000, 0x42080000, 0x7F800000); (0xC1200000, 0x42080000, 0x77F684DF);
   (0xC0400000, 0x42080000, 0x5A6CFF3C); (0xC0000000, 0x42080000, 0x50800000);
   (0xBF800000, 0x42080000, 0x3F800000); (0x3F800000, 0x42080000, 0x3F800000);
   (0x40000000, 0x42080000, 0x50800000); (0x40400000, 0x42080000, 0x5A6CFF3C);
   (0x41200000, 0x42080000, 0x77F684DF); (0x47C35000, 0x42080000, 0x7F800000);
   (0xC7C35000, 0x420C0000, 0xFF800000); (0xC1200000, 0x420C0000, 0xF99A130C);
   (0xC0400000, 0x420C0000, 0xDB31BF6D); (0xC0000000, 0x420C0000, 0xD1000000);
   (0xBF800000, 0x420C0000, 0xBF800000); (0x3F800000, 0x420C0000, 0x3F800000);
   (0x40000000, 0x420C0000, 0x51000000); (0x40400000, 0x420C0000, 0x5B31BF6D);
   (0x41200000, 0x420C0000, 0x799A130C); (0x47C35000, 0x420C0000, 0x7F800000);
   (0xC7C35000, 0x42100000, 0x7F800000); (0xC1200000, 0x42100000, 0x7B4097CE);
   (0xC0400000, 0x42100000, 0x5C054F92); (0xC0000000, 0x42100000, 0x51800000);
   (0xBF800000, 0x42100000, 0x3F800000); (0x3F800000, 0x42100000, 0x3F800000);
   (0x40000000, 0x42100000, 0x51800000); (0x40400000, 0x42100000, 0x5C054F92);
   (0x41200000, 0x42100000, 0x7B4097CE); (0x47C35000, 0x42100000, 0x7F800000);
   (0xC7C35000, 0x42140000, 0xFF800000); (0xC1200000, 0x42140000, 0xFCF0BDC2);
   (0xC0400000, 0x42140000, 0xDCC7F75A); (0xC0000000, 0x42140000, 0xD2000000);
   (0xBF800000, 0x42140000, 0xBF800000); (0x3F800000, 0x42140000, 0x3F800000);
   (0x40000000, 0x42140000, 0x52000000); (0x40400000, 0x42140000, 0x5CC7F75A);
   (0x41200000, 0x42140000, 0x7CF0BDC2); (0x47C35000, 0x42140000, 0x7F800000);
   (0xC7C35000, 0x42180000, 0x7F800000); (0xC1200000, 0x42180000, 0x7E967699);
   (0xC0400000, 0x42180000, 0x5D95F984); (0xC0000000, 0x42180000, 0x52800000);
   (0xBF800000, 0x42180000, 0x3F800000); (0x3F800000, 0x42180000, 0x3F800000);
   (0x40000000, 0x42180000, 0x52800000); (0x40400000, 0x42180000, 0x5D95F984);
   (0x41200000, 0x42180000, 0x7E967699); (0x47C35000, 0x42180000, 0x7F800000);
   (0xC7C35000, 0x421C0000, 0xFF800000); (0xC1200000, 0x421C0000, 0xFF800000);
   (0xC0400000, 0x421C0000, 0xDE60F646); (0xC0000000, 0x421C0000, 0xD3000000);
   (0xBF800000, 0x421C0000, 0xBF800000); (0x3F800000, 0x421C0000, 0x3F800000);
   (0x40000000, 0x421C0000, 0x53000000); (0x40400000, 0x421C0000, 0x5E60F646);
   (0x41200000, 0x421C0000, 0x7F800000); (0x47C35000, 0x421C0000, 0x7F800000);
   (0xC7C35000, 0x42200000, 0x7F800000); (0xC1200000, 0x42200000, 0x7F800000);
   (0xC0400000, 0x42200000, 0x5F28B8B4); (0xC0000000, 0x42200000, 0x53800000);
   (0xBF800000, 0x42200000, 0x3F800000); (0x3F800000, 0x42200000, 0x3F800000);
   (0x40000000, 0x42200000, 0x53800000); (0x40400000, 0x42200000, 0x5F28B8B4);
   (0x41200000, 0x42200000, 0x7F800000); (0x47C35000, 0x42200000, 0x7F800000);
   (0xC7C35000, 0x42240000, 0xFF800000); (0xC1200000, 0x42240000, 0xFF800000);
   (0xC0400000, 0x42240000, 0xDFFD150E); (0xC0000000, 0x42240000, 0xD4000000);
   (0xBF800000, 0x42240000, 0xBF800000); (0x3F800000, 0x42240000, 0x3F800000);
   (0x40000000, 0x42240000, 0x54000000); (0x40400000, 0x42240000, 0x5FFD150E);
   (0x41200000, 0x42240000, 0x7F800000); (0x47C35000, 0x42240000, 0x7F800000);
   (0xC7C35000, 0x42280000, 0x7F800000); (0xC1200000, 0x42280000, 0x7F800000);
   (0xC0400000, 0x42280000, 0x60BDCFCB); (0xC0000000, 0x42280000, 0x54800000);
   (0xBF800000, 0x42280000, 0x3F800000); (0x3F800000, 0x42280000, 0x3F800000);
   (0x40000000, 0x42280000, 0x54800000); (0x40400000, 0x42280000, 0x60BDCFCB);
   (0x41200000, 0x42280000, 0x7F800000); (0x47C35000, 0x42280000, 0x7F800000);
   (0xC7C35000, 0x422C0000, 0xFF800000); (0xC1200000, 0x422C0000, 0xFF800000);
   (0xC0400000, 0x422C0000, 0xE18E5BD8); (0xC0000000, 0x422C0000, 0xD5000000);
   (0xBF800000, 0x422C0000, 0xBF800000); (0x3F800000, 0x422C0000, 0x3F800000);
   (0x40000000, 0x422C0000, 0x55000000); (0x40400000, 0x422C0000, 0x618E5BD8);
   (0x41200000, 0x422C0000, 0x7F800000); (0x47C35000, 0x422C0000, 0x7F800000);
   (0xC7C35000, 0x42300000, 0x7F800000); (0xC1200000, 0x42300000, 0x7F800000);
   (0xC0400000, 0x42300000, 0x625589C4); (0xC0000000, 0x42300000, 0x55800000);
   (0xBF800000, 0x42300000, 0x3F800000); (0x3F800000, 0x42300000, 0x3F800000);
   (0x40000000, 0x42300000, 0x55800000); (0x40400000, 0x42300000, 0x625589C4);
   (0x41200000, 0x42300000, 0x7F800000); (0x47C35000, 0x42300000, 0x7F800000);
   (0xC7C35000, 0x42340000, 0xFF800000); (0xC1200000, 0x42340000, 0xFF800000);
   (0xC0400000, 0x42340000, 0xE3202753); (0xC0000000, 0x42340000, 0xD6000000);
   (0xBF800000, 0x42340000, 0xBF800000); (0x3F800000, 0x42340000, 0x3F800000);
   (0x40000000, 0x42340000, 0x56000000); (0x40400000, 0x42340000, 0x63202753);
   (0x41200000, 0x42340000, 0x7F800000); (0x47C35000, 0x42340000, 0x7F800000);
   (0xC7C35000, 0x42380000, 0x7F800000); (0xC1200000, 0x42380000, 0x7F800000);
   (0xC0400000, 0x42380000, 0x63F03AFD); (0xC0000000, 0x42380000, 0x56800000);
   (0xBF800000, 0x42380000, 0x3F800000); (0x3F800000, 0x42380000, 0x3F800000);
   (0x40000000, 0x42380000, 0x56800000); (0x40400000, 0x42380000, 0x63F03AFD);
   (0x41200000, 0x42380000, 0x7F800000); (0x47C35000, 0x42380000, 0x7F800000);
   (0xC7C35000, 0x423C0000, 0xFF800000); (0xC1200000, 0x423C0000, 0xFF800000);
   (0xC0400000, 0x423C0000, 0xE4B42C3E); (0xC0000000, 0x423C0000, 0xD7000000);
   (0xBF800000, 0x423C0000, 0xBF800000); (0x3F800000, 0x423C0000, 0x3F800000);
   (0x40000000, 0x423C0000, 0x57000000); (0x40400000, 0x423C0000, 0x64B42C3E);
   (0x41200000, 0x423C0000, 0x7F800000); (0x47C35000, 0x423C0000, 0x7F800000);
   (0xC7C35000, 0x42400000, 0x7F800000); (0xC1200000, 0x42400000, 0x7F800000);
   (0xC0400000, 0x42400000, 0x6587212E); (0xC0000000, 0x42400000, 0x57800000);
   (0xBF800000, 0x42400000, 0x3F800000); (0x3F800000, 0x42400000, 0x3F800000);
   (0x40000000, 0x42400000, 0x57800000); (0x40400000, 0x42400000, 0x6587212E);
   (0x41200000, 0x42400000, 0x7F800000); (0x47C35000, 0x42400000, 0x7F800000);
   (0xC7C35000, 0x42440000, 0xFF800000); (0xC1200000, 0x42440000, 0xFF800000);
   (0xC0400000, 0x42440000, 0xE64AB1C5); (0xC0000000, 0x42440000, 0xD8000000);
   (0xBF800000, 0x42440000, 0xBF800000); (0x3F800000, 0x42440000, 0x3F800000);
   (0x40000000, 0x42440000, 0x58000000); (0x40400000, 0x42440000, 0x664AB1C5);
   (0x41200000, 0x42440000, 0x7F800000); (0x47C35000, 0x42440000, 0x7F800000);
   (0xC7C35000, 0x42480000, 0x7F800000); (0xC1200000, 0x42480000, 0x7F800000);
   (0xC0400000, 0x42480000, 0x67180554); (0xC0000000, 0x42480000, 0x58800000);
   (0xBF800000, 0x42480000, 0x3F800000); (0x3F800000, 0x42480000, 0x3F800000);
   (0x40000000, 0x42480000, 0x58800000); (0x40400000, 0x42480000, 0x67180554);
   (0x41200000, 0x42480000, 0x7F800000); (0x47C35000, 0x42480000, 0x7F800000);
   (0xC7C35000, 0x424C0000, 0xFF800000); (0xC1200000, 0x424C0000, 0xFF800000);
   (0xC0400000, 0x424C0000, 0xE7E407FE); (0xC0000000, 0x424C0000, 0xD9000000);
   (0xBF800000, 0x424C0000, 0xBF800000); (0x3F800000, 0x424C0000, 0x3F800000);
   (0x40000000, 0x424C0000, 0x59000000); (0x40400000, 0x424C0000, 0x67E407FE);
   (0x41200000, 0x424C0000, 0x7F800000); (0x47C35000, 0x424C0000, 0x7F800000);
   (0xC7C35000, 0x42500000, 0x7F800000); (0xC1200000, 0x42500000, 0x7F800000);
   (0xC0400000, 0x42500000, 0x68AB05FE); (0xC0000000, 0x42500000, 0x59800000);
   (0xBF800000, 0x42500000, 0x3F800000); (0x3F800000, 0x42500000, 0x3F800000);
   (0x40000000, 0x42500000, 0x59800000); (0x40400000, 0x42500000, 0x68AB05FE);
   (0x41200000, 0x42500000, 0x7F800000); (0x47C35000, 0x42500000, 0x7F800000);
   (0xC7C35000, 0x42540000, 0xFF800000); (0xC1200000, 0x42540000, 0xFF800000);
   (0xC0400000, 0x42540000, 0xE980447F); (0xC0000000, 0x42540000, 0xDA000000);
   (0xBF800000, 0x42540000, 0xBF800000); (0x3F800000, 0x42540000, 0x3F800000);
   (0x40000000, 0x42540000, 0x5A000000); (0x40400000, 0x42540000, 0x6980447F);
   (0x41200000, 0x42540000, 0x7F800000); (0x47C35000, 0x42540000, 0x7F800000);
   (0xC7C35000, 0x42580000, 0x7F800000); (0xC1200000, 0x42580000, 0x7F800000);
   (0xC0400000, 0x42580000, 0x6A4066BE); (0xC0000000, 0x42580000, 0x5A800000);
   (0xBF800000, 0x42580000, 0x3F800000); (0x3F800000, 0x42580000, 0x3F800000);
   (0x40000000, 0x42580000, 0x5A800000); (0x40400000, 0x42580000, 0x6A4066BE);
   (0x41200000, 0x42580000, 0x7F800000); (0x47C35000, 0x42580000, 0x7F800000);
   (0xC7C35000, 0x425C0000, 0xFF800000); (0xC1200000, 0x425C0000, 0xFF800000);
   (0xC0400000, 0x425C0000, 0xEB104D0F); (0xC0000000, 0x425C0000, 0xDB000000);
   (0xBF800000, 0x425C0000, 0xBF800000); (0x3F800000, 0x425C0000, 0x3F800000);
   (0x40000000, 0x425C0000, 0x5B000000); (0x40400000, 0x425C0000, 0x6B104D0F);
   (0x41200000, 0x425C0000, 0x7F800000); (0x47C35000, 0x425C0000, 0x7F800000);
   (0xC7C35000, 0x42600000, 0x7F800000); (0xC1200000, 0x42600000, 0x7F800000);
   (0xC0400000, 0x42600000, 0x6BD87396); (0xC0000000, 0x42600000, 0x5B800000);
   (0xBF800000, 0x42600000, 0x3F800000); (0x3F800000, 0x42600000, 0x3F800000);
   (0x40000000, 0x42600000, 0x5B800000); (0x40400000, 0x42600000, 0x6BD87396);
   (0x41200000, 0x42600000, 0x7F800000); (0x47C35000, 0x42600000, 0x7F800000);
   (0xC7C35000, 0x42640000, 0xFF800000); (0xC1200000, 0x42640000, 0xFF800000);
   (0xC0400000, 0x42640000, 0xECA256B1); (0xC0000000, 0x42640000, 0xDC000000);
   (0xBF800000, 0x42640000, 0xBF800000); (0x3F800000, 0x42640000, 0x3F800000);
   (0x40000000, 0x42640000, 0x5C000000); (0x40400000, 0x42640000, 0x6CA256B1);
   (0x41200000, 0x42640000, 0x7F800000); (0x47C35000, 0x42640000, 0x7F800000);
   (0xC7C35000, 0x42680000, 0x7F800000); (0xC1200000, 0x42680000, 0x7F800000);
   (0xC0400000, 0x42680000, 0x6D738209); (0xC0000000, 0x42680000, 0x5C800000);
   (0xBF800000, 0x42680000, 0x3F800000); (0x3F800000, 0x42680000, 0x3F800000);
   (0x40000000, 0x42680000, 0x5C800000); (0x40400000, 0x42680000, 0x6D738209);
   (0x41200000, 0x42680000, 0x7F800000); (0x47C35000, 0x42680000, 0x7F800000);
   (0xC7C35000, 0x426C0000, 0xFF800000); (0xC1200000, 0x426C0000, 0xFF800000);
   (0xC0400000, 0x426C0000, 0xEE36A187); (0xC0000000, 0x426C0000, 0xDD000000);
   (0xBF800000, 0x426C0000, 0xBF800000); (0x3F800000, 0x426C0000, 0x3F800000);
   (0x40000000, 0x426C0000, 0x5D000000); (0x40400000, 0x426C0000, 0x6E36A187);
   (0x41200000, 0x426C0000, 0x7F800000); (0x47C35000, 0x426C0000, 0x7F800000);
   (0xC7C35000, 0x42700000, 0x7F800000); (0xC1200000, 0x42700000, 0x7F800000);
   (0xC0400000, 0x42700000, 0x6F08F925); (0xC0000000, 0x42700000, 0x5D800000);
   (0xBF800000, 0x42700000, 0x3F800000); (0x3F800000, 0x42700000, 0x3F800000);
   (0x40000000, 0x42700000, 0x5D800000); (0x40400000, 0x42700000, 0x6F08F925);
   (0x41200000, 0x42700000, 0x7F800000); (0x47C35000, 0x42700000, 0x7F800000);
   (0xC7C35000, 0x42740000, 0xFF800000); (0xC1200000, 0x42740000, 0xFF800000);
   (0xC0400000, 0x42740000, 0xEFCD75B7); (0xC0000000, 0x42740000, 0xDE000000);
   (0xBF800000, 0x42740000, 0xBF800000); (0x3F800000, 0x42740000, 0x3F800000);
   (0x40000000, 0x42740000, 0x5E000000); (0x40400000, 0x42740000, 0x6FCD75B7);
   (0x41200000, 0x42740000, 0x7F800000); (0x47C35000, 0x42740000, 0x7F800000);
   (0xC7C35000, 0x42780000, 0x7F800000); (0xC1200000, 0x42780000, 0x7F800000);
   (0xC0400000, 0x42780000, 0x709A184A); (0xC0000000, 0x42780000, 0x5E800000);
   (0xBF800000, 0x42780000, 0x3F800000); (0x3F800000, 0x42780000, 0x3F800000);
   (0x40000000, 0x42780000, 0x5E800000); (0x40400000, 0x42780000, 0x709A184A);
   (0x41200000, 0x42780000, 0x7F800000); (0x47C35000, 0x42780000, 0x7F800000);
   (0xC7C35000, 0x427C0000, 0xFF800000); (0xC1200000, 0x427C0000, 0xFF800000);
   (0xC0400000, 0x427C0000, 0xF167246E); (0xC0000000, 0x427C0000, 0xDF000000);
   (0xBF800000, 0x427C0000, 0xBF800000); (0x3F800000, 0x427C0000, 0x3F800000);
   (0x40000000, 0x427C0000, 0x5F000000); (0x40400000, 0x427C0000, 0x7167246E);
   (0x41200000, 0x427C0000, 0x7F800000); (0x47C35000, 0x427C0000, 0x7F800000);
   (0xC7C35000, 0x42800000, 0x7F800000); (0xC1200000, 0x42800000, 0x7F800000);
   (0xC0400000, 0x42800000, 0x722D5B53); (0xC0000000, 0x42800000, 0x5F800000);
   (0xBF800000, 0x42800000, 0x3F800000); (0x3F800000, 0x42800000, 0x3F800000);
   (0x40000000, 0x42800000, 0x5F800000); (0x40400000, 0x42800000, 0x722D5B53);
   (0x41200000, 0x42800000, 0x7F800000); (0x47C35000, 0x42800000, 0x7F800000);
   (0xC7C35000, 0x42820000, 0xFF800000); (0xC1200000, 0x42820000, 0xFF800000);
   (0xC0400000, 0x42820000, 0xF302047E); (0xC0000000, 0x42820000, 0xE0000000);
   (0xBF800000, 0x42820000, 0xBF800000); (0x3F800000, 0x42820000, 0x3F800000);
   (0x40000000, 0x42820000, 0x60000000); (0x40400000, 0x42820000, 0x7302047E);
   (0x41200000, 0x42820000, 0x7F800000); (0x47C35000, 0x42820000, 0x7F800000);
   (0xC7C35000, 0x42840000, 0x7F800000); (0xC1200000, 0x42840000, 0x7F800000);
   (0xC0400000, 0x42840000, 0x73C306BD); (0xC0000000, 0x42840000, 0x60800000);
   (0xBF800000, 0x42840000, 0x3F800000); (0x3F800000, 0x42840000, 0x3F800000);
   (0x40000000, 0x42840000, 0x60800000); (0x40400000, 0x42840000, 0x73C306BD);
   (0x41200000, 0x42840000, 0x7F800000); (0x47C35000, 0x42840000, 0x7F800000);
   (0xC7C35000, 0x42860000, 0xFF800000); (0xC1200000, 0x42860000, 0xFF800000);
   (0xC0400000, 0x42860000, 0xF492450E); (0xC0000000, 0x42860000, 0xE1000000);
   (0xBF800000, 0x42860000, 0xBF800000); (0x3F800000, 0x42860000, 0x3F800000);
   (0x40000000, 0x42860000, 0x61000000); (0x40400000, 0x42860000, 0x7492450E);
   (0x41200000, 0x42860000, 0x7F800000); (0x47C35000, 0x42860000, 0x7F800000);
   (0xC7C35000, 0x42880000, 0x7F800000); (0xC1200000, 0x42880000, 0x7F800000);
   (0xC0400000, 0x42880000, 0x755B6795); (0xC0000000, 0x42880000, 0x61800000);
   (0xBF800000, 0x42880000, 0x3F800000); (0x3F800000, 0x42880000, 0x3F800000);
   (0x40000000, 0x42880000, 0x61800000); (0x40400000, 0x42880000, 0x755B6795);
   (0x41200000, 0x42880000, 0x7F800000); (0x47C35000, 0x42880000, 0x7F800000);
   (0xC7C35000, 0x428A0000, 0xFF800000); (0xC1200000, 0x428A0000, 0xFF800000);
   (0xC0400000, 0x428A0000, 0xF6248DB0); (0xC0000000, 0x428A0000, 0xE2000000);
   (0xBF800000, 0x428A0000, 0xBF800000); (0x3F800000, 0x428A0000, 0x3F800000);
   (0x40000000, 0x428A0000, 0x62000000); (0x40400000, 0x428A0000, 0x76248DB0);
   (0x41200000, 0x428A0000, 0x7F800000); (0x47C35000, 0x428A0000, 0x7F800000);
   (0xC7C35000, 0x428C0000, 0x7F800000); (0xC1200000, 0x428C0000, 0x7F800000);
   (0xC0400000, 0x428C0000, 0x76F6D487); (0xC0000000, 0x428C0000, 0x62800000);
   (0xBF800000, 0x428C0000, 0x3F800000); (0x3F800000, 0x428C0000, 0x3F800000);
   (0x40000000, 0x428C0000, 0x62800000); (0x40400000, 0x428C0000, 0x76F6D487);
   (0x41200000, 0x428C0000, 0x7F800000); (0x47C35000, 0x428C0000, 0x7F800000);
   (0xC7C35000, 0x428E0000, 0xFF800000); (0xC1200000, 0x428E0000, 0xFF800000);
   (0xC0400000, 0x428E0000, 0xF7B91F65); (0xC0000000, 0x428E0000, 0xE3000000);
   (0xBF800000, 0x428E0000, 0xBF800000); (0x3F800000, 0x428E0000, 0x3F800000);
   (0x40000000, 0x428E0000, 0x63000000); (0x40400000, 0x428E0000, 0x77B91F65);
   (0x41200000, 0x428E0000, 0x7F800000); (0x47C35000, 0x428E0000, 0x7F800000);
   (0xC7C35000, 0x42900000, 0x7F800000); (0xC1200000, 0x42900000, 0x7F800000);
   (0xC0400000, 0x42900000, 0x788AD78C); (0xC0000000, 0x42900000, 0x63800000);
   (0xBF800000, 0x42900000, 0x3F800000); (0x3F800000, 0x42900000, 0x3F800000);
   (0x40000000, 0x42900000, 0x63800000); (0x40400000, 0x42900000, 0x788AD78C);
   (0x41200000, 0x42900000, 0x7F800000); (0x47C35000, 0x42900000, 0x7F800000);
   (0xC7C35000, 0x42920000, 0xFF800000); (0xC1200000, 0x42920000, 0xFF800000);
   (0xC0400000, 0x42920000, 0xF9504352); (0xC0000000, 0x42920000, 0xE4000000);
   (0xBF800000, 0x42920000, 0xBF800000); (0x3F800000, 0x42920000, 0x3F800000);
   (0x40000000, 0x42920000, 0x64000000); (0x40400000, 0x42920000, 0x79504352);
   (0x41200000, 0x42920000, 0x7F800000); (0x47C35000, 0x42920000, 0x7F800000);
   (0xC7C35000, 0x42940000, 0x7F800000); (0xC1200000, 0x42940000, 0x7F800000);
   (0xC0400000, 0x42940000, 0x7A1C327E); (0xC0000000, 0x42940000, 0x64800000);
   (0xBF800000, 0x42940000, 0x3F800000); (0x3F800000, 0x42940000, 0x3F800000);
   (0x40000000, 0x42940000, 0x64800000); (0x40400000, 0x42940000, 0x7A1C327E);
   (0x41200000, 0x42940000, 0x7F800000); (0x47C35000, 0x42940000, 0x7F800000);
   (0xC7C35000, 0x42960000, 0xFF800000); (0xC1200000, 0x42960000, 0xFF800000);
   (0xC0400000, 0x42960000, 0xFAEA4BBC); (0xC0000000, 0x42960000, 0xE5000000);
   (0xBF800000, 0x42960000, 0xBF800000); (0x3F800000, 0x42960000, 0x3F800000);
   (0x40000000, 0x42960000, 0x65000000); (0x40400000, 0x42960000, 0x7AEA4BBC);
   (0x41200000, 0x42960000, 0x7F800000); (0x47C35000, 0x42960000, 0x7F800000);
   (0xC7C35000, 0x42980000, 0x7F800000); (0xC1200000, 0x42980000, 0x7F800000);
   (0xC0400000, 0x42980000, 0x7BAFB8CD); (0xC0000000, 0x42980000, 0x65800000);
   (0xBF800000, 0x42980000, 0x3F800000); (0x3F800000, 0x42980000, 0x3F800000);
   (0x40000000, 0x42980000, 0x65800000); (0x40400000, 0x42980000, 0x7BAFB8CD);
   (0x41200000, 0x42980000, 0x7F800000); (0x47C35000, 0x42980000, 0x7F800000);
   (0xC7C35000, 0x429A0000, 0xFF800000); (0xC1200000, 0x429A0000, 0xFF800000);
   (0xC0400000, 0x429A0000, 0xFC83CA9A); (0xC0000000, 0x429A0000, 0xE6000000);
   (0xBF800000, 0x429A0000, 0xBF800000); (0x3F800000, 0x429A0000, 0x3F800000);
   (0x40000000, 0x429A0000, 0x66000000); (0x40400000, 0x429A0000, 0x7C83CA9A);
   (0x41200000, 0x429A0000, 0x7F800000); (0x47C35000, 0x429A0000, 0x7F800000);
   (0xC7C35000, 0x429C0000, 0x7F800000); (0xC1200000, 0x429C0000, 0x7F800000);
   (0xC0400000, 0x429C0000, 0x7D45AFE7); (0xC0000000, 0x429C0000, 0x66800000);
   (0xBF800000, 0x429C0000, 0x3F800000); (0x3F800000, 0x429C0000, 0x3F800000);
   (0x40000000, 0x429C0000, 0x66800000); (0x40400000, 0x429C0000, 0x7D45AFE7);
   (0x41200000, 0x429C0000, 0x7F800000); (0x47C35000, 0x429C0000, 0x7F800000);
   (0xC7C35000, 0x429E0000, 0xFF800000); (0xC1200000, 0x429E0000, 0xFF800000);
   (0xC0400000, 0x429E0000, 0xFE1443ED); (0xC0000000, 0x429E0000, 0xE7000000);
   (0xBF800000, 0x429E0000, 0xBF800000); (0x3F800000, 0x429E0000, 0x3F800000);
   (0x40000000, 0x429E0000, 0x67000000); (0x40400000, 0x429E0000, 0x7E1443ED);
   (0x41200000, 0x429E0000, 0x7F800000); (0x47C35000, 0x429E0000, 0x7F800000);
   (0xC7C35000, 0x42A00000, 0x7F800000); (0xC1200000, 0x42A00000, 0x7F800000);
   (0xC0400000, 0x42A00000, 0x7EDE65E4); (0xC0000000, 0x42A00000, 0x67800000);
   (0xBF800000, 0x42A00000, 0x3F800000); (0x3F800000, 0x42A00000, 0x3F800000);
   (0x40000000, 0x42A00000, 0x67800000); (0x40400000, 0x42A00000, 0x7EDE65E4);
   (0x41200000, 0x42A00000, 0x7F800000); (0x47C35000, 0x42A00000, 0x7F800000);
   (0xC7C35000, 0x42A20000, 0xFF800000); (0xC1200000, 0x42A20000, 0xFF800000);
   (0xC0400000, 0x42A20000, 0xFF800000); (0xC0000000, 0x42A20000, 0xE8000000);
   (0xBF800000, 0x42A20000, 0xBF800000); (0x3F800000, 0x42A20000, 0x3F800000);
   (0x40000000, 0x42A20000, 0x68000000); (0x40400000, 0x42A20000, 0x7F800000);
   (0x41200000, 0x42A20000, 0x7F800000); (0x47C35000, 0x42A20000, 0x7F800000);
   (0xC7C35000, 0x42A40000, 0x7F800000); (0xC1200000, 0x42A40000, 0x7F800000);
   (0xC0400000, 0x42A40000, 0x7F800000); (0xC0000000, 0x42A40000, 0x68800000);
   (0xBF800000, 0x42A40000, 0x3F800000); (0x3F800000, 0x42A40000, 0x3F800000);
   (0x40000000, 0x42A40000, 0x68800000); (0x40400000, 0x42A40000, 0x7F800000);
   (0x41200000, 0x42A40000, 0x7F800000); (0x47C35000, 0x42A40000, 0x7F800000);
   (0xC7C35000, 0x42A60000, 0xFF800000); (0xC1200000, 0x42A60000, 0xFF800000);
   (0xC0400000, 0x42A60000, 0xFF800000); (0xC0000000, 0x42A60000, 0xE9000000);
   (0xBF800000, 0x42A60000, 0xBF800000); (0x3F800000, 0x42A60000, 0x3F800000);
   (0x40000000, 0x42A60000, 0x69000000); (0x40400000, 0x42A60000, 0x7F800000);
   (0x41200000, 0x42A60000, 0x7F800000); (0x47C35000, 0x42A60000, 0x7F800000);
   (0xC7C35000, 0x42A80000, 0x7F800000); (0xC1200000, 0x42A80000, 0x7F800000);
   (0xC0400000, 0x42A80000, 0x7F800000); (0xC0000000, 0x42A80000, 0x69800000);
   (0xBF800000, 0x42A80000, 0x3F800000); (0x3F800000, 0x42A80000, 0x3F800000);
   (0x40000000, 0x42A80000, 0x69800000); (0x40400000, 0x42A80000, 0x7F800000);
   (0x41200000, 0x42A80000, 0x7F800000); (0x47C35000, 0x42A80000, 0x7F800000);
   (0xC7C35000, 0x42AA0000, 0xFF800000); (0xC1200000, 0x42AA0000, 0xFF800000);
   (0xC0400000, 0x42AA0000, 0xFF800000); (0xC0000000, 0x42AA0000, 0xEA000000);
   (0xBF800000, 0x42AA0000, 0xBF800000); (0x3F800000, 0x42AA0000, 0x3F800000);
   (0x40000000, 0x42AA0000, 0x6A000000); (0x40400000, 0x42AA0000, 0x7F800000);
   (0x41200000, 0x42AA0000, 0x7F800000); (0x47C35000, 0x42AA0000, 0x7F800000);
   (0xC7C35000, 0x42AC0000, 0x7F800000); (0xC1200000, 0x42AC0000, 0x7F800000);
   (0xC0400000, 0x42AC0000, 0x7F800000); (0xC0000000, 0x42AC0000, 0x6A800000);
   (0xBF800000, 0x42AC0000, 0x3F800000); (0x3F800000, 0x42AC0000, 0x3F800000);
   (0x40000000, 0x42AC0000, 0x6A800000); (0x40400000, 0x42AC0000, 0x7F800000);
   (0x41200000, 0x42AC0000, 0x7F800000); (0x47C35000, 0x42AC0000, 0x7F800000);
   (0xC7C35000, 0x42AE0000, 0xFF800000); (0xC1200000, 0x42AE0000, 0xFF800000);
   (0xC0400000, 0x42AE0000, 0xFF800000); (0xC0000000, 0x42AE0000, 0xEB000000);
   (0xBF800000, 0x42AE0000, 0xBF800000); (0x3F800000, 0x42AE0000, 0x3F800000);
   (0x40000000, 0x42AE0000, 0x6B000000); (0x40400000, 0x42AE0000, 0x7F800000);
   (0x41200000, 0x42AE0000, 0x7F800000); (0x47C35000, 0x42AE0000, 0x7F800000);
   (0xC7C35000, 0x42B00000, 0x7F800000); (0xC1200000, 0x42B00000, 0x7F800000);
   (0xC0400000, 0x42B00000, 0x7F800000); (0xC0000000, 0x42B00000, 0x6B800000);
   (0xBF800000, 0x42B00000, 0x3F800000); (0x3F800000, 0x42B00000, 0x3F800000);
   (0x40000000, 0x42B00000, 0x6B800000); (0x40400000, 0x42B00000, 0x7F800000);
   (0x41200000, 0x42B00000, 0x7F800000); (0x47C35000, 0x42B00000, 0x7F800000);
   (0xC7C35000, 0x42B20000, 0xFF800000); (0xC1200000, 0x42B20000, 0xFF800000);
   (0xC0400000, 0x42B20000, 0xFF800000); (0xC0000000, 0x42B20000, 0xEC000000);
   (0xBF800000, 0x42B20000, 0xBF800000); (0x3F800000, 0x42B20000, 0x3F800000);
   (0x40000000, 0x42B20000, 0x6C000000); (0x40400000, 0x42B20000, 0x7F800000);
   (0x41200000, 0x42B20000, 0x7F800000); (0x47C35000, 0x42B20000, 0x7F800000);
   (0xC7C35000, 0x42B40000, 0x7F800000); (0xC1200000, 0x42B40000, 0x7F800000);
   (0xC0400000, 0x42B40000, 0x7F800000); (0xC0000000, 0x42B40000, 0x6C800000);
   (0xBF800000, 0x42B40000, 0x3F800000); (0x3F800000, 0x42B40000, 0x3F800000);
   (0x40000000, 0x42B40000, 0x6C800000); (0x40400000, 0x42B40000, 0x7F800000);
   (0x41200000, 0x42B40000, 0x7F800000); (0x47C35000, 0x42B40000, 0x7F800000);
   (0xC7C35000, 0x42B60000, 0xFF800000); (0xC1200000, 0x42B60000, 0xFF800000);
   (0xC0400000, 0x42B60000, 0xFF800000); (0xC0000000, 0x42B60000, 0xED000000);
   (0xBF800000, 0x42B60000, 0xBF800000); (0x3F800000, 0x42B60000, 0x3F800000);
   (0x40000000, 0x42B60000, 0x6D000000); (0x40400000, 0x42B60000, 0x7F800000);
   (0x41200000, 0x42B60000, 0x7F800000); (0x47C35000, 0x42B60000, 0x7F800000);
   (0xC7C35000, 0x42B80000, 0x7F800000); (0xC1200000, 0x42B80000, 0x7F800000);
   (0xC0400000, 0x42B80000, 0x7F800000); (0xC0000000, 0x42B80000, 0x6D800000);
   (0xBF800000, 0x42B80000, 0x3F800000); (0x3F800000, 0x42B80000, 0x3F800000);
   (0x40000000, 0x42B80000, 0x6D800000); (0x40400000, 0x42B80000, 0x7F800000);
   (0x41200000, 0x42B80000, 0x7F800000); (0x47C35000, 0x42B80000, 0x7F800000);
   (0xC7C35000, 0x42BA0000, 0xFF800000); (0xC1200000, 0x42BA0000, 0xFF800000);
   (0xC0400000, 0x42BA0000, 0xFF800000); (0xC0000000, 0x42BA0000, 0xEE000000);
   (0xBF800000, 0x42BA0000, 0xBF800000); (0x3F800000, 0x42BA0000, 0x3F800000);
   (0x40000000, 0x42BA0000, 0x6E000000); (0x40400000, 0x42BA0000, 0x7F800000);
   (0x41200000, 0x42BA0000, 0x7F800000); (0x47C35000, 0x42BA0000, 0x7F800000);
   (0xC7C35000, 0x42BC0000, 0x7F800000); (0xC1200000, 0x42BC0000, 0x7F800000);
   (0xC0400000, 0x42BC0000, 0x7F800000); (0xC0000000, 0x42BC0000, 0x6E800000);
   (0xBF800000, 0x42BC0000, 0x3F800000); (0x3F800000, 0x42BC0000, 0x3F800000);
   (0x40000000, 0x42BC0000, 0x6E800000); (0x40400000, 0x42BC0000, 0x7F800000);
   (0x41200000, 0x42BC0000, 0x7F800000); (0x47C35000, 0x42BC0000, 0x7F800000);
   (0xC7C35000, 0x42BE0000, 0xFF800000); (0xC1200000, 0x42BE0000, 0xFF800000);
   (0xC0400000, 0x42BE0000, 0xFF800000); (0xC0000000, 0x42BE0000, 0xEF000000);
   (0xBF800000, 0x42BE0000, 0xBF800000); (0x3F800000, 0x42BE0000, 0x3F800000);
   (0x40000000, 0x42BE0000, 0x6F000000); (0x40400000, 0x42BE0000, 0x7F800000);
   (0x41200000, 0x42BE0000, 0x7F800000); (0x47C35000, 0x42BE0000, 0x7F800000);
   (0xC7C35000, 0x42C00000, 0x7F800000); (0xC1200000, 0x42C00000, 0x7F800000);
   (0xC0400000, 0x42C00000, 0x7F800000); (0xC0000000, 0x42C00000, 0x6F800000);
   (0xBF800000, 0x42C00000, 0x3F800000); (0x3F800000, 0x42C00000, 0x3F800000);
   (0x40000000, 0x42C00000, 0x6F800000); (0x40400000, 0x42C00000, 0x7F800000);
   (0x41200000, 0x42C00000, 0x7F800000); (0x47C35000, 0x42C00000, 0x7F800000);
   (0xC7C35000, 0x42C20000, 0xFF800000); (0xC1200000, 0x42C20000, 0xFF800000);
   (0xC0400000, 0x42C20000, 0xFF800000); (0xC0000000, 0x42C20000, 0xF0000000);
   (0xBF800000, 0x42C20000, 0xBF800000); (0x3F800000, 0x42C20000, 0x3F800000);
   (0x40000000, 0x42C20000, 0x70000000); (0x40400000, 0x42C20000, 0x7F800000);
   (0x41200000, 0x42C20000, 0x7F800000); (0x47C35000, 0x42C20000, 0x7F800000);
   (0xC7C35000, 0x42C40000, 0x7F800000); (0xC1200000, 0x42C40000, 0x7F800000);
   (0xC0400000, 0x42C40000, 0x7F800000); (0xC0000000, 0x42C40000, 0x70800000);
   (0xBF800000, 0x42C40000, 0x3F800000); (0x3F800000, 0x42C40000, 0x3F800000);
   (0x40000000, 0x42C40000, 0x70800000); (0x40400000, 0x42C40000, 0x7F800000);
   (0x41200000, 0x42C40000, 0x7F800000); (0x47C35000, 0x42C40000, 0x7F800000);
   (0xC7C35000, 0x42C60000, 0xFF800000); (0xC1200000, 0x42C60000, 0xFF800000);
   (0xC0400000, 0x42C60000, 0xFF800000); (0xC0000000, 0x42C60000, 0xF1000000);
   (0xBF800000, 0x42C60000, 0xBF800000); (0x3F800000, 0x42C60000, 0x3F800000);
   (0x40000000, 0x42C60000, 0x71000000); (0x40400000, 0x42C60000, 0x7F800000);
   (0x41200000, 0x42C60000, 0x7F800000); (0x47C35000, 0x42C60000, 0x7F800000);
   (0xC7C35000, 0x42C80000, 0x7F800000); (0xC1200000, 0x42C80000, 0x7F800000);
   (0xC0400000, 0x42C80000, 0x7F800000); (0xC0000000, 0x42C80000, 0x71800000);
   (0xBF800000, 0x42C80000, 0x3F800000); (0x3F800000, 0x42C80000, 0x3F800000);
   (0x40000000, 0x42C80000, 0x71800000); (0x40400000, 0x42C80000, 0x7F800000);
   (0x41200000, 0x42C80000, 0x7F800000); (0x47C35000, 0x42C80000, 0x7F800000);
   (0xC7C35000, 0x42CA0000, 0xFF800000); (0xC1200000, 0x42CA0000, 0xFF800000);
   (0xC0400000, 0x42CA0000, 0xFF800000); (0xC0000000, 0x42CA0000, 0xF2000000);
   (0xBF800000, 0x42CA0000, 0xBF800000); (0x3F800000, 0x42CA0000, 0x3F800000);
   (0x40000000, 0x42CA0000, 0x72000000); (0x40400000, 0x42CA0000, 0x7F800000);
   (0x41200000, 0x42CA0000, 0x7F800000); (0x47C35000, 0x42CA0000, 0x7F800000);
   (0xC7C35000, 0x42CC0000, 0x7F800000); (0xC1200000, 0x42CC0000, 0x7F800000);
   (0xC0400000, 0x42CC0000, 0x7F800000); (0xC0000000, 0x42CC0000, 0x72800000);
   (0xBF800000, 0x42CC0000, 0x3F800000); (0x3F800000, 0x42CC0000, 0x3F800000);
   (0x40000000, 0x42CC0000, 0x72800000); (0x40400000, 0x42CC0000, 0x7F800000);
   (0x41200000, 0x42CC0000, 0x7F800000); (0x47C35000, 0x42CC0000, 0x7F800000);
   (0xC7C35000, 0x42CE0000, 0xFF800000); (0xC1200000, 0x42CE0000, 0xFF800000);
   (0xC0400000, 0x42CE0000, 0xFF800000); (0xC0000000, 0x42CE0000, 0xF3000000);
   (0xBF800000, 0x42CE0000, 0xBF800000); (0x3F800000, 0x42CE0000, 0x3F800000);
   (0x40000000, 0x42CE0000, 0x73000000); (0x40400000, 0x42CE0000, 0x7F800000);
   (0x41200000, 0x42CE0000, 0x7F800000); (0x47C35000, 0x42CE0000, 0x7F800000);
   (0xC7C35000, 0x42D00000, 0x7F800000); (0xC1200000, 0x42D00000, 0x7F800000);
   (0xC0400000, 0x42D00000, 0x7F800000); (0xC0000000, 0x42D00000, 0x73800000);
   (0xBF800000, 0x42D00000, 0x3F800000); (0x3F800000, 0x42D00000, 0x3F800000);
   (0x40000000, 0x42D00000, 0x73800000); (0x40400000, 0x42D00000, 0x7F800000);
   (0x41200000, 0x42D00000, 0x7F800000); (0x47C35000, 0x42D00000, 0x7F800000);
   (0xC7C35000, 0x42D20000, 0xFF800000); (0xC1200000, 0x42D20000, 0xFF800000);
   (0xC0400000, 0x42D20000, 0xFF800000); (0xC0000000, 0x42D20000, 0xF4000000);
   (0xBF800000, 0x42D20000, 0xBF800000); (0x3F800000, 0x42D20000, 0x3F800000);
   (0x40000000, 0x42D20000, 0x74000000); (0x40400000, 0x42D20000, 0x7F800000);
   (0x41200000, 0x42D20000, 0x7F800000); (0x47C35000, 0x42D20000, 0x7F800000);
   (0xC7C35000, 0x42D40000, 0x7F800000); (0xC1200000, 0x42D40000, 0x7F800000);
   (0xC0400000, 0x42D40000, 0x7F800000); (0xC0000000, 0x42D40000, 0x74800000);
   (0xBF800000, 0x42D40000, 0x3F800000); (0x3F800000, 0x42D40000, 0x3F800000);
   (0x40000000, 0x42D40000, 0x74800000); (0x40400000, 0x42D40000, 0x7F800000);
   (0x41200000, 0x42D40000, 0x7F800000); (0x47C35000, 0x42D40000, 0x7F800000);
   (0xC7C35000, 0x42D60000, 0xFF800000); (0xC1200000, 0x42D60000, 0xFF800000);
   (0xC0400000, 0x42D60000, 0xFF800000); (0xC0000000, 0x42D60000, 0xF5000000);
   (0xBF800000, 0x42D60000, 0xBF800000); (0x3F800000, 0x42D60000, 0x3F800000);
   (0x40000000, 0x42D60000, 0x75000000); (0x40400000, 0x42D60000, 0x7F800000);
   (0x41200000, 0x42D60000, 0x7F800000); (0x47C35000, 0x42D60000, 0x7F800000);
   (0xC7C35000, 0x42D80000, 0x7F800000); (0xC1200000, 0x42D80000, 0x7F800000);
   (0xC0400000, 0x42D80000, 0x7F800000); (0xC0000000, 0x42D80000, 0x75800000);
   (0xBF800000, 0x42D80000, 0x3F800000); (0x3F800000, 0x42D80000, 0x3F800000);
   (0x40000000, 0x42D80000, 0x75800000); (0x40400000, 0x42D80000, 0x7F800000);
   (0x41200000, 0x42D80000, 0x7F800000); (0x47C35000, 0x42D80000, 0x7F800000);
   (0xC7C35000, 0x42DA0000, 0xFF800000); (0xC1200000, 0x42DA0000, 0xFF800000);
   (0xC0400000, 0x42DA0000, 0xFF800000); (0xC0000000, 0x42DA0000, 0xF6000000);
   (0xBF800000, 0x42DA0000, 0xBF800000); (0x3F800000, 0x42DA0000, 0x3F800000);
   (0x40000000, 0x42DA0000, 0x76000000); (0x40400000, 0x42DA0000, 0x7F800000);
   (0x41200000, 0x42DA0000, 0x7F800000); (0x47C35000, 0x42DA0000, 0x7F800000);
   (0xC7C35000, 0x42DC0000, 0x7F800000); (0xC1200000, 0x42DC0000, 0x7F800000);
   (0xC0400000, 0x42DC0000, 0x7F800000); (0xC0000000, 0x42DC0000, 0x76800000);
   (0xBF800000, 0x42DC0000, 0x3F800000); (0x3F800000, 0x42DC0000, 0x3F800000);
   (0x40000000, 0x42DC0000, 0x76800000); (0x40400000, 0x42DC0000, 0x7F800000);
   (0x41200000, 0x42DC0000, 0x7F800000); (0x47C35000, 0x42DC0000, 0x7F800000);
   (0xC7C35000, 0x42DE0000, 0xFF800000); (0xC1200000, 0x42DE0000, 0xFF800000);
   (0xC0400000, 0x42DE0000, 0xFF800000); (0xC0000000, 0x42DE0000, 0xF7000000);
   (0xBF800000, 0x42DE0000, 0xBF800000); (0x3F800000, 0x42DE0000, 0x3F800000);
   (0x40000000, 0x42DE0000, 0x77000000); (0x40400000, 0x42DE0000, 0x7F800000);
   (0x41200000, 0x42DE0000, 0x7F800000); (0x47C35000, 0x42DE0000, 0x7F800000);
   (0xC7C35000, 0x42E00000, 0x7F800000); (0xC1200000, 0x42E00000, 0x7F800000);
   (0xC0400000, 0x42E00000, 0x7F800000); (0xC0000000, 0x42E00000, 0x77800000);
   (0xBF800000, 0x42E00000, 0x3F800000); (0x3F800000, 0x42E00000, 0x3F800000);
   (0x40000000, 0x42E00000, 0x77800000); (0x40400000, 0x42E00000, 0x7F800000);
   (0x41200000, 0x42E00000, 0x7F800000); (0x47C35000, 0x42E00000, 0x7F800000);
   (0xC7C35000, 0x42E20000, 0xFF800000); (0xC1200000, 0x42E20000, 0xFF800000);
   (0xC0400000, 0x42E20000, 0xFF800000); (0xC0000000, 0x42E20000, 0xF8000000);
   (0xBF800000, 0x42E20000, 0xBF800000); (0x3F800000, 0x42E20000, 0x3F800000);
   (0x40000000, 0x42E20000, 0x78000000); (0x40400000, 0x42E20000, 0x7F800000);
   (0x41200000, 0x42E20000, 0x7F800000); (0x47C35000, 0x42E20000, 0x7F800000);
   (0xC7C35000, 0x42E40000, 0x7F800000); (0xC1200000, 0x42E40000, 0x7F800000);
   (0xC0400000, 0x42E40000, 0x7F800000); (0xC0000000, 0x42E40000, 0x78800000);
   (0xBF800000, 0x42E40000, 0x3F800000); (0x3F800000, 0x42E40000, 0x3F800000);
   (0x40000000, 0x42E40000, 0x78800000); (0x40400000, 0x42E40000, 0x7F800000);
   (0x41200000, 0x42E40000, 0x7F800000); (0x47C35000, 0x42E40000, 0x7F800000);
   (0xC7C35000, 0x42E60000, 0xFF800000); (0xC1200000, 0x42E60000, 0xFF800000);
   (0xC0400000, 0x42E60000, 0xFF800000); (0xC0000000, 0x42E60000, 0xF9000000);
   (0xBF800000, 0x42E60000, 0xBF800000); (0x3F800000, 0x42E60000, 0x3F800000);
   (0x40000000, 0x42E60000, 0x79000000); (0x40400000, 0x42E60000, 0x7F800000);
   (0x41200000, 0x42E60000, 0x7F800000); (0x47C35000, 0x42E60000, 0x7F800000);
   (0xC7C35000, 0x42E80000, 0x7F800000); (0xC1200000, 0x42E80000, 0x7F800000);
   (0xC0400000, 0x42E80000, 0x7F800000); (0xC0000000, 0x42E80000, 0x79800000);
   (0xBF800000, 0x42E80000, 0x3F800000); (0x3F800000, 0x42E80000, 0x3F800000);
   (0x40000000, 0x42E80000, 0x79800000); (0x40400000, 0x42E80000, 0x7F800000);
   (0x41200000, 0x42E80000, 0x7F800000); (0x47C35000, 0x42E80000, 0x7F800000);
   (0xC7C35000, 0x42EA0000, 0xFF800000); (0xC1200000, 0x42EA0000, 0xFF800000);
   (0xC0400000, 0x42EA0000, 0xFF800000); (0xC0000000, 0x42EA0000, 0xFA000000);
   (0xBF800000, 0x42EA0000, 0xBF800000); (0x3F800000, 0x42EA0000, 0x3F800000);
   (0x40000000, 0x42EA0000, 0x7A000000); (0x40400000, 0x42EA0000, 0x7F800000);
   (0x41200000, 0x42EA0000, 0x7F800000); (0x47C35000, 0x42EA0000, 0x7F800000);
   (0xC7C35000, 0x42EC0000, 0x7F800000); (0xC1200000, 0x42EC0000, 0x7F800000);
   (0xC0400000, 0x42EC0000, 0x7F800000); (0xC0000000, 0x42EC0000, 0x7A800000);
   (0xBF800000, 0x42EC0000, 0x3F800000); (0x3F800000, 0x42EC0000, 0x3F800000);
   (0x40000000, 0x42EC0000, 0x7A800000); (0x40400000, 0x42EC0000, 0x7F800000);
   (0x41200000, 0x42EC0000, 0x7F800000); (0x47C35000, 0x42EC0000, 0x7F800000);
   (0xC7C35000, 0x42EE0000, 0xFF800000); (0xC1200000, 0x42EE0000, 0xFF800000);
   (0xC0400000, 0x42EE0000, 0xFF800000); (0xC0000000, 0x42EE0000, 0xFB000000);
   (0xBF800000, 0x42EE0000, 0xBF800000); (0x3F800000, 0x42EE0000, 0x3F800000);
   (0x40000000, 0x42EE0000, 0x7B000000); (0x40400000, 0x42EE0000, 0x7F800000);
   (0x41200000, 0x42EE0000, 0x7F800000); (0x47C35000, 0x42EE0000, 0x7F800000);
   (0xC7C35000, 0x42F00000, 0x7F800000); (0xC1200000, 0x42F00000, 0x7F800000);
   (0xC0400000, 0x42F00000, 0x7F800000); (0xC0000000, 0x42F00000, 0x7B800000);
   (0xBF800000, 0x42F00000, 0x3F800000); (0x3F800000, 0x42F00000, 0x3F800000);
   (0x40000000, 0x42F00000, 0x7B800000); (0x40400000, 0x42F00000, 0x7F800000);
   (0x41200000, 0x42F00000, 0x7F800000); (0x47C35000, 0x42F00000, 0x7F800000);
   (0xC7C35000, 0x42F20000, 0xFF800000); (0xC1200000, 0x42F20000, 0xFF800000);
   (0xC0400000, 0x42F20000, 0xFF800000); (0xC0000000, 0x42F20000, 0xFC000000);
   (0xBF800000, 0x42F20000, 0xBF800000); (0x3F800000, 0x42F20000, 0x3F800000);
   (0x40000000, 0x42F20000, 0x7C000000); (0x40400000, 0x42F20000, 0x7F800000);
   (0x41200000, 0x42F20000, 0x7F800000); (0x47C35000, 0x42F20000, 0x7F800000);
   (0xC7C35000, 0x42F40000, 0x7F800000); (0xC1200000, 0x42F40000, 0x7F800000);
   (0xC0400000, 0x42F40000, 0x7F800000); (0xC0000000, 0x42F40000, 0x7C800000);
   (0xBF800000, 0x42F40000, 0x3F800000); (0x3F800000, 0x42F40000, 0x3F800000);
   (0x40000000, 0x42F40000, 0x7C800000); (0x40400000, 0x42F40000, 0x7F800000);
   (0x41200000, 0x42F40000, 0x7F800000); (0x47C35000, 0x42F40000, 0x7F800000);
   (0xC7C35000, 0x42F60000, 0xFF800000); (0xC1200000, 0x42F60000, 0xFF800000);
   (0xC0400000, 0x42F60000, 0xFF800000); (0xC0000000, 0x42F60000, 0xFD000000);
   (0xBF800000, 0x42F60000, 0xBF800000); (0x3F800000, 0x42F60000, 0x3F800000);
   (0x40000000, 0x42F60000, 0x7D000000); (0x40400000, 0x42F60000, 0x7F800000);
   (0x41200000, 0x42F60000, 0x7F800000); (0x47C35000, 0x42F60000, 0x7F800000);
   (0xC7C35000, 0x42F80000, 0x7F800000); (0xC1200000, 0x42F80000, 0x7F800000);
   (0xC0400000, 0x42F80000, 0x7F800000); (0xC0000000, 0x42F80000, 0x7D800000);
   (0xBF800000, 0x42F80000, 0x3F800000); (0x3F800000, 0x42F80000, 0x3F800000);
   (0x40000000, 0x42F80000, 0x7D800000); (0x40400000, 0x42F80000, 0x7F800000);
   (0x41200000, 0x42F80000, 0x7F800000); (0x47C35000, 0x42F80000, 0x7F800000);
   (0xC7C35000, 0x42FA0000, 0xFF800000); (0xC1200000, 0x42FA0000, 0xFF800000);
   (0xC0400000, 0x42FA0000, 0xFF800000); (0xC0000000, 0x42FA0000, 0xFE000000);
   (0xBF800000, 0x42FA0000, 0xBF800000); (0x3F800000, 0x42FA0000, 0x3F800000);
   (0x40000000, 0x42FA0000, 0x7E000000); (0x40400000, 0x42FA0000, 0x7F800000);
   (0x41200000, 0x42FA0000, 0x7F800000); (0x47C35000, 0x42FA0000, 0x7F800000);
   (0xC7C35000, 0x42FC0000, 0x7F800000); (0xC1200000, 0x42FC0000, 0x7F800000);
   (0xC0400000, 0x42FC0000, 0x7F800000); (0xC0000000, 0x42FC0000, 0x7E800000);
   (0xBF800000, 0x42FC0000, 0x3F800000); (0x3F800000, 0x42FC0000, 0x3F800000);
   (0x40000000, 0x42FC0000, 0x7E800000); (0x40400000, 0x42FC0000, 0x7F800000);
   (0x41200000, 0x42FC0000, 0x7F800000); (0x47C35000, 0x42FC0000, 0x7F800000);
   (0xC7C35000, 0x42FE0000, 0xFF800000); (0xC1200000, 0x42FE0000, 0xFF800000);
   (0xC0400000, 0x42FE0000, 0xFF800000); (0xC0000000, 0x42FE0000, 0xFF000000);
   (0xBF800000, 0x42FE0000, 0xBF800000); (0x3F800000, 0x42FE0000, 0x3F800000);
   (0x40000000, 0x42FE0000, 0x7F000000); (0x40400000, 0x42FE0000, 0x7F800000);
   (0x41200000, 0x42FE0000, 0x7F800000); (0x47C35000, 0x42FE0000, 0x7F800000);
   (0xC7C35000, 0x43000000, 0x7F800000); (0xC1200000, 0x43000000, 0x7F800000);
   (0xC0400000, 0x43000000, 0x7F800000); (0xC0000000, 0x43000000, 0x7F800000);
   (0xBF800000, 0x43000000, 0x3F800000); (0x3F800000, 0x43000000, 0x3F800000);
   (0x40000000, 0x43000000, 0x7F800000); (0x40400000, 0x43000000, 0x7F800000);
   (0x41200000, 0x43000000, 0x7F800000); (0x47C35000, 0x43000000, 0x7F800000);
   (0x00000000, 0x40400000, 0x00000000); (0x80000000, 0x40400000, 0x00000000);
   (0x00000000, 0xC0400000, 0x7F800000); (0x80000000, 0xC0400000, 0xFF800000);
   (0x80000000, 0xC0000000, 0x7F800000); (0x3F400000, 0xC3160000, 0x5E98D02B);
   (0xBF400000, 0xC3160000, 0x5E98D02B); (0x3F8CCCCD, 0xC3160000, 0x3525EF22);
   (0x3F8CCCCD, 0x43160000, 0x49C579D9)] = true.
Proof. vm_compute. reflexivity. Qed.

(** float/sqrt.rs *)
Example unit_sqrt : forallb (fun p => fle (fsub (get (F32_sqrt (b (fst p)))) (b (snd p))) (fmul (b (fst p)) (b 0x3D4CCCCD))) [
   (0x3F800000, 0x3F800000); (0x40000000, 0x3FB4FDF4); (0x40400000, 0x3FDDB22D);
   (0x40800000, 0x40000000); (0x40A00000, 0x400F1AA0); (0x41200000, 0x404A5E35);
   (0x42C80000, 0x41200000); (0x437A0000, 0x417CF9DB); (0x43FA0000, 0x41B2E148);
   (0x447A0000, 0x41FCF9DB); (0x451C4000, 0x42480000); (0x459C4000, 0x428D6B85);
   (0x49742400, 0x447A0000); (0x4A189680, 0x44C5A46A); (0x4A989680, 0x450BC112);
   (0x4B189680, 0x4545A46F); (0x4BBEBC20, 0x459C4000); (0x4C3EBC20, 0x45DCF889);
   (0x4CBEBC20, 0x461C4000)] && is_nan (get (F32_sqrt (b 0xBF800000))) = true.
Proof. vm_compute. reflexivity. Qed.

(** lib.rs, the documentation test *)
Example unit_doc_sqrt : equal [
   (get (F32_sqrt (b 0x40000000)), 0x3FC00000)] = true.
Proof. vm_compute. reflexivity. Qed.

(** float/invsqrt.rs *)
Example unit_invsqrt : forallb (fun p => fle (fsub (get (F32_invsqrt (b (fst p)))) (fdiv F32_ONE (b (snd p)))) (fmul (b (fst p)) (b 0x3D4CCCCD))) [
   (0x3F800000, 0x3F800000); (0x40000000, 0x3FB4FDF4); (0x40400000, 0x3FDDB22D);
   (0x40800000, 0x40000000); (0x40A00000, 0x400F1AA0); (0x41200000, 0x404A5E35);
   (0x42C80000, 0x41200000); (0x437A0000, 0x417CF9DB); (0x43FA0000, 0x41B2E148);
   (0x447A0000, 0x41FCF9DB); (0x451C4000, 0x42480000); (0x459C4000, 0x428D6B85);
   (0x49742400, 0x447A0000); (0x4A189680, 0x44C5A46A); (0x4A989680, 0x450BC112);
   (0x4B189680, 0x4545A46F); (0x4BBEBC20, 0x459C4000); (0x4C3EBC20, 0x45DCF889);
   (0x4CBEBC20, 0x461C4000)] = true.
Proof. vm_compute. reflexivity. Qed.

(** float/recip.rs *)
Example unit_recip : relative F32_recip 0x3727C5AC [
   (0x3727C5AC, 0x47C35000); (0x3F800000, 0x3F800000); (0x40000000, 0x3F000000);
   (0x3E800000, 0x40800000); (0xBF000000, 0xC0000000); (0x40490FDB, 0x3EA2F983)] = true.
Proof. vm_compute. reflexivity. Qed.

(** float/recip.rs *)
Example unit_recip_zero : equal [
   (F32_recip F32_ZERO, 0x7F800000);
   (F32_recip (b 0x80000000), 0xFF800000)] = true.
Proof. vm_compute. reflexivity. Qed.

(** float/inv.rs *)
Example unit_inv : forallb (fun n => let x := F32_from_int n in fle (fsub (F32_inv x) (fdiv F32_ONE x)) (fmul x (b 0x3DA3D70A))) (map Z.of_nat (seq 0 100)) = true.
Proof. vm_compute. reflexivity. Qed.

(** float/inv.rs *)
Example unit_inv_special : equal [(F32_inv (b 0x7F000001), 0); (F32_inv F32_INFINITY, 0); (F32_inv F32_NEG_INFINITY, 0x80000000)] && is_nan (F32_inv f32_NAN) && negb (sign_bit (F32_inv F32_INFINITY)) && sign_bit (F32_inv F32_NEG_INFINITY) = true.
Proof. vm_compute. reflexivity. Qed.

(** float/hypot.rs *)
Example unit_hypot : fle (F32_abs (fsub (get (F32_hypot (b 0x40400000) (b 0x40800000))) (get (F32_sqrt (b 0x41C80000))))) F32_EPSILON = true.
Proof. vm_compute. reflexivity. Qed.

(** float/copysign.rs *)
Example unit_copysign : equal [
   (F32_copysign (b 0x3F800000) (b 0xBF800000), 0xBF800000);
   (F32_copysign (b 0xBF800000) (b 0x3F800000), 0x3F800000);
   (F32_copysign (b 0x3F800000) (b 0x3F800000), 0x3F800000);
   (F32_copysign (b 0xBF800000) (b 0xBF800000), 0xBF800000)] = true.
Proof. vm_compute. reflexivity. Qed.

(** float/round.rs *)
Example unit_round : equal [
   (F32_round (b 0x00000000), 0x00000000);
   (F32_round (b 0x80000000), 0x80000000);
   (F32_round (b 0x3EFFFEB0), 0x00000000);
   (F32_round (b 0xBEFFFEB0), 0x80000000);
   (F32_round (b 0x3F000000), 0x3F800000);
   (F32_round (b 0xBF000000), 0xBF800000);
   (F32_round (b 0x461C3DFF), 0x461C3C00);
   (F32_round (b 0xC61C3DFF), 0xC61C3C00);
   (F32_round (b 0x461C3E00), 0x461C4000);
   (F32_round (b 0xC61C3E00), 0xC61C4000)] = true.
Proof. vm_compute. reflexivity. Qed.

(** float/trunc.rs *)
Example unit_trunc : equal [
   (F32_trunc (b 0xBF8CCCCD), 0xBF800000);
   (F32_trunc (b 0xBDCCCCCD), 0x80000000);
   (F32_trunc (b 0x00000000), 0x00000000);
   (F32_trunc (b 0x3F800000), 0x3F800000);
   (F32_trunc (b 0x3F8CCCCD), 0x3F800000);
   (F32_trunc (b 0x4039999A), 0x40000000);
   (F32_trunc (b 0xCCBEBC20), 0xCCBEBC20);
   (F32_trunc (b 0x4CBEBC20), 0x4CBEBC20)] = true.
Proof. vm_compute. reflexivity. Qed.

(** float/floor.rs *)
Example unit_floor : equal [
   (F32_floor (b 0xBF8CCCCD), 0xC0000000);
   (F32_floor (b 0xBDCCCCCD), 0xBF800000);
   (F32_floor (b 0x00000000), 0x00000000);
   (F32_floor (b 0x3F800000), 0x3F800000);
   (F32_floor (b 0x3F8CCCCD), 0x3F800000);
   (F32_floor (b 0x4039999A), 0x40000000)] = true.
Proof. vm_compute. reflexivity. Qed.

(** float/ceil.rs *)
Example unit_ceil : equal [
   (F32_ceil (b 0xBF8CCCCD), 0xBF800000);
   (F32_ceil (b 0xBDCCCCCD), 0x00000000);
   (F32_ceil (b 0x00000000), 0x00000000);
   (F32_ceil (b 0x3F800000), 0x3F800000);
   (F32_ceil (b 0x3F8CCCCD), 0x40000000);
   (F32_ceil (b 0x4039999A), 0x40400000)] = true.
Proof. vm_compute. reflexivity. Qed.

(** float/mul_add.rs *)
Example unit_mul_add : equal [
   (F32_mul_add (b 0x00000000) (b 0x00000000) (b 0x3F800000), 0x3F800000);
   (F32_mul_add (b 0x3F800000) (b 0x40000000) (b 0x40600000), 0x40B00000);
   (F32_mul_add (b 0x3F800000) (b 0xBF800000) (b 0x00000000), 0xBF800000)] = true.
Proof. vm_compute. reflexivity. Qed.

(** float/copysign.rs *)
Example unit_copysign_large : equal [
   (F32_copysign (b 0x4CBEBC20) (b 0xCCBEBC20), 0xCCBEBC20);
   (F32_copysign (b 0xCCBEBC20) (b 0x4CBEBC20), 0x4CBEBC20);
   (F32_copysign (b 0x4CBEBC20) (b 0x4CBEBC20), 0x4CBEBC20);
   (F32_copysign (b 0xCCBEBC20) (b 0xCCBEBC20), 0xCCBEBC20)] = true.
Proof. vm_compute. reflexivity. Qed.

(** float/abs.rs *)
Example unit_abs : equal [
   (F32_abs F32_ONE, 0x3F800000);
   (F32_abs F32_ZERO, 0x00000000);
   (F32_abs (b 0xBF800000), 0x3F800000)] = true.
Proof. vm_compute. reflexivity. Qed.

(** float/abs.rs *)
Example unit_abs_nan : is_nan (F32_abs f32_NAN) = true.
Proof. vm_compute. reflexivity. Qed.

(** float/signum.rs *)
Example unit_signum : equal [
   (F32_signum F32_INFINITY, 0x3F800000);
   (F32_signum (b 0x00000000), 0x3F800000);
   (F32_signum (b 0x3F800000), 0x3F800000);
   (F32_signum F32_NEG_INFINITY, 0xBF800000);
   (F32_signum (b 0x80000000), 0xBF800000);
   (F32_signum (b 0xBF800000), 0xBF800000)] = true.
Proof. vm_compute. reflexivity. Qed.

(** float/fract.rs *)
Example unit_fract : equal [
   (fadd (get (F32_fract (b 0x4039999A))) (b 0x40000000), 0x4039999A);
   (fsub (get (F32_fract (b 0xBF8CCCCD))) (b 0x3F800000), 0xBF8CCCCD);
   (get (F32_fract (b 0xBDCCCCCD)), 0xBDCCCCCD);
   (get (F32_fract (b 0x00000000)), 0x00000000);
   (fadd (get (F32_fract (b 0x3F800000))) F32_ONE, 0x3F800000);
   (fadd (get (F32_fract (b 0x3F8CCCCD))) F32_ONE, 0x3F8CCCCD);
   (get (F32_fract (b 0xCCBEBC20)), 0x80000000);
   (get (F32_fract (b 0x4CBEBC20)), 0x00000000)] = true.
Proof. vm_compute. reflexivity. Qed.

(** float/rem_euclid.rs *)
Example unit_rem_euclid : equal [
   (F32_rem_euclid (b 0x40E00000) (b 0x40800000), 0x40400000);
   (F32_rem_euclid (b 0xC0E00000) (b 0x40800000), 0x3F800000);
   (F32_rem_euclid (b 0x40E00000) (b 0xC0800000), 0x40400000);
   (F32_rem_euclid (b 0xC0E00000) (b 0xC0800000), 0x3F800000)] = true.
Proof. vm_compute. reflexivity. Qed.

(** float/div_euclid.rs *)
Example unit_div_euclid : equal [
   (F32_div_euclid (b 0x40E00000) (b 0x40800000), 0x3F800000);
   (F32_div_euclid (b 0xC0E00000) (b 0x40800000), 0xC0000000);
   (F32_div_euclid (b 0x40E00000) (b 0xC0800000), 0xBF800000);
   (F32_div_euclid (b 0xC0E00000) (b 0xC0800000), 0x40000000)] = true.
Proof. vm_compute. reflexivity. Qed.

(** float.rs *)
Example unit_inv_trait : equal [
   (f32_0 (F32_trait_inv (mkF32 (b 0x40000000))), 0x3F000000)] = true.
Proof. vm_compute. reflexivity. Qed.

(** float/sin_cos.rs *)
Example unit_sin_cos : forallb (fun z => feq (fst (F32_sin_cos (b z))) (F32_sin (b z)) && feq (snd (F32_sin_cos (b z))) (F32_cos (b z))) [
   (0x00000000); (0x3E0F5C29); (0x3E8ED917); (0x3ED6872B); (0x3F0F1AA0); (0x3F32B021);
   (0x3F56872B); (0x3F7A1CAC); (0x3F8EF9DB); (0x3FA0E560); (0x3FB2B021); (0x3FC49BA6);
   (0x3FD6872B); (0x3FE851EC); (0x3FFA3D71); (0x40060419); (0x400EF9DB); (0x4017EF9E);
   (0x4020D4FE); (0x4029CAC1); (0x4032C083); (0x403BA5E3); (0x40449BA6); (0x404D8106);
   (0x405676C9); (0x405F6C8B); (0x406851EC); (0x407147AE); (0x407A3D71); (0x40819168);
   (0x40860C4A); (0x408A7EFA); (0x408EF9DB); (0x409374BC); (0x4097E76D); (0x409C624E);
   (0x40A0DD2F); (0x40A54FDF); (0x40A9CAC1); (0x40AE3D71); (0x40B2B852); (0x40B73333);
   (0x40BBA5E3); (0x40C020C5); (0x40C49BA6); (0x40C90E56)] = true.
Proof. vm_compute. reflexivity. Qed.

(** float/atan.rs *)
Example unit_atan : one_sided F32_atan 0x3B449BA6 [
   (0x3F13CD3A, 0x3F060A92); (0x3F800000, 0x3F490FDB); (0x3FDDB3D7, 0x3F860A92);
   (0xBF13CD3A, 0xBF060A92); (0xBF800000, 0xBF490FDB); (0xBFDDB3D7, 0xBF860A92)] = true.
Proof. vm_compute. reflexivity. Qed.

(** float/atan.rs *)
Example unit_atan_zero : feq (F32_atan F32_ZERO) F32_ZERO && is_nan (F32_atan f32_NAN) = true.
Proof. vm_compute. reflexivity. Qed.

(** float/atan2.rs *)
Example unit_atan2 : forallb (fun p => match p with (y, x, e) => fle (fsub (F32_atan2 (b y) (b x)) (b e)) (b 0x3B449BA6) end) [
   (0x00000000, 0x3F800000, 0x00000000); (0x00000000, 0xBF800000, 0x40490FDB);
   (0x40400000, 0x40000000, 0x3F7B985F); (0x40000000, 0xBF800000, 0x40023454);
   (0xC0000000, 0xBF800000, 0xC0023454)] = true.
Proof. vm_compute. reflexivity. Qed.

(** float/acos.rs *)
Example unit_acos : absolute (fun x => get (F32_acos x)) 0x3CF5C28F [
   (0x3F800000, 0x00000000); (0x3F5DB22D, 0x3F060A92); (0x3F34FDF4, 0x3F490FDB);
   (0x3F000000, 0x3F860A92); (0x34000000, 0x3FC90FDB); (0x00000000, 0x3FC90FDB);
   (0xB4000000, 0x3FC90FDB); (0xBF000000, 0x40060A92); (0xBF34FDF4, 0x4016CBE4);
   (0xBF5DB22D, 0x40278D36); (0xBF800000, 0x40490FDB)] && is_nan (get (F32_acos (b 0x40000000))) && is_nan (get (F32_acos (b 0xC0000000))) = true.
Proof. vm_compute. reflexivity. Qed.

(** float/asin.rs *)
Example unit_asin : fle (F32_abs (fsub (get (F32_asin (F32_sin (b 0x3FC90FDB)))) (b 0x3FC90FDB))) F32_EPSILON = true.
Proof. vm_compute. reflexivity. Qed.

(** statistics/mean.rs *)
Example unit_mean : equal [
   (get (mean [(b 0x3F800000); (b 0x40400000); (b 0x40A00000)]), 0x40400000)] = true.
Proof. vm_compute. reflexivity. Qed.

(** statistics/variance.rs *)
Example unit_variance : equal [
   (get (variance (fun x => x) [(b 0x3F800000); (b 0x40400000); (b 0x40A00000)]), 0x40800000)] = true.
Proof. vm_compute. reflexivity. Qed.

(** statistics/stddev.rs *)
Example unit_stddev : equal [
   (get (stddev (fun x => x) [(b 0x3F800000); (b 0x40400000); (b 0x40A00000)]), 0x40000000)] = true.
Proof. vm_compute. reflexivity. Qed.

(** statistics/trim.rs *)
Example unit_trim : match trim_at (fun x => x) [(b 0x3F800000); (b 0x40000000); (b 0x40400000); (b 0x4479C000); (b 0x40A00000)] (b 0x3F800000) with Ok l => map to_bits l = [0x3F800000; 0x40000000; 0x40400000; 0x40A00000] | _ => False end.
Proof. vm_compute. reflexivity. Qed.

Definition qeq (p : Quat f32) (l : list Z) : bool :=
  forallb (fun x => feq (fst x) (b (snd x))) (combine (q_to_array p) l).
#[local] Existing Instance arith_f32.

(** quaternion.rs *)
Example unit_quaternion_conj : qeq (q_conj (mkQ (b 0x3F800000) (b 0x40000000) (b 0x40400000) (b 0x40800000))) [0x3F800000; 0xC0000000; 0xC0400000; 0xC0800000] = true.
Proof. vm_compute. reflexivity. Qed.

(** quaternion.rs *)
Example unit_quaternion_add_assign : qeq (q_add_assign (mkQ (b 0x3F800000) (b 0x40000000) (b 0x40400000) (b 0x40800000)) (mkQ (b 0x3F800000) (b 0x40000000) (b 0x40400000) (b 0x40800000))) [0x40000000; 0x40800000; 0x40C00000; 0x41000000] = true.
Proof. vm_compute. reflexivity. Qed.

(** quaternion.rs *)
Example unit_quaternion_mul_assign : qeq (q_mul_assign_scalar (mkQ (b 0x3F800000) (b 0x40000000) (b 0x40400000) (b 0x40800000)) (b 0x40000000)) [0x40000000; 0x40800000; 0x40C00000; 0x41000000] = true.
Proof. vm_compute. reflexivity. Qed.

(** quaternion.rs *)
Example unit_quaternion_sub_assign : qeq (q_sub_assign (mkQ (b 0x40000000) (b 0x40800000) (b 0x40C00000) (b 0x41000000)) (mkQ (b 0x3F800000) (b 0x40000000) (b 0x40400000) (b 0x40800000))) [0x3F800000; 0x40000000; 0x40400000; 0x40800000] = true.
Proof. vm_compute. reflexivity. Qed.

(** quaternion.rs *)
Example unit_quaternion_mul : qeq (q_mul (mkQ (b 0x3F800000) (b 0x40000000) (b 0x40400000) (b 0x40800000)) (mkQ (b 0x40800000) (b 0x40400000) (b 0x40000000) (b 0x3F800000))) [0xC1400000; 0x40C00000; 0x41C00000; 0x41400000] = true.
Proof. vm_compute. reflexivity. Qed.

(** quaternion.rs *)
Example unit_quaternion_mul_f32 : qeq (q_scalar_mul (b 0x40000000) (mkQ (b 0x3F800000) (b 0x40000000) (b 0x40400000) (b 0x40800000))) [0x40000000; 0x40800000; 0x40C00000; 0x41000000] = true.
Proof. vm_compute. reflexivity. Qed.

(** quaternion.rs *)
Example unit_quaternion_mul_f32_half : qeq (q_mul_scalar (mkQ (b 0x40000000) (b 0x40800000) (b 0x40C00000) (b 0x41000000)) (b 0x3F000000)) [0x3F800000; 0x40000000; 0x40400000; 0x40800000] = true.
Proof. vm_compute. reflexivity. Qed.

(** quaternion.rs *)
Example unit_quaternion_from_tuple : qeq (q_of_tuple ((b 0x3F800000), (b 0x40000000), (b 0x40400000), (b 0x40800000))) [0x3F800000; 0x40000000; 0x40400000; 0x40800000] = true.
Proof. vm_compute. reflexivity. Qed.

(** quaternion.rs *)
Example unit_quaternion_from_array : qeq (q_of_array (b 0x3F800000) (b 0x40000000) (b 0x40400000) (b 0x40800000)) [0x3F800000; 0x40000000; 0x40400000; 0x40800000] = true.
Proof. vm_compute. reflexivity. Qed.

(** quaternion.rs *)
Example unit_quaternion_norm : (let q := (mkQ (b 0x3F800000) (b 0x40000000) (b 0x40400000) (b 0x40800000)) in feq (q_norm q) (b 0x41F00000) && fle (F32_abs (fsub (q_norm (q_mul_scalar q (get (F32_invsqrt (q_norm q))))) F32_ONE)) (b 0x3D4CCCCD)) = true.
Proof. vm_compute. reflexivity. Qed.

(** quaternion.rs *)
#[local] Existing Instance comp_f32.
Example unit_quaternion_smallest_rot :
  match Q_from_two_vectors (fun x => x) (mkV3 (b 0x00000000) (b 0x00000000) (b 0x3F800000)) (mkV3 (b 0x00000000) (b 0x3F800000) (b 0x00000000)) with
  | Ok q => match v3_sub (Q_rotate (fun x => x) q (mkV3 (b 0x00000000) (b 0x00000000) (b 0x3F800000))) (mkV3 (b 0x00000000) (b 0x3F800000) (b 0x00000000)) with
            | Ok d => match vt_magnitude (fun x => x) d with Ok m => flt m (b 0x3DCCCCCD) = true | _ => False end
            | _ => False end
  | _ => False end.
Proof. vm_compute. reflexivity. Qed.

(** vector.rs ([normalized] is not repeated: under test the crate links std, whose sqrt is used) *)
Example unit_vector_magnitude_sq : match vt_magnitude_sq (mkV3 (b 0x40400000) (b 0x40800000) (b 0x40A00000)) with Ok m => to_bits m = 0x42480000 | _ => False end.
Proof. vm_compute. reflexivity. Qed.

(** vector/vector2d.rs, vector/vector3d.rs, on i32 *)
#[local] Existing Instance comp_int.
Definition ci : Component Z := comp_int i32.
#[local] Existing Instance ci.

Example unit_vector2d : let v := v2_of_tuple (1, 2) in
  v2_index v 0 = Ok 1 /\ v2_index v 1 = Ok 2 /\ v2_to_tuple v = (1, 2) /\
  v2_to_array (v2_of_array 1 2) = [1; 2] /\
  v2_cross (mkV2 1 2) (mkV2 3 4) = Ok (mkV3 0 0 (-2)) /\ v2_mul (mkV2 1 2) (mkV2 3 4) = Ok (mkV3 0 0 (-2)) /\
  v2_perpendicular_dot (mkV2 1 2) (mkV2 3 4) = Ok (-2) /\ v2_dot (mkV2 1 2) (mkV2 3 4) = Ok 11 /\
  v2_div (mkV2 10 20) 2 = Ok (mkV2 5 10) /\ v2_div_assign (mkV2 10 20) 2 = Ok (mkV2 5 10).
Proof. repeat split; vm_compute; reflexivity. Qed.

Example unit_vector3d : let v := v3_of_tuple (1, 2, 3) in
  v3_index v 0 = Ok 1 /\ v3_index v 1 = Ok 2 /\ v3_index v 2 = Ok 3 /\ v3_to_tuple v = (1, 2, 3) /\
  v3_to_array (v3_of_array 1 2 3) = [1; 2; 3] /\
  v3_cross (mkV3 1 2 3) (mkV3 4 5 6) = Ok (mkV3 (-3) 6 (-3)) /\ v3_mul (mkV3 1 2 3) (mkV3 4 5 6) = Ok (mkV3 (-3) 6 (-3)) /\
  v3_dot (mkV3 1 2 3) (mkV3 4 5 6) = Ok 32 /\
  v3_div (mkV3 10 20 30) 2 = Ok (mkV3 5 10 15) /\ v3_div_assign (mkV3 10 20 30) 2 = Ok (mkV3 5 10 15).
Proof. repeat split; vm_compute; reflexivity. Qed.
