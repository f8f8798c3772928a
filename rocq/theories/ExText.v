(** * The recorded cases of test/p1788/util/test_mpfr_var.cpp:262-360 hold of the formatter *)
From Coq Require Import ZArith NArith Bool Ascii String List.
From Flocq Require Import Core.Core IEEE754.BinarySingleNaN.
From Verif Require Import Fmt MStream Ex MText.
Import ListNotations. 
Local Open Scope string_scope.
Definition v1 := fl binary32 12897484 (-20). Definition v2 := fl binary32 (-13421772) (-27). Definition v3 : float binary32 := fnan. Definition v4 : float binary32 := finf. Definition v5 : float binary32 := fminf.
Definition w1 := fl binary64 6924284427082138 (-49). Definition w2 := fl binary64 (-7205759403792794) (-56). Definition w3 : float binary64 := fnan. Definition w4 : float binary64 := finf. Definition w5 : float binary64 := fminf.
Definition test := [
  (sprintf 0%nat c_a true mode_DN None v1, "0XC.4CCCCP+0");
  (sprintf 0%nat c_a false mode_UP (Some 3%nat) v1, "0xc.4cdp+0");
  (sprintf 20%nat c_a false mode_UP (Some 7%nat) v1, "      0xc.4cccc00p+0");
  (sprintf 3%nat c_a true mode_DN (Some 7%nat) v1, "0XC.4CCCC00P+0");
  (sprintf 0%nat c_e true mode_DN None v1, "1.229999E+01");
  (sprintf 0%nat c_e false mode_UP (Some 3%nat) v1, "1.230e+01");
  (sprintf 20%nat c_e false mode_UP (Some 7%nat) v1, "       1.2300000e+01");
  (sprintf 3%nat c_e true mode_DN (Some 7%nat) v1, "1.2299999E+01");
  (sprintf 0%nat c_f true mode_DN None v1, "12.299999");
  (sprintf 0%nat c_f false mode_UP (Some 3%nat) v1, "12.300");
  (sprintf 20%nat c_f false mode_UP (Some 7%nat) v1, "          12.2999993");
  (sprintf 3%nat c_f true mode_DN (Some 7%nat) v1, "12.2999992");
  (sprintf 0%nat c_g true mode_DN None v1, "12.2999");
  (sprintf 0%nat c_g false mode_UP (Some 3%nat) v1, "12.3");
  (sprintf 20%nat c_g false mode_UP (Some 7%nat) v1, "                12.3");
  (sprintf 3%nat c_g true mode_DN (Some 7%nat) v1, "12.29999");
  (sprintf 0%nat c_a true mode_DN None v2, "-0X1.999998P-4");
  (sprintf 0%nat c_a false mode_UP (Some 3%nat) v2, "-0x1.999p-4");
  (sprintf 20%nat c_a false mode_UP (Some 7%nat) v2, "     -0x1.9999980p-4");
  (sprintf 3%nat c_a true mode_DN (Some 7%nat) v2, "-0X1.9999980P-4");
  (sprintf 0%nat c_e true mode_UP None v2, "-9.999999E-02");
  (sprintf 0%nat c_e false mode_UP (Some 3%nat) v2, "-9.999e-02");
  (sprintf 20%nat c_e false mode_UP (Some 7%nat) v2, "      -9.9999994e-02");
  (sprintf 3%nat c_e true mode_DN (Some 7%nat) v2, "-9.9999995E-02");
  (sprintf 0%nat c_f true mode_DN None v2, "-0.100000");
  (sprintf 0%nat c_f false mode_UP (Some 3%nat) v2, "-0.099");
  (sprintf 20%nat c_f false mode_UP (Some 7%nat) v2, "          -0.0999999");
  (sprintf 3%nat c_f true mode_DN (Some 7%nat) v2, "-0.1000000");
  (sprintf 0%nat c_g true mode_DN None v2, "-0.1");
  (sprintf 0%nat c_g false mode_UP (Some 3%nat) v2, "-0.0999");
  (sprintf 20%nat c_g false mode_UP (Some 7%nat) v2, "         -0.09999999");
  (sprintf 3%nat c_g true mode_DN (Some 7%nat) v2, "-0.1");
  (sprintf 0%nat c_a true mode_DN None v3, "NAN");
  (sprintf 20%nat c_e false mode_NE (Some 7%nat) v3, "                 nan");
  (sprintf 3%nat c_f false mode_UP (Some 7%nat) v3, "nan");
  (sprintf 0%nat c_g false mode_DN None v3, "nan");
  (sprintf 0%nat c_a true mode_DN None v4, "INF");
  (sprintf 20%nat c_e false mode_NE (Some 7%nat) v4, "                 inf");
  (sprintf 3%nat c_f false mode_DN (Some 7%nat) v4, "inf");
  (sprintf 0%nat c_g false mode_DN None v4, "inf");
  (sprintf 0%nat c_a true mode_DN None v5, "-INF");
  (sprintf 20%nat c_e false mode_NE (Some 7%nat) v5, "                -inf");
  (sprintf 3%nat c_f false mode_DN (Some 7%nat) v5, "-inf");
  (sprintf 0%nat c_g false mode_DN None v5, "-inf");
  (sprintf 0%nat c_a true mode_DN None w1, "0XC.4CCCCCCCCCCDP+0");
  (sprintf 0%nat c_a false mode_UP (Some 3%nat) w1, "0xc.4cdp+0");
  (sprintf 20%nat c_a false mode_UP (Some 7%nat) w1, "      0xc.4cccccdp+0");
  (sprintf 3%nat c_a true mode_DN (Some 7%nat) w1, "0XC.4CCCCCCP+0");
  (sprintf 0%nat c_e true mode_DN None w1, "1.230000E+01");
  (sprintf 0%nat c_e false mode_UP (Some 3%nat) w1, "1.231e+01");
  (sprintf 20%nat c_e false mode_UP (Some 7%nat) w1, "       1.2300001e+01");
  (sprintf 3%nat c_e true mode_DN (Some 7%nat) w1, "1.2300000E+01");
  (sprintf 0%nat c_f true mode_DN None w1, "12.300000");
  (sprintf 0%nat c_f false mode_UP (Some 3%nat) w1, "12.301");
  (sprintf 20%nat c_f false mode_UP (Some 7%nat) w1, "          12.3000001");
  (sprintf 3%nat c_f true mode_DN (Some 7%nat) w1, "12.3000000");
  (sprintf 0%nat c_g true mode_DN None w1, "12.3");
  (sprintf 0%nat c_g false mode_UP (Some 3%nat) w1, "12.4");
  (sprintf 20%nat c_g false mode_UP (Some 7%nat) w1, "            12.30001");
  (sprintf 3%nat c_g true mode_DN (Some 7%nat) w1, "12.3");
  (sprintf 0%nat c_a true mode_DN None w2, "-0X1.999999999999AP-4");
  (sprintf 0%nat c_a false mode_UP (Some 3%nat) w2, "-0x1.999p-4");
  (sprintf 20%nat c_a false mode_NE (Some 7%nat) w2, "     -0x1.999999ap-4");
  (sprintf 3%nat c_a true mode_DN (Some 7%nat) w2, "-0X1.999999AP-4");
  (sprintf 0%nat c_e true mode_DN None w2, "-1.000001E-01");
  (sprintf 0%nat c_e false mode_UP (Some 3%nat) w2, "-1.000e-01");
  (sprintf 20%nat c_e false mode_UP (Some 7%nat) w2, "      -1.0000000e-01");
  (sprintf 3%nat c_e true mode_DN (Some 7%nat) w2, "-1.0000001E-01");
  (sprintf 0%nat c_f true mode_DN None w2, "-0.100001");
  (sprintf 0%nat c_f false mode_UP (Some 3%nat) w2, "-0.100");
  (sprintf 20%nat c_f false mode_UP (Some 7%nat) w2, "          -0.1000000");
  (sprintf 3%nat c_f true mode_DN (Some 7%nat) w2, "-0.1000001");
  (sprintf 0%nat c_g true mode_DN None w2, "-0.100001");
  (sprintf 0%nat c_g false mode_UP (Some 3%nat) w2, "-0.1");
  (sprintf 20%nat c_g false mode_UP (Some 7%nat) w2, "                -0.1");
  (sprintf 3%nat c_g true mode_DN (Some 7%nat) w2, "-0.1000001");
  (sprintf 0%nat c_f true mode_DN None w3, "NAN");
  (sprintf 20%nat c_a false mode_NE (Some 7%nat) w3, "                 nan");
  (sprintf 3%nat c_e false mode_DN (Some 7%nat) w3, "nan");
  (sprintf 0%nat c_g false mode_DN None w3, "nan");
  (sprintf 0%nat c_f true mode_DN None w4, "INF");
  (sprintf 20%nat c_a false mode_NE (Some 7%nat) w4, "                 inf");
  (sprintf 3%nat c_e false mode_DN (Some 7%nat) w4, "inf");
  (sprintf 0%nat c_g false mode_DN None w4, "inf");
  (sprintf 0%nat c_f true mode_DN None w5, "-INF");
  (sprintf 20%nat c_a false mode_NE (Some 7%nat) w5, "                -inf");
  (sprintf 3%nat c_e false mode_DN (Some 7%nat) w5, "-inf");
  (sprintf 0%nat c_g false mode_DN None w5, "-inf")].

Example text_cases : filter (fun p => negb (teq (fst p) (txt (snd p)))) test = [].
Proof. vm_compute. reflexivity. Qed.
Example text_cases_number : length test = 88%nat.
Proof. reflexivity. Qed.
