(** * The checks of output in /repo/test/p1788/flavor/infsup/setbased/
    test_mpfr_bin_ieee754_flavor_io.cpp, run on the model

    One definition per test case of that file; the number in [Is_equal] is the line of the check.
    These are tests of the model, not proofs about it. *)

From Coq Require Import ZArith NArith Bool Ascii String List.
From Flocq Require Import IEEE754.BinarySingleNaN.
From Verif Require Import Fmt Spec Exc Deco MBase MStream MText MPrint MManip Ex TestWrite.
Import ListNotations.
Local Open Scope string_scope.
Local Open Scope N_scope.

(** lines 55-190 *)
Definition minimal_empty_output_test : list action := [
  Put (@a_put_bare binary64 0%Z (@empty binary64));
  Is_equal 60 "[empty]";
  Do p_upper_case;
  Put (@a_put_bare binary64 0%Z (@empty binary64));
  Is_equal 65 "[EMPTY]";
  Do p_hex;
  Do p_lower_case;
  Do (p_string_width 12);
  Put (@a_put_bare binary64 0%Z (@empty binary64));
  Is_equal 71 "[  empty   ]";
  Do p_no_punctuation;
  Do p_upper_case;
  Put (@a_put_bare binary64 0%Z (@empty binary64));
  Is_equal 76 "   EMPTY    ";
  Do (p_string_width 11);
  Put (@a_put_bare binary64 0%Z (@empty binary64));
  Is_equal 80 "   EMPTY   ";
  Do p_decimal;
  Do p_punctuation;
  Do p_lower_case;
  Put (@a_put_bare binary64 0%Z (@empty binary64));
  Is_equal 86 "[  empty  ]";
  Do p_dec_numeric;
  Do p_lower_case;
  Do (p_string_width 0);
  Do p_special_no_bounds;
  Put (@a_put_bare binary64 0%Z (@empty binary64));
  Is_equal 93 "[ ]";
  Do p_hex;
  Do p_upper_case;
  Put (@a_put_bare binary64 0%Z (@empty binary64));
  Is_equal 98 "[ ]";
  Do p_lower_case;
  Do (p_string_width 9);
  Put (@a_put_bare binary64 0%Z (@empty binary64));
  Is_equal 103 "[       ]";
  Do p_no_punctuation;
  Do p_upper_case;
  Put (@a_put_bare binary64 0%Z (@empty binary64));
  Is_equal 108 "  EMPTY  ";
  Do p_decimal;
  Do p_lower_case;
  Do (p_string_width 0);
  Do p_special_bounds;
  Do p_punctuation;
  Put (@a_put_bare binary64 0%Z (@empty binary64));
  Is_equal 116 "[inf,-inf]";
  Do p_dec_alpha;
  Do p_upper_case;
  Put (@a_put_bare binary64 0%Z (@empty binary64));
  Is_equal 121 "[INF,-INF]";
  Do p_hex;
  Do p_lower_case;
  Do (p_string_width 9);
  Put (@a_put_bare binary64 0%Z (@empty binary64));
  Is_equal 127 "[inf,-inf]";
  Do (p_string_width 15);
  Put (@a_put_bare binary64 0%Z (@empty binary64));
  Is_equal 131 "[  inf,   -inf]";
  Do (p_string_width 16);
  Put (@a_put_bare binary64 0%Z (@empty binary64));
  Is_equal 135 "[   inf,   -inf]";
  Do p_decimal;
  Do (p_string_width 17);
  Do p_upper_case;
  Put (@a_put_bare binary64 0%Z (@empty binary64));
  Is_equal 141 "[   INF,    -INF]";
  Do (p_string_width 18);
  Do p_lower_case;
  Put (@a_put_bare binary64 0%Z (@empty binary64));
  Is_equal 146 "[    inf,    -inf]";
  Do p_no_punctuation;
  Do p_upper_case;
  Put (@a_put_bare binary64 0%Z (@empty binary64));
  Is_equal 151 "     INF      -INF";
  Do p_hex;
  Do p_upper_case;
  Do (p_string_width 0);
  Put (@a_put_bare binary64 0%Z (@empty binary64));
  Is_equal 157 "INF -INF";
  Do p_special_text;
  Do p_punctuation;
  Do (p_width 10);
  Put (@a_put_bare binary64 0%Z (@empty binary64));
  Is_equal 163 "[        EMPTY        ]";
  Do p_special_bounds;
  Put (@a_put_bare binary64 0%Z (@empty binary64));
  Is_equal 167 "[       INF,      -INF]";
  Do (p_string_width 23);
  Put (@a_put_bare binary64 0%Z (@empty binary64));
  Is_equal 171 "[       INF,      -INF]";
  Do (p_string_width 25);
  Put (@a_put_bare binary64 0%Z (@empty binary64));
  Is_equal 175 "[        INF,       -INF]";
  Do p_special_no_bounds;
  Put (@a_put_bare binary64 0%Z (@empty binary64));
  Is_equal 179 "[                       ]";
  Do (p_string_width 0);
  Put (@a_put_bare binary64 0%Z (@empty binary64));
  Is_equal 183 "[                     ]";
  Do p_special_bounds;
  Do (p_precision 27);
  Do p_lower_case;
  Put (@a_put_bare binary64 0%Z (@empty binary64));
  Is_equal 189 "[       inf,      -inf]"].

(** lines 194-334 *)
Definition minimal_empty_dec_output_test : list action := [
  Put (@a_put_dec binary64 0%Z (@empty_dec binary64));
  Is_equal 199 "[empty]";
  Do p_upper_case;
  Put (@a_put_dec binary64 0%Z (@empty_dec binary64));
  Is_equal 203 "[EMPTY]";
  Do p_hex;
  Do p_lower_case;
  Do (p_string_width 12);
  Put (@a_put_dec binary64 0%Z (@empty_dec binary64));
  Is_equal 209 "[  empty   ]";
  Do p_no_punctuation;
  Do p_upper_case;
  Put (@a_put_dec binary64 0%Z (@empty_dec binary64));
  Is_equal 214 "   EMPTY    ";
  Do (p_string_width 11);
  Put (@a_put_dec binary64 0%Z (@empty_dec binary64));
  Is_equal 218 "   EMPTY   ";
  Do p_decimal;
  Do p_punctuation;
  Do p_lower_case;
  Put (@a_put_dec binary64 0%Z (@empty_dec binary64));
  Is_equal 224 "[  empty  ]";
  Do p_lower_case;
  Do (p_string_width 0);
  Do p_special_no_bounds;
  Put (@a_put_dec binary64 0%Z (@empty_dec binary64));
  Is_equal 230 "[ ]";
  Do p_dec_numeric;
  Do p_hex;
  Do p_upper_case;
  Put (@a_put_dec binary64 0%Z (@empty_dec binary64));
  Is_equal 236 "[ ]";
  Do p_lower_case;
  Do (p_string_width 9);
  Put (@a_put_dec binary64 0%Z (@empty_dec binary64));
  Is_equal 241 "[       ]";
  Do p_no_punctuation;
  Do p_upper_case;
  Put (@a_put_dec binary64 0%Z (@empty_dec binary64));
  Is_equal 246 "  EMPTY  ";
  Do p_decimal;
  Do p_lower_case;
  Do (p_string_width 0);
  Do p_special_bounds;
  Do p_punctuation;
  Put (@a_put_dec binary64 0%Z (@empty_dec binary64));
  Is_equal 254 "[inf,-inf]";
  Do p_dec_alpha;
  Do p_hex;
  Do p_upper_case;
  Put (@a_put_dec binary64 0%Z (@empty_dec binary64));
  Is_equal 260 "[INF,-INF]";
  Do p_lower_case;
  Do (p_string_width 9);
  Put (@a_put_dec binary64 0%Z (@empty_dec binary64));
  Is_equal 265 "[inf,-inf]";
  Do (p_string_width 15);
  Put (@a_put_dec binary64 0%Z (@empty_dec binary64));
  Is_equal 269 "[  inf,   -inf]";
  Do (p_string_width 16);
  Put (@a_put_dec binary64 0%Z (@empty_dec binary64));
  Is_equal 273 "[   inf,   -inf]";
  Do p_decimal;
  Do (p_string_width 17);
  Do p_upper_case;
  Put (@a_put_dec binary64 0%Z (@empty_dec binary64));
  Is_equal 279 "[   INF,    -INF]";
  Do p_hex;
  Do (p_string_width 18);
  Do p_lower_case;
  Put (@a_put_dec binary64 0%Z (@empty_dec binary64));
  Is_equal 285 "[    inf,    -inf]";
  Do p_no_punctuation;
  Do p_upper_case;
  Put (@a_put_dec binary64 0%Z (@empty_dec binary64));
  Is_equal 290 "     INF      -INF";
  Do p_decimal;
  Do p_lower_case;
  Do (p_string_width 0);
  Put (@a_put_dec binary64 0%Z (@empty_dec binary64));
  Is_equal 296 "inf -inf";
  Do p_hex;
  Do p_special_text;
  Do p_punctuation;
  Put (@a_put_dec binary64 0%Z (@empty_dec binary64));
  Is_equal 302 "[empty]";
  Do p_inf_sup_form;
  Do (p_width 10);
  Put (@a_put_dec binary64 0%Z (@empty_dec binary64));
  Is_equal 307 "[        empty        ]";
  Do p_special_bounds;
  Put (@a_put_dec binary64 0%Z (@empty_dec binary64));
  Is_equal 311 "[       inf,      -inf]";
  Do (p_string_width 23);
  Put (@a_put_dec binary64 0%Z (@empty_dec binary64));
  Is_equal 315 "[       inf,      -inf]";
  Do (p_string_width 25);
  Put (@a_put_dec binary64 0%Z (@empty_dec binary64));
  Is_equal 319 "[        inf,       -inf]";
  Do p_special_no_bounds;
  Put (@a_put_dec binary64 0%Z (@empty_dec binary64));
  Is_equal 323 "[                       ]";
  Do (p_string_width 0);
  Put (@a_put_dec binary64 0%Z (@empty_dec binary64));
  Is_equal 327 "[                     ]";
  Do p_special_bounds;
  Do (p_precision 27);
  Do p_upper_case;
  Put (@a_put_dec binary64 0%Z (@empty_dec binary64));
  Is_equal 333 "[       INF,      -INF]"].

(** lines 337-472 *)
Definition minimal_entire_output_test : list action := [
  Put (@a_put_bare binary64 0%Z (@entire binary64));
  Is_equal 342 "[entire]";
  Do p_upper_case;
  Put (@a_put_bare binary64 0%Z (@entire binary64));
  Is_equal 346 "[ENTIRE]";
  Do p_lower_case;
  Do (p_string_width 12);
  Put (@a_put_bare binary64 0%Z (@entire binary64));
  Is_equal 351 "[  entire  ]";
  Do p_no_punctuation;
  Do p_upper_case;
  Put (@a_put_bare binary64 0%Z (@entire binary64));
  Is_equal 356 "   ENTIRE   ";
  Do p_hex;
  Do (p_string_width 11);
  Put (@a_put_bare binary64 0%Z (@entire binary64));
  Is_equal 361 "  ENTIRE   ";
  Do p_punctuation;
  Do p_lower_case;
  Put (@a_put_bare binary64 0%Z (@entire binary64));
  Is_equal 366 "[ entire  ]";
  Do p_decimal;
  Do p_lower_case;
  Do (p_string_width 0);
  Do p_special_no_bounds;
  Put (@a_put_bare binary64 0%Z (@entire binary64));
  Is_equal 373 "[,]";
  Do p_dec_numeric;
  Do p_hex;
  Do p_upper_case;
  Put (@a_put_bare binary64 0%Z (@entire binary64));
  Is_equal 379 "[,]";
  Do p_decimal;
  Do p_lower_case;
  Do (p_string_width 9);
  Put (@a_put_bare binary64 0%Z (@entire binary64));
  Is_equal 385 "[   ,   ]";
  Do p_no_punctuation;
  Do p_upper_case;
  Put (@a_put_bare binary64 0%Z (@entire binary64));
  Is_equal 390 " ENTIRE  ";
  Do p_hex;
  Do p_lower_case;
  Do (p_string_width 0);
  Do p_special_bounds;
  Do p_punctuation;
  Put (@a_put_bare binary64 0%Z (@entire binary64));
  Is_equal 398 "[-inf,inf]";
  Do p_upper_case;
  Put (@a_put_bare binary64 0%Z (@entire binary64));
  Is_equal 402 "[-INF,INF]";
  Do p_lower_case;
  Do (p_string_width 6);
  Put (@a_put_bare binary64 0%Z (@entire binary64));
  Is_equal 407 "[-inf,inf]";
  Do p_dec_alpha;
  Do p_decimal;
  Do (p_string_width 15);
  Put (@a_put_bare binary64 0%Z (@entire binary64));
  Is_equal 413 "[  -inf,   inf]";
  Do (p_string_width 16);
  Do p_upper_case;
  Put (@a_put_bare binary64 0%Z (@entire binary64));
  Is_equal 418 "[   -INF,   INF]";
  Do p_hex;
  Do (p_string_width 17);
  Put (@a_put_bare binary64 0%Z (@entire binary64));
  Is_equal 423 "[   -INF,    INF]";
  Do (p_string_width 18);
  Do p_lower_case;
  Put (@a_put_bare binary64 0%Z (@entire binary64));
  Is_equal 428 "[    -inf,    inf]";
  Do p_decimal;
  Do p_no_punctuation;
  Do p_upper_case;
  Put (@a_put_bare binary64 0%Z (@entire binary64));
  Is_equal 434 "     -INF      INF";
  Do (p_string_width 0);
  Put (@a_put_bare binary64 0%Z (@entire binary64));
  Is_equal 438 "-INF INF";
  Do p_special_text;
  Do p_punctuation;
  Do p_inf_sup_form;
  Do (p_width 10);
  Put (@a_put_bare binary64 0%Z (@entire binary64));
  Is_equal 445 "[        ENTIRE       ]";
  Do p_special_bounds;
  Put (@a_put_bare binary64 0%Z (@entire binary64));
  Is_equal 449 "[      -INF,       INF]";
  Do (p_string_width 23);
  Put (@a_put_bare binary64 0%Z (@entire binary64));
  Is_equal 453 "[      -INF,       INF]";
  Do (p_string_width 25);
  Put (@a_put_bare binary64 0%Z (@entire binary64));
  Is_equal 457 "[       -INF,        INF]";
  Do p_special_no_bounds;
  Put (@a_put_bare binary64 0%Z (@entire binary64));
  Is_equal 461 "[           ,           ]";
  Do (p_string_width 0);
  Put (@a_put_bare binary64 0%Z (@entire binary64));
  Is_equal 465 "[          ,          ]";
  Do p_special_bounds;
  Do (p_precision 27);
  Do p_upper_case;
  Put (@a_put_bare binary64 0%Z (@entire binary64));
  Is_equal 471 "[      -INF,       INF]"].

(** lines 474-612 *)
Definition minimal_entire_dec_output_test : list action := [
  Put (@a_put_dec binary64 0%Z (((@fminf binary64), (@finf binary64)), trv));
  Is_equal 479 "[entire]_trv";
  Do p_upper_case;
  Put (@a_put_dec binary64 0%Z (((@fminf binary64), (@finf binary64)), dac));
  Is_equal 483 "[ENTIRE]_DAC";
  Do p_hex;
  Do p_lower_case;
  Do (p_string_width 13);
  Put (@a_put_dec binary64 0%Z (((@fminf binary64), (@finf binary64)), trv));
  Is_equal 489 "[entire ]_trv";
  Do p_no_punctuation;
  Do p_upper_case;
  Put (@a_put_dec binary64 0%Z (((@fminf binary64), (@finf binary64)), def));
  Is_equal 494 " ENTIRE   DEF";
  Do p_decimal;
  Do (p_string_width 11);
  Put (@a_put_dec binary64 0%Z (((@fminf binary64), (@finf binary64)), dac));
  Is_equal 499 "ENTIRE  DAC";
  Do p_hex;
  Do p_punctuation;
  Do p_lower_case;
  Put (@a_put_dec binary64 0%Z (((@fminf binary64), (@finf binary64)), trv));
  Is_equal 505 "[entire]_trv";
  Do p_dec_numeric;
  Do p_decimal;
  Do p_lower_case;
  Do (p_string_width 0);
  Do p_special_no_bounds;
  Put (@a_put_dec binary64 0%Z (((@fminf binary64), (@finf binary64)), def));
  Is_equal 513 "[,]_8";
  Do p_upper_case;
  Put (@a_put_dec binary64 0%Z (((@fminf binary64), (@finf binary64)), trv));
  Is_equal 517 "[,]_4";
  Do p_lower_case;
  Do (p_string_width 9);
  Put (@a_put_dec binary64 0%Z (((@fminf binary64), (@finf binary64)), def));
  Is_equal 522 "[  ,  ]_8";
  Do p_hex;
  Do p_no_punctuation;
  Do p_upper_case;
  Put (@a_put_dec binary64 0%Z (((@fminf binary64), (@finf binary64)), dac));
  Is_equal 528 "ENTIRE 12";
  Do p_dec_alpha;
  Do p_decimal;
  Do p_lower_case;
  Do (p_string_width 0);
  Do p_special_bounds;
  Do p_punctuation;
  Put (@a_put_dec binary64 0%Z (((@fminf binary64), (@finf binary64)), trv));
  Is_equal 537 "[-inf,inf]_trv";
  Do p_upper_case;
  Put (@a_put_dec binary64 0%Z (((@fminf binary64), (@finf binary64)), dac));
  Is_equal 541 "[-INF,INF]_DAC";
  Do p_hex;
  Do p_lower_case;
  Do (p_string_width 6);
  Put (@a_put_dec binary64 0%Z (((@fminf binary64), (@finf binary64)), trv));
  Is_equal 547 "[-inf,inf]_trv";
  Do (p_string_width 15);
  Put (@a_put_dec binary64 0%Z (((@fminf binary64), (@finf binary64)), def));
  Is_equal 551 "[-inf, inf]_def";
  Do p_decimal;
  Do (p_string_width 16);
  Do p_upper_case;
  Put (@a_put_dec binary64 0%Z (((@fminf binary64), (@finf binary64)), dac));
  Is_equal 557 "[ -INF, INF]_DAC";
  Do (p_string_width 17);
  Put (@a_put_dec binary64 0%Z (((@fminf binary64), (@finf binary64)), trv));
  Is_equal 561 "[ -INF,  INF]_TRV";
  Do p_hex;
  Do (p_string_width 18);
  Do p_lower_case;
  Put (@a_put_dec binary64 0%Z (((@fminf binary64), (@finf binary64)), def));
  Is_equal 567 "[  -inf,  inf]_def";
  Do p_decimal;
  Do p_no_punctuation;
  Do p_upper_case;
  Put (@a_put_dec binary64 0%Z (((@fminf binary64), (@finf binary64)), trv));
  Is_equal 573 "   -INF    INF TRV";
  Do (p_string_width 0);
  Put (@a_put_dec binary64 0%Z (((@fminf binary64), (@finf binary64)), dac));
  Is_equal 577 "-INF INF DAC";
  Do p_lower_case;
  Do p_special_text;
  Do p_punctuation;
  Do p_inf_sup_form;
  Do (p_width 10);
  Put (@a_put_dec binary64 0%Z (((@fminf binary64), (@finf binary64)), trv));
  Is_equal 585 "[        entire       ]_trv";
  Do p_special_bounds;
  Put (@a_put_dec binary64 0%Z (((@fminf binary64), (@finf binary64)), def));
  Is_equal 589 "[      -inf,       inf]_def";
  Do (p_string_width 27);
  Put (@a_put_dec binary64 0%Z (((@fminf binary64), (@finf binary64)), dac));
  Is_equal 593 "[      -inf,       inf]_dac";
  Do (p_string_width 29);
  Put (@a_put_dec binary64 0%Z (((@fminf binary64), (@finf binary64)), trv));
  Is_equal 597 "[       -inf,        inf]_trv";
  Do p_special_no_bounds;
  Put (@a_put_dec binary64 0%Z (((@fminf binary64), (@finf binary64)), def));
  Is_equal 601 "[           ,           ]_def";
  Do (p_string_width 0);
  Put (@a_put_dec binary64 0%Z (((@fminf binary64), (@finf binary64)), dac));
  Is_equal 605 "[          ,          ]_dac";
  Do p_special_bounds;
  Do (p_precision 27);
  Do p_upper_case;
  Put (@a_put_dec binary64 0%Z (((@fminf binary64), (@finf binary64)), trv));
  Is_equal 611 "[      -INF,       INF]_TRV"].

(** lines 615-686 *)
Definition minimal_nai_output_test : list action := [
  Put (@a_put_dec binary64 0%Z (@nai binary64));
  Is_equal 621 "[nai]";
  Do p_hex;
  Do p_upper_case;
  Put (@a_put_dec binary64 0%Z (@nai binary64));
  Is_equal 626 "[NAI]";
  Do p_decimal;
  Do p_lower_case;
  Do (p_string_width 12);
  Put (@a_put_dec binary64 0%Z (@nai binary64));
  Is_equal 632 "[   nai    ]";
  Do p_dec_numeric;
  Do p_no_punctuation;
  Do p_upper_case;
  Do p_hex;
  Put (@a_put_dec binary64 0%Z (@nai binary64));
  Is_equal 639 "    NAI     ";
  Do (p_string_width 11);
  Do p_decimal;
  Put (@a_put_dec binary64 0%Z (@nai binary64));
  Is_equal 644 "    NAI    ";
  Do p_dec_alpha;
  Do p_punctuation;
  Do p_lower_case;
  Put (@a_put_dec binary64 0%Z (@nai binary64));
  Is_equal 650 "[   nai   ]";
  Do p_upper_case;
  Do p_special_text;
  Do p_no_punctuation;
  Do p_inf_sup_form;
  Do p_punctuation;
  Do (p_width 10);
  Put (@a_put_dec binary64 0%Z (@nai binary64));
  Is_equal 659 "[         NAI         ]";
  Do p_special_bounds;
  Put (@a_put_dec binary64 0%Z (@nai binary64));
  Is_equal 663 "[         NAI         ]";
  Do (p_string_width 23);
  Put (@a_put_dec binary64 0%Z (@nai binary64));
  Is_equal 667 "[         NAI         ]";
  Do (p_string_width 25);
  Put (@a_put_dec binary64 0%Z (@nai binary64));
  Is_equal 671 "[          NAI          ]";
  Do p_special_no_bounds;
  Put (@a_put_dec binary64 0%Z (@nai binary64));
  Is_equal 675 "[          NAI          ]";
  Do (p_string_width 0);
  Put (@a_put_dec binary64 0%Z (@nai binary64));
  Is_equal 679 "[         NAI         ]";
  Do p_special_bounds;
  Do (p_precision 27);
  Do p_lower_case;
  Put (@a_put_dec binary64 0%Z (@nai binary64));
  Is_equal 685 "[         nai         ]"].

(** lines 690-775 *)
Definition minimal_bare_interval_output_test : list action := [
  Put (@a_put_bare binary64 0%Z ((fl binary64 (3602879701896397) (-55)), (fl binary64 (3602879701896397) (-55))));
  Is_equal 695 "[0.1,0.100001]";
  Do p_upper_case;
  Put (@a_put_bare binary64 0%Z ((fl binary64 (-3602879701896397) (-55)), (fl binary64 (3602879701896397) (-55))));
  Is_equal 699 "[-0.100001,0.100001]";
  Do p_lower_case;
  Do (p_string_width 22);
  Put (@a_put_bare binary64 0%Z ((fl binary64 (-3602879701896397) (-55)), (fl binary64 (3602879701896397) (-55))));
  Is_equal 704 "[ -0.100001, 0.100001]";
  Do p_no_punctuation;
  Do p_upper_case;
  Put (@a_put_bare binary64 0%Z ((fl binary64 (-3602879701896397) (-55)), (fl binary64 (3602879701896397) (-55))));
  Is_equal 709 "  -0.100001   0.100001";
  Do p_hex;
  Do (p_string_width 0);
  Put (@a_put_bare binary64 0%Z ((fl binary64 (-3602879701896397) (-55)), (fl binary64 (5854679515581645) (-52))));
  Is_equal 714 "-0X1.999999999999AP-4 0X1.4CCCCCCCCCCCDP+0";
  Do p_punctuation;
  Do p_lower_case;
  Do (p_precision 5);
  Do (p_width 15);
  Put (@a_put_bare binary64 0%Z ((fl binary64 (-3602879701896397) (-55)), (fl binary64 (5854679515581645) (-52))));
  Is_equal 721 "[  -0x1.9999ap-4,   0x1.4cccdp+0]";
  Do (p_string_width 35);
  Do p_special_no_bounds;
  Put (@a_put_bare binary64 0%Z ((fl binary64 (3602879701896397) (-55)), (fl binary64 (5854679515581645) (-52))));
  Is_equal 726 "[    0x1.99999p-4,    0x1.4cccdp+0]";
  Do (p_string_width 0);
  Do (p_precision 20);
  Put (@a_put_bare binary64 0%Z ((fl binary64 (3602879701896397) (-55)), (fl binary64 (5854679515581645) (-52))));
  Is_equal 731 "[0x1.999999999999a0000000p-4,0x1.4cccccccccccd0000000p+0]";
  Do p_decimal;
  Do (p_precision 0);
  Do (p_width 10);
  Put (@a_put_bare binary64 0%Z ((fl binary64 (3602879701896397) (-55)), (fl binary64 (3602879701896397) (-55))));
  Is_equal 737 "[  0.100000,  0.100001]";
  Do p_upper_case;
  Put (@a_put_bare binary64 0%Z ((fl binary64 (-3602879701896397) (-55)), (fl binary64 (3602879701896397) (-55))));
  Is_equal 741 "[ -0.100001,  0.100001]";
  Do p_lower_case;
  Do (p_string_width 25);
  Do (p_precision 7);
  Put (@a_put_bare binary64 0%Z ((fl binary64 (3602879701896397) (-55)), (fl binary64 (3602879701896397) (-55))));
  Is_equal 747 "[  0.1000000,  0.1000001]";
  Do p_decimal_scientific;
  Do (p_string_width 0);
  Do p_upper_case;
  Put (@a_put_bare binary64 0%Z ((fl binary64 (3602879701896397) (-55)), (fl binary64 (3602879701896397) (-55))));
  Is_equal 753 "[       0.1, 0.1000001]";
  Do p_scientific;
  Put (@a_put_bare binary64 0%Z ((fl binary64 (3602879701896397) (-55)), (fl binary64 (5854679515581645) (-52))));
  Is_equal 757 "[1.0000000E-01,1.3000001E+00]";
  Do p_lower_case;
  Put (@a_put_bare binary64 0%Z ((@fminf binary64), (fl binary64 (3602879701896397) (-55))));
  Is_equal 761 "[      -inf,1.0000001e-01]";
  Do p_decimal_scientific;
  Do p_upper_case;
  Put (@a_put_bare binary64 0%Z ((fl binary64 (3602879701896397) (-55)), (@finf binary64)));
  Is_equal 766 "[       0.1,       INF]";
  Do p_hex;
  Put (@a_put_bare binary64 0%Z ((@fminf binary64), (fl binary64 (3602879701896397) (-55))));
  Is_equal 770 "[      -INF,0X1.999999AP-4]";
  Do p_decimal;
  Put (@a_put_bare binary64 0%Z ((fl binary64 (3602879701896397) (-55)), (@finf binary64)));
  Is_equal 774 "[ 0.1000000,       INF]"].

(** lines 780-867 *)
Definition minimal_decorated_interval_output_test : list action := [
  Put (@a_put_dec binary64 0%Z (((fl binary64 (3602879701896397) (-55)), (fl binary64 (3602879701896397) (-55))), trv));
  Is_equal 785 "[0.1,0.100001]_trv";
  Do p_upper_case;
  Put (@a_put_dec binary64 0%Z (((fl binary64 (-3602879701896397) (-55)), (fl binary64 (3602879701896397) (-55))), def));
  Is_equal 789 "[-0.100001,0.100001]_DEF";
  Do p_lower_case;
  Do (p_string_width 26);
  Put (@a_put_dec binary64 0%Z (((fl binary64 (-3602879701896397) (-55)), (fl binary64 (3602879701896397) (-55))), dac));
  Is_equal 794 "[ -0.100001, 0.100001]_dac";
  Do p_no_punctuation;
  Do p_upper_case;
  Put (@a_put_dec binary64 0%Z (((fl binary64 (-3602879701896397) (-55)), (fl binary64 (3602879701896397) (-55))), com));
  Is_equal 799 "  -0.100001   0.100001 COM";
  Do p_dec_numeric;
  Do p_hex;
  Do (p_string_width 0);
  Put (@a_put_dec binary64 0%Z (((fl binary64 (-3602879701896397) (-55)), (fl binary64 (5854679515581645) (-52))), trv));
  Is_equal 805 "-0X1.999999999999AP-4 0X1.4CCCCCCCCCCCDP+0 4";
  Do p_punctuation;
  Do p_lower_case;
  Do (p_precision 5);
  Do (p_width 15);
  Put (@a_put_dec binary64 0%Z (((fl binary64 (-3602879701896397) (-55)), (fl binary64 (5854679515581645) (-52))), def));
  Is_equal 812 "[  -0x1.9999ap-4,   0x1.4cccdp+0]_8";
  Do (p_string_width 35);
  Do p_special_no_bounds;
  Put (@a_put_dec binary64 0%Z (((fl binary64 (3602879701896397) (-55)), (fl binary64 (5854679515581645) (-52))), dac));
  Is_equal 817 "[   0x1.99999p-4,   0x1.4cccdp+0]_12";
  Do (p_string_width 0);
  Do (p_precision 20);
  Put (@a_put_dec binary64 0%Z (((fl binary64 (3602879701896397) (-55)), (fl binary64 (5854679515581645) (-52))), com));
  Is_equal 822 "[0x1.999999999999a0000000p-4,0x1.4cccccccccccd0000000p+0]_16";
  Do p_decimal;
  Do (p_precision 0);
  Do (p_width 10);
  Put (@a_put_dec binary64 0%Z (((fl binary64 (3602879701896397) (-55)), (fl binary64 (3602879701896397) (-55))), trv));
  Is_equal 828 "[  0.100000,  0.100001]_4";
  Do p_dec_alpha;
  Do p_upper_case;
  Put (@a_put_dec binary64 0%Z (((fl binary64 (-3602879701896397) (-55)), (fl binary64 (3602879701896397) (-55))), def));
  Is_equal 833 "[ -0.100001,  0.100001]_DEF";
  Do p_lower_case;
  Do (p_string_width 29);
  Do (p_precision 7);
  Put (@a_put_dec binary64 0%Z (((fl binary64 (3602879701896397) (-55)), (fl binary64 (3602879701896397) (-55))), dac));
  Is_equal 839 "[  0.1000000,  0.1000001]_dac";
  Do p_decimal_scientific;
  Do (p_string_width 0);
  Do p_upper_case;
  Put (@a_put_dec binary64 0%Z (((fl binary64 (3602879701896397) (-55)), (fl binary64 (3602879701896397) (-55))), com));
  Is_equal 845 "[       0.1, 0.1000001]_COM";
  Do p_scientific;
  Put (@a_put_dec binary64 0%Z (((fl binary64 (3602879701896397) (-55)), (fl binary64 (5854679515581645) (-52))), trv));
  Is_equal 849 "[1.0000000E-01,1.3000001E+00]_TRV";
  Do p_lower_case;
  Put (@a_put_dec binary64 0%Z (((@fminf binary64), (fl binary64 (3602879701896397) (-55))), def));
  Is_equal 853 "[      -inf,1.0000001e-01]_def";
  Do p_decimal_scientific;
  Do p_upper_case;
  Put (@a_put_dec binary64 0%Z (((fl binary64 (3602879701896397) (-55)), (@finf binary64)), dac));
  Is_equal 858 "[       0.1,       INF]_DAC";
  Do p_hex;
  Put (@a_put_dec binary64 0%Z (((@fminf binary64), (fl binary64 (3602879701896397) (-55))), trv));
  Is_equal 862 "[      -INF,0X1.999999AP-4]_TRV";
  Do p_decimal;
  Put (@a_put_dec binary64 0%Z (((fl binary64 (3602879701896397) (-55)), (@finf binary64)), def));
  Is_equal 866 "[ 0.1000000,       INF]_DEF"].

(** lines 871-1012 *)
Definition minimal_uncertain_interval_output_test : list action := [
  Do p_uncertain_form;
  Put (@a_put_bare binary64 0%Z ((@fminf binary64), (@finf binary64)));
  Is_equal 878 "0.000000??";
  Put (@a_put_bare binary64 0%Z ((fl binary64 (3602879701896397) (-55)), (@finf binary64)));
  Is_equal 881 "0.100000??u";
  Put (@a_put_bare binary64 0%Z ((@fminf binary64), (fl binary64 (3602879701896397) (-55))));
  Is_equal 884 "0.100001??d";
  Do p_uncertain_exponent;
  Put (@a_put_bare binary64 0%Z ((@fminf binary64), (@finf binary64)));
  Is_equal 888 "0.000000??e+00";
  Put (@a_put_bare binary64 0%Z ((fl binary64 (3602879701896397) (-55)), (@finf binary64)));
  Is_equal 891 "1.000000??ue-01";
  Put (@a_put_bare binary64 0%Z ((@fminf binary64), (fl binary64 (3602879701896397) (-55))));
  Is_equal 894 "1.000001??de-01";
  Do (p_precision 1);
  Do (p_string_width 20);
  Do p_upper_case;
  Put (@a_put_bare binary64 0%Z ((@fminf binary64), (@finf binary64)));
  Is_equal 900 "           0.0??E+00";
  Put (@a_put_bare binary64 0%Z ((fl binary64 (3602879701896397) (-55)), (@finf binary64)));
  Is_equal 903 "          1.0??UE-01";
  Put (@a_put_bare binary64 0%Z ((@fminf binary64), (fl binary64 (3602879701896397) (-55))));
  Is_equal 906 "          1.1??DE-01";
  Do p_no_uncertain_exponent;
  Do p_no_punctuation;
  Put (@a_put_bare binary64 0%Z ((@fminf binary64), (@finf binary64)));
  Is_equal 911 "               0.0??";
  Put (@a_put_bare binary64 0%Z ((fl binary64 (3602879701896397) (-55)), (@finf binary64)));
  Is_equal 914 "              0.1??U";
  Put (@a_put_bare binary64 0%Z ((@fminf binary64), (fl binary64 (3602879701896397) (-55))));
  Is_equal 917 "              0.2??D";
  Do (p_precision 5);
  Do (p_string_width 0);
  Do p_lower_case;
  Put (@a_put_bare binary64 0%Z ((fl binary64 (3602879701896397) (-55)), (fl binary64 (3602879701896397) (-54))));
  Is_equal 924 "0.15000?5001";
  Do p_uncertain_down_form;
  Do (p_precision 7);
  Put (@a_put_bare binary64 0%Z ((fl binary64 (3602879701896397) (-55)), (fl binary64 (3602879701896397) (-54))));
  Is_equal 929 "0.2000001?1000001d";
  Do p_uncertain_up_form;
  Do (p_precision 0);
  Do (p_string_width 18);
  Do p_upper_case;
  Put (@a_put_bare binary64 0%Z ((fl binary64 (-3602879701896397) (-55)), (fl binary64 (3602879701896397) (-54))));
  Is_equal 936 " -0.100001?300002U";
  Do (p_precision 0);
  Do (p_string_width 0);
  Do p_lower_case;
  Do p_uncertain_exponent;
  Put (@a_put_bare binary64 0%Z ((fl binary64 (-25) (2)), (fl binary64 (3602879701896397) (-54))));
  Is_equal 944 "-1.000000?1002001ue+02";
  Put (@a_put_bare binary64 0%Z ((fl binary64 (-25) (2)), (@f0 binary64)));
  Is_equal 947 "-1.000000?1000000ue+02";
  Put (@a_put_bare binary64 0%Z ((fl binary64 (-25) (2)), (fl binary64 (-3602879701896397) (-54))));
  Is_equal 950 "-1.000000?998000ue+02";
  Put (@a_put_bare binary64 0%Z ((fl binary64 (-3602879701896397) (-54)), (fl binary64 (25) (2))));
  Is_equal 953 "-2.000001?1002000001ue-01";
  Put (@a_put_bare binary64 0%Z ((@f0 binary64), (fl binary64 (25) (2))));
  Is_equal 956 "0.000000?100000000ue+00";
  Put (@a_put_bare binary64 0%Z ((fl binary64 (3602879701896397) (-54)), (fl binary64 (25) (2))));
  Is_equal 959 "2.000000?998000000ue-01";
  Do p_uncertain_down_form;
  Put (@a_put_bare binary64 0%Z ((fl binary64 (-3602879701896397) (-54)), (fl binary64 (25) (2))));
  Is_equal 964 "1.000000?1002001de+02";
  Put (@a_put_bare binary64 0%Z ((@f0 binary64), (fl binary64 (25) (2))));
  Is_equal 967 "1.000000?1000000de+02";
  Put (@a_put_bare binary64 0%Z ((fl binary64 (3602879701896397) (-54)), (fl binary64 (25) (2))));
  Is_equal 970 "1.000000?998000de+02";
  Put (@a_put_bare binary64 0%Z ((fl binary64 (-25) (2)), (fl binary64 (3602879701896397) (-54))));
  Is_equal 973 "2.000001?1002000001de-01";
  Put (@a_put_bare binary64 0%Z ((fl binary64 (-25) (2)), (@f0 binary64)));
  Is_equal 976 "0.000000?100000000de+00";
  Put (@a_put_bare binary64 0%Z ((fl binary64 (-25) (2)), (fl binary64 (-3602879701896397) (-54))));
  Is_equal 979 "-2.000000?998000000de-01";
  Do p_uncertain_form;
  Put (@a_put_bare binary64 0%Z ((fl binary64 (-3602879701896397) (-54)), (fl binary64 (25) (2))));
  Is_equal 984 "4.990000?5010001e+01";
  Put (@a_put_bare binary64 0%Z ((@f0 binary64), (fl binary64 (25) (2))));
  Is_equal 987 "5.000000?5000000e+01";
  Put (@a_put_bare binary64 0%Z ((fl binary64 (3602879701896397) (-54)), (fl binary64 (25) (2))));
  Is_equal 990 "5.010000?4990000e+01";
  Put (@a_put_bare binary64 0%Z ((fl binary64 (-25) (2)), (fl binary64 (3602879701896397) (-54))));
  Is_equal 993 "-4.990000?5010001e+01";
  Put (@a_put_bare binary64 0%Z ((fl binary64 (-25) (2)), (@f0 binary64)));
  Is_equal 996 "-5.000000?5000000e+01";
  Put (@a_put_bare binary64 0%Z ((fl binary64 (-25) (2)), (fl binary64 (-3602879701896397) (-54))));
  Is_equal 999 "-5.010000?4990000e+01";
  Do p_uncertain_form;
  Do p_upper_case;
  Do p_special_bounds;
  Do p_no_punctuation;
  Put (@a_put_bare binary64 0%Z (@empty binary64));
  Is_equal 1006 "INF -INF";
  Do p_special_text;
  Do p_punctuation;
  Put (@a_put_bare binary64 0%Z (@empty binary64));
  Is_equal 1011 "[EMPTY]"].

(** lines 1016-1168 *)
Definition minimal_uncertain_interval_dec_output_test : list action := [
  Do p_uncertain_form;
  Put (@a_put_dec binary64 0%Z (((@fminf binary64), (@finf binary64)), trv));
  Is_equal 1024 "0.000000??_trv";
  Put (@a_put_dec binary64 0%Z (((fl binary64 (3602879701896397) (-55)), (@finf binary64)), def));
  Is_equal 1027 "0.100000??u_def";
  Put (@a_put_dec binary64 0%Z (((@fminf binary64), (fl binary64 (3602879701896397) (-55))), dac));
  Is_equal 1030 "0.100001??d_dac";
  Do p_uncertain_exponent;
  Put (@a_put_dec binary64 0%Z (((@fminf binary64), (@finf binary64)), trv));
  Is_equal 1034 "0.000000??e+00_trv";
  Put (@a_put_dec binary64 0%Z (((fl binary64 (3602879701896397) (-55)), (@finf binary64)), def));
  Is_equal 1037 "1.000000??ue-01_def";
  Put (@a_put_dec binary64 0%Z (((@fminf binary64), (fl binary64 (3602879701896397) (-55))), dac));
  Is_equal 1040 "1.000001??de-01_dac";
  Do (p_precision 1);
  Do (p_string_width 20);
  Do p_upper_case;
  Put (@a_put_dec binary64 0%Z (((@fminf binary64), (@finf binary64)), trv));
  Is_equal 1046 "       0.0??E+00_TRV";
  Put (@a_put_dec binary64 0%Z (((fl binary64 (3602879701896397) (-55)), (@finf binary64)), def));
  Is_equal 1049 "      1.0??UE-01_DEF";
  Put (@a_put_dec binary64 0%Z (((@fminf binary64), (fl binary64 (3602879701896397) (-55))), dac));
  Is_equal 1052 "      1.1??DE-01_DAC";
  Do p_no_uncertain_exponent;
  Do p_no_punctuation;
  Put (@a_put_dec binary64 0%Z (((@fminf binary64), (@finf binary64)), trv));
  Is_equal 1057 "           0.0?? TRV";
  Put (@a_put_dec binary64 0%Z (((fl binary64 (3602879701896397) (-55)), (@finf binary64)), def));
  Is_equal 1060 "          0.1??U DEF";
  Put (@a_put_dec binary64 0%Z (((@fminf binary64), (fl binary64 (3602879701896397) (-55))), dac));
  Is_equal 1063 "          0.2??D DAC";
  Do (p_precision 5);
  Do (p_string_width 0);
  Do p_lower_case;
  Do p_dec_numeric;
  Put (@a_put_dec binary64 0%Z (((fl binary64 (3602879701896397) (-55)), (fl binary64 (3602879701896397) (-54))), trv));
  Is_equal 1071 "0.15000?5001 4";
  Do p_uncertain_down_form;
  Do (p_precision 7);
  Put (@a_put_dec binary64 0%Z (((fl binary64 (3602879701896397) (-55)), (fl binary64 (3602879701896397) (-54))), def));
  Is_equal 1076 "0.2000001?1000001d 8";
  Do p_uncertain_up_form;
  Do (p_precision 0);
  Do (p_string_width 21);
  Do p_upper_case;
  Put (@a_put_dec binary64 0%Z (((fl binary64 (-3602879701896397) (-55)), (fl binary64 (3602879701896397) (-54))), dac));
  Is_equal 1083 " -0.100001?300002U 12";
  Do (p_precision 0);
  Do (p_string_width 0);
  Do p_lower_case;
  Do p_uncertain_exponent;
  Do p_punctuation;
  Do p_dec_alpha;
  Put (@a_put_dec binary64 0%Z (((fl binary64 (-25) (2)), (fl binary64 (3602879701896397) (-54))), com));
  Is_equal 1093 "-1.000000?1002001ue+02_com";
  Put (@a_put_dec binary64 0%Z (((fl binary64 (-25) (2)), (@f0 binary64)), trv));
  Is_equal 1096 "-1.000000?1000000ue+02_trv";
  Put (@a_put_dec binary64 0%Z (((fl binary64 (-25) (2)), (fl binary64 (-3602879701896397) (-54))), def));
  Is_equal 1099 "-1.000000?998000ue+02_def";
  Put (@a_put_dec binary64 0%Z (((fl binary64 (-3602879701896397) (-54)), (fl binary64 (25) (2))), dac));
  Is_equal 1102 "-2.000001?1002000001ue-01_dac";
  Put (@a_put_dec binary64 0%Z (((@f0 binary64), (fl binary64 (25) (2))), com));
  Is_equal 1105 "0.000000?100000000ue+00_com";
  Put (@a_put_dec binary64 0%Z (((fl binary64 (3602879701896397) (-54)), (fl binary64 (25) (2))), trv));
  Is_equal 1108 "2.000000?998000000ue-01_trv";
  Do p_uncertain_down_form;
  Put (@a_put_dec binary64 0%Z (((fl binary64 (-3602879701896397) (-54)), (fl binary64 (25) (2))), def));
  Is_equal 1113 "1.000000?1002001de+02_def";
  Put (@a_put_dec binary64 0%Z (((@f0 binary64), (fl binary64 (25) (2))), dac));
  Is_equal 1116 "1.000000?1000000de+02_dac";
  Put (@a_put_dec binary64 0%Z (((fl binary64 (3602879701896397) (-54)), (fl binary64 (25) (2))), com));
  Is_equal 1119 "1.000000?998000de+02_com";
  Put (@a_put_dec binary64 0%Z (((fl binary64 (-25) (2)), (fl binary64 (3602879701896397) (-54))), trv));
  Is_equal 1122 "2.000001?1002000001de-01_trv";
  Put (@a_put_dec binary64 0%Z (((fl binary64 (-25) (2)), (@f0 binary64)), def));
  Is_equal 1125 "0.000000?100000000de+00_def";
  Put (@a_put_dec binary64 0%Z (((fl binary64 (-25) (2)), (fl binary64 (-3602879701896397) (-54))), dac));
  Is_equal 1128 "-2.000000?998000000de-01_dac";
  Do p_uncertain_form;
  Put (@a_put_dec binary64 0%Z (((fl binary64 (-3602879701896397) (-54)), (fl binary64 (25) (2))), com));
  Is_equal 1133 "4.990000?5010001e+01_com";
  Put (@a_put_dec binary64 0%Z (((@f0 binary64), (fl binary64 (25) (2))), trv));
  Is_equal 1136 "5.000000?5000000e+01_trv";
  Put (@a_put_dec binary64 0%Z (((fl binary64 (3602879701896397) (-54)), (fl binary64 (25) (2))), def));
  Is_equal 1139 "5.010000?4990000e+01_def";
  Put (@a_put_dec binary64 0%Z (((fl binary64 (-25) (2)), (fl binary64 (3602879701896397) (-54))), dac));
  Is_equal 1142 "-4.990000?5010001e+01_dac";
  Put (@a_put_dec binary64 0%Z (((fl binary64 (-25) (2)), (@f0 binary64)), com));
  Is_equal 1145 "-5.000000?5000000e+01_com";
  Put (@a_put_dec binary64 0%Z (((fl binary64 (-25) (2)), (fl binary64 (-3602879701896397) (-54))), trv));
  Is_equal 1148 "-5.010000?4990000e+01_trv";
  Do p_special_bounds;
  Do p_no_punctuation;
  Put (@a_put_dec binary64 0%Z (@empty_dec binary64));
  Is_equal 1153 "inf -inf";
  Do p_hex;
  Do p_special_text;
  Do p_punctuation;
  Put (@a_put_dec binary64 0%Z (@empty_dec binary64));
  Is_equal 1159 "[empty]";
  Put (@a_put_dec binary64 0%Z (@nai binary64));
  Is_equal 1162 "[nai]";
  Do p_upper_case;
  Do p_no_punctuation;
  Put (@a_put_dec binary64 0%Z (@nai binary64));
  Is_equal 1167 "NAI"].

Example output_agrees : concat (map wrong_lines [
  minimal_empty_output_test; minimal_empty_dec_output_test; minimal_entire_output_test; minimal_entire_dec_output_test; minimal_nai_output_test; minimal_bare_interval_output_test; minimal_decorated_interval_output_test; minimal_uncertain_interval_output_test; minimal_uncertain_interval_dec_output_test]) = [].
Proof. vm_compute. reflexivity. Qed.
