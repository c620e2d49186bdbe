(** * PyTests: the model of Python's library on arguments with known results

    Written by tools/gen_py_tests.py, which asks CPython 3.11.10 for the results on random arguments.  These are
    tests of the model, not proofs. *)

From Coq Require Import NArith ZArith List Bool String.
From Coq Require Import Floats.SpecFloat.
From Verif Require Import PyBase PyNum Struct Lexer AttCert Config Ini AAuth Show AAuthLog AAuthDemo.
Import ListNotations.
Open Scope Z_scope.

Definition U : unicode := ascii_only.
Definition bytes_eqb : bytes -> bytes -> bool := leqb N.eqb.
Definition err_eqb (a b : exc) : bool :=
  match a, b with
  | EStruct, EStruct | EOverflow, EOverflow | EUnicodeEncode, EUnicodeEncode | EUnicodeDecode, EUnicodeDecode
  | EBinascii, EBinascii | EValue, EValue => true
  | _, _ => false
  end.
Definition same {A} (e : A -> A -> bool) (a b : res A) : bool :=
  match a, b with Ok x, Ok y => e x y | Err x, Err y => err_eqb x y | _, _ => false end.
Definition same_c (a b : cres (option str)) : bool :=
  match a, b with
  | CVal None, CVal None => true
  | CVal (Some x), CVal (Some y) => str_eqb x y
  | CErr CSyntax, CErr CSyntax | CErr CMissing, CErr CMissing | CErr CDepth, CErr CDepth => true
  | _, _ => false
  end.
Definition same_o : options -> options -> bool := leqb (fun a b => str_eqb (fst a) (fst b) && str_eqb (snd a) (snd b)).
Definition same_f (a b : conf_file + ini_err) : bool :=
  match a, b with
  | inl x, inl y => same_o (f_default x) (f_default y) && leqb (fun a b => str_eqb (fst a) (fst b) && same_o (snd a) (snd b)) (f_sections x) (f_sections y)
  | inr INoHeader, inr INoHeader | inr ISection, inr ISection | inr IOption, inr IOption | inr IParsing, inr IParsing => true
  | _, _ => false
  end.
(** Equality of representations. *)
Definition sf_eqb (a b : pyfloat) : bool :=
  match a, b with
  | S754_zero s, S754_zero t => Bool.eqb s t
  | S754_infinity s, S754_infinity t => Bool.eqb s t
  | S754_nan, S754_nan => true
  | S754_finite s m e, S754_finite t n f => Bool.eqb s t && Pos.eqb m n && Z.eqb e f
  | _, _ => false
  end.

(** struct.pack of unsigned integers *)
Definition pack_u_cases : list (nat * Z * res bytes) := [
  (1%nat, (0), Ok [0]%N);
  (2%nat, (0), Ok [0;0]%N);
  (4%nat, (0), Ok [0;0;0;0]%N);
  (1%nat, (1), Ok [1]%N);
  (2%nat, (1), Ok [1;0]%N);
  (4%nat, (1), Ok [1;0;0;0]%N);
  (1%nat, (-1), Err EStruct);
  (2%nat, (-1), Err EStruct);
  (4%nat, (-1), Err EStruct);
  (1%nat, (127), Ok [127]%N);
  (2%nat, (127), Ok [127;0]%N);
  (4%nat, (127), Ok [127;0;0;0]%N);
  (1%nat, (128), Ok [128]%N);
  (2%nat, (128), Ok [128;0]%N);
  (4%nat, (128), Ok [128;0;0;0]%N);
  (1%nat, (255), Ok [255]%N);
  (2%nat, (255), Ok [255;0]%N);
  (4%nat, (255), Ok [255;0;0;0]%N);
  (1%nat, (256), Err EStruct);
  (2%nat, (256), Ok [0;1]%N);
  (4%nat, (256), Ok [0;1;0;0]%N);
  (1%nat, (65535), Err EStruct);
  (2%nat, (65535), Ok [255;255]%N);
  (4%nat, (65535), Ok [255;255;0;0]%N);
  (1%nat, (65536), Err EStruct);
  (2%nat, (65536), Err EStruct);
  (4%nat, (65536), Ok [0;0;1;0]%N);
  (1%nat, (2147483647), Err EStruct);
  (2%nat, (2147483647), Err EStruct);
  (4%nat, (2147483647), Ok [255;255;255;127]%N);
  (1%nat, (2147483648), Err EStruct);
  (2%nat, (2147483648), Err EStruct);
  (4%nat, (2147483648), Ok [0;0;0;128]%N);
  (1%nat, (-2147483648), Err EStruct);
  (2%nat, (-2147483648), Err EStruct);
  (4%nat, (-2147483648), Err EStruct);
  (1%nat, (-2147483649), Err EStruct);
  (2%nat, (-2147483649), Err EStruct);
  (4%nat, (-2147483649), Err EStruct);
  (1%nat, (4294967295), Err EStruct);
  (2%nat, (4294967295), Err EStruct);
  (4%nat, (4294967295), Ok [255;255;255;255]%N);
  (1%nat, (4294967296), Err EStruct);
  (2%nat, (4294967296), Err EStruct);
  (4%nat, (4294967296), Err EStruct);
  (1%nat, (-6252), Err EStruct);
  (2%nat, (-6252), Err EStruct);
  (4%nat, (-6252), Err EStruct);
  (1%nat, (-203087481), Err EStruct);
  (2%nat, (-203087481), Err EStruct);
  (4%nat, (-203087481), Err EStruct);
  (1%nat, (378902837), Err EStruct);
  (2%nat, (378902837), Err EStruct);
  (4%nat, (378902837), Ok [53;153;149;22]%N);
  (1%nat, (-3674), Err EStruct);
  (2%nat, (-3674), Err EStruct);
  (4%nat, (-3674), Err EStruct);
  (1%nat, (101), Ok [101]%N);
  (2%nat, (101), Ok [101;0]%N);
  (4%nat, (101), Ok [101;0;0;0]%N);
  (1%nat, (-3242), Err EStruct);
  (2%nat, (-3242), Err EStruct);
  (4%nat, (-3242), Err EStruct);
  (1%nat, (1395), Err EStruct);
  (2%nat, (1395), Ok [115;5]%N);
  (4%nat, (1395), Ok [115;5;0;0]%N);
  (1%nat, (-1), Err EStruct);
  (2%nat, (-1), Err EStruct);
  (4%nat, (-1), Err EStruct);
  (1%nat, (200268095), Err EStruct);
  (2%nat, (200268095), Err EStruct);
  (4%nat, (200268095), Ok [63;217;239;11]%N);
  (1%nat, (-1842724), Err EStruct);
  (2%nat, (-1842724), Err EStruct);
  (4%nat, (-1842724), Err EStruct);
  (1%nat, (-1998036), Err EStruct);
  (2%nat, (-1998036), Err EStruct);
  (4%nat, (-1998036), Err EStruct);
  (1%nat, (6262), Err EStruct);
  (2%nat, (6262), Ok [118;24]%N);
  (4%nat, (6262), Ok [118;24;0;0]%N);
  (1%nat, (2895117), Err EStruct);
  (2%nat, (2895117), Err EStruct);
  (4%nat, (2895117), Ok [13;45;44;0]%N);
  (1%nat, (-2955029732), Err EStruct);
  (2%nat, (-2955029732), Err EStruct);
  (4%nat, (-2955029732), Err EStruct);
  (1%nat, (-20819), Err EStruct);
  (2%nat, (-20819), Err EStruct);
  (4%nat, (-20819), Err EStruct);
  (1%nat, (-15926), Err EStruct);
  (2%nat, (-15926), Err EStruct);
  (4%nat, (-15926), Err EStruct);
  (1%nat, (-1476), Err EStruct);
  (2%nat, (-1476), Err EStruct);
  (4%nat, (-1476), Err EStruct);
  (1%nat, (20), Ok [20]%N);
  (2%nat, (20), Ok [20;0]%N);
  (4%nat, (20), Ok [20;0;0;0]%N);
  (1%nat, (-108), Err EStruct);
  (2%nat, (-108), Err EStruct);
  (4%nat, (-108), Err EStruct);
  (1%nat, (-19072834), Err EStruct);
  (2%nat, (-19072834), Err EStruct);
  (4%nat, (-19072834), Err EStruct);
  (1%nat, (1618), Err EStruct);
  (2%nat, (1618), Ok [82;6]%N);
  (4%nat, (1618), Ok [82;6;0;0]%N);
  (1%nat, (-953470157), Err EStruct);
  (2%nat, (-953470157), Err EStruct);
  (4%nat, (-953470157), Err EStruct);
  (1%nat, (-16), Err EStruct);
  (2%nat, (-16), Err EStruct);
  (4%nat, (-16), Err EStruct);
  (1%nat, (-31441), Err EStruct);
  (2%nat, (-31441), Err EStruct);
  (4%nat, (-31441), Err EStruct);
  (1%nat, (13), Ok [13]%N);
  (2%nat, (13), Ok [13;0]%N);
  (4%nat, (13), Ok [13;0;0;0]%N)].
Example py_pack_u : forallb (fun c => let '(k, n, r) := c in same bytes_eqb (pack_u k n) r) pack_u_cases = true.
Proof. vm_compute. reflexivity. Qed.

(** struct.pack('<i') *)
Definition pack_i32_cases : list (Z * res bytes) := [
  ((0), Ok [0;0;0;0]%N);
  ((1), Ok [1;0;0;0]%N);
  ((-1), Ok [255;255;255;255]%N);
  ((127), Ok [127;0;0;0]%N);
  ((128), Ok [128;0;0;0]%N);
  ((255), Ok [255;0;0;0]%N);
  ((256), Ok [0;1;0;0]%N);
  ((65535), Ok [255;255;0;0]%N);
  ((65536), Ok [0;0;1;0]%N);
  ((2147483647), Ok [255;255;255;127]%N);
  ((2147483648), Err EStruct);
  ((-2147483648), Ok [0;0;0;128]%N);
  ((-2147483649), Err EStruct);
  ((4294967295), Err EStruct);
  ((4294967296), Err EStruct);
  ((-11162055), Ok [57;174;85;255]%N);
  ((3969), Ok [129;15;0;0]%N);
  ((-133367269), Ok [27;250;12;248]%N);
  ((6112), Ok [224;23;0;0]%N);
  ((-11120), Ok [144;212;255;255]%N);
  ((-2869802504), Err EStruct);
  ((-1), Ok [255;255;255;255]%N);
  ((-2121384432), Ok [16;62;142;129]%N);
  ((-850), Ok [174;252;255;255]%N);
  ((-9), Ok [247;255;255;255]%N);
  ((-442), Ok [70;254;255;255]%N);
  ((-118144), Ok [128;50;254;255]%N);
  ((-14530), Ok [62;199;255;255]%N);
  ((2), Ok [2;0;0;0]%N);
  ((-1045178), Ok [70;13;240;255]%N);
  ((87999171), Ok [195;194;62;5]%N);
  ((-361), Ok [151;254;255;255]%N);
  ((5225320), Ok [104;187;79;0]%N);
  ((-62303), Ok [161;12;255;255]%N);
  ((6348), Ok [204;24;0;0]%N);
  ((-8), Ok [248;255;255;255]%N);
  ((-1), Ok [255;255;255;255]%N);
  ((-32260), Ok [252;129;255;255]%N);
  ((-2040231464), Ok [216;137;100;134]%N);
  ((261597109), Ok [181;167;151;15]%N)].
Example py_pack_i32 : forallb (fun c => let '(n, r) := c in same bytes_eqb (pack_i32 n) r) pack_i32_cases = true.
Proof. vm_compute. reflexivity. Qed.

(** struct.unpack('<i') *)
Definition unpack_i32_cases : list (bytes * Z) := [
  ([144;226;25;70]%N, (1176101520));
  ([203;201;130;1]%N, (25348555));
  ([46;251;163;117]%N, (1973680942));
  ([149;230;172;194]%N, (-1028856171));
  ([26;178;69;46]%N, (776319514));
  ([10;60;244;122]%N, (2062826506));
  ([151;3;71;186]%N, (-1169751145));
  ([75;9;117;221]%N, (-579532469));
  ([126;200;198;148]%N, (-1798911874));
  ([42;252;137;180]%N, (-1266025430));
  ([238;120;248;66]%N, (1123580142));
  ([167;72;63;137]%N, (-1992341337));
  ([97;189;200;109]%N, (1841872225));
  ([241;91;69;65]%N, (1095064561));
  ([12;39;87;173]%N, (-1386797300));
  ([125;162;43;74]%N, (1244373629));
  ([132;49;67;155]%N, (-1690095228));
  ([253;20;22;243]%N, (-216656643));
  ([200;48;68;159]%N, (-1622921016));
  ([87;233;226;247]%N, (-136124073));
  ([91;97;103;148]%N, (-1805164197));
  ([97;228;205;239]%N, (-271719327));
  ([156;58;111;105]%N, (1768897180));
  ([106;147;223;242]%N, (-220228758));
  ([186;125;94;190]%N, (-1101103686))].
Example py_unpack_i32 : forallb (fun c => let '(b, n) := c in Z.eqb (unpack_i32 b) n) unpack_i32_cases = true.
Proof. vm_compute. reflexivity. Qed.

(** struct.pack('<ns') *)
Definition pack_s_cases : list (nat * bytes * bytes) := [
  (4%nat, [5;171]%N, [5;171;0;0]%N);
  (6%nat, [145;65]%N, [145;65;0;0;0;0]%N);
  (8%nat, [91]%N, [91;0;0;0;0;0;0;0]%N);
  (8%nat, [18;59;143;213;45;98;226;227]%N, [18;59;143;213;45;98;226;227]%N);
  (6%nat, []%N, [0;0;0;0;0;0]%N);
  (2%nat, [48;254]%N, [48;254]%N);
  (4%nat, [124;140]%N, [124;140;0;0]%N);
  (3%nat, [48]%N, [48;0;0]%N);
  (8%nat, [228;221;171;121;85;28;231;45]%N, [228;221;171;121;85;28;231;45]%N);
  (8%nat, []%N, [0;0;0;0;0;0;0;0]%N);
  (4%nat, []%N, [0;0;0;0]%N);
  (4%nat, [134;157;205;32;186]%N, [134;157;205;32]%N);
  (0%nat, []%N, []%N);
  (2%nat, [117;36]%N, [117;36]%N);
  (7%nat, [21;0;111;199;236;47]%N, [21;0;111;199;236;47;0]%N);
  (4%nat, [151;168;53;228;96;76;60]%N, [151;168;53;228]%N);
  (0%nat, [95;103;92;115;149]%N, []%N);
  (0%nat, [26]%N, []%N);
  (3%nat, [193;141;174;67;163;27]%N, [193;141;174]%N);
  (0%nat, [243]%N, []%N);
  (2%nat, [107;178]%N, [107;178]%N);
  (2%nat, [149;51]%N, [149;51]%N);
  (2%nat, [155;238;104;43;60;79;13;79]%N, [155;238]%N);
  (8%nat, [157;186;11;133;13]%N, [157;186;11;133;13;0;0;0]%N);
  (7%nat, []%N, [0;0;0;0;0;0;0]%N)].
Example py_pack_s : forallb (fun c => let '(n, b, r) := c in bytes_eqb (pack_s n b) r) pack_s_cases = true.
Proof. vm_compute. reflexivity. Qed.

(** struct.pack('<f') *)
Definition pack_f32_cases : list (pyfloat * res bytes) := [
  (S754_finite false 5137311486991038 (35), Ok [220;2;18;107]%N);
  (S754_finite false 8748963377356213 (2), Ok [22;169;248;90]%N);
  (S754_finite false 4769054311753234 (-938), Ok [0;0;0;0]%N);
  (S754_finite true 6866467382221409 (-1037), Ok [0;0;0;128]%N);
  (S754_finite true 5684447584751064 (28), Ok [205;143;161;231]%N);
  (S754_finite false 8258937300189184 (-45), Ok [174;187;106;67]%N);
  (S754_finite true 8557223318770747 (224), Err EOverflow);
  (S754_finite false 9007198986305535 (75), Ok [255;255;127;127]%N);
  (S754_zero true, Ok [0;0;0;128]%N);
  (S754_finite false 5649002496901378 (538), Err EOverflow);
  (S754_finite true 6319379768329880 (-107), Ok [138;155;51;164]%N);
  (S754_finite true 7686505273261657 (61), Ok [176;118;90;248]%N);
  (S754_finite false 4503599627370496 (-202), Ok [0;0;0;0]%N);
  (S754_finite false 7353125476237312 (-154), Ok [8;253;208;12]%N);
  (S754_zero false, Ok [0;0;0;0]%N);
  (S754_finite false 7894658871017216 (47), Ok [52;97;96;113]%N);
  (S754_finite false 6037058913042432 (-27), Ok [98;149;43;76]%N);
  (S754_finite false 7072835033560425 (-1026), Ok [0;0;0;0]%N);
  (S754_zero true, Ok [0;0;0;128]%N);
  (S754_finite false 8953856029360128 (-171), Ok [224;123;126;4]%N);
  (S754_finite false 8273710108639232 (41), Ok [42;39;107;110]%N);
  (S754_finite false 5515130997571584 (-1), Ok [220;191;28;89]%N);
  (S754_finite false 8727527165602112 (59), Ok [30;13;120;119]%N);
  (S754_finite false 7326177898744409 (-809), Ok [0;0;0;0]%N);
  (S754_finite true 4880555485167616 (-5), Ok [183;182;10;215]%N);
  (S754_finite false 5683716758546664 (29), Ok [123;138;33;104]%N);
  (S754_finite true 6031173651500384 (-4), Ok [144;106;171;215]%N);
  (S754_finite true 5306476654493696 (-138), Ok [179;209;150;148]%N);
  (S754_finite false 5613894038978560 (-78), Ok [116;142;159;50]%N);
  (S754_finite false 5596328159608832 (-63), Ok [166;14;31;58]%N);
  (S754_finite false 4992089343393792 (-57), Ok [59;226;13;61]%N);
  (S754_finite true 8273480847186326 (-28), Ok [127;37;235;203]%N);
  (S754_finite false 7490976746569728 (45), Ok [8;232;84;112]%N);
  (S754_finite false 9007198986305536 (75), Err EOverflow);
  (S754_finite true 4503599627370496 (-50), Ok [0;0;128;192]%N);
  (S754_finite false 7683725009764624 (-23), Ok [117;98;90;78]%N);
  (S754_infinity true, Ok [0;0;128;255]%N);
  (S754_finite false 4840833193102256 (-130), Ok [178;149;137;24]%N);
  (S754_finite false 5251017083977728 (-97), Ok [46;62;21;41]%N);
  (S754_finite true 7225787975010499 (95), Err EOverflow);
  (S754_finite false 5908154328023040 (-49), Ok [123;235;39;65]%N);
  (S754_finite true 8867582752849920 (-170), Ok [40;8;252;132]%N);
  (S754_finite true 6028466674280773 (-1060), Ok [0;0;0;128]%N);
  (S754_finite true 5708336364284373 (-29), Ok [157;61;34;203]%N);
  (S754_finite false 7588838651459653 (-640), Ok [0;0;0;0]%N);
  (S754_finite false 6627981858639872 (-10), Ok [234;96;188;84]%N);
  (S754_finite true 8817496714184356 (801), Err EOverflow);
  (S754_finite false 7225421334577152 (-34), Ok [220;91;205;72]%N);
  (S754_finite true 6834749969690892 (-28), Ok [90;65;194;203]%N);
  (S754_finite true 6532179669218304 (-8), Ok [221;167;185;213]%N);
  (S754_finite true 5391705448644608 (53), Ok [210;61;25;244]%N);
  (S754_finite false 4503599627370496 (-201), Ok [1;0;0;0]%N);
  (S754_finite true 7243864846893056 (-23), Ok [14;226;77;206]%N);
  (S754_finite false 4503599627370496 (-202), Ok [0;0;0;0]%N);
  (S754_finite true 6684897788741256 (6), Ok [8;255;189;220]%N);
  (S754_finite false 6706312259829760 (63), Ok [216;154;62;121]%N);
  (S754_finite true 4511235542351872 (-145), Ok [143;55;0;145]%N);
  (S754_finite false 6683475113410560 (73), Ok [174;244;61;126]%N);
  (S754_finite true 7880807500826898 (-189), Ok [0;28;0;128]%N);
  (S754_finite true 8964134139888166 (57), Ok [169;198;126;246]%N);
  (S754_finite true 7110368813403872 (-3), Ok [190;22;74;216]%N);
  (S754_finite false 9007199254740991 (971), Err EOverflow);
  (S754_finite true 6874147274703213 (660), Err EOverflow);
  (S754_finite false 6825321212464684 (-158), Ok [191;252;193;10]%N);
  (S754_finite true 7952309652815872 (-28), Ok [171;4;226;203]%N);
  (S754_finite true 5345314130191534 (-63), Ok [71;236;23;186]%N);
  (S754_finite true 5087899499891218 (-89), Ok [87;155;16;173]%N);
  (S754_finite false 7344737673543680 (-40), Ok [0;192;208;69]%N);
  (S754_finite false 5552746589585408 (-183), Ok [140;238;4;0]%N);
  (S754_finite false 8535015918927872 (35), Ok [106;148;114;107]%N);
  (S754_finite true 5687389612048296 (-18), Ok [53;165;161;208]%N);
  (S754_finite false 5741726896151510 (-715), Ok [0;0;0;0]%N);
  (S754_finite false 7132998470205440 (53), Ok [101;187;74;116]%N);
  (S754_finite false 7425928661565440 (-42), Ok [190;14;211;68]%N);
  (S754_finite false 4624746696146944 (-141), Ok [118;113;3;19]%N);
  (S754_infinity false, Ok [0;0;128;127]%N);
  (S754_finite true 7091193456161667 (-59), Ok [57;139;73;188]%N);
  (S754_finite false 7619639739678720 (-119), Ok [45;144;88;30]%N);
  (S754_finite false 8474245621350400 (-176), Ok [64;218;240;1]%N);
  (S754_finite false 6883867281588224 (-133), Ok [186;166;67;23]%N);
  (S754_finite true 4691201511148474 (44), Ok [252;84;133;239]%N);
  (S754_finite true 5460278896492544 (36), Ok [194;48;155;235]%N);
  (S754_finite true 5260417962082304 (65), Ok [148;130;21;250]%N);
  (S754_finite false 9007198986305535 (75), Ok [255;255;127;127]%N);
  (S754_finite false 5322243842422058 (-43), Ok [108;68;23;68]%N);
  (S754_finite false 7330850970533888 (-165), Ok [246;90;80;7]%N);
  (S754_finite true 7621695380435856 (12), Ok [34;159;216;223]%N);
  (S754_finite false 5993528614191104 (-28), Ok [169;88;170;75]%N);
  (S754_finite true 6549425389993929 (-535), Ok [0;0;0;128]%N);
  (S754_infinity true, Ok [0;0;128;255]%N);
  (S754_finite false 7495467134877696 (68), Ok [180;8;213;123]%N);
  (S754_finite false 6365945496862720 (-63), Ok [90;238;52;58]%N);
  (S754_finite true 7289385224926822 (71), Ok [66;45;79;253]%N);
  (S754_finite false 5712950405732302 (-300), Ok [0;0;0;0]%N);
  (S754_finite true 8706198872984336 (426), Err EOverflow);
  (S754_finite false 7592220936896512 (-167), Ok [174;200;87;6]%N);
  (S754_finite false 7428745108917320 (9), Ok [60;35;83;94]%N);
  (S754_finite true 8102152038127402 (-128), Ok [234;70;230;153]%N);
  (S754_finite true 7154849794572116 (-61), Ok [98;90;75;187]%N);
  (S754_finite false 8745778888287569 (-772), Ok [0;0;0;0]%N)].
Example py_pack_f32 : forallb (fun c => let '(f, r) := c in same bytes_eqb (pack_f32 f) r) pack_f32_cases = true.
Proof. vm_compute. reflexivity. Qed.

(** struct.unpack('<f') *)
Definition unpack_f32_cases : list (bytes * pyfloat) := [
  ([45;202;146;58]%N, S754_finite false 5164705152761856 (-62));
  ([226;93;0;128]%N, S754_finite true 6606415615492096 (-187));
  ([151;172;92;55]%N, S754_finite false 7764282427047936 (-69));
  ([104;229;128;128]%N, S754_finite true 4535128982290432 (-178));
  ([18;230;58;210]%N, S754_finite true 6575913831497728 (-15));
  ([72;120;128;0]%N, S754_finite false 4520130956492800 (-178));
  ([194;238;21;175]%N, S754_finite true 5275286065119232 (-85));
  ([169;18;202;130]%N, S754_finite true 7109807794290688 (-174));
  ([135;133;128;255]%N, S754_nan);
  ([16;167;1;128]%N, S754_finite true 7442594208415744 (-185));
  ([165;127;3;10]%N, S754_finite false 4626696074428416 (-159));
  ([89;118;184;27]%N, S754_finite false 6490190042365952 (-124));
  ([43;194;105;110]%N, S754_finite false 8224644939120640 (41));
  ([48;82;91;199]%N, S754_finite true 7716673251442688 (-37));
  ([59;66;0;0]%N, S754_finite false 4660554912235520 (-187));
  ([187;248;154;233]%N, S754_finite true 5452578557001728 (32));
  ([153;83;39;120]%N, S754_finite false 5887279713222656 (61));
  ([135;131;196;12]%N, S754_finite false 6914213909889024 (-154));
  ([153;84;63;98]%N, S754_finite false 6731842082308096 (17));
  ([95;107;192;255]%N, S754_nan);
  ([96;143;1;128]%N, S754_finite true 7025879301488640 (-185));
  ([46;125;1;0]%N, S754_finite false 6705783978852352 (-185));
  ([242;153;109;77]%N, S754_finite false 8359854267695104 (-25));
  ([183;97;219;183]%N, S754_finite true 7718807313317888 (-68));
  ([75;112;113;208]%N, S754_finite true 8494867101515776 (-19));
  ([232;192;250;99]%N, S754_finite false 8822605855326208 (20));
  ([128;59;127;128]%N, S754_finite true 8953185746026496 (-179));
  ([84;228;82;138]%N, S754_finite true 7420099317202944 (-159));
  ([30;3;63;20]%N, S754_finite false 6720643491954688 (-139));
  ([151;176;203;80]%N, S754_finite false 7166697857351680 (-18));
  ([76;166;40;249]%N, S754_finite true 5933830179389440 (63));
  ([204;209;192;127]%N, S754_nan);
  ([48;0;230;141]%N, S754_finite true 8092431350235136 (-152));
  ([100;24;1;128]%N, S754_finite true 4932684040110080 (-185));
  ([118;110;9;179]%N, S754_finite true 4835440611819520 (-77));
  ([193;155;45;170]%N, S754_finite true 6108303025242112 (-95));
  ([24;22;207;93]%N, S754_finite false 7286201564266496 (8));
  ([178;51;143;110]%N, S754_finite false 5038470158352384 (42));
  ([202;116;78;70]%N, S754_finite false 7264032016826368 (-39));
  ([151;69;128;128]%N, S754_finite true 4513163982667776 (-178));
  ([85;128;180;120]%N, S754_finite false 6350824796061696 (62));
  ([158;167;239;185]%N, S754_finite true 8432102060064768 (-64));
  ([78;91;127;128]%N, S754_finite true 8961928151957504 (-179));
  ([92;14;244;113]%N, S754_finite false 8586960327147520 (48));
  ([87;173;127;0]%N, S754_finite false 8984477804003328 (-179));
  ([207;153;128;128]%N, S754_finite true 4524738919530496 (-178));
  ([96;37;129;255]%N, S754_nan);
  ([216;123;127;0]%N, S754_finite false 8970872421351424 (-179));
  ([6;0;0;128]%N, S754_finite true 6755399441055744 (-199));
  ([173;116;39;173]%N, S754_finite true 5891825936105472 (-89))].
Example py_unpack_f32 : forallb (fun c => let '(b, f) := c in sf_eqb (unpack_f32 b) f) unpack_f32_cases = true.
Proof. vm_compute. reflexivity. Qed.

(** float() of the numbers the lexer reads *)
Definition float_cases : list (str * pyfloat) := [
  ([45;48;46;50;48;54;52;49;51;48;50;48]%N, S754_finite true 7436812799651350 (-55));
  ([57;57;46;49;51;49;49;50;48;54;54;48;48;54;53;54;50;57;50;48;52;53;48;52;55;55;52;56;57;52]%N, S754_finite false 6975732469773301 (-46));
  ([45;52;46;52]%N, S754_finite true 4953959590107546 (-50));
  ([49;52;48;52;49;52;57;50;46;52;54;49;49;53;55;51;49;50;55;52;53;49;52;54;51;55;54;53;52;54;48;53;57;55;50;53;56;48;55]%N, S754_finite false 7538468863462651 (-29));
  ([55;53;53;52;57;48;49;57;53;48;49;55;56;53;50;46;50;50;50;57;49;48;55;52;52;52;52;50;50;51;57;55;53;56;50;57;49;55;54;54;51;54;48;56;48]%N, S754_finite false 6043921560142818 (-3));
  ([48;49;55;50;49;55;52;52;53;51;48;57;57;48;51;53;49;48;55;53;50;48;56;48;48;48;48;48;48;48;48;48;48;48;48;48;48;48;48;48;48;48;48;48;48;48;48;48;48;48;48;48;48;48;48;48;48;48;48;48;48;48;48;48;48;48;48;48;48;48;48;48;48;48;48;48;48;48;48;48;48;48;48;48;48;48;48;48;48;48;48;48;48;48;48;48;48;48;48;48;48;48;48;48;48;48;48;48;48;48;48;48;48;48;48;48;48;48;48;48;48;48;48;48;48;48;48;48;48;48;48;48;48;48;48;48;48;48;48;48;48;48;48;48;48;48;48;48;48;48;48;48;48;48;48;48;48;48;48;48;48;48;48;48;48;48;48;48;48;48;48;48;48;48;48;48;48;48;48;48;48;48;48;48;48;48;48;48;48;48;48;48;48;48;48;48;48;48;48;48;48;48;48;48;48;48;48;48;48;48;48;48;48;48;48;48;48;48;48;48;48;48;48;48;48;48;48;48;48;48;48;48;48;48;48;48;48;48;48;48;48;48;48;48;48;48;48;48;48;48;48;48;48;48;48;48;48;48;48;48;48;48;48;48;48;48;48;48;48;48;48;48;48;48;48;48;48;48;48;48;48;48;48;48;48;48;48;48;48;48;48;48;46;55;55;54]%N, S754_finite false 4972933670431697 (912));
  ([52;51;53;51;55;49;52;53;52;54;52;54;56;55;56;53;48;53;49;49;55;54;57;57;53;50;56;53;54;52;52;54;55;54;46;48;48;54;48;57;52;56;48;57;56;50;49;56]%N, S754_finite false 7552490831461119 (59));
  ([45;53;46;57;51;48;56;52;55;52;48;54;49;55]%N, S754_finite true 6677540542104621 (-50));
  ([53;46;52;53;55;57;52;55;51;54;55;54;52;49;49;48;50;56;49]%N, S754_finite false 6145102432779063 (-50));
  ([48;49;51;54;50;54;49;52;50;52;53;49;51;52;57;51;56;51;56;54;55;57;56;55;46;48;50;55;49;48;51;51;51;57;54;51;50;57;56]%N, S754_finite false 6497451043772404 (21));
  ([45;52;48;51;49;52;55;50;53;50;54;50;48;57;48;48;48;48;48;48;48;48;48;48;48;48;48;48;48;48;48;48;48;48;48;48;48;48;48;48;48;48;48;48;48;48;48;48;48;48;48;48;48;48;48;48;48;48;48;48;48;48;48;48;48;48;48;48;48;48;48;48;48;48;48;48;48;48;48;48;48;48;48;48;48;48;48;48;48;48;48;48;48;48;48;48;48;48;48;48;48;48;48;48;48;48;48;48;48;48;48;48;48;48;48;48;48;48;48;48;48;48;48;48;48;48;48;48;48;48;48;48;48;48;48;48;48;48;48;48;48;48;48;48;48;48;48;48;48;48;48;48;48;48;48;48;48;48;48;48;48;48;48;48;48;48;48;48;48;48;48;48;48;48;48;48;48;48;48;48;48;48;48;48;48;48;48;48;48;48;48;48;48;48;48;48;48;48;48;48;48;48;48;48;48;48;48;48;48;48;48;48;48;48;48;48;48;48;48;48;48;48;48;48;48;48;48;48;48;48;48;48;48;48;48;48;48;48;48;48;48;48;48;48;48;48;48;48;48;48;48;48;48;48;48;48;48;48;48;48;48;48;48;48;48;48;48;48;48;48;48;48;48;48;48;48;48;48;48;46;55;53;50;55;49;54;53;48;49;57;49;52;56;57;56;49;52;51;51;52]%N, S754_finite true 5121149766580113 (870));
  ([45;54;51;56;54;53;54;50;50;52;49;49;56;57;53;48;49;49;54;54;46;48;56;56]%N, S754_finite true 6236877188661622 (10));
  ([50;46;51;55;55]%N, S754_finite false 5352528157129834 (-51));
  ([48;46;48;48;48;48;48;48;48;48;48;48;48;48;48;48;48;48;48;48;48;48;48;48;48;48;48;48;48;48;48;48;48;48;48;48;48;48;48;48;48;48;48;48;48;48;48;48;48;48;48;48;48;48;48;48;48;48;48;48;48;48;48;48;48;48;48;48;48;48;48;48;48;48;48;48;48;48;48;48;48;48;48;48;48;48;48;48;48;48;48;48;48;48;48;48;48;48;48;48;48;48;48;48;48;48;48;48;48;48;48;48;48;48;48;48;48;48;48;48;48;48;48;48;48;48;48;48;48;48;48;48;48;48;48;48;48;48;48;48;48;48;48;48;48;48;48;48;48;48;48;48;48;48;48;48;48;48;48;48;48;48;48;48;48;48;48;48;48;48;48;48;48;48;48;48;48;48;48;48;48;48;48;48;48;48;48;48;48;48;48;48;48;48;48;48;48;48;48;48;48;48;48;48;48;48;48;48;48;48;48;48;48;48;48;48;48;48;48;48;48;48;48;48;48;48;48;48;48;48;48;48;48;48;48;48;48;48;48;48;48;48;48;48;48;48;48;48;48;48;48;48;48;48;48;48;48;48;48;48;48;48;48;48;48;48;48;48;48;48;48;48;48;48;48;48;48;48;48;48;48;48;48;48;48;48;48;48;48;48;48;48;48;48;48;48;48;48;48;48;48;48;48;52]%N, S754_finite false 7721033222477364 (-1054));
  ([53;51;57;54;52;57;54;53;49;52;56;50;52;50;54;50;49;46;57;57;57;51;50;56;52;53;53;53;48;57;57;50;54;55;50;49;57;50;52;54;56;54;53;57;56;53;49;57;48;50;53;53;57;53;51]%N, S754_finite false 6745620643530328 (3));
  ([57;56;51;52;48;56;51;54;49;49;48;54;54;48;48;48;48;48;48;48;48;48;48;48;48;48;48;48;48;48;48;48;48;48;48;48;48;48;48;48;48;48;48;48;48;48;48;48;48;48;48;48;48;48;48;48;48;48;48;48;48;48;48;48;48;48;48;48;48;48;48;48;48;48;48;48;48;48;48;48;48;48;48;48;48;48;48;48;48;48;48;48;48;48;48;48;48;48;48;48;48;48;48;48;48;48;48;48;48;48;48;48;48;48;48;48;48;48;48;48;48;48;48;48;48;48;48;48;48;48;48;48;48;48;48;48;48;48;48;48;48;48;48;48;48;48;48;48;48;48;48;48;48;48;48;48;48;48;48;48;48;48;48;48;48;48;48;48;48;48;48;48;48;48;48;48;48;48;48;48;48;48;48;48;48;48;48;48;48;48;48;48;48;48;48;48;48;48;48;48;48;48;48;48;48;48;48;48;48;48;48;48;48;48;48;48;48;48;48;48;48;48;48;48;48;48;48;48;48;48;48;48;48;48;48;48;48;48;48;48;48;48;48;48;48;48;48;48;48;48;48;48;48;48;48;48;48;48;48;48;48;48;48;48;48;48;48;48;48;48;48;48;48;48;48;48;48;48;48;48;48;48;48;48;48;48;48;48;48;48;48;48;48;48;48;48;48;48;46;56;50;52;54;49;55;50;54;55;55;51;52;49;52;50;52;55]%N, S754_finite false 8465019429436129 (937));
  ([45;49;48;50;48;53;46;57]%N, S754_finite true 5610752860959539 (-39));
  ([45;55;55;50;48;48;48;48;48;48;48;48;48;48;48;48;48;48;48;48;48;48;48;48;48;48;48;48;48;48;48;48;48;48;48;48;48;48;48;48;48;48;48;48;48;48;48;48;48;48;48;48;48;48;48;48;48;48;48;48;48;48;48;48;48;48;48;48;48;48;48;48;48;48;48;48;48;48;48;48;48;48;48;48;48;48;48;48;48;48;48;48;48;48;48;48;48;48;48;48;48;48;48;48;48;48;48;48;48;48;48;48;48;48;48;48;48;48;48;48;48;48;48;48;48;48;48;48;48;48;48;48;48;48;48;48;48;48;48;48;48;48;48;48;48;48;48;48;48;48;48;48;48;48;48;48;48;48;48;48;48;48;48;48;48;48;48;48;48;48;48;48;48;48;48;48;48;48;48;48;48;48;48;48;48;48;48;48;48;48;48;48;48;48;48;48;48;48;48;48;48;48;48;48;48;48;48;48;48;48;48;48;48;48;48;48;48;48;48;48;48;48;48;48;48;48;48;48;48;48;48;48;48;48;48;48;48;48;48;48;48;48;48;48;48;48;48;48;48;48;48;48;48;48;48;48;48;48;48;48;48;48;48;48;48;48;48;48;48;48;48;48;48;48;48;48;48;48;48;48;48;48;48;48;48;48;48;48;48;48;48;48;46;51]%N, S754_finite true 5574440232670594 (914));
  ([52;48;48;48;48;48;48;48;48;48;48;48;48;48;48;48;48;48;48;48;48;48;48;48;48;48;48;48;48;48;48;48;48;48;48;48;48;48;48;48;48;48;48;48;48;48;48;48;48;48;48;48;48;48;48;48;48;48;48;48;48;48;48;48;48;48;48;48;48;48;48;48;48;48;48;48;48;48;48;48;48;48;48;48;48;48;48;48;48;48;48;48;48;48;48;48;48;48;48;48;48;48;48;48;48;48;48;48;48;48;48;48;48;48;48;48;48;48;48;48;48;48;48;48;48;48;48;48;48;48;48;48;48;48;48;48;48;48;48;48;48;48;48;48;48;48;48;48;48;48;48;48;48;48;48;48;48;48;48;48;48;48;48;48;48;48;48;48;48;48;48;48;48;48;48;48;48;48;48;48;48;48;48;48;48;48;48;48;48;48;48;48;48;48;48;48;48;48;48;48;48;48;48;48;48;48;48;48;48;48;48;48;48;48;48;48;48;48;48;48;48;48;48;48;48;48;48;48;48;48;48;48;48;48;48;48;48;48;48;48;48;48;48;48;48;48;48;48;48;48;48;48;48;48;48;48;48;48;48;48;48;48;48;48;48;48;48;48;48;48;48;48;48;48;48;48;48;48;48;48;48;48;48;48;48;48;48;48;46;49;50]%N, S754_finite false 5915260930833874 (903));
  ([55;49;55;56;49;57;48;51;51;51;51;48;57;56;54;49;55;52;56;51;54;55;54;49;53;54;50;48;46;54;53;53;52;57;51;54;53;54;51;48;57;56;53;50;48;53;49;56;57;48;53;57;49;57;55;48;53;55;52;55;53;57;56;53;54;52;56;52;55]%N, S754_finite false 6528526076462969 (40));
  ([49;50;55;55;48;48;48;48;48;48;48;48;48;48;48;48;48;48;48;48;48;48;48;48;48;48;48;48;48;48;48;48;48;48;48;48;48;48;48;48;48;48;48;48;48;48;48;48;48;48;48;48;48;48;48;48;48;48;48;48;48;48;48;48;48;48;48;48;48;48;48;48;48;48;48;48;48;48;48;48;48;48;48;48;48;48;48;48;48;48;48;48;48;48;48;48;48;48;48;48;48;48;48;48;48;48;48;48;48;48;48;48;48;48;48;48;48;48;48;48;48;48;48;48;48;48;48;48;48;48;48;48;48;48;48;48;48;48;48;48;48;48;48;48;48;48;48;48;48;48;48;48;48;48;48;48;48;48;48;48;48;48;48;48;48;48;48;48;48;48;48;48;48;48;48;48;48;48;48;48;48;48;48;48;48;48;48;48;48;48;48;48;48;48;48;48;48;48;48;48;48;48;48;48;48;48;48;48;48;48;48;48;48;48;48;48;48;48;48;48;48;48;48;48;48;48;48;48;48;48;48;48;48;48;48;48;48;48;48;48;48;48;48;48;48;48;48;48;48;48;48;48;48;48;48;48;48;48;48;48;48;48;48;48;48;48;48;48;48;48;48;48;48;48;48;48;48;48;48;48;48;48;48;48;48;48;48;48;48;48;48;48;48;48;48;48;48;48;48;48;48;48;48;48;46;52;50;57;48;56;53;48;49;49;57;52;53;54;53;52;51;49;55;57;50;51;50;54;55;54;52;49;52;51;57]%N, S754_finite false 8386389592412842 (954));
  ([45;56;52;55;46;53]%N, S754_finite true 7454688836321280 (-43));
  ([45;51;57;55;46;55;51;55;55;55;50;49;48;55;54;56;51;55;56;55;55;49;56;50;50;50;55;51;57;55]%N, S754_finite true 6997076883809906 (-44));
  ([53;49;57;57;55;53;49;46;50;50;48]%N, S754_finite false 5583190359309025 (-30));
  ([45;52;48;48;46;49;52;50;52;48;49;57;49;52;51;50;54]%N, S754_finite true 7039379578736304 (-44));
  ([49;46;50;56;54]%N, S754_finite false 5791629120798458 (-52));
  ([56;49;48;49;53;56;50;53;57;52;52;50;52;51;51;50;57;55;50;54;46;53;48;49;56;57;54;53;52;53;50;51;50;56;48;50;52;52;51;50;55;57;52;52;54;51;49;53;54;48;48;50;50;52;57]%N, S754_finite false 4944813595229695 (14));
  ([45;53;49;49;54;49;54;55;46;54;51;55]%N, S754_finite true 5493443170442150 (-30));
  ([45;51;54;46;57;57]%N, S754_finite true 5205879694263583 (-47));
  ([53;55;52;49;56;48;48;48;48;48;48;48;48;48;48;48;48;48;48;48;48;48;48;48;48;48;48;48;48;48;48;48;48;48;48;48;48;48;48;48;48;48;48;48;48;48;48;48;48;48;48;48;48;48;48;48;48;48;48;48;48;48;48;48;48;48;48;48;48;48;48;48;48;48;48;48;48;48;48;48;48;48;48;48;48;48;48;48;48;48;48;48;48;48;48;48;48;48;48;48;48;48;48;48;48;48;48;48;48;48;48;48;48;48;48;48;48;48;48;48;48;48;48;48;48;48;48;48;48;48;48;48;48;48;48;48;48;48;48;48;48;48;48;48;48;48;48;48;48;48;48;48;48;48;48;48;48;48;48;48;48;48;48;48;48;48;48;48;48;48;48;48;48;48;48;48;48;48;48;48;48;48;48;48;48;48;48;48;48;48;48;48;48;48;48;48;48;48;48;48;48;48;48;48;48;48;48;48;48;48;48;48;48;48;48;48;48;48;48;48;48;48;48;48;48;48;48;48;48;48;48;48;48;48;48;48;48;48;48;48;48;48;48;48;48;48;48;48;48;48;48;48;48;48;48;48;48;48;48;48;48;48;48;48;48;48;48;48;48;48;48;48;48;48;48;48;48;48;48;48;48;48;48;48;48;48;48;48;48;48;46;50;54;55;48;50;54;55;48;56;49]%N, S754_finite false 6633641643098034 (910));
  ([50;51;46;53]%N, S754_finite false 6614661952700416 (-48));
  ([51;52;54;51;52;48;56;53;53;46;50;57;55;49;55;48;51;49;53;48;57;52;57;56;48;49;57;56;50;53]%N, S754_finite false 5810635338945371 (-24));
  ([45;49;46;50;50;48;55;50;54;50;53;48;54;48;54;51;53;52;50;50;53;55;56;49;48;49;48;50;53;54;55;53;49;55;55;52;56]%N, S754_finite true 5497662287352160 (-52));
  ([48;46;48;48;48;48;48;48;48;48;48;48;48;48;48;48;48;48;48;48;48;48;48;48;48;48;48;48;48;48;48;48;48;48;48;48;48;48;48;48;48;48;48;48;48;48;48;48;48;48;48;48;48;48;48;48;48;48;48;48;48;48;48;48;48;48;48;48;48;48;48;48;48;48;48;48;48;48;48;48;48;48;48;48;48;48;48;48;48;48;48;48;48;48;48;48;48;48;48;48;48;48;48;48;48;48;48;48;48;48;48;48;48;48;48;48;48;48;48;48;48;48;48;48;48;48;48;48;48;48;48;48;48;48;48;48;48;48;48;48;48;48;48;48;48;48;48;48;48;48;48;48;48;48;48;48;48;48;48;48;48;48;48;48;48;48;48;48;48;48;48;48;48;48;48;48;48;48;48;48;48;48;48;48;48;48;48;48;48;48;48;48;48;48;48;48;48;48;48;48;48;48;48;48;48;48;48;48;48;48;48;48;48;48;48;48;48;48;48;48;48;48;48;48;48;48;48;48;48;48;48;48;48;48;48;48;48;48;48;48;48;48;48;48;48;48;48;48;48;48;48;48;48;48;48;48;48;48;48;48;48;48;48;48;48;48;48;48;48;48;48;48;48;48;48;48;48;48;48;48;48;48;48;48;48;48;48;48;48;48;48;48;48;48;48;48;48;48;48;50;55;48;52;49;53;52;56;52;48;55;51;50;52;49;53;56;48;53;50]%N, S754_finite false 6371725269780874 (-1041));
  ([45;53;46;48;48]%N, S754_finite true 5629499534213120 (-50));
  ([45;48;56;46;49;54;51;54;52;51;50;51;57;55;48;57;57;56;53;56;52;48;53;50;53]%N, S754_finite true 4595722581542945 (-49));
  ([49;49;54;46;55;55;55;51;57;48;51;52;48;48;52;50;53;48;52;51;51]%N, S754_finite false 8217478306573662 (-46));
  ([45;57;51;52;53;53;51;46;55;52;52;56;48;49;57;48;52;52;51;56;50;51;51;49;54]%N, S754_finite true 8027755540557019 (-33));
  ([50;50;54;50;46;52;54]%N, S754_finite false 4975202154756178 (-41));
  ([45;48;46;48;48;48;48;48;48;48;48;48;48;48;48;48;48;48;48;48;48;48;48;48;48;48;48;48;48;48;48;48;48;48;48;48;48;48;48;48;48;48;48;48;48;48;48;48;48;48;48;48;48;48;48;48;48;48;48;48;48;48;48;48;48;48;48;48;48;48;48;48;48;48;48;48;48;48;48;48;48;48;48;48;48;48;48;48;48;48;48;48;48;48;48;48;48;48;48;48;48;48;48;48;48;48;48;48;48;48;48;48;48;48;48;48;48;48;48;48;48;48;48;48;48;48;48;48;48;48;48;48;48;48;48;48;48;48;48;48;48;48;48;48;48;48;48;48;48;48;48;48;48;48;48;48;48;48;48;48;48;48;48;48;48;48;48;48;48;48;48;48;48;48;48;48;48;48;48;48;48;48;48;48;48;48;48;48;48;48;48;48;48;48;48;48;48;48;48;48;48;48;48;48;48;48;48;48;48;48;48;48;48;48;48;48;48;48;48;48;48;48;48;48;48;48;48;48;48;48;48;48;48;48;48;48;48;48;48;48;48;48;48;48;48;48;48;48;48;48;48;48;48;48;48;48;48;48;48;48;48;48;48;48;48;48;48;48;48;48;48;48;48;48;48;48;48;48;48;48;48;48;48;48;48;48;48;48;48;48;48;48;48;48;48;48;48;48;48;48;50;54;51;54;50;51;50;48;49;51;49;54;48;57;52;51]%N, S754_finite true 6211680589530647 (-1041));
  ([53;50;46;55]%N, S754_finite false 7416865636325786 (-47));
  ([48;46;48;48;48;48;48;48;48;48;48;48;48;48;48;48;48;48;48;48;48;48;48;48;48;48;48;48;48;48;48;48;48;48;48;48;48;48;48;48;48;48;48;48;48;48;48;48;48;48;48;48;48;48;48;48;48;48;48;48;48;48;48;48;48;48;48;48;48;48;48;48;48;48;48;48;48;48;48;48;48;48;48;48;48;48;48;48;48;48;48;48;48;48;48;48;48;48;48;48;48;48;48;48;48;48;48;48;48;48;48;48;48;48;48;48;48;48;48;48;48;48;48;48;48;48;48;48;48;48;48;48;48;48;48;48;48;48;48;48;48;48;48;48;48;48;48;48;48;48;48;48;48;48;48;48;48;48;48;48;48;48;48;48;48;48;48;48;48;48;48;48;48;48;48;48;48;48;48;48;48;48;48;48;48;48;48;48;48;48;48;48;48;48;48;48;48;48;48;48;48;48;48;48;48;48;48;48;48;48;48;48;48;48;48;48;48;48;48;48;48;48;48;48;48;48;48;48;48;48;48;48;48;48;48;48;48;48;48;48;48;48;48;48;48;48;48;48;48;48;48;48;48;48;48;48;48;48;48;48;48;48;48;48;48;48;48;48;48;48;48;48;48;48;48;48;48;48;48;48;48;48;48;48;48;48;48;48;48;48;48;48;48;48;48;48;48;48;48;48;48;48;48;48;48;48;48;48;48;48;48;48;48;48;48;48;54;53;53;55;52;55;55;53;57;50;56;48;52;50;52;48;49;48]%N, S754_finite false 1327248241 (-1074));
  ([48;46;48;48;48;48;48;48;48;48;48;48;48;48;48;48;48;48;48;48;48;48;48;48;48;48;48;48;48;48;48;48;48;48;48;48;48;48;48;48;48;48;48;48;48;48;48;48;48;48;48;48;48;48;48;48;48;48;48;48;48;48;48;48;48;48;48;48;48;48;48;48;48;48;48;48;48;48;48;48;48;48;48;48;48;48;48;48;48;48;48;48;48;48;48;48;48;48;48;48;48;48;48;48;48;48;48;48;48;48;48;48;48;48;48;48;48;48;48;48;48;48;48;48;48;48;48;48;48;48;48;48;48;48;48;48;48;48;48;48;48;48;48;48;48;48;48;48;48;48;48;48;48;48;48;48;48;48;48;48;48;48;48;48;48;48;48;48;48;48;48;48;48;48;48;48;48;48;48;48;48;48;48;48;48;48;48;48;48;48;48;48;48;48;48;48;48;48;48;48;48;48;48;48;48;48;48;48;48;48;48;48;48;48;48;48;48;48;48;48;48;48;48;48;48;48;48;48;48;48;48;48;48;48;48;48;48;48;48;48;48;48;48;48;48;48;48;48;48;48;48;48;48;48;48;48;48;48;48;48;48;48;48;48;48;48;48;48;48;48;48;48;48;48;48;48;48;48;48;48;48;48;48;48;48;48;48;48;48;48;48;48;55;52;50;50;55;48;50;52;49;54;50;48;57;52;57;57;49;56]%N, S754_finite false 5212398896775680 (-1016));
  ([45;57;46;56;57;50;56;55;55]%N, S754_finite true 5569194646352769 (-49));
  ([45;52;57;53;46;57;52;48;50;50;52;49;55;48;51;50;48;48;52;55]%N, S754_finite true 8724672690513647 (-44));
  ([48;53;52;46;55;51;56]%N, S754_finite false 7703688637593944 (-47));
  ([48;56;49;50;56;54;51;50;48;48;56;57;53;57;53;48;48;48;48;48;48;48;48;48;48;48;48;48;48;48;48;48;48;48;48;48;48;48;48;48;48;48;48;48;48;48;48;48;48;48;48;48;48;48;48;48;48;48;48;48;48;48;48;48;48;48;48;48;48;48;48;48;48;48;48;48;48;48;48;48;48;48;48;48;48;48;48;48;48;48;48;48;48;48;48;48;48;48;48;48;48;48;48;48;48;48;48;48;48;48;48;48;48;48;48;48;48;48;48;48;48;48;48;48;48;48;48;48;48;48;48;48;48;48;48;48;48;48;48;48;48;48;48;48;48;48;48;48;48;48;48;48;48;48;48;48;48;48;48;48;48;48;48;48;48;48;48;48;48;48;48;48;48;48;48;48;48;48;48;48;48;48;48;48;48;48;48;48;48;48;48;48;48;48;48;48;48;48;48;48;48;48;48;48;48;48;48;48;48;48;48;48;48;48;48;48;48;48;48;48;48;48;48;48;48;48;48;48;48;48;48;48;48;48;48;48;48;48;48;48;48;48;48;48;48;48;48;48;48;48;48;48;48;48;48;48;48;48;48;48;48;48;48;48;48;48;48;48;48;48;48;48;48;48;48;48;48;48;48;48;48;48;48;48;48;48;48;48;48;48;48;48;48;48;48;48;48;48;48;48;48;48;48;46;51;49]%N, S754_finite false 8541252921596472 (950));
  ([45;55;54;50;46;54;52;52;52;49]%N, S754_finite true 6708291173226937 (-43));
  ([48;54;50;52;55;53;48;55;51;56;46;56;49]%N, S754_finite false 5240789045587476 (-23));
  ([51;46;52;54]%N, S754_finite false 7791227355350958 (-51))].
Example py_float : forallb (fun c => let '(s, f) := c in match py_float U s with Ok g => sf_eqb g f | Err _ => false end) float_cases = true.
Proof. vm_compute. reflexivity. Qed.

(** ==, <, >, <=, >= and bool() of numbers *)
Definition compare_cases : list (num * num * list bool) := [
  (NInt (-5), NInt (2), [false;true;false;true;false;true]);
  (NInt (9007199254740994), NInt (3), [false;false;true;false;true;true]);
  (NInt (-5), NInt (0), [false;true;false;true;false;true]);
  (NFloat (S754_finite false 6048796253356032 (-115)), NInt (179769313486231590772930519078902473361797697894230657273430081157732675805500963132708477322407536021120113879871393357658789768814416622492847430639474124377767893424865485276302219601246094119453082952085005768838150682342462881473913110540827237163350510684586298239947245938479716304835356329624224137216), [false;true;false;true;false;true]);
  (NFloat (S754_finite false 8477151999920108 (-70)), NFloat (S754_finite false 4503599627370496 (76)), [false;true;false;true;false;true]);
  (NFloat (S754_nan), NInt (9007199254740990), [false;false;false;false;false;true]);
  (NInt (-359538626972463181545861038157804946723595395788461314546860162315465351611001926265416954644815072042240227759742786715317579537628833244985694861278948248755535786849730970552604439202492188238906165904170011537676301364684925762947826221081654474326701021369172596479894491876959432609670712659248448274432), NFloat (S754_nan), [false;false;false;false;false;true]);
  (NFloat (S754_finite false 4503599627370496 (1)), NInt (9007199254740992), [true;false;false;true;true;true]);
  (NInt (755597085898409726523), NInt (755597085898409726524), [false;true;false;true;false;true]);
  (NInt (985664056264718147995), NInt (985664056264718147994), [false;false;true;false;true;true]);
  (NFloat (S754_finite true 4503599627370496 (-51)), NFloat (S754_finite false 4739892955947136 (63)), [false;true;false;true;false;true]);
  (NFloat (S754_finite false 4503599627370496 (-50)), NFloat (S754_finite false 6755399441055744 (-51)), [false;false;true;false;true;true]);
  (NFloat (S754_finite false 7189283479748608 (24)), NInt (-485804760115934377428), [false;false;true;false;true;true]);
  (NInt (-2), NInt (2), [false;true;false;true;false;true]);
  (NInt (-359538626972463181545861038157804946723595395788461314546860162315465351611001926265416954644815072042240227759742786715317579537628833244985694861278948248755535786849730970552604439202492188238906165904170011537676301364684925762947826221081654474326701021369172596479894491876959432609670712659248448274432), NInt (-359538626972463181545861038157804946723595395788461314546860162315465351611001926265416954644815072042240227759742786715317579537628833244985694861278948248755535786849730970552604439202492188238906165904170011537676301364684925762947826221081654474326701021369172596479894491876959432609670712659248448274432), [true;false;false;true;true;true]);
  (NFloat (S754_finite false 4503599627370496 (1)), NInt (179769313486231590772930519078902473361797697894230657273430081157732675805500963132708477322407536021120113879871393357658789768814416622492847430639474124377767893424865485276302219601246094119453082952085005768838150682342462881473913110540827237163350510684586298239947245938479716304835356329624224137216), [false;true;false;true;false;true]);
  (NInt (9007199254740993), NInt (179769313486231590772930519078902473361797697894230657273430081157732675805500963132708477322407536021120113879871393357658789768814416622492847430639474124377767893424865485276302219601246094119453082952085005768838150682342462881473913110540827237163350510684586298239947245938479716304835356329624224137216), [false;true;false;true;false;true]);
  (NInt (9007199254740992), NInt (5), [false;false;true;false;true;true]);
  (NFloat (S754_nan), NFloat (S754_finite true 4503599627370496 (-50)), [false;false;false;false;false;true]);
  (NFloat (S754_finite false 5746002158888344 (58)), NInt (1656172363624935141690059769511936), [true;false;false;true;true;true]);
  (NInt (9007199254740991), NFloat (S754_finite true 4503599627370496 (-51)), [false;false;true;false;true;true]);
  (NFloat (S754_nan), NFloat (S754_finite false 4503599627370496 (-51)), [false;false;false;false;false;true]);
  (NFloat (S754_finite false 4503599627370496 (-51)), NInt (-3), [false;false;true;false;true;true]);
  (NInt (-79014885219109579331), NInt (-79014885219109579332), [false;false;true;false;true;true]);
  (NInt (-359538626972463181545861038157804946723595395788461314546860162315465351611001926265416954644815072042240227759742786715317579537628833244985694861278948248755535786849730970552604439202492188238906165904170011537676301364684925762947826221081654474326701021369172596479894491876959432609670712659248448274432), NFloat (S754_finite false 8192511335989248 (-182)), [false;true;false;true;false;true]);
  (NFloat (S754_zero false), NInt (-1), [false;false;true;false;true;false]);
  (NInt (179769313486231590772930519078902473361797697894230657273430081157732675805500963132708477322407536021120113879871393357658789768814416622492847430639474124377767893424865485276302219601246094119453082952085005768838150682342462881473913110540827237163350510684586298239947245938479716304835356329624224137216), NInt (179769313486231590772930519078902473361797697894230657273430081157732675805500963132708477322407536021120113879871393357658789768814416622492847430639474124377767893424865485276302219601246094119453082952085005768838150682342462881473913110540827237163350510684586298239947245938479716304835356329624224137215), [false;false;true;false;true;true]);
  (NFloat (S754_zero false), NInt (9007199254740992), [false;true;false;true;false;false]);
  (NFloat (S754_nan), NInt (9007199254740990), [false;false;false;false;false;true]);
  (NFloat (S754_nan), NInt (4), [false;false;false;false;false;true]);
  (NFloat (S754_nan), NInt (-359538626972463181545861038157804946723595395788461314546860162315465351611001926265416954644815072042240227759742786715317579537628833244985694861278948248755535786849730970552604439202492188238906165904170011537676301364684925762947826221081654474326701021369172596479894491876959432609670712659248448274432), [false;false;false;false;false;true]);
  (NInt (179769313486231590772930519078902473361797697894230657273430081157732675805500963132708477322407536021120113879871393357658789768814416622492847430639474124377767893424865485276302219601246094119453082952085005768838150682342462881473913110540827237163350510684586298239947245938479716304835356329624224137216), NInt (-359538626972463181545861038157804946723595395788461314546860162315465351611001926265416954644815072042240227759742786715317579537628833244985694861278948248755535786849730970552604439202492188238906165904170011537676301364684925762947826221081654474326701021369172596479894491876959432609670712659248448274432), [false;false;true;false;true;true]);
  (NFloat (S754_nan), NInt (9007199254740992), [false;false;false;false;false;true]);
  (NFloat (S754_finite true 4503599627370496 (-52)), NFloat (S754_finite true 6979699813122048 (-42)), [false;false;true;false;true;true]);
  (NFloat (S754_finite true 4503599627370496 (-51)), NInt (179769313486231590772930519078902473361797697894230657273430081157732675805500963132708477322407536021120113879871393357658789768814416622492847430639474124377767893424865485276302219601246094119453082952085005768838150682342462881473913110540827237163350510684586298239947245938479716304835356329624224137216), [false;true;false;true;false;true]);
  (NFloat (S754_nan), NFloat (S754_nan), [false;false;false;false;false;true]);
  (NFloat (S754_finite false 4503599627370496 (1)), NInt (-359538626972463181545861038157804946723595395788461314546860162315465351611001926265416954644815072042240227759742786715317579537628833244985694861278948248755535786849730970552604439202492188238906165904170011537676301364684925762947826221081654474326701021369172596479894491876959432609670712659248448274432), [false;false;true;false;true;true]);
  (NInt (-359538626972463181545861038157804946723595395788461314546860162315465351611001926265416954644815072042240227759742786715317579537628833244985694861278948248755535786849730970552604439202492188238906165904170011537676301364684925762947826221081654474326701021369172596479894491876959432609670712659248448274432), NFloat (S754_finite false 4550104459509760 (-39)), [false;true;false;true;false;true]);
  (NFloat (S754_finite true 6755399441055744 (-51)), NFloat (S754_finite false 4503599627370496 (76)), [false;true;false;true;false;true]);
  (NInt (106596217082529248195), NFloat (S754_nan), [false;false;false;false;false;true]);
  (NInt (4), NInt (4), [true;false;false;true;true;true]);
  (NFloat (S754_finite false 4503599627370496 (1)), NFloat (S754_nan), [false;false;false;false;false;true]);
  (NInt (-359538626972463181545861038157804946723595395788461314546860162315465351611001926265416954644815072042240227759742786715317579537628833244985694861278948248755535786849730970552604439202492188238906165904170011537676301364684925762947826221081654474326701021369172596479894491876959432609670712659248448274432), NInt (179769313486231590772930519078902473361797697894230657273430081157732675805500963132708477322407536021120113879871393357658789768814416622492847430639474124377767893424865485276302219601246094119453082952085005768838150682342462881473913110540827237163350510684586298239947245938479716304835356329624224137216), [false;true;false;true;false;true]);
  (NFloat (S754_nan), NInt (0), [false;false;false;false;false;true]);
  (NFloat (S754_finite true 5066549580791808 (-50)), NFloat (S754_nan), [false;false;false;false;false;true]);
  (NInt (179769313486231590772930519078902473361797697894230657273430081157732675805500963132708477322407536021120113879871393357658789768814416622492847430639474124377767893424865485276302219601246094119453082952085005768838150682342462881473913110540827237163350510684586298239947245938479716304835356329624224137216), NFloat (S754_finite false 6503039510773760 (31)), [false;false;true;false;true;true]);
  (NInt (0), NInt (1), [false;true;false;true;false;false]);
  (NFloat (S754_nan), NFloat (S754_finite true 8025768941686199 (-605)), [false;false;false;false;false;true]);
  (NInt (1), NInt (179769313486231590772930519078902473361797697894230657273430081157732675805500963132708477322407536021120113879871393357658789768814416622492847430639474124377767893424865485276302219601246094119453082952085005768838150682342462881473913110540827237163350510684586298239947245938479716304835356329624224137216), [false;true;false;true;false;true]);
  (NFloat (S754_finite false 7268744669691904 (26)), NFloat (S754_nan), [false;false;false;false;false;true]);
  (NFloat (S754_zero false), NFloat (S754_nan), [false;false;false;false;false;false]);
  (NFloat (S754_finite false 4503599627370496 (-51)), NInt (1), [false;false;true;false;true;true]);
  (NInt (-925363273037255389904), NFloat (S754_finite false 4503599627370496 (1)), [false;true;false;true;false;true]);
  (NInt (-1), NInt (179769313486231590772930519078902473361797697894230657273430081157732675805500963132708477322407536021120113879871393357658789768814416622492847430639474124377767893424865485276302219601246094119453082952085005768838150682342462881473913110540827237163350510684586298239947245938479716304835356329624224137216), [false;true;false;true;false;true]);
  (NInt (-359538626972463181545861038157804946723595395788461314546860162315465351611001926265416954644815072042240227759742786715317579537628833244985694861278948248755535786849730970552604439202492188238906165904170011537676301364684925762947826221081654474326701021369172596479894491876959432609670712659248448274432), NFloat (S754_nan), [false;false;false;false;false;true]);
  (NFloat (S754_nan), NFloat (S754_nan), [false;false;false;false;false;true]);
  (NInt (0), NInt (0), [true;false;false;true;true;false]);
  (NInt (179769313486231590772930519078902473361797697894230657273430081157732675805500963132708477322407536021120113879871393357658789768814416622492847430639474124377767893424865485276302219601246094119453082952085005768838150682342462881473913110540827237163350510684586298239947245938479716304835356329624224137216), NInt (308971178936649702433), [false;false;true;false;true;true]);
  (NFloat (S754_finite false 4503599627370496 (1)), NInt (9007199254740991), [false;false;true;false;true;true]);
  (NFloat (S754_nan), NInt (-359538626972463181545861038157804946723595395788461314546860162315465351611001926265416954644815072042240227759742786715317579537628833244985694861278948248755535786849730970552604439202492188238906165904170011537676301364684925762947826221081654474326701021369172596479894491876959432609670712659248448274432), [false;false;false;false;false;true]);
  (NFloat (S754_finite true 6755399441055744 (-52)), NInt (179769313486231590772930519078902473361797697894230657273430081157732675805500963132708477322407536021120113879871393357658789768814416622492847430639474124377767893424865485276302219601246094119453082952085005768838150682342462881473913110540827237163350510684586298239947245938479716304835356329624224137216), [false;true;false;true;false;true]);
  (NInt (1), NFloat (S754_nan), [false;false;false;false;false;true]);
  (NFloat (S754_finite true 4503599627370496 (-52)), NFloat (S754_finite true 7842527283766833 (830)), [false;false;true;false;true;true]);
  (NFloat (S754_finite false 4503599627370496 (-51)), NFloat (S754_finite true 8541580519915520 (-10)), [false;false;true;false;true;true]);
  (NInt (-359538626972463181545861038157804946723595395788461314546860162315465351611001926265416954644815072042240227759742786715317579537628833244985694861278948248755535786849730970552604439202492188238906165904170011537676301364684925762947826221081654474326701021369172596479894491876959432609670712659248448274432), NFloat (S754_finite false 4503599627370496 (-51)), [false;true;false;true;false;true]);
  (NFloat (S754_finite false 6755399441055744 (-52)), NInt (1), [false;false;true;false;true;true]);
  (NFloat (S754_finite false 4503599627370496 (1)), NFloat (S754_finite true 4503599627370496 (-50)), [false;false;true;false;true;true]);
  (NInt (9007199254740992), NFloat (S754_finite false 4503599627370496 (1)), [true;false;false;true;true;true]);
  (NFloat (S754_finite false 6177709159874560 (-139)), NFloat (S754_finite true 6114954322232752 (-145)), [false;false;true;false;true;true]);
  (NInt (1134106782561747062384), NInt (1134106782561747062385), [false;true;false;true;false;true]);
  (NInt (-359538626972463181545861038157804946723595395788461314546860162315465351611001926265416954644815072042240227759742786715317579537628833244985694861278948248755535786849730970552604439202492188238906165904170011537676301364684925762947826221081654474326701021369172596479894491876959432609670712659248448274432), NInt (9007199254740990), [false;true;false;true;false;true]);
  (NInt (557069401765635466766), NFloat (S754_finite false 4503599627370496 (1)), [false;false;true;false;true;true]);
  (NInt (-359538626972463181545861038157804946723595395788461314546860162315465351611001926265416954644815072042240227759742786715317579537628833244985694861278948248755535786849730970552604439202492188238906165904170011537676301364684925762947826221081654474326701021369172596479894491876959432609670712659248448274432), NInt (9007199254740994), [false;true;false;true;false;true]);
  (NFloat (S754_nan), NFloat (S754_finite false 4503599627370496 (-52)), [false;false;false;false;false;true]);
  (NFloat (S754_finite true 4503599627370496 (-51)), NInt (1), [false;true;false;true;false;true]);
  (NInt (-248765741887667232764), NInt (9007199254740991), [false;true;false;true;false;true]);
  (NFloat (S754_nan), NInt (-107577761967121582068), [false;false;false;false;false;true]);
  (NInt (-359538626972463181545861038157804946723595395788461314546860162315465351611001926265416954644815072042240227759742786715317579537628833244985694861278948248755535786849730970552604439202492188238906165904170011537676301364684925762947826221081654474326701021369172596479894491876959432609670712659248448274432), NFloat (S754_finite false 4503599627370496 (-50)), [false;true;false;true;false;true]);
  (NInt (-2), NInt (-2), [true;false;false;true;true;true]);
  (NFloat (S754_finite false 4503599627370496 (1)), NInt (9007199254740992), [true;false;false;true;true;true]);
  (NInt (9007199254740994), NFloat (S754_finite false 4503599627370496 (-50)), [false;false;true;false;true;true]);
  (NInt (347675996122333247114), NFloat (S754_finite false 4503599627370496 (1)), [false;false;true;false;true;true]);
  (NFloat (S754_finite false 4503599627370496 (1)), NInt (179769313486231590772930519078902473361797697894230657273430081157732675805500963132708477322407536021120113879871393357658789768814416622492847430639474124377767893424865485276302219601246094119453082952085005768838150682342462881473913110540827237163350510684586298239947245938479716304835356329624224137216), [false;true;false;true;false;true]);
  (NFloat (S754_finite false 4503599627370496 (1)), NInt (9007199254740992), [true;false;false;true;true;true]);
  (NFloat (S754_finite false 5053595959427072 (-19)), NInt (9638969345), [false;true;false;true;false;true]);
  (NFloat (S754_finite true 6755399441055744 (-52)), NInt (-2), [false;false;true;false;true;true]);
  (NInt (-359538626972463181545861038157804946723595395788461314546860162315465351611001926265416954644815072042240227759742786715317579537628833244985694861278948248755535786849730970552604439202492188238906165904170011537676301364684925762947826221081654474326701021369172596479894491876959432609670712659248448274432), NInt (-359538626972463181545861038157804946723595395788461314546860162315465351611001926265416954644815072042240227759742786715317579537628833244985694861278948248755535786849730970552604439202492188238906165904170011537676301364684925762947826221081654474326701021369172596479894491876959432609670712659248448274432), [true;false;false;true;true;true]);
  (NFloat (S754_finite false 4503599627370496 (-51)), NInt (-5), [false;false;true;false;true;true]);
  (NInt (-4), NFloat (S754_finite false 4503599627370496 (1)), [false;true;false;true;false;true]);
  (NFloat (S754_finite true 4503599627370496 (-53)), NFloat (S754_finite false 5455286076627120 (-4)), [false;true;false;true;false;true]);
  (NInt (-2), NInt (-183467086495396672432), [false;false;true;false;true;true]);
  (NFloat (S754_finite false 8728826586595328 (28)), NFloat (S754_finite false 4503599627370496 (-50)), [false;false;true;false;true;true]);
  (NInt (5), NInt (-359538626972463181545861038157804946723595395788461314546860162315465351611001926265416954644815072042240227759742786715317579537628833244985694861278948248755535786849730970552604439202492188238906165904170011537676301364684925762947826221081654474326701021369172596479894491876959432609670712659248448274432), [false;false;true;false;true;true]);
  (NFloat (S754_nan), NInt (9007199254740992), [false;false;false;false;false;true]);
  (NFloat (S754_nan), NFloat (S754_finite true 4503599627370496 (-53)), [false;false;false;false;false;true]);
  (NFloat (S754_finite false 6755399441055744 (-52)), NFloat (S754_nan), [false;false;false;false;false;true]);
  (NInt (-359538626972463181545861038157804946723595395788461314546860162315465351611001926265416954644815072042240227759742786715317579537628833244985694861278948248755535786849730970552604439202492188238906165904170011537676301364684925762947826221081654474326701021369172596479894491876959432609670712659248448274432), NFloat (S754_finite false 6975396255891456 (71)), [false;true;false;true;false;true]);
  (NFloat (S754_finite false 4503599627370496 (-53)), NFloat (S754_finite false 8155175990591488 (-67)), [false;false;true;false;true;true]);
  (NFloat (S754_finite false 4656396186564264 (-182)), NFloat (S754_finite false 4503599627370496 (1)), [false;true;false;true;false;true]);
  (NInt (5), NInt (9007199254740990), [false;true;false;true;false;true])].
Example py_compare : forallb (fun c => let '(a, b, l) := c in leqb Bool.eqb [num_eqb a b; num_ltb a b; num_gtb a b; num_leb a b; num_geb a b; num_truth a] l) compare_cases = true.
Proof. vm_compute. reflexivity. Qed.

(** str.encode('utf-8') *)
Definition utf8_encode_cases : list (str * res bytes) := [
  ([681268;702275]%N, Ok [242;166;148;180;242;171;157;131]%N);
  ([61;125680;71945]%N, Ok [61;240;158;171;176;240;145;164;137]%N);
  ([65536;56925]%N, Err EUnicodeEncode);
  ([54780;127;15;321459]%N, Ok [237;151;188;127;15;241;142;158;179]%N);
  ([26944;460465;127]%N, Ok [230;165;128;241;176;154;177;127]%N);
  ([56166;65536]%N, Err EUnicodeEncode);
  ([260;128]%N, Ok [196;132;194;128]%N);
  ([7;36005;65536]%N, Ok [7;232;178;165;240;144;128;128]%N);
  ([128]%N, Ok [194;128]%N);
  ([23;7010;1721]%N, Ok [23;225;173;162;218;185]%N);
  ([1926]%N, Ok [222;134]%N);
  ([108;60984;1875;1996;55571]%N, Err EUnicodeEncode);
  ([]%N, Ok []%N);
  ([577422;1635;128;56149]%N, Err EUnicodeEncode);
  ([65536;84;56682;92279]%N, Err EUnicodeEncode);
  ([599374;65536;92;1215]%N, Ok [242;146;149;142;240;144;128;128;92;210;191]%N);
  ([50137;506489;535018;91]%N, Ok [236;143;153;241;187;169;185;242;130;167;170;91]%N);
  ([75]%N, Ok [75]%N);
  ([28557]%N, Ok [230;190;141]%N);
  ([66;65535;65535;955]%N, Ok [66;239;191;191;239;191;191;206;187]%N);
  ([225;56935;127;42099;65535]%N, Err EUnicodeEncode);
  ([]%N, Ok []%N);
  ([0;65536]%N, Ok [0;240;144;128;128]%N);
  ([]%N, Ok []%N);
  ([65536]%N, Ok [240;144;128;128]%N);
  ([129;55955;57208]%N, Err EUnicodeEncode);
  ([56761;55549;56531;65536]%N, Err EUnicodeEncode);
  ([20;127;1191;56608]%N, Err EUnicodeEncode);
  ([49284;421145;128;56322;1041]%N, Err EUnicodeEncode);
  ([333;55379;351687;6453;55429]%N, Err EUnicodeEncode);
  ([860921;45399]%N, Ok [243;146;139;185;235;133;151]%N);
  ([41;39;906401;65536]%N, Ok [41;39;243;157;146;161;240;144;128;128]%N);
  ([128;40541;1109;127]%N, Ok [194;128;233;185;157;209;149;127]%N);
  ([376692;63594;73;53151;55866]%N, Err EUnicodeEncode);
  ([352726;42]%N, Ok [241;150;135;150;42]%N);
  ([65535;129]%N, Ok [239;191;191;194;129]%N);
  ([34;128;20]%N, Ok [34;194;128;20]%N);
  ([357751;127;1485]%N, Ok [241;151;149;183;127;215;141]%N);
  ([55454]%N, Err EUnicodeEncode);
  ([119]%N, Ok [119]%N);
  ([]%N, Ok []%N);
  ([268864;790216]%N, Ok [241;129;169;128;243;128;187;136]%N);
  ([1887]%N, Ok [221;159]%N);
  ([]%N, Ok []%N);
  ([128]%N, Ok [194;128]%N);
  ([18;790;254]%N, Ok [18;204;150;195;190]%N);
  ([129;32;55917]%N, Err EUnicodeEncode);
  ([129;129;650073;56011;129]%N, Err EUnicodeEncode);
  ([127]%N, Ok [127]%N);
  ([56695;52]%N, Err EUnicodeEncode)].
Example py_utf8_encode : forallb (fun c => let '(s, r) := c in same bytes_eqb (utf8_encode s) r) utf8_encode_cases = true.
Proof. vm_compute. reflexivity. Qed.

(** bytes.decode('utf-8') *)
Definition utf8_decode_cases : list (bytes * res str) := [
  ([239;159;175;143]%N, Err EUnicodeDecode);
  ([194]%N, Err EUnicodeDecode);
  ([239;191;229;188;168]%N, Err EUnicodeDecode);
  ([127;169]%N, Err EUnicodeDecode);
  ([144;175;143;175]%N, Err EUnicodeDecode);
  ([243;144;143;191]%N, Ok [852991]%N);
  ([223;191;144;243]%N, Err EUnicodeDecode);
  ([224;128;128;159]%N, Err EUnicodeDecode);
  ([127]%N, Ok [127]%N);
  ([160;128;160;127]%N, Err EUnicodeDecode);
  ([127;209;159]%N, Ok [127;1119]%N);
  ([225;191;160;191;127]%N, Err EUnicodeDecode);
  ([228;189;187;195;166;234;183;165]%N, Ok [20347;230;44517]%N);
  ([160;160;144;160;127]%N, Err EUnicodeDecode);
  ([245;144;143]%N, Err EUnicodeDecode);
  ([243;128;239;191;191]%N, Err EUnicodeDecode);
  ([247]%N, Err EUnicodeDecode);
  ([238;144]%N, Err EUnicodeDecode);
  ([191]%N, Err EUnicodeDecode);
  ([248;128;128;143]%N, Err EUnicodeDecode);
  ([239;191;247;128]%N, Err EUnicodeDecode);
  ([160;144;143;143;143]%N, Err EUnicodeDecode);
  ([243;160;144;243]%N, Err EUnicodeDecode);
  ([128;144;175;160;237]%N, Err EUnicodeDecode);
  ([225;176;180;237;242;142;181;169;108]%N, Err EUnicodeDecode);
  ([237;160]%N, Err EUnicodeDecode);
  ([0;191;143]%N, Err EUnicodeDecode);
  ([240;159;156;162;239;191;191;49;194;128]%N, Ok [128802;65535;49;128]%N);
  ([64]%N, Ok [64]%N);
  ([241;170;137;161;243;186;190;186;239;191;191]%N, Ok [434785;1028026;65535]%N);
  ([240;144;128;128;243;154;164;172;240;144;128;128]%N, Ok [65536;895276;65536]%N);
  ([144;160;191;143]%N, Err EUnicodeDecode);
  ([243]%N, Err EUnicodeDecode);
  ([223;144;144;143]%N, Err EUnicodeDecode);
  ([195;147;242;135;167;156;204;140]%N, Ok [211;555484;780]%N);
  ([223;128;144;175]%N, Err EUnicodeDecode);
  ([238;175;160;144]%N, Err EUnicodeDecode);
  ([3]%N, Ok [3]%N);
  ([127;175;175;191;191]%N, Err EUnicodeDecode);
  ([229;189;179]%N, Ok [24435]%N);
  ([215;175;240;144;128;128;194;129;100]%N, Ok [1519;65536;129;100]%N);
  ([228;128;137;229;177;141;239;191;191;220;65]%N, Err EUnicodeDecode);
  ([160;238]%N, Err EUnicodeDecode);
  ([224;191;143]%N, Ok [4047]%N);
  ([239;191;159;160]%N, Err EUnicodeDecode);
  ([237;128;128;128;241]%N, Err EUnicodeDecode);
  ([195;194;212;185]%N, Err EUnicodeDecode);
  ([239;191;191]%N, Ok [65535]%N);
  ([240;143;175;248]%N, Err EUnicodeDecode);
  ([240;191;128;175;144]%N, Err EUnicodeDecode);
  ([255;144;160;128;127]%N, Err EUnicodeDecode);
  ([144;160;128;175]%N, Err EUnicodeDecode);
  ([247;191;191]%N, Err EUnicodeDecode);
  ([239;191;191;234;177;137;127;205;129]%N, Ok [65535;44105;127;833]%N);
  ([192;144]%N, Err EUnicodeDecode);
  ([216;160;194;128;241;153;152;140]%N, Ok [1568;128;366092]%N);
  ([225;164;187;232;171;137;244;134;138;180;243;163;188;173]%N, Ok [6459;35529;1073844;933677]%N);
  ([237;175;128;175;255]%N, Err EUnicodeDecode);
  ([243;160;160;245]%N, Err EUnicodeDecode);
  ([240;144;128;128;243;183;173;149]%N, Ok [65536;1014613]%N);
  ([]%N, Ok []%N);
  ([160;160;159]%N, Err EUnicodeDecode);
  ([194;128;240;144;128;128;241;154;224;176;6]%N, Err EUnicodeDecode);
  ([219;159;229;137;137;127]%N, Ok [1759;21065;127]%N);
  ([192;159;144;143]%N, Err EUnicodeDecode);
  ([244;160;143;255]%N, Err EUnicodeDecode);
  ([144;128;191;160]%N, Err EUnicodeDecode);
  ([241;128;175]%N, Err EUnicodeDecode);
  ([248;128;191;243]%N, Err EUnicodeDecode);
  ([239;191;191]%N, Ok [65535]%N);
  ([223;144;175;128;191]%N, Err EUnicodeDecode);
  ([224;191;191;47]%N, Ok [4095;47]%N);
  ([237;143;159;144;243]%N, Err EUnicodeDecode);
  ([239;144;128;128]%N, Err EUnicodeDecode);
  ([237;144;128]%N, Ok [54272]%N);
  ([22;243;159;138]%N, Err EUnicodeDecode);
  ([237;175;159;143]%N, Err EUnicodeDecode);
  ([236]%N, Err EUnicodeDecode);
  ([240;144;128;225]%N, Err EUnicodeDecode);
  ([223;175;191]%N, Err EUnicodeDecode);
  ([240;143;160;191]%N, Err EUnicodeDecode);
  ([143;128]%N, Err EUnicodeDecode);
  ([239;159;143;144]%N, Err EUnicodeDecode);
  ([127;144;175;248]%N, Err EUnicodeDecode);
  ([]%N, Ok []%N);
  ([247;144]%N, Err EUnicodeDecode);
  ([237;151;152]%N, Ok [54744]%N);
  ([201;247]%N, Err EUnicodeDecode);
  ([241]%N, Err EUnicodeDecode);
  ([160;143;160]%N, Err EUnicodeDecode);
  ([225;159;160;160]%N, Err EUnicodeDecode);
  ([159;191;128;128;193]%N, Err EUnicodeDecode);
  ([240;144;128;128;198;128;21;241;171;165;224]%N, Err EUnicodeDecode);
  ([143;128]%N, Err EUnicodeDecode);
  ([239;159;160;160;159]%N, Err EUnicodeDecode);
  ([224;175;159;175]%N, Err EUnicodeDecode);
  ([]%N, Ok []%N);
  ([2;239;191;191;175;165;142;239;138;190]%N, Err EUnicodeDecode);
  ([241;160;144;175]%N, Ok [394287]%N);
  ([248;143;159;143]%N, Err EUnicodeDecode);
  ([]%N, Ok []%N);
  ([244;130]%N, Err EUnicodeDecode);
  ([239;175;191;144;243]%N, Err EUnicodeDecode);
  ([]%N, Ok []%N);
  ([68;241;165;171;183;127;131;160]%N, Err EUnicodeDecode);
  ([240;144;128;128]%N, Ok [65536]%N);
  ([240;160;160;144;127]%N, Ok [133136;127]%N);
  ([159;191;175;175]%N, Err EUnicodeDecode);
  ([223;159;128;159]%N, Err EUnicodeDecode);
  ([194;144;159;159]%N, Err EUnicodeDecode);
  ([128;155;171]%N, Err EUnicodeDecode);
  ([255;160;144;191]%N, Err EUnicodeDecode);
  ([192;128;175]%N, Err EUnicodeDecode);
  ([128]%N, Err EUnicodeDecode);
  ([0;243]%N, Err EUnicodeDecode);
  ([0;160]%N, Err EUnicodeDecode);
  ([192]%N, Err EUnicodeDecode);
  ([191;191]%N, Err EUnicodeDecode);
  ([191;191]%N, Err EUnicodeDecode);
  ([239;241]%N, Err EUnicodeDecode);
  ([239;191]%N, Err EUnicodeDecode);
  ([239;190;25]%N, Err EUnicodeDecode);
  ([65;143;143;159]%N, Err EUnicodeDecode);
  ([127;240;144;128;128]%N, Ok [127;65536]%N);
  ([192;144;191;191]%N, Err EUnicodeDecode);
  ([102;237;143;139;241;157;170;140]%N, Ok [102;54219;383628]%N);
  ([247;159;128;144;160]%N, Err EUnicodeDecode);
  ([236;168;186;243;161;173;144]%N, Ok [51770;924496]%N);
  ([194]%N, Err EUnicodeDecode);
  ([7;247;133;199;142]%N, Err EUnicodeDecode);
  ([194;128;192;128;166]%N, Err EUnicodeDecode);
  ([240;160;175]%N, Err EUnicodeDecode);
  ([193;175;160;143;159]%N, Err EUnicodeDecode);
  ([248;191;159;191]%N, Err EUnicodeDecode);
  ([217;245]%N, Err EUnicodeDecode);
  ([248;191;144;128;243]%N, Err EUnicodeDecode);
  ([229;161]%N, Err EUnicodeDecode);
  ([208;245;67;240;144;128;128]%N, Err EUnicodeDecode);
  ([]%N, Ok []%N);
  ([192;175;244]%N, Err EUnicodeDecode);
  ([206;159;236;166;173;45]%N, Ok [927;51629;45]%N);
  ([241;187;147]%N, Err EUnicodeDecode);
  ([238;129]%N, Err EUnicodeDecode);
  ([143;128;191]%N, Err EUnicodeDecode);
  ([204;182;194;128;198;237]%N, Err EUnicodeDecode);
  ([204;130;237;159;176;237;145;183;242;131;187;190]%N, Ok [770;55280;54391;540414]%N);
  ([247;159]%N, Err EUnicodeDecode);
  ([255;225]%N, Err EUnicodeDecode);
  ([247;128;159;237]%N, Err EUnicodeDecode);
  ([243;144;159;128;248]%N, Err EUnicodeDecode)].
Example py_utf8_decode : forallb (fun c => let '(b, r) := c in same str_eqb (utf8_decode b) r) utf8_decode_cases = true.
Proof. vm_compute. reflexivity. Qed.

(** base64.b64encode *)
Definition b64encode_cases : list (bytes * bytes) := [
  ([235;103;13;126;92;239;183;236]%N, [54;50;99;78;102;108;122;118;116;43;119;61]%N);
  ([11;217]%N, [67;57;107;61]%N);
  ([65;248;215;26;199;2;78;123]%N, [81;102;106;88;71;115;99;67;84;110;115;61]%N);
  ([125]%N, [102;81;61;61]%N);
  ([179;248]%N, [115;47;103;61]%N);
  ([5;123;105;140;18;19;233;184]%N, [66;88;116;112;106;66;73;84;54;98;103;61]%N);
  ([23;221;228;15]%N, [70;57;51;107;68;119;61;61]%N);
  ([252;88;119;221;200;54;119]%N, [47;70;104;51;51;99;103;50;100;119;61;61]%N);
  ([71;96;86;33;169]%N, [82;50;66;87;73;97;107;61]%N);
  ([222;99;202;129]%N, [51;109;80;75;103;81;61;61]%N);
  ([6;127;200;124;146;17;185;213]%N, [66;110;47;73;102;74;73;82;117;100;85;61]%N);
  ([194;189;113;44;88;251;141]%N, [119;114;49;120;76;70;106;55;106;81;61;61]%N);
  ([105;219;39;121]%N, [97;100;115;110;101;81;61;61]%N);
  ([42;241;33;5;194]%N, [75;118;69;104;66;99;73;61]%N);
  ([128;160;85;123;66;180;130]%N, [103;75;66;86;101;48;75;48;103;103;61;61]%N);
  ([]%N, []%N);
  ([3;201;42;80;37;116]%N, [65;56;107;113;85;67;86;48]%N);
  ([192;46;80]%N, [119;67;53;81]%N);
  ([133;97;168;116;110;69]%N, [104;87;71;111;100;71;53;70]%N);
  ([]%N, []%N);
  ([105]%N, [97;81;61;61]%N);
  ([40;2]%N, [75;65;73;61]%N);
  ([24;204]%N, [71;77;119;61]%N);
  ([130;238;213]%N, [103;117;55;86]%N);
  ([72;184]%N, [83;76;103;61]%N)].
Example py_b64encode : forallb (fun c => let '(b, r) := c in bytes_eqb (b64encode b) r) b64encode_cases = true.
Proof. vm_compute. reflexivity. Qed.

(** base64.b64decode of a str *)
Definition b64decode_cases : list (str * res bytes) := [
  ([90;47;47;57;61;48;57;43;57;53;99;47]%N, Err EBinascii);
  ([108;61;85;83;118]%N, Ok [149;68;175]%N);
  ([65;90;61;43;99;90;61;90;61;65;61]%N, Ok [1;159;156;101;144]%N);
  ([90;57;90;48;43;61;61]%N, Err EBinascii);
  ([61]%N, Ok []%N);
  ([57;127;53;122]%N, Err EBinascii);
  ([122;57;97;90;48;99;53;61]%N, Ok [207;214;153;209;206]%N);
  ([32;106;101;109;86]%N, Ok [141;233;149]%N);
  ([]%N, Ok []%N);
  ([122;61]%N, Err EBinascii);
  ([61]%N, Ok []%N);
  ([10;97;10;43;32;10;47;99;97;65]%N, Err EBinascii);
  ([53;65;95;127;43;65;61;45]%N, Ok [228;15;128]%N);
  ([99;99;43;65;53;97;127;61;48;61;97]%N, Ok [113;207;128;229;173]%N);
  ([90;61;61;61;61;61;65;90;57;43;61;61]%N, Err EBinascii);
  ([61;32]%N, Ok []%N);
  ([86;110;98;76;105;86;68;66;10;68;119;61;61]%N, Ok [86;118;203;137;80;193;15]%N);
  ([76;97;119;32;76]%N, Ok [45;172;11]%N);
  ([53;69;118;53;121;65;61;61]%N, Ok [228;75;249;200]%N);
  ([99;65;65;61;61]%N, Ok [112;0]%N);
  ([102;102;56;61;233]%N, Err EValue);
  ([97;97;65;99;61]%N, Ok [105;160;28]%N);
  ([99]%N, Err EBinascii);
  ([61;122;48]%N, Err EBinascii);
  ([]%N, Ok []%N);
  ([43;103;61;61]%N, Ok [250]%N);
  ([]%N, Ok []%N);
  ([97;65;61;53;95;61;81;57;97;95;61]%N, Ok [104;14]%N);
  ([61;127;122;43;10;122;47]%N, Ok [207;236;255]%N);
  ([42;106;104;101;53]%N, Ok [142;23;185]%N);
  ([97;53;43;65;48;61]%N, Err EBinascii);
  ([61;48;81;61;61;128]%N, Err EValue);
  ([61;57;53]%N, Err EBinascii);
  ([61;61;61;61]%N, Ok []%N);
  ([90;122;47;90;97;233]%N, Err EValue);
  ([99;68;10;52;61]%N, Ok [112;62]%N);
  ([45;61;97;43;53;61]%N, Ok [107;238]%N);
  ([122;61;61;61;57;81;48;57;97;61;81;81]%N, Ok [207;212;52;245;164;16]%N);
  ([53;127;65;57;127;122]%N, Ok [228;15;115]%N);
  ([65;48]%N, Err EBinascii);
  ([86;120;52;78;119;79;119;10;98;120;81;61;61]%N, Ok [87;30;13;192;236;27;197]%N);
  ([54;88;87;109;88;83;121;61;85;115;81;61;61]%N, Ok [233;117;166;93;44]%N);
  ([81;61;48;122;90;65;81;99;53]%N, Ok [67;76;217;1;7;57]%N);
  ([61;61;61;122;61;65;61;61;122;65;65;65]%N, Ok [204]%N);
  ([]%N, Ok []%N);
  ([53;61;61;57;61;61]%N, Ok [231]%N);
  ([57;61;65]%N, Err EBinascii);
  ([32;70;105;109;90;100;79;77;61;8364]%N, Err EValue);
  ([68;32;104;109;98;105;103;61;61]%N, Ok [14;25;155;138]%N);
  ([115;121;48;10;53;98;87;108;121]%N, Ok [179;45;57;109;105;114]%N);
  ([122;57;65;99;45;47;90;32;90;10]%N, Err EBinascii);
  ([]%N, Ok []%N);
  ([]%N, Ok []%N);
  ([88;90;68;80]%N, Ok [93;144;207]%N);
  ([97;43;61;61;32]%N, Ok [107]%N);
  ([120;49;97;83;103;81;61;61]%N, Ok [199;86;146;129]%N);
  ([32;90]%N, Err EBinascii);
  ([81;97;99;43;99;53;81]%N, Err EBinascii);
  ([90;122;32;53;53]%N, Ok [103;62;121]%N);
  ([10;56;49;115;61]%N, Ok [243;91]%N);
  ([68;103;61;61;65]%N, Ok [14]%N);
  ([97;97;65;43;61;81;61;47;53;48;99;81]%N, Err EBinascii);
  ([32;107;90;120;121;49;104;119;61]%N, Ok [145;156;114;214;28]%N);
  ([99;61]%N, Err EBinascii);
  ([122;65;57;48;61;61;90;97;90;81;61]%N, Ok [204;15;116;101;166;80]%N);
  ([]%N, Ok []%N);
  ([]%N, Ok []%N);
  ([61;61;127;45;61;65;97;97;32;61;43;97]%N, Ok [1;166]%N);
  ([61;105;75;90;55;109;121;102;98]%N, Ok [136;166;123;155;39;219]%N);
  ([61;97;99;61;99;122;43]%N, Err EBinascii);
  ([90;48;97;53;65;47;43;53;43;57;57]%N, Err EBinascii);
  ([61;47;69;50;71]%N, Ok [252;77;134]%N);
  ([65;57;65;47;45]%N, Ok [3;208;63]%N);
  ([61;48;61]%N, Err EBinascii);
  ([90;61;99;45;127]%N, Err EBinascii);
  ([]%N, Ok []%N);
  ([73;50;113;112;105;49;69;100;78;103;61;42;61]%N, Ok [35;106;169;139;81;29;54]%N);
  ([122;32;78;119;103;74;53;65;104]%N, Ok [204;220;32;39;144;33]%N);
  ([97;48;61;99;99;43]%N, Err EBinascii);
  ([61;78;70;52;61]%N, Ok [52;94]%N);
  ([10;83;66;72;84;53;101;65;61]%N, Ok [72;17;211;229;224]%N);
  ([99;97;61;48;47;90;99;97;61;61;97;97]%N, Ok [113;173;63;101;198]%N);
  ([57;61;48;57;81;48;81;61;65;47;97;47]%N, Err EBinascii);
  ([97;122;127]%N, Err EBinascii);
  ([99;57;43;97;61;53;57;43;65;97;53]%N, Err EBinascii);
  ([95;43;99;57;48;48;127]%N, Err EBinascii);
  ([47;48;61;53;90;61;57;61;48;61;97;90]%N, Ok [255;78;89;247;70;153]%N);
  ([61;53]%N, Err EBinascii);
  ([109;103;61;61]%N, Ok [154]%N);
  ([90;32;89;106;117;77;110;114;50;65;103;61;61]%N, Ok [101;136;238;50;122;246;2]%N);
  ([71;109;56;32;66;117;101;71;121;121;119;61;61]%N, Ok [26;111;1;185;225;178;203]%N);
  ([32;61;53;53;81;48;53]%N, Err EBinascii);
  ([87;88;116;108;113;69;110;50;122;81;61;61]%N, Ok [89;123;101;168;73;246;205]%N);
  ([65;122;127;48]%N, Err EBinascii);
  ([48;127;53;10;95;99]%N, Err EBinascii);
  ([84;119;81;61]%N, Ok [79;4]%N);
  ([65;122;57;47;57;48]%N, Err EBinascii);
  ([122;127;90;53;95;57;48;81;81;97;127;97]%N, Err EBinascii);
  ([122;95;61;61;45;61;61;61;99;47]%N, Err EBinascii);
  ([43;65;48;122;47;47;43;122;90;48;65]%N, Err EBinascii);
  ([61;47;61;32;45;45;57]%N, Err EBinascii);
  ([81;47;122;90;122;57;43;97;81]%N, Err EBinascii);
  ([61;61;57;47]%N, Err EBinascii);
  ([65;90;57;61;61;48;43;99;61;65;65;43]%N, Ok [1;159]%N);
  ([100;85;122;42;49]%N, Ok [117;76;245]%N);
  ([90;122;57;97]%N, Ok [103;63;90]%N);
  ([122;48;61;47;48;47;43;122;48;65;43;90]%N, Err EBinascii);
  ([90;57;122;81;61;61;65;61;61]%N, Err EBinascii);
  ([53;57;48]%N, Err EBinascii);
  ([90;43;61;97;65;99]%N, Err EBinascii);
  ([95;48;53;99;32;127;47;61]%N, Ok [211;151;63]%N);
  ([]%N, Ok []%N);
  ([127;122;57;65;32;122;90;53;99;90;233]%N, Err EValue);
  ([81;48;81;65;43;90;57]%N, Err EBinascii);
  ([61;61;97;97;99;81;65;97;43;61]%N, Ok [105;167;16;1;175]%N);
  ([65]%N, Err EBinascii);
  ([74;56;32;89;86]%N, Ok [39;198;21]%N);
  ([95;10;122;97;81]%N, Err EBinascii);
  ([81;61;43;65;10]%N, Err EBinascii);
  ([81;127;90;90;99;95;47;53;43;81]%N, Ok [65;150;92;255;159;144]%N);
  ([81;127;81;43;95;127;53;48;99]%N, Err EBinascii);
  ([]%N, Ok []%N);
  ([47;57;47;90]%N, Ok [255;223;217]%N);
  ([61;65;99;61;57;81]%N, Ok [1;207;80]%N);
  ([122;90;99;90;45;10;53;47]%N, Err EBinascii);
  ([61]%N, Ok []%N);
  ([77;10;68;115;114;65;55;108;111]%N, Ok [48;59;43;3;185;104]%N);
  ([48]%N, Err EBinascii);
  ([65;57;61;90;61;47;97;61]%N, Ok [3;214]%N);
  ([76;79;113;105;99;90;73;10;61]%N, Ok [44;234;162;113;146]%N);
  ([77;104;55;80;113;65;70;86]%N, Ok [50;30;207;168;1;85]%N);
  ([77;119;61;61]%N, Ok [51]%N);
  ([65;122;53]%N, Err EBinascii);
  ([43;95;81;81;57;57]%N, Err EBinascii);
  ([48;65;97;45;81;95;32;99;97;32;57]%N, Err EBinascii);
  ([65;74;56;103;61]%N, Ok [0;159;32]%N);
  ([48;65;97;47;65;57;81]%N, Err EBinascii);
  ([43;49;42;104;50]%N, Ok [251;88;118]%N);
  ([57;65;32;10]%N, Err EBinascii);
  ([65;90;99;122;47;99;61;61;48;47;61]%N, Ok [1;151;51;253]%N);
  ([57;48;47;90;48;90;57;97;61]%N, Ok [247;79;217;209;159;90]%N);
  ([97;48;61;97;53;48;61]%N, Err EBinascii);
  ([57;61;61;65;43;65;90;61;97;61]%N, Err EBinascii);
  ([99;61;61;43;65;61;43;90;53;61;48]%N, Ok [115;224]%N);
  ([103;112;122;10;116;108;119;61;61]%N, Ok [130;156;237;151]%N);
  ([47;57;81]%N, Err EBinascii);
  ([122;97;61;97;48]%N, Ok [205;166;180]%N);
  ([42;67;51;106;89;111;43;114;88]%N, Ok [11;120;216;163;234;215]%N);
  ([65;43;57;95;90;10;45;32;61;61]%N, Ok [3;239;89]%N);
  ([57;57;90;81;81]%N, Err EBinascii)].
Example py_b64decode : forallb (fun c => let '(s, r) := c in same bytes_eqb (b64decode_str s) r) b64decode_cases = true.
Proof. vm_compute. reflexivity. Qed.

(** '%s' of bytes, binascii.hexlify *)
Definition bytes_cases : list (bytes * str * bytes) := [
  ([200;14;113]%N, [98;39;92;120;99;56;92;120;48;101;113;39]%N, [99;56;48;101;55;49]%N);
  ([70;102;234;239;248;194;207;25;92]%N, [98;39;70;102;92;120;101;97;92;120;101;102;92;120;102;56;92;120;99;50;92;120;99;102;92;120;49;57;92;92;39]%N, [52;54;54;54;101;97;101;102;102;56;99;50;99;102;49;57;53;99]%N);
  ([]%N, [98;39;39]%N, []%N);
  ([175;104;224;126;85;63]%N, [98;39;92;120;97;102;104;92;120;101;48;126;85;63;39]%N, [97;102;54;56;101;48;55;101;53;53;51;102]%N);
  ([85;228;181;26;89;240;215;230;128]%N, [98;39;85;92;120;101;52;92;120;98;53;92;120;49;97;89;92;120;102;48;92;120;100;55;92;120;101;54;92;120;56;48;39]%N, [53;53;101;52;98;53;49;97;53;57;102;48;100;55;101;54;56;48]%N);
  ([148;44;125;163]%N, [98;39;92;120;57;52;44;125;92;120;97;51;39]%N, [57;52;50;99;55;100;97;51]%N);
  ([144;0;86;99]%N, [98;39;92;120;57;48;92;120;48;48;86;99;39]%N, [57;48;48;48;53;54;54;51]%N);
  ([231;152;121;43]%N, [98;39;92;120;101;55;92;120;57;56;121;43;39]%N, [101;55;57;56;55;57;50;98]%N);
  ([126;13;42;125;161;7;82;110;16]%N, [98;39;126;92;114;42;125;92;120;97;49;92;120;48;55;82;110;92;120;49;48;39]%N, [55;101;48;100;50;97;55;100;97;49;48;55;53;50;54;101;49;48]%N);
  ([231;6]%N, [98;39;92;120;101;55;92;120;48;54;39]%N, [101;55;48;54]%N);
  ([96;79;124;65;147;58]%N, [98;39;96;79;124;65;92;120;57;51;58;39]%N, [54;48;52;102;55;99;52;49;57;51;51;97]%N);
  ([65;64;234;179;183;23;126;13]%N, [98;39;65;64;92;120;101;97;92;120;98;51;92;120;98;55;92;120;49;55;126;92;114;39]%N, [52;49;52;48;101;97;98;51;98;55;49;55;55;101;48;100]%N);
  ([]%N, [98;39;39]%N, []%N);
  ([1;207;246;204]%N, [98;39;92;120;48;49;92;120;99;102;92;120;102;54;92;120;99;99;39]%N, [48;49;99;102;102;54;99;99]%N);
  ([212;213;103;93;134;164;193;49]%N, [98;39;92;120;100;52;92;120;100;53;103;93;92;120;56;54;92;120;97;52;92;120;99;49;49;39]%N, [100;52;100;53;54;55;53;100;56;54;97;52;99;49;51;49]%N);
  ([14]%N, [98;39;92;120;48;101;39]%N, [48;101]%N);
  ([100;125;98;242]%N, [98;39;100;125;98;92;120;102;50;39]%N, [54;52;55;100;54;50;102;50]%N);
  ([113;32;67;94;32;67]%N, [98;39;113;32;67;94;32;67;39]%N, [55;49;50;48;52;51;53;101;50;48;52;51]%N);
  ([131;176;213;24;110;39;117;246]%N, [98;34;92;120;56;51;92;120;98;48;92;120;100;53;92;120;49;56;110;39;117;92;120;102;54;34]%N, [56;51;98;48;100;53;49;56;54;101;50;55;55;53;102;54]%N);
  ([10;119;182]%N, [98;39;92;110;119;92;120;98;54;39]%N, [48;97;55;55;98;54]%N);
  ([49;230;127;18]%N, [98;39;49;92;120;101;54;92;120;55;102;92;120;49;50;39]%N, [51;49;101;54;55;102;49;50]%N);
  ([127;68;225;11;234;204;65;112;80]%N, [98;39;92;120;55;102;68;92;120;101;49;92;120;48;98;92;120;101;97;92;120;99;99;65;112;80;39]%N, [55;102;52;52;101;49;48;98;101;97;99;99;52;49;55;48;53;48]%N);
  ([]%N, [98;39;39]%N, []%N);
  ([19;138]%N, [98;39;92;120;49;51;92;120;56;97;39]%N, [49;51;56;97]%N);
  ([41;108;144;182;183;163;23;73;65]%N, [98;39;41;108;92;120;57;48;92;120;98;54;92;120;98;55;92;120;97;51;92;120;49;55;73;65;39]%N, [50;57;54;99;57;48;98;54;98;55;97;51;49;55;52;57;52;49]%N)].
Example py_bytes : forallb (fun c => let '(b, s, h) := c in str_eqb (bytes_str b) s && bytes_eqb (hexlify b) h) bytes_cases = true.
Proof. vm_compute. reflexivity. Qed.

(** repr() of a str; the printable characters beyond ASCII are given *)
Definition repr_cases : list (str * list N * str) := [
  ([117;53]%N, []%N, [39;117;53;39]%N);
  ([]%N, []%N, [39;39]%N);
  ([]%N, []%N, [39;39]%N);
  ([92;0;63;30;95;160;113]%N, []%N, [39;92;92;92;120;48;48;63;92;120;49;101;95;92;120;97;48;113;39]%N);
  ([10;128]%N, []%N, [39;92;110;92;120;56;48;39]%N);
  ([]%N, []%N, [39;39]%N);
  ([39;92;20;18;69]%N, []%N, [34;39;92;92;92;120;49;52;92;120;49;50;69;34]%N);
  ([12;88;19;9;65;30;23;116;26]%N, []%N, [39;92;120;48;99;88;92;120;49;51;92;116;65;92;120;49;101;92;120;49;55;116;92;120;49;97;39]%N);
  ([37;14;94;64;1114111]%N, []%N, [39;37;92;120;48;101;94;64;92;85;48;48;49;48;102;102;102;102;39]%N);
  ([98;23]%N, []%N, [39;98;92;120;49;55;39]%N);
  ([51;11;18;127;41]%N, []%N, [39;51;92;120;48;98;92;120;49;50;92;120;55;102;41;39]%N);
  ([31;59]%N, []%N, [39;92;120;49;102;59;39]%N);
  ([9;84;50;59;8203;69;93]%N, []%N, [39;92;116;84;50;59;92;117;50;48;48;98;69;93;39]%N);
  ([7;90;10;45;22;111]%N, []%N, [39;92;120;48;55;90;92;110;45;92;120;49;54;111;39]%N);
  ([160;4;9]%N, []%N, [39;92;120;97;48;92;120;48;52;92;116;39]%N);
  ([24;51;65;36;8203;101;917505]%N, []%N, [39;92;120;49;56;51;65;36;92;117;50;48;48;98;101;92;85;48;48;48;101;48;48;48;49;39]%N);
  ([67;75;14;38;70;92;68;26;58]%N, []%N, [39;67;75;92;120;48;101;38;70;92;92;68;92;120;49;97;58;39]%N);
  ([94;0;16;55296;98]%N, []%N, [39;94;92;120;48;48;92;120;49;48;92;117;100;56;48;48;98;39]%N);
  ([23;3;69;36;87;95;61;48]%N, []%N, [39;92;120;49;55;92;120;48;51;69;36;87;95;61;48;39]%N);
  ([99;63;39;99;80]%N, []%N, [34;99;63;39;99;80;34]%N);
  ([10]%N, []%N, [39;92;110;39]%N);
  ([]%N, []%N, [39;39]%N);
  ([39;120;116;62]%N, []%N, [34;39;120;116;62;34]%N);
  ([9]%N, []%N, [39;92;116;39]%N);
  ([57;61;102;108;115]%N, []%N, [39;57;61;102;108;115;39]%N);
  ([119;70;98;0]%N, []%N, [39;119;70;98;92;120;48;48;39]%N);
  ([126;63;17;81]%N, []%N, [39;126;63;92;120;49;49;81;39]%N);
  ([]%N, []%N, [39;39]%N);
  ([112;128512;13;39;32]%N, [128512]%N, [34;112;128512;92;114;39;32;34]%N);
  ([87;42;103;61]%N, []%N, [39;87;42;103;61;39]%N);
  ([57;55;37;33;13;10;55296;92;92]%N, []%N, [39;57;55;37;33;92;114;92;110;92;117;100;56;48;48;92;92;92;92;39]%N);
  ([65;74;76;33;30]%N, []%N, [39;65;74;76;33;92;120;49;101;39]%N);
  ([85;52;106;28;54;99;12;34;123]%N, []%N, [39;85;52;106;92;120;49;99;54;99;92;120;48;99;34;123;39]%N);
  ([66;29;7;73;116;68;83]%N, []%N, [39;66;92;120;49;100;92;120;48;55;73;116;68;83;39]%N);
  ([33;103]%N, []%N, [39;33;103;39]%N);
  ([13]%N, []%N, [39;92;114;39]%N);
  ([85;66;34;13;13;16;54;35]%N, []%N, [39;85;66;34;92;114;92;114;92;120;49;48;54;35;39]%N);
  ([92;63;35;78;127]%N, []%N, [39;92;92;63;35;78;92;120;55;102;39]%N);
  ([73]%N, []%N, [39;73;39]%N);
  ([51;35]%N, []%N, [39;51;35;39]%N);
  ([85]%N, []%N, [39;85;39]%N);
  ([89;125]%N, []%N, [39;89;125;39]%N);
  ([127;26;84;112]%N, []%N, [39;92;120;55;102;92;120;49;97;84;112;39]%N);
  ([40;17;67;89;107;18;74;74;96]%N, []%N, [39;40;92;120;49;49;67;89;107;92;120;49;50;74;74;96;39]%N);
  ([125;77;39]%N, []%N, [34;125;77;39;34]%N);
  ([67;17;917505;6]%N, []%N, [39;67;92;120;49;49;92;85;48;48;48;101;48;48;48;49;92;120;48;54;39]%N);
  ([10;68;19;98]%N, []%N, [39;92;110;68;92;120;49;51;98;39]%N);
  ([41;77;63;94;126]%N, []%N, [39;41;77;63;94;126;39]%N);
  ([127;107;18;2]%N, []%N, [39;92;120;55;102;107;92;120;49;50;92;120;48;50;39]%N);
  ([36;102;126;75;4;58;0;55296;90]%N, []%N, [39;36;102;126;75;92;120;48;52;58;92;120;48;48;92;117;100;56;48;48;90;39]%N)].
Example py_repr : forallb (fun c => let '(s, p, r) := c in str_eqb (str_repr (fun x => existsb (N.eqb x) p) s) r) repr_cases = true.
Proof. vm_compute. reflexivity. Qed.

(** str() and '%X' of an int *)
Definition str_int_cases : list (Z * str * str) := [
  ((0), [48]%N, [48;48]%N);
  ((1), [49]%N, [48;49]%N);
  ((-1), [45;49]%N, [48;49]%N);
  ((127), [49;50;55]%N, [55;70]%N);
  ((128), [49;50;56]%N, [56;48]%N);
  ((255), [50;53;53]%N, [70;70]%N);
  ((256), [50;53;54]%N, [49;48;48]%N);
  ((65535), [54;53;53;51;53]%N, [70;70;70;70]%N);
  ((65536), [54;53;53;51;54]%N, [49;48;48;48;48]%N);
  ((2147483647), [50;49;52;55;52;56;51;54;52;55]%N, [55;70;70;70;70;70;70;70]%N);
  ((2147483648), [50;49;52;55;52;56;51;54;52;56]%N, [56;48;48;48;48;48;48;48]%N);
  ((-2147483648), [45;50;49;52;55;52;56;51;54;52;56]%N, [56;48;48;48;48;48;48;48]%N);
  ((-2147483649), [45;50;49;52;55;52;56;51;54;52;57]%N, [56;48;48;48;48;48;48;49]%N);
  ((4294967295), [52;50;57;52;57;54;55;50;57;53]%N, [70;70;70;70;70;70;70;70]%N);
  ((4294967296), [52;50;57;52;57;54;55;50;57;54]%N, [49;48;48;48;48;48;48;48;48]%N);
  ((9), [57]%N, [48;57]%N);
  ((10), [49;48]%N, [48;65]%N);
  ((-10), [45;49;48]%N, [48;65]%N);
  ((99), [57;57]%N, [54;51]%N);
  ((100), [49;48;48]%N, [54;52]%N);
  ((15), [49;53]%N, [48;70]%N);
  ((16), [49;54]%N, [49;48]%N);
  ((84634657173141947313084972181645229617662385723), [56;52;54;51;52;54;53;55;49;55;51;49;52;49;57;52;55;51;49;51;48;56;52;57;55;50;49;56;49;54;52;53;50;50;57;54;49;55;54;54;50;51;56;53;55;50;51]%N, [69;68;51;50;54;51;55;55;65;49;69;51;52;52;65;50;49;50;69;68;68;55;68;69;66;57;49;51;52;48;55;48;67;56;55;68;69;51;66]%N);
  ((-122), [45;49;50;50]%N, [55;65]%N);
  ((11541182517713902637261349107326703), [49;49;53;52;49;49;56;50;53;49;55;55;49;51;57;48;50;54;51;55;50;54;49;51;52;57;49;48;55;51;50;54;55;48;51]%N, [50;51;57;48;54;51;51;70;56;57;54;67;48;68;57;57;57;55;51;57;53;52;49;57;56;68;69;69;70]%N);
  ((4022334369608), [52;48;50;50;51;51;52;51;54;57;54;48;56]%N, [51;65;56;56;53;67;70;65;70;52;56]%N);
  ((701440169108675903185069812378542479036891364), [55;48;49;52;52;48;49;54;57;49;48;56;54;55;53;57;48;51;49;56;53;48;54;57;56;49;50;51;55;56;53;52;50;52;55;57;48;51;54;56;57;49;51;54;52]%N, [49;70;55;52;50;51;54;51;70;67;51;69;57;65;67;65;67;49;68;66;56;56;49;48;69;54;53;66;56;66;54;69;66;51;67;48;69;52]%N);
  ((687902645198166230940204004083373667426891), [54;56;55;57;48;50;54;52;53;49;57;56;49;54;54;50;51;48;57;52;48;50;48;52;48;48;52;48;56;51;51;55;51;54;54;55;52;50;54;56;57;49]%N, [55;69;53;57;48;54;69;53;50;50;70;52;51;52;52;57;57;52;51;54;55;65;57;54;55;67;49;70;50;49;69;65;50;52;66]%N);
  ((13040822368527836061587731156405283460416), [49;51;48;52;48;56;50;50;51;54;56;53;50;55;56;51;54;48;54;49;53;56;55;55;51;49;49;53;54;52;48;53;50;56;51;52;54;48;52;49;54]%N, [50;54;53;50;68;51;48;55;65;55;54;57;65;48;65;53;51;52;68;66;69;65;66;52;51;50;65;69;57;56;49;53;52;48]%N);
  ((-259840573820815404462200352890445377434483328133931078944), [45;50;53;57;56;52;48;53;55;51;56;50;48;56;49;53;52;48;52;52;54;50;50;48;48;51;53;50;56;57;48;52;52;53;51;55;55;52;51;52;52;56;51;51;50;56;49;51;51;57;51;49;48;55;56;57;52;52]%N, [65;57;56;68;67;66;55;52;57;48;67;54;57;57;66;65;50;69;67;49;68;50;55;50;50;66;51;68;55;50;48;48;53;53;50;48;48;69;69;57;51;49;50;49;53;50;48]%N);
  ((1827484), [49;56;50;55;52;56;52]%N, [49;66;69;50;57;67]%N);
  ((-276174220617445534646105217407557444563091018080), [45;50;55;54;49;55;52;50;50;48;54;49;55;52;52;53;53;51;52;54;52;54;49;48;53;50;49;55;52;48;55;53;53;55;52;52;52;53;54;51;48;57;49;48;49;56;48;56;48]%N, [51;48;54;48;49;52;57;50;55;50;52;54;56;50;50;53;66;50;49;49;69;49;65;49;55;66;66;50;56;69;70;53;51;66;57;70;53;49;54;48]%N);
  ((207995224), [50;48;55;57;57;53;50;50;52]%N, [67;54;53;67;49;53;56]%N);
  ((-479258878), [45;52;55;57;50;53;56;56;55;56]%N, [49;67;57;48;69;56;70;69]%N);
  ((-99969965384488328211878934875189006068588759212488), [45;57;57;57;54;57;57;54;53;51;56;52;52;56;56;51;50;56;50;49;49;56;55;56;57;51;52;56;55;53;49;56;57;48;48;54;48;54;56;53;56;56;55;53;57;50;49;50;52;56;56]%N, [52;52;54;54;70;56;52;57;55;70;54;65;48;53;69;67;66;66;66;67;69;66;65;50;49;51;53;51;66;57;65;56;56;66;67;52;70;66;69;49;67;56]%N);
  ((-3897), [45;51;56;57;55]%N, [70;51;57]%N);
  ((-162057966673936253752372916565579197456348787240081158278467), [45;49;54;50;48;53;55;57;54;54;54;55;51;57;51;54;50;53;51;55;53;50;51;55;50;57;49;54;53;54;53;53;55;57;49;57;55;52;53;54;51;52;56;55;56;55;50;52;48;48;56;49;49;53;56;50;55;56;52;54;55]%N, [49;57;68;49;51;67;49;69;53;48;66;68;65;56;50;66;51;48;50;69;51;70;49;50;51;55;55;66;53;66;69;49;54;69;50;54;53;52;68;67;70;70;67;52;53;51;56;68;52;51]%N);
  ((-13996295560791456175732675877387907), [45;49;51;57;57;54;50;57;53;53;54;48;55;57;49;52;53;54;49;55;53;55;51;50;54;55;53;56;55;55;51;56;55;57;48;55]%N, [50;66;50;49;50;49;54;48;70;55;50;68;68;69;66;52;49;48;51;51;55;57;66;57;57;66;69;56;51]%N);
  ((-48), [45;52;56]%N, [51;48]%N);
  ((-1), [45;49]%N, [48;49]%N);
  ((-16034653943942890447814809203870213236241217975138461), [45;49;54;48;51;52;54;53;51;57;52;51;57;52;50;56;57;48;52;52;55;56;49;52;56;48;57;50;48;51;56;55;48;50;49;51;50;51;54;50;52;49;50;49;55;57;55;53;49;51;56;52;54;49]%N, [50;65;68;66;53;65;70;69;53;50;70;53;70;51;51;70;67;55;65;50;56;54;50;69;51;50;66;67;50;65;67;69;53;56;69;53;48;51;65;65;66;56;57;68]%N);
  ((40047654364190620460360638773646909443366), [52;48;48;52;55;54;53;52;51;54;52;49;57;48;54;50;48;52;54;48;51;54;48;54;51;56;55;55;51;54;52;54;57;48;57;52;52;51;51;54;54]%N, [55;53;66;48;56;49;65;67;57;66;54;65;70;57;55;69;56;48;50;55;67;65;57;69;66;51;69;52;48;66;48;68;50;54]%N);
  ((-172909409445562184017336368063438823085662848089075423487083), [45;49;55;50;57;48;57;52;48;57;52;52;53;53;54;50;49;56;52;48;49;55;51;51;54;51;54;56;48;54;51;52;51;56;56;50;51;48;56;53;54;54;50;56;52;56;48;56;57;48;55;53;52;50;51;52;56;55;48;56;51]%N, [49;66;56;66;67;65;55;55;57;66;69;54;50;57;68;66;49;48;55;48;69;67;69;48;52;52;52;50;65;55;55;66;57;49;65;52;57;68;55;50;55;54;53;68;51;57;65;52;54;66]%N);
  ((-2078910266206549), [45;50;48;55;56;57;49;48;50;54;54;50;48;54;53;52;57]%N, [55;54;50;67;50;48;51;69;70;69;57;53;53]%N);
  ((367), [51;54;55]%N, [49;54;70]%N);
  ((131627732130766), [49;51;49;54;50;55;55;51;50;49;51;48;55;54;54]%N, [55;55;66;54;70;56;51;55;53;66;67;69]%N);
  ((-208666256518209311664502158791202602700716156794378), [45;50;48;56;54;54;54;50;53;54;53;49;56;50;48;57;51;49;49;54;54;52;53;48;50;49;53;56;55;57;49;50;48;50;54;48;50;55;48;48;55;49;54;49;53;54;55;57;52;51;55;56]%N, [56;69;67;54;55;54;56;68;68;56;70;57;51;51;48;66;52;65;69;66;66;50;53;52;66;51;48;66;49;52;49;55;50;52;69;70;65;69;51;54;48;65]%N)].
Example py_str_int : forallb (fun c => let '(n, s, h) := c in str_eqb (str_of_Z n) s && str_eqb (serial_hex (Z.abs n)) h) str_int_cases = true.
Proof. vm_compute. reflexivity. Qed.

(** int(text, 10) and int(text, 16) *)
Definition int_cases : list (N * str * res Z) := [
  (16%N, [32;45;48;32]%N, Ok (0));
  (16%N, [10;48;98]%N, Ok (11));
  (10%N, [31;45;48;88;56;70;57;52;97;10]%N, Err EValue);
  (10%N, [32;0;53;32]%N, Err EValue);
  (10%N, [43;95]%N, Err EValue);
  (10%N, [11;43;49;49;51;53;51]%N, Ok (11353));
  (16%N, [48;120;95;49;53;49;57;53;10]%N, Ok (86421));
  (16%N, [9;54;29]%N, Err EValue);
  (16%N, [28;48;88;54;49;32]%N, Err EValue);
  (10%N, [31;43;48;98;52;55;52;10]%N, Err EValue);
  (16%N, [45;95;55;57;50]%N, Err EValue);
  (16%N, [49;49;55;32]%N, Ok (279));
  (16%N, [32;50;32]%N, Ok (2));
  (10%N, [31;45;48;120;56;50;56;50;52;95]%N, Err EValue);
  (16%N, [43;48;120;95;48;48;57;52;95]%N, Err EValue);
  (16%N, [48;98;52]%N, Ok (180));
  (16%N, [45;48;120;95;53;32]%N, Ok (-5));
  (10%N, [31;48;98;54;56;56;29]%N, Err EValue);
  (16%N, [32;43;48;98;45;46;53;122;56;10]%N, Err EValue);
  (16%N, [48;98;54;50;49;50;32]%N, Ok (746002));
  (16%N, [45;50;49;56;95;95]%N, Err EValue);
  (16%N, [48;98;51;52;32]%N, Ok (2868));
  (10%N, [48;88;49;57;90;57;54;29]%N, Err EValue);
  (10%N, [53;56;54;52;29]%N, Err EValue);
  (10%N, [45;48]%N, Ok (0));
  (10%N, [45;48;120;95;53;90]%N, Err EValue);
  (10%N, [43;48;50;52;55;49;53]%N, Ok (24715));
  (16%N, [48;98;54;56;51;56;48;10]%N, Ok (11961216));
  (10%N, [9;48;50;54;54]%N, Ok (266));
  (10%N, [9;48;120;95;49;51;50;49;49;32]%N, Err EValue);
  (10%N, [43;56;52;50;48;10]%N, Ok (8420));
  (16%N, [9;48;120;52;29]%N, Err EValue);
  (16%N, [9;48;120;56;97;53;10]%N, Ok (2213));
  (10%N, [31;43;48;50;10]%N, Err EValue);
  (10%N, [43;56;55;55;95]%N, Err EValue);
  (10%N, [48;88;56;49;50;48;29]%N, Err EValue);
  (10%N, [45;48;120;54;49;54;57;51;10]%N, Err EValue);
  (10%N, [31;45;71;43;46;122;55]%N, Err EValue);
  (16%N, [32;43;53;29]%N, Err EValue);
  (10%N, [31;48;54;55;95]%N, Err EValue);
  (10%N, [48;120;51;57;49;49;95]%N, Err EValue);
  (10%N, [45;103;53;48;29]%N, Err EValue);
  (10%N, [55;56;57;95;57;10]%N, Ok (7899));
  (10%N, [32;95]%N, Err EValue);
  (10%N, [43;48;120;95;56;29]%N, Err EValue);
  (16%N, [48;97;48;97;56;53;10]%N, Ok (658053));
  (16%N, [43;48;88;48;56;56;49;95]%N, Err EValue);
  (10%N, [10;48;120;32]%N, Err EValue);
  (16%N, [95;55;51;51;70;48]%N, Err EValue);
  (16%N, [31;43;48;98;53;55;49;10]%N, Err EValue);
  (10%N, [10;53;29]%N, Err EValue);
  (16%N, [31;49;53;52;54;32]%N, Err EValue);
  (16%N, [43;57;49;95]%N, Err EValue);
  (10%N, [48;54;49;54;49;48]%N, Ok (61610));
  (16%N, [43;95;49;32]%N, Err EValue);
  (16%N, [45;48;120;56;50;57;97;57]%N, Ok (-534953));
  (16%N, [45;48;49;55;48;57;95]%N, Err EValue);
  (10%N, [56;48;53;48;95]%N, Err EValue);
  (10%N, [43;32]%N, Err EValue);
  (16%N, [43;57;95;32]%N, Err EValue);
  (10%N, [48;88;95;48;56;55;53;29]%N, Err EValue);
  (10%N, [48;98;95;57;57]%N, Err EValue);
  (10%N, [55;52;53;57;53]%N, Ok (74595));
  (16%N, [11;48;98;97;49;70;49]%N, Ok (762353));
  (10%N, [95;56;51;29]%N, Err EValue);
  (16%N, [9;48;120;95;53;48;32]%N, Ok (80));
  (16%N, [32;48;88;52;56]%N, Ok (72));
  (16%N, [32;45;48;50;97;95]%N, Err EValue);
  (16%N, [45;48;88;55;53;56;55;32]%N, Ok (-30087));
  (16%N, [43;48]%N, Ok (0));
  (16%N, [11;43;48;120;95;55;51]%N, Ok (115));
  (10%N, [32;43;48;98;51;52]%N, Err EValue);
  (10%N, [45;55;56;50;29]%N, Err EValue);
  (10%N, [48;120;95;51;32]%N, Err EValue);
  (16%N, [43;95;10]%N, Err EValue);
  (10%N, [52;48;52;53]%N, Ok (4045));
  (10%N, [32;48]%N, Ok (0));
  (16%N, [43;43;51;29]%N, Err EValue);
  (10%N, [43;48;120;95;56]%N, Err EValue);
  (10%N, [9;51;54;51;54;29]%N, Err EValue);
  (10%N, [28;48;54;53;48;48;10]%N, Err EValue);
  (16%N, [32;48;88]%N, Err EValue);
  (10%N, [28;53;49;50;29]%N, Err EValue);
  (10%N, [11;48;88]%N, Err EValue);
  (10%N, [48;88;51;50;95;53;57]%N, Err EValue);
  (10%N, [55;56;52]%N, Ok (784));
  (10%N, [45;48;88;95;103;48;95]%N, Err EValue);
  (16%N, [45;48;98;53;49;95]%N, Err EValue);
  (10%N, [43;32;52]%N, Err EValue);
  (10%N, [10;45;48;120;53;90;32]%N, Err EValue);
  (16%N, [10;95;55;48;57;48;57]%N, Err EValue);
  (10%N, []%N, Err EValue);
  (10%N, [43;48;98;50;55;48;48;10]%N, Err EValue);
  (16%N, [28;45;48;120;54;57;55;49;29]%N, Err EValue);
  (16%N, [48;98;48;49;48;95;50;32]%N, Ok (721154));
  (10%N, [11;43;55]%N, Ok (7));
  (16%N, [48;88;53;52;95]%N, Err EValue);
  (16%N, [9;45;49;95;51;10]%N, Ok (-19));
  (16%N, [28;45;48;98;49;48;57;50;29]%N, Err EValue);
  (10%N, [31;48;120;52;48;50;56;32]%N, Err EValue);
  (16%N, [43;48;120;95;56;55;10]%N, Ok (135));
  (10%N, [11;43;48;120;95;55;10]%N, Err EValue);
  (10%N, [31;51;55;49;51;48;10]%N, Err EValue);
  (16%N, [9;48;120;57;95]%N, Err EValue);
  (16%N, [10;43;48;98;54;56]%N, Ok (2920));
  (16%N, [45;55;49;95]%N, Err EValue);
  (16%N, [11;48;98;55;32]%N, Ok (183));
  (10%N, [45;50;103;90]%N, Err EValue);
  (10%N, [48;120;95;56;57;29]%N, Err EValue);
  (16%N, [45;48;88;50;49;55;57;49;29]%N, Err EValue);
  (10%N, [56;51;57;56;29]%N, Err EValue);
  (16%N, [45]%N, Err EValue);
  (10%N, [31;95;95;56;49;55;10]%N, Err EValue);
  (10%N, [32;45;48;120;95;53;70;95]%N, Err EValue);
  (10%N, [10;56;95;51;48]%N, Ok (830));
  (16%N, [70;51]%N, Ok (243));
  (16%N, [45;48;98;51;32]%N, Ok (-179));
  (10%N, [43;48]%N, Ok (0));
  (16%N, [11;45;48;120;57;57;56]%N, Ok (-2456));
  (16%N, [43;57;52;50;54;51]%N, Ok (606819));
  (16%N, [9;43;95;52]%N, Err EValue);
  (16%N, [48;120;95;48;32]%N, Ok (0));
  (16%N, [9;48;120;95;48;97]%N, Ok (10));
  (16%N, [45;48;50;48;50;29]%N, Err EValue);
  (10%N, [48;120]%N, Err EValue);
  (16%N, [48;120;95;56;53;29]%N, Err EValue);
  (16%N, [9;43;48;120;95;52;48;57]%N, Ok (1033));
  (16%N, [9;45;48;88;95;53;55;49]%N, Ok (-1393));
  (10%N, [28;48;88;95]%N, Err EValue);
  (10%N, [43;95;90;45;54;54;29]%N, Err EValue);
  (10%N, [11;43;48;51;52;51;32]%N, Ok (343));
  (16%N, [28;43;55;52;48;54;52;10]%N, Err EValue);
  (10%N, [45;48;88;10]%N, Err EValue);
  (16%N, [95;49;57;48;10]%N, Err EValue);
  (16%N, [10]%N, Err EValue);
  (10%N, [95;56;51;10]%N, Err EValue);
  (10%N, []%N, Err EValue);
  (16%N, [43;10]%N, Err EValue);
  (10%N, [9;54]%N, Ok (6));
  (10%N, [11]%N, Err EValue);
  (10%N, [50;51;56;29]%N, Err EValue);
  (10%N, [28;43;45;95]%N, Err EValue);
  (10%N, [11;48;120;95;55;32]%N, Err EValue);
  (10%N, [32;45;48;120;95;57;55;56;55;51;95]%N, Err EValue);
  (10%N, [48;120;52;95]%N, Err EValue);
  (16%N, [45;48;88;32]%N, Err EValue);
  (10%N, [48;120;95;10]%N, Err EValue);
  (16%N, [45;48;88;29]%N, Err EValue);
  (10%N, [48;88]%N, Err EValue);
  (16%N, [48;88;51]%N, Ok (3))].
Example py_int : forallb (fun c => let '(b, s, r) := c in same Z.eqb (int_base U b s) r) int_cases = true.
Proof. vm_compute. reflexivity. Qed.

(** strip, lower and upper of ASCII text *)
Definition strip_cases : list (str * str * str * str) := [
  ([0;10;0;34]%N, [0;10;0;34]%N, [0;10;0;34]%N, [0;10;0;34]%N);
  ([12;27;65]%N, [27;65]%N, [12;27;97]%N, [12;27;65]%N);
  ([32;30;34;13;31;65]%N, [34;13;31;65]%N, [32;30;34;13;31;97]%N, [32;30;34;13;31;65]%N);
  ([10;33;14;90;9]%N, [33;14;90]%N, [10;33;14;122;9]%N, [10;33;14;90;9]%N);
  ([34;122;27;10]%N, [34;122;27]%N, [34;122;27;10]%N, [34;90;27;10]%N);
  ([33;96;14]%N, [33;96;14]%N, [33;96;14]%N, [33;96;14]%N);
  ([34;12;10;10;10;8]%N, [34;12;10;10;10;8]%N, [34;12;10;10;10;8]%N, [34;12;10;10;10;8]%N);
  ([33;32;14;31;8]%N, [33;32;14;31;8]%N, [33;32;14;31;8]%N, [33;32;14;31;8]%N);
  ([64]%N, [64]%N, [64]%N, [64]%N);
  ([97;91;123;30;91;12]%N, [97;91;123;30;91]%N, [97;91;123;30;91;12]%N, [65;91;123;30;91;12]%N);
  ([13;31;0;10;97;8]%N, [0;10;97;8]%N, [13;31;0;10;97;8]%N, [13;31;0;10;65;8]%N);
  ([123;64;29;28]%N, [123;64]%N, [123;64;29;28]%N, [123;64;29;28]%N);
  ([91]%N, [91]%N, [91]%N, [91]%N);
  ([8;28;34;10;32;33;9;10]%N, [8;28;34;10;32;33]%N, [8;28;34;10;32;33;9;10]%N, [8;28;34;10;32;33;9;10]%N);
  ([8]%N, [8]%N, [8]%N, [8]%N);
  ([8;27;27;28;65;34;30;97]%N, [8;27;27;28;65;34;30;97]%N, [8;27;27;28;97;34;30;97]%N, [8;27;27;28;65;34;30;65]%N);
  ([]%N, []%N, []%N, []%N);
  ([123;33;27;9;0;91;122;90]%N, [123;33;27;9;0;91;122;90]%N, [123;33;27;9;0;91;122;122]%N, [123;33;27;9;0;91;90;90]%N);
  ([32;32;8;10;28]%N, [8]%N, [32;32;8;10;28]%N, [32;32;8;10;28]%N);
  ([122;64;10;30;28;12;90;29]%N, [122;64;10;30;28;12;90]%N, [122;64;10;30;28;12;122;29]%N, [90;64;10;30;28;12;90;29]%N);
  ([32;27;27]%N, [27;27]%N, [32;27;27]%N, [32;27;27]%N);
  ([0]%N, [0]%N, [0]%N, [0]%N);
  ([33;123]%N, [33;123]%N, [33;123]%N, [33;123]%N);
  ([97;0;91;64;91;10]%N, [97;0;91;64;91]%N, [97;0;91;64;91;10]%N, [65;0;91;64;91;10]%N);
  ([28;31;34;14;29]%N, [34;14]%N, [28;31;34;14;29]%N, [28;31;34;14;29]%N)].
Example py_strip : forallb (fun c => let '(s, a, l, u) := c in str_eqb (py_strip U s) a && str_eqb (py_lower U s) l && str_eqb (py_upper U s) u) strip_cases = true.
Proof. vm_compute. reflexivity. Qed.

(** isspace, isalpha and isdigit, all of ASCII *)
Definition classes_cases : list (Z * list bool) := [
  ((0), [false;false;false]);
  ((1), [false;false;false]);
  ((2), [false;false;false]);
  ((3), [false;false;false]);
  ((4), [false;false;false]);
  ((5), [false;false;false]);
  ((6), [false;false;false]);
  ((7), [false;false;false]);
  ((8), [false;false;false]);
  ((9), [true;false;false]);
  ((10), [true;false;false]);
  ((11), [true;false;false]);
  ((12), [true;false;false]);
  ((13), [true;false;false]);
  ((14), [false;false;false]);
  ((15), [false;false;false]);
  ((16), [false;false;false]);
  ((17), [false;false;false]);
  ((18), [false;false;false]);
  ((19), [false;false;false]);
  ((20), [false;false;false]);
  ((21), [false;false;false]);
  ((22), [false;false;false]);
  ((23), [false;false;false]);
  ((24), [false;false;false]);
  ((25), [false;false;false]);
  ((26), [false;false;false]);
  ((27), [false;false;false]);
  ((28), [true;false;false]);
  ((29), [true;false;false]);
  ((30), [true;false;false]);
  ((31), [true;false;false]);
  ((32), [true;false;false]);
  ((33), [false;false;false]);
  ((34), [false;false;false]);
  ((35), [false;false;false]);
  ((36), [false;false;false]);
  ((37), [false;false;false]);
  ((38), [false;false;false]);
  ((39), [false;false;false]);
  ((40), [false;false;false]);
  ((41), [false;false;false]);
  ((42), [false;false;false]);
  ((43), [false;false;false]);
  ((44), [false;false;false]);
  ((45), [false;false;false]);
  ((46), [false;false;false]);
  ((47), [false;false;false]);
  ((48), [false;false;true]);
  ((49), [false;false;true]);
  ((50), [false;false;true]);
  ((51), [false;false;true]);
  ((52), [false;false;true]);
  ((53), [false;false;true]);
  ((54), [false;false;true]);
  ((55), [false;false;true]);
  ((56), [false;false;true]);
  ((57), [false;false;true]);
  ((58), [false;false;false]);
  ((59), [false;false;false]);
  ((60), [false;false;false]);
  ((61), [false;false;false]);
  ((62), [false;false;false]);
  ((63), [false;false;false]);
  ((64), [false;false;false]);
  ((65), [false;true;false]);
  ((66), [false;true;false]);
  ((67), [false;true;false]);
  ((68), [false;true;false]);
  ((69), [false;true;false]);
  ((70), [false;true;false]);
  ((71), [false;true;false]);
  ((72), [false;true;false]);
  ((73), [false;true;false]);
  ((74), [false;true;false]);
  ((75), [false;true;false]);
  ((76), [false;true;false]);
  ((77), [false;true;false]);
  ((78), [false;true;false]);
  ((79), [false;true;false]);
  ((80), [false;true;false]);
  ((81), [false;true;false]);
  ((82), [false;true;false]);
  ((83), [false;true;false]);
  ((84), [false;true;false]);
  ((85), [false;true;false]);
  ((86), [false;true;false]);
  ((87), [false;true;false]);
  ((88), [false;true;false]);
  ((89), [false;true;false]);
  ((90), [false;true;false]);
  ((91), [false;false;false]);
  ((92), [false;false;false]);
  ((93), [false;false;false]);
  ((94), [false;false;false]);
  ((95), [false;false;false]);
  ((96), [false;false;false]);
  ((97), [false;true;false]);
  ((98), [false;true;false]);
  ((99), [false;true;false]);
  ((100), [false;true;false]);
  ((101), [false;true;false]);
  ((102), [false;true;false]);
  ((103), [false;true;false]);
  ((104), [false;true;false]);
  ((105), [false;true;false]);
  ((106), [false;true;false]);
  ((107), [false;true;false]);
  ((108), [false;true;false]);
  ((109), [false;true;false]);
  ((110), [false;true;false]);
  ((111), [false;true;false]);
  ((112), [false;true;false]);
  ((113), [false;true;false]);
  ((114), [false;true;false]);
  ((115), [false;true;false]);
  ((116), [false;true;false]);
  ((117), [false;true;false]);
  ((118), [false;true;false]);
  ((119), [false;true;false]);
  ((120), [false;true;false]);
  ((121), [false;true;false]);
  ((122), [false;true;false]);
  ((123), [false;false;false]);
  ((124), [false;false;false]);
  ((125), [false;false;false]);
  ((126), [false;false;false]);
  ((127), [false;false;false])].
Example py_classes : forallb (fun c => let '(n, l) := c in let x := Z.to_N n in leqb Bool.eqb [isspace U x; isalpha U x; isdigit U x] l) classes_cases = true.
Proof. vm_compute. reflexivity. Qed.

(** SectionProxy.get with interpolation *)
Definition config_cases : list (options * options * str * cres (option str)) := [
  ([([97]%N, [37]%N);([100]%N, [37;37;37;40;98;41;115]%N)], [([97]%N, [37;40;107;49;41;115]%N);([107;49]%N, [37;40;107;50;41;115]%N);([107;50]%N, [37;40;107;51;41;115]%N);([107;51]%N, [37;40;107;52;41;115]%N);([107;52]%N, [37;40;107;53;41;115]%N);([107;53]%N, [37;40;107;54;41;115]%N);([107;54]%N, [37;40;107;55;41;115]%N);([107;55]%N, [37;40;107;56;41;115]%N);([107;56]%N, [37;40;107;57;41;115]%N);([107;57]%N, [37;37]%N)], [65]%N, CVal (Some [37]%N));
  ([([98]%N, [120;32;121]%N)], [([97]%N, []%N);([99]%N, [120;32;121]%N);([100]%N, [41;115;37;40;98;41;115]%N)], [97]%N, CVal (Some []%N));
  ([([97]%N, [97;37;40;122;122;41;115]%N);([98]%N, [37;40;122;122;41;115;37;40;67;41;115]%N);([100]%N, [37;40;67;41;115]%N)], [([99]%N, []%N);([100]%N, []%N)], [97]%N, CErr CMissing);
  ([], [([97]%N, [37;40;67;41;115;37;40;67;41;115]%N);([98]%N, []%N);([99]%N, [97]%N)], [98]%N, CVal (Some []%N));
  ([([97]%N, [37;40;98;41;100]%N);([98]%N, [97;97]%N);([100]%N, [37;37]%N)], [([97]%N, [37;40;98;41;115;37;40;97;41;115]%N);([98]%N, [37]%N);([99]%N, []%N);([100]%N, [37;37;37;40;100;41;115]%N)], [97]%N, CErr CSyntax);
  ([([97]%N, []%N);([100]%N, [37;40;100;41;115;37;40;97;41;115;41;115]%N)], [], [97]%N, CVal (Some []%N));
  ([([97]%N, [37;37]%N);([99]%N, [37;40;98;41;115;37;40;98;41;115;37;40;67;41;115]%N)], [([97]%N, [37;40;107;49;41;115]%N);([107;49]%N, [37;40;107;50;41;115]%N);([107;50]%N, [37;40;107;51;41;115]%N);([107;51]%N, [37;40;107;52;41;115]%N);([107;52]%N, [37;40;107;53;41;115]%N);([107;53]%N, [37;40;107;54;41;115]%N);([107;54]%N, [37;40;107;55;41;115]%N);([107;55]%N, [37;40;107;56;41;115]%N);([107;56]%N, [37;40;107;57;41;115]%N);([107;57]%N, [37;40;107;49;48;41;115]%N);([107;49;48]%N, [101;110;100]%N)], [65]%N, CVal (Some [101;110;100]%N));
  ([([97]%N, [37;40;97;41;115;120;32;121;37;40;97;41;115]%N);([98]%N, [37;37]%N)], [([99]%N, []%N)], [65]%N, CErr CDepth);
  ([([97]%N, []%N);([100]%N, [97;37;37]%N)], [([98]%N, [37;40;97;41;115;37;37]%N);([99]%N, [97;37;37;37;40;97;41;115]%N)], [65]%N, CVal (Some []%N));
  ([([97]%N, [37;40;97;41;115;37;40;122;122;41;115;37;40;98;41;115]%N)], [([97]%N, [120;32;121;37;40;122;122;41;115]%N);([98]%N, []%N);([100]%N, [37;37;97]%N)], [65]%N, CErr CMissing);
  ([([97]%N, [37;40;97;41;115]%N);([98]%N, [37;40;122;122;41;115]%N);([99]%N, [40;98;41;115;97]%N)], [([97]%N, [37;40;98;37;40;122;122;41;115;37;40;122;122;41;115]%N);([98]%N, [37;37;37;40;97;41;115]%N);([99]%N, [37;40;98;41;115;97;37;40;122;122;41;115]%N);([100]%N, [37;37;37;40;97;41;115]%N)], [98]%N, CErr CMissing);
  ([([99]%N, []%N)], [([98]%N, [37;40;98;41;115;120]%N)], [98]%N, CErr CDepth);
  ([([98]%N, [120;32;121]%N);([99]%N, [37;40;97;41;115;37;40;100;41;115;37;40;67;41;115]%N)], [([97]%N, [37;40;107;49;41;115]%N);([107;49]%N, [37;40;107;50;41;115]%N);([107;50]%N, [37;40;107;51;41;115]%N);([107;51]%N, [37;40;107;52;41;115]%N);([107;52]%N, [37;40;107;53;41;115]%N);([107;53]%N, [37;40;107;54;41;115]%N);([107;54]%N, [37;40;107;55;41;115]%N);([107;55]%N, [37;40;107;56;41;115]%N);([107;56]%N, [37;40;107;57;41;115]%N);([107;57]%N, [37;40;107;49;48;41;115]%N);([107;49;48]%N, [101;110;100]%N)], [65]%N, CVal (Some [101;110;100]%N));
  ([([100]%N, [37;40;122;122;41;115]%N)], [([98]%N, [37;40;98;41;115;120;37;40;67;41;115]%N)], [98]%N, CErr CDepth);
  ([([97]%N, [37;37]%N);([100]%N, [120;32;121]%N)], [([99]%N, []%N);([100]%N, [120;32;121]%N)], [97]%N, CVal (Some [37]%N));
  ([([98]%N, [37;40;98;41;115;37;37]%N)], [([98]%N, [37;37;37;40;67;41;115;120;32;121]%N);([99]%N, [97;120;32;121;37;40;122;122;41;115]%N);([100]%N, []%N)], [65]%N, CVal None);
  ([([97]%N, [120;32;121;120;32;121]%N);([99]%N, []%N);([100]%N, []%N)], [([98]%N, [37;37]%N);([99]%N, [41;115]%N);([100]%N, []%N)], [98]%N, CVal (Some [37]%N));
  ([([97]%N, [37;40;97;41;115;37;40;122;122;41;115]%N);([98]%N, [97]%N)], [([97]%N, []%N);([98]%N, [120;32;121]%N);([99]%N, [37;37]%N);([100]%N, [37;40;98;41;115;97;37;40;97;41;115]%N)], [65]%N, CVal (Some []%N));
  ([([97]%N, [37;37;37;40;97;41;115]%N)], [([97]%N, [37;40;107;49;41;115]%N);([107;49]%N, [37;40;107;50;41;115]%N);([107;50]%N, [37;40;107;51;41;115]%N);([107;51]%N, [37;40;107;52;41;115]%N);([107;52]%N, [37;40;107;53;41;115]%N);([107;53]%N, [37;40;107;54;41;115]%N);([107;54]%N, [37;40;107;55;41;115]%N);([107;55]%N, [37;40;107;56;41;115]%N);([107;56]%N, [37;40;107;57;41;115]%N);([107;57]%N, [37;40;107;49;48;41;115]%N);([107;49;48]%N, [37;37]%N)], [65]%N, CErr CDepth);
  ([([97]%N, []%N);([98]%N, [37;40;100;41;115]%N);([99]%N, [37;40;98;41;115]%N);([100]%N, []%N)], [([97]%N, [37;37]%N);([98]%N, [120;32;121;37;40;98;41;115]%N);([99]%N, [120;32;121]%N)], [65]%N, CVal (Some [37]%N));
  ([([98]%N, []%N);([99]%N, [120;32;121;37;40;122;122;41;115;37;40;98;41;115]%N);([100]%N, [37;37;40;98;41;37;37]%N)], [([97]%N, []%N);([98]%N, [37;40;122;122;41;115]%N);([99]%N, [37;40;67;41;115]%N);([100]%N, [37;40;100;41;115;120;32;121]%N)], [97]%N, CVal (Some []%N));
  ([], [([97]%N, []%N);([98]%N, [37;40;67;41;115]%N);([99]%N, [37;40;98;41;115]%N);([100]%N, [41;115]%N)], [97]%N, CVal (Some []%N));
  ([], [([97]%N, []%N);([99]%N, [37;40;67;41;115;37;40;98;41;37;40;100;41;115]%N)], [65]%N, CVal (Some []%N));
  ([([97]%N, [37;40;67;41;115;37;40;67;41;115;41;115]%N);([98]%N, [37;40;67;41;115]%N);([100]%N, []%N)], [([98]%N, [37;37;37;40;97;41;115;37;40;67;41;115]%N)], [65]%N, CErr CMissing);
  ([([99]%N, [37;37]%N);([100]%N, [37;37;40;98;41]%N)], [([97]%N, [37;40;107;49;41;115]%N);([107;49]%N, [37;40;107;50;41;115]%N);([107;50]%N, [37;40;107;51;41;115]%N);([107;51]%N, [37;40;107;52;41;115]%N);([107;52]%N, [37;40;107;53;41;115]%N);([107;53]%N, [37;40;107;54;41;115]%N);([107;54]%N, [37;40;107;55;41;115]%N);([107;55]%N, [37;40;107;56;41;115]%N);([107;56]%N, [37;40;107;57;41;115]%N);([107;57]%N, [37;40;107;49;48;41;115]%N);([107;49;48]%N, [37;40;107;49;49;41;115]%N);([107;49;49]%N, [37;40;107;49;50;41;115]%N);([107;49;50]%N, [101;110;100]%N)], [65]%N, CErr CDepth);
  ([([97]%N, [37;40;100;41;115;97;37;37]%N);([100]%N, [37;37;37;40;97;41;115;37;40;100;41;115]%N)], [([98]%N, []%N);([100]%N, [37;40;100;41;115;120;32;121;37;40;122;122;41;115]%N)], [65]%N, CErr CDepth);
  ([([98]%N, [37;40;41;115;120;32;121;37;40;122;122;41;115]%N);([100]%N, [120;32;121;37;40;67;41;115;37;40;98;41;115]%N)], [([99]%N, []%N);([100]%N, [37;40;122;122;41;115;37;40;98;41;115;120]%N)], [98]%N, CErr CSyntax);
  ([([97]%N, [120;32;121]%N);([98]%N, []%N)], [([98]%N, [37;120;37;40;97;41;115;37;37]%N);([99]%N, [37;40;100;41;115]%N);([100]%N, [120;32;121;37;120;97]%N)], [97]%N, CVal (Some [120;32;121]%N));
  ([([100]%N, [37;40;98;41;115;97]%N)], [([97]%N, [37;40;98;41;115]%N);([99]%N, [37;40;100;41;115;37;40;98;41]%N);([100]%N, []%N)], [98]%N, CVal None);
  ([([97]%N, []%N);([98]%N, [37;40;41;115]%N);([100]%N, []%N)], [([98]%N, [97;37;40;100;41;115;37;40;67;41;115]%N);([99]%N, [37;40;97;41;115]%N);([100]%N, [120;32;121;37;40;98;41;115]%N)], [97]%N, CVal (Some []%N));
  ([([98]%N, [97;37;40;67;41;115]%N);([99]%N, [37]%N);([100]%N, [37;40;67;41;115;37;37]%N)], [([97]%N, [37;40;107;49;41;115]%N);([107;49]%N, [37;40;107;50;41;115]%N);([107;50]%N, [37;40;107;51;41;115]%N);([107;51]%N, [37;40;107;52;41;115]%N);([107;52]%N, [37;40;107;53;41;115]%N);([107;53]%N, [37;40;107;54;41;115]%N);([107;54]%N, [37;40;107;55;41;115]%N);([107;55]%N, [37;40;107;56;41;115]%N);([107;56]%N, [37;40;107;57;41;115]%N);([107;57]%N, [37;40;107;49;48;41;115]%N);([107;49;48]%N, [37;40;107;49;49;41;115]%N);([107;49;49]%N, [37;37]%N)], [65]%N, CErr CDepth);
  ([([98]%N, [37;40;100;41;115;40;98;41;115;97]%N);([99]%N, [37;40;67;41;115;37;40;100;41;115]%N)], [([97]%N, [37;37;37;40;100;41;115]%N);([98]%N, [37;40;100;41;115;37;40;67;41;115;97]%N);([99]%N, [37;40;97;41;115;37;40;122;122;41;115;37;37]%N);([100]%N, [37;40;98;41;115;97;37;40;98;41;115]%N)], [65]%N, CErr CDepth);
  ([([97]%N, [37;40;98;41;115]%N)], [([98]%N, [37;37;37;120;120;32;121]%N);([100]%N, [120;32;121;37;37;37;40;122;122;41;115]%N)], [65]%N, CErr CSyntax);
  ([([98]%N, [37;40;67;41;115]%N);([100]%N, [37;40;98;41;37;37]%N)], [([97]%N, [37;40;97;41;115;37;40;122;122;41;115]%N);([98]%N, []%N);([99]%N, [37;40;41;115]%N);([100]%N, [97]%N)], [98]%N, CVal (Some []%N));
  ([([97]%N, [120;32;121;37;97]%N);([100]%N, [37;37]%N)], [([97]%N, [37;40;100;41;115;37;40;97;41;115;37;37]%N);([99]%N, [97]%N);([100]%N, [37;40;67;41;115;37;40;122;122;41;115]%N)], [97]%N, CErr CMissing);
  ([([98]%N, [37;40;98;41;115;120;32;121]%N);([99]%N, []%N);([100]%N, [120;32;121]%N)], [([100]%N, []%N)], [98]%N, CErr CDepth);
  ([([97]%N, [37;40;67;41;115]%N);([99]%N, [120;32;121;37;40;100;41;115;97]%N);([100]%N, [37;40;100;41;115]%N)], [([97]%N, [37;40;107;49;41;115]%N);([107;49]%N, [37;40;107;50;41;115]%N);([107;50]%N, [37;40;107;51;41;115]%N);([107;51]%N, [37;40;107;52;41;115]%N);([107;52]%N, [37;40;107;53;41;115]%N);([107;53]%N, [37;40;107;54;41;115]%N);([107;54]%N, [37;40;107;55;41;115]%N);([107;55]%N, [37;40;107;56;41;115]%N);([107;56]%N, [37;40;107;57;41;115]%N);([107;57]%N, [37;40;107;49;48;41;115]%N);([107;49;48]%N, [37;40;107;49;49;41;115]%N);([107;49;49]%N, [37;40;107;49;50;41;115]%N);([107;49;50]%N, [37;37]%N)], [65]%N, CErr CDepth);
  ([([100]%N, [37;40;67;41;115;97]%N)], [([98]%N, [37;40;98;41;115;120;32;121]%N);([99]%N, [37;37;37;37]%N);([100]%N, [37;37;97]%N)], [97]%N, CVal None);
  ([([97]%N, []%N);([98]%N, []%N);([100]%N, [37;37]%N)], [([99]%N, [37;40;122;122;41;115;37;40;100;41;115]%N);([100]%N, [97;37;40;122;122;41;115;37;40;98]%N)], [65]%N, CVal (Some []%N));
  ([([99]%N, []%N)], [([97]%N, []%N);([98]%N, [120;32;121;37;40;98;41;115;37;40;98;41;115]%N);([100]%N, [37;40;98;41;115;97]%N)], [97]%N, CVal (Some []%N));
  ([], [([98]%N, [37;40;97;41;115;37;37]%N);([99]%N, [37;37;37;40;98;41;115;120;32;121]%N)], [97]%N, CVal None);
  ([([97]%N, [37;37;37;40;100;41;115]%N);([100]%N, []%N)], [([97]%N, [120;32;121;40;98;41;115;37;40;97;41;115]%N);([99]%N, [37;40;100;41;115]%N);([100]%N, [37;40;97;41;115;37;40;67;41;115]%N)], [68]%N, CErr CDepth);
  ([([98]%N, []%N);([99]%N, []%N);([100]%N, [37;40;122;122;41;115;37;40;97;41;115;37;40;67;41;115]%N)], [([97]%N, [37;40;107;49;41;115]%N);([107;49]%N, [37;40;107;50;41;115]%N);([107;50]%N, [37;40;107;51;41;115]%N);([107;51]%N, [37;40;107;52;41;115]%N);([107;52]%N, [37;40;107;53;41;115]%N);([107;53]%N, [37;40;107;54;41;115]%N);([107;54]%N, [37;40;107;55;41;115]%N);([107;55]%N, [37;40;107;56;41;115]%N);([107;56]%N, [37;40;107;57;41;115]%N);([107;57]%N, [37;40;107;49;48;41;115]%N);([107;49;48]%N, [37;37]%N)], [65]%N, CErr CDepth);
  ([([97]%N, [37;40;98;41;115;120;37;37]%N)], [([98]%N, []%N)], [97]%N, CVal (Some [120;37]%N));
  ([([98]%N, [120;32;121;37;40;98;41;37;40;97;41;115]%N);([99]%N, [37;40;98;41;115]%N);([100]%N, [37;40;122;122;41;115;37;37;37;40;67;41;115]%N)], [([97]%N, [97;97;37;40;67;41;115]%N);([98]%N, [37;40;97;41;115;37;40;122;122;41;115]%N);([100]%N, []%N)], [65]%N, CErr CDepth);
  ([([98]%N, [37;37;37;40;67;41;115;37;40;67;41;115]%N)], [([97]%N, [120;32;121]%N);([99]%N, []%N)], [68]%N, CVal None);
  ([([97]%N, []%N);([98]%N, []%N)], [([98]%N, [40;98;41;115;120;32;121;37;40;100;41;115]%N);([99]%N, [120;32;121]%N);([100]%N, [37;40;122;122;41;115;37;40;97;41;115;37;40;67;41;115]%N)], [98]%N, CErr CMissing);
  ([([98]%N, [120;32;121]%N);([99]%N, [37;40;98;41;115;37;40;97;41;115]%N);([100]%N, [37;40;122;122;41;115;37;40;122;122;41;115;120;32;121]%N)], [([98]%N, [120;32;121]%N);([99]%N, [37;40;122;122;41;115;37;120]%N);([100]%N, [37;40;122;122;41;115]%N)], [65]%N, CVal None);
  ([], [([97]%N, [37;40;107;49;41;115]%N);([107;49]%N, [37;40;107;50;41;115]%N);([107;50]%N, [37;40;107;51;41;115]%N);([107;51]%N, [37;40;107;52;41;115]%N);([107;52]%N, [37;40;107;53;41;115]%N);([107;53]%N, [37;40;107;54;41;115]%N);([107;54]%N, [37;40;107;55;41;115]%N);([107;55]%N, [101;110;100]%N)], [65]%N, CVal (Some [101;110;100]%N));
  ([([97]%N, [37;40;67;41;115;37;40;98;41;115;120]%N);([98]%N, [37;37;37;37;37;40;98;41;115]%N);([99]%N, [37;40;67;41;115;37;40;98;41;37;40;122;122;41;115]%N)], [([97]%N, []%N);([98]%N, [37;40;97;41;115;37;40;41;115;37;40;67;41;115]%N);([99]%N, [37;37;37;40;100;41;115;41;115]%N);([100]%N, [37;40;98;41;115;37;120;37;40;97;41;115]%N)], [98]%N, CErr CSyntax);
  ([([97]%N, [37;40;98;41;115;37;40;97;41;115]%N);([99]%N, [37;40;98;41;115;37;40;67;41;115]%N);([100]%N, [37;40;122;122;41;115;37]%N)], [([97]%N, [120;32;121;37;40;100;41;115;37;40;100;41;115]%N);([98]%N, []%N)], [65]%N, CErr CMissing);
  ([([97]%N, []%N);([99]%N, [120;32;121;97;37;40;100;41;115]%N);([100]%N, [37;40;100;41;115]%N)], [([97]%N, [37;37]%N);([98]%N, [37;40;97;41;115]%N);([99]%N, []%N);([100]%N, [97;37;40;98;41;115;37;37]%N)], [65]%N, CVal (Some [37]%N));
  ([], [([97]%N, [37;40;67;41;115;37;37]%N);([99]%N, []%N)], [65]%N, CVal (Some [37]%N));
  ([], [([97]%N, [37;40;122;122;41;115]%N);([98]%N, [97;37;40;98;41;115;37;37]%N)], [68]%N, CVal None);
  ([([97]%N, []%N);([98]%N, [37;40;98;41;100]%N);([100]%N, []%N)], [([97]%N, [37;40;107;49;41;115]%N);([107;49]%N, [37;40;107;50;41;115]%N);([107;50]%N, [37;40;107;51;41;115]%N);([107;51]%N, [37;40;107;52;41;115]%N);([107;52]%N, [37;40;107;53;41;115]%N);([107;53]%N, [37;40;107;54;41;115]%N);([107;54]%N, [37;40;107;55;41;115]%N);([107;55]%N, [37;40;107;56;41;115]%N);([107;56]%N, [37;37]%N)], [65]%N, CVal (Some [37]%N));
  ([([99]%N, []%N)], [([97]%N, [37;40;100;41;115]%N);([98]%N, [37;40;67;41;115;37;40;67;41;115]%N);([100]%N, [37;40;100;41;115;37;40;100;41;115]%N)], [97]%N, CErr CDepth);
  ([([97]%N, [97;37;40;98;41;115;120;32;121]%N)], [([98]%N, [37;40;122;122;41;115]%N)], [65]%N, CErr CMissing);
  ([([99]%N, [37;37]%N);([100]%N, []%N)], [([97]%N, []%N)], [65]%N, CVal (Some []%N));
  ([([97]%N, [37;40;100;41;115]%N);([98]%N, [37;37]%N);([100]%N, []%N)], [([97]%N, [97;37;40;98;41;100]%N);([100]%N, [120;32;121;37;40;98;41;37;40;67;41;115]%N)], [68]%N, CErr CSyntax);
  ([([97]%N, [97;97;37;40;98;41]%N);([100]%N, []%N)], [([99]%N, []%N);([100]%N, [97]%N)], [65]%N, CErr CSyntax);
  ([([97]%N, [37;40;67;41;115;37;40;122;122;41;115;37;40;122;122;41;115]%N);([98]%N, [37;40;98;41;115;120]%N);([99]%N, [37;37]%N)], [([97]%N, [37;40;107;49;41;115]%N);([107;49]%N, [37;40;107;50;41;115]%N);([107;50]%N, [37;40;107;51;41;115]%N);([107;51]%N, [37;40;107;52;41;115]%N);([107;52]%N, [37;40;107;53;41;115]%N);([107;53]%N, [37;40;107;54;41;115]%N);([107;54]%N, [37;40;107;55;41;115]%N);([107;55]%N, [37;40;107;56;41;115]%N);([107;56]%N, [37;40;107;57;41;115]%N);([107;57]%N, [37;40;107;49;48;41;115]%N);([107;49;48]%N, [37;40;107;49;49;41;115]%N);([107;49;49]%N, [37;40;107;49;50;41;115]%N);([107;49;50]%N, [101;110;100]%N)], [65]%N, CErr CDepth);
  ([([98]%N, [37;40;67;41;115]%N);([100]%N, [37;40;122;122;41;115]%N)], [([97]%N, [37;40;98;41;115;97;37;37]%N);([98]%N, [120;32;121;37;40;100;41;115;37;40;97;41;115]%N);([99]%N, []%N);([100]%N, []%N)], [65]%N, CErr CDepth);
  ([([97]%N, [37;40;98;41;115]%N);([99]%N, []%N);([100]%N, [37;40;98;41;115]%N)], [([97]%N, []%N);([99]%N, [37;37]%N)], [97]%N, CVal (Some []%N));
  ([([97]%N, []%N);([99]%N, [120;32;121;37;40;67;41;115;37;40;122;122;41;115]%N)], [([98]%N, [120;32;121;37;40;122;122;41;115]%N);([99]%N, [37;40;122;122;41;115]%N);([100]%N, []%N)], [68]%N, CVal (Some []%N));
  ([([98]%N, [120;32;121;37;40;122;122;41;115;37;40;98;41;115;120]%N);([99]%N, [97]%N);([100]%N, []%N)], [([97]%N, [37;40;97;41;115;37;120;37;40;41;115]%N);([99]%N, []%N)], [65]%N, CErr CDepth);
  ([([98]%N, [37;40;97;41;115]%N);([100]%N, [37;40;98;41;115]%N)], [([97]%N, [37;40;122;122;41;115;97;37;40;41;115]%N);([98]%N, [37;40;98;41;115;37;37;37;37]%N);([100]%N, [37;37;37]%N)], [65]%N, CErr CMissing);
  ([([97]%N, [37;40;98;41;115;120;97;37;40;122;122;41;115]%N)], [([97]%N, [37;40;107;49;41;115]%N);([107;49]%N, [37;40;107;50;41;115]%N);([107;50]%N, [37;40;107;51;41;115]%N);([107;51]%N, [37;40;107;52;41;115]%N);([107;52]%N, [37;40;107;53;41;115]%N);([107;53]%N, [37;40;107;54;41;115]%N);([107;54]%N, [37;40;107;55;41;115]%N);([107;55]%N, [37;40;107;56;41;115]%N);([107;56]%N, [37;40;107;57;41;115]%N);([107;57]%N, [37;37]%N)], [65]%N, CVal (Some [37]%N));
  ([], [([98]%N, [97;37;40;67;41;115;37;40;98]%N);([99]%N, []%N);([100]%N, [37;40;67;41;115;37;37]%N)], [97]%N, CVal None);
  ([([99]%N, [37;40;41;115]%N)], [([97]%N, [37;40;122;122;41;115;37;40;98;41;115]%N);([98]%N, []%N);([99]%N, [37;40;100;41;115]%N)], [97]%N, CErr CMissing);
  ([([97]%N, [37;40;122;122;41;115]%N);([98]%N, []%N);([99]%N, [37;40;41;115;120;32;121;37;40;100;41;115]%N);([100]%N, [120;32;121;37]%N)], [([97]%N, [37;40;41;115;97]%N);([99]%N, []%N)], [68]%N, CErr CSyntax);
  ([([98]%N, [120;32;121]%N)], [([99]%N, [37;40;98;41;115;37;37]%N);([100]%N, [37;40;67;41;115;37;40;98;41;115;120;37;40;100;41;115]%N)], [68]%N, CErr CDepth);
  ([([97]%N, [37;40;97;41;115]%N)], [([97]%N, [37;120]%N);([98]%N, [37;37]%N);([99]%N, [37;40;98;41;115;120]%N);([100]%N, [120;32;121]%N)], [68]%N, CVal (Some [120;32;121]%N));
  ([([97]%N, [37;37;97]%N);([99]%N, [37;40;98;41;115;37;37;120;32;121]%N)], [([97]%N, [37;40;107;49;41;115]%N);([107;49]%N, [37;40;107;50;41;115]%N);([107;50]%N, [37;40;107;51;41;115]%N);([107;51]%N, [37;40;107;52;41;115]%N);([107;52]%N, [37;40;107;53;41;115]%N);([107;53]%N, [37;40;107;54;41;115]%N);([107;54]%N, [37;40;107;55;41;115]%N);([107;55]%N, [37;40;107;56;41;115]%N);([107;56]%N, [37;40;107;57;41;115]%N);([107;57]%N, [37;37]%N)], [65]%N, CVal (Some [37]%N));
  ([([97]%N, [37;40;67;41;115]%N);([98]%N, [37;40;122;122;41;115;120;32;121]%N);([100]%N, []%N)], [([98]%N, [37;40;122;122;41;115;37;40;98;41;120;32;121]%N);([100]%N, [37;40;97;41;115;41;115;97]%N)], [68]%N, CErr CMissing);
  ([([97]%N, [41;115]%N);([98]%N, [37;40;100;41;115;37;40;67;41;115]%N);([100]%N, [97]%N)], [], [65]%N, CVal (Some [41;115]%N));
  ([([97]%N, [37;37;40;67;41;115]%N);([98]%N, [41;115;37;40;67;41;115;37;40;97;41;115]%N)], [([98]%N, [37;40;98;41;100;37;40;122;122;41;115]%N);([99]%N, [37;40;122;122;41;115;37]%N)], [98]%N, CErr CSyntax);
  ([([97]%N, [37;37;40;100;41;115]%N);([100]%N, [120;32;121;97;120;32;121]%N)], [([98]%N, [120;32;121]%N);([99]%N, [120;32;121;37;40;98;41]%N)], [98]%N, CVal (Some [120;32;121]%N));
  ([([99]%N, [37;40;97;41;115]%N)], [([100]%N, [37;40;67;41;115;37;40;100;41;115]%N)], [65]%N, CVal None);
  ([([98]%N, []%N);([100]%N, []%N)], [([97]%N, [37;40;107;49;41;115]%N);([107;49]%N, [37;40;107;50;41;115]%N);([107;50]%N, [37;40;107;51;41;115]%N);([107;51]%N, [37;40;107;52;41;115]%N);([107;52]%N, [37;40;107;53;41;115]%N);([107;53]%N, [37;40;107;54;41;115]%N);([107;54]%N, [37;40;107;55;41;115]%N);([107;55]%N, [37;40;107;56;41;115]%N);([107;56]%N, [37;40;107;57;41;115]%N);([107;57]%N, [37;40;107;49;48;41;115]%N);([107;49;48]%N, [37;40;107;49;49;41;115]%N);([107;49;49]%N, [101;110;100]%N)], [65]%N, CErr CDepth);
  ([([97]%N, [37;40;97;41;115;37;40;67;41;115]%N);([100]%N, [37;40;122;122;41;115;37;40;98;41;115]%N)], [([97]%N, [97;37;40;100;41;115]%N);([98]%N, [120;32;121;97]%N);([99]%N, [37;37]%N);([100]%N, []%N)], [68]%N, CVal (Some []%N));
  ([([99]%N, [37;40;100;41;115;120;32;121;120;32;121]%N);([100]%N, [37;40;98;41;115;37;40;97;41;115]%N)], [([97]%N, [37;40;41;115;37;120;37;40;67;41;115]%N);([99]%N, [37;40;97;41;115;37;40;98;41;37;40;122;122;41;115]%N);([100]%N, [37;40;100;41;115;37;120]%N)], [65]%N, CErr CSyntax);
  ([([97]%N, [120;32;121]%N);([100]%N, []%N)], [([97]%N, []%N)], [98]%N, CVal None);
  ([([98]%N, [120;32;121;37;40;67;41;115;37;40;98;41;115]%N)], [([98]%N, []%N);([100]%N, [41;115]%N)], [97]%N, CVal None);
  ([([98]%N, [37;40;100;41;115]%N);([99]%N, [97;97;37;40;67;41;115]%N);([100]%N, [37;37;37;40;98;41;115;120]%N)], [([97]%N, [37;40;98;41;115;120]%N);([98]%N, [97]%N);([99]%N, [37;40;67;41;115]%N)], [68]%N, CVal (Some [37;97;120]%N));
  ([([98]%N, [37;40;97;41;115]%N);([99]%N, [37;40;67;41;115]%N)], [([97]%N, [37;40;107;49;41;115]%N);([107;49]%N, [37;40;107;50;41;115]%N);([107;50]%N, [37;40;107;51;41;115]%N);([107;51]%N, [37;40;107;52;41;115]%N);([107;52]%N, [37;40;107;53;41;115]%N);([107;53]%N, [37;40;107;54;41;115]%N);([107;54]%N, [37;40;107;55;41;115]%N);([107;55]%N, [37;40;107;56;41;115]%N);([107;56]%N, [37;40;107;57;41;115]%N);([107;57]%N, [37;40;107;49;48;41;115]%N);([107;49;48]%N, [101;110;100]%N)], [65]%N, CVal (Some [101;110;100]%N));
  ([([99]%N, []%N)], [([97]%N, [37;37;37;40;67;41;115;37;40;97;41;115]%N);([99]%N, [97;37;40;122;122;41;115]%N);([100]%N, [120;32;121;37;40;122;122;41;115;37;40;100;41;115]%N)], [68]%N, CErr CMissing);
  ([([100]%N, [37;40;122;122;41;115;37;40;67;41;115;97]%N)], [([99]%N, []%N)], [65]%N, CVal None);
  ([([97]%N, [37;40;67;41;115;97]%N);([99]%N, [37;37;37;40;100;41;115]%N)], [([99]%N, [37;40;97;41;115]%N)], [65]%N, CErr CDepth);
  ([([100]%N, [37]%N)], [([98]%N, [37;37]%N);([100]%N, []%N)], [68]%N, CVal (Some []%N));
  ([([98]%N, [37;120;37;40;100;41;115]%N);([99]%N, [120;32;121;37;37]%N)], [([97]%N, []%N);([99]%N, [37;40;97;41;115;37;40;97;41;115]%N);([100]%N, [37;40;67;41;115;37;40;98;41;115]%N)], [68]%N, CErr CSyntax);
  ([([97]%N, [37;40;98;41;37;37]%N)], [([97]%N, [37;40;107;49;41;115]%N);([107;49]%N, [37;40;107;50;41;115]%N);([107;50]%N, [37;40;107;51;41;115]%N);([107;51]%N, [37;40;107;52;41;115]%N);([107;52]%N, [37;40;107;53;41;115]%N);([107;53]%N, [37;40;107;54;41;115]%N);([107;54]%N, [37;40;107;55;41;115]%N);([107;55]%N, [37;40;107;56;41;115]%N);([107;56]%N, [37;40;107;57;41;115]%N);([107;57]%N, [37;40;107;49;48;41;115]%N);([107;49;48]%N, [37;37]%N)], [65]%N, CErr CDepth);
  ([([98]%N, [97;97]%N);([100]%N, [37;40;98;41;115;120;32;121]%N)], [([98]%N, [37;40;98;41;115;37;40;67;41;115;37;40;67;41;115]%N);([100]%N, []%N)], [65]%N, CVal None);
  ([([97]%N, []%N);([100]%N, []%N)], [([98]%N, [120;32;121;37;40;98;41;115]%N);([99]%N, [97;120;32;121]%N);([100]%N, []%N)], [68]%N, CVal (Some []%N));
  ([([97]%N, [37;40;98;41;37;37;37;37]%N);([99]%N, [37;40;97;41;115]%N);([100]%N, [37;40;67;41;115]%N)], [([97]%N, [37;40;98;41;115;37;40;67;41;115]%N);([98]%N, [37;40;98;41;115]%N);([99]%N, [120;32;121]%N);([100]%N, [37;40;98]%N)], [68]%N, CErr CSyntax);
  ([([97]%N, [37;40;122;122;41;115]%N);([98]%N, []%N);([100]%N, [37;40;98]%N)], [([97]%N, [37;37;40;122;122;41;115]%N);([99]%N, [37;40;98;41;115;97]%N);([100]%N, [97;37;37]%N)], [97]%N, CVal (Some [37;40;122;122;41;115]%N));
  ([([100]%N, []%N)], [([97]%N, [37;40;100;41;115;37;40;97;41;115]%N);([98]%N, [37;37;37;40;122;122;41;115;120;32;121]%N);([100]%N, []%N)], [98]%N, CErr CMissing);
  ([([97]%N, [37;40;100;41;115;37;40;98;41;115]%N);([99]%N, [37;40;67;41;115;37;40;97;41;115]%N)], [([97]%N, [37;40;107;49;41;115]%N);([107;49]%N, [37;40;107;50;41;115]%N);([107;50]%N, [37;40;107;51;41;115]%N);([107;51]%N, [37;40;107;52;41;115]%N);([107;52]%N, [37;40;107;53;41;115]%N);([107;53]%N, [37;40;107;54;41;115]%N);([107;54]%N, [37;40;107;55;41;115]%N);([107;55]%N, [37;40;107;56;41;115]%N);([107;56]%N, [37;40;107;57;41;115]%N);([107;57]%N, [37;40;107;49;48;41;115]%N);([107;49;48]%N, [37;37]%N)], [65]%N, CErr CDepth);
  ([([100]%N, []%N)], [([97]%N, [37;40;122;122;41;115;37;40;98;41;115;37;40;97;41;115]%N);([99]%N, [37;40;100;41;115;40;98;41;115;120;32;121]%N);([100]%N, [37;40;98;41;115;120;32;121;37;40;97;41;115]%N)], [65]%N, CErr CMissing);
  ([([98]%N, [37;40;100;41;115]%N);([100]%N, []%N)], [([97]%N, [37;40;97;41;115;37;37;37;40;100;41;115]%N);([98]%N, [37;40;122;122;41;115]%N);([99]%N, []%N);([100]%N, [37;40;122;122;41;115]%N)], [68]%N, CErr CMissing);
  ([([98]%N, [97]%N);([99]%N, []%N);([100]%N, []%N)], [([97]%N, [97]%N);([100]%N, [37;37]%N)], [98]%N, CVal (Some [97]%N));
  ([([97]%N, [37;40;100;41;115;37;40;122;122;41;115;37;40;67;41;115]%N);([100]%N, [120;32;121;37;40;98;41;115;37;40;100;41;115]%N)], [([97]%N, [97]%N);([99]%N, [37;40;67;41;115;37;40;122;122;41;115]%N);([100]%N, []%N)], [97]%N, CVal (Some [97]%N));
  ([([97]%N, [37;40;98;41;115;120;37;40;67;41;115]%N);([98]%N, []%N);([100]%N, [120;32;121]%N)], [([97]%N, []%N);([98]%N, [37;40;97;41;115;120;32;121;37;37]%N);([99]%N, []%N);([100]%N, [37;40;100;41;115]%N)], [65]%N, CVal (Some []%N));
  ([([100]%N, [120;32;121;37;40;67;41;115]%N)], [([97]%N, [37;40;107;49;41;115]%N);([107;49]%N, [37;40;107;50;41;115]%N);([107;50]%N, [37;40;107;51;41;115]%N);([107;51]%N, [37;40;107;52;41;115]%N);([107;52]%N, [37;40;107;53;41;115]%N);([107;53]%N, [37;40;107;54;41;115]%N);([107;54]%N, [37;40;107;55;41;115]%N);([107;55]%N, [37;40;107;56;41;115]%N);([107;56]%N, [37;37]%N)], [65]%N, CVal (Some [37]%N));
  ([([100]%N, []%N)], [([98]%N, []%N);([99]%N, [120;32;121;40;98;41;115;37]%N)], [98]%N, CVal (Some []%N));
  ([], [([98]%N, [120;32;121]%N);([99]%N, []%N);([100]%N, [37;40;98;41;115;37;37]%N)], [97]%N, CVal None);
  ([([98]%N, [97]%N);([99]%N, []%N)], [([97]%N, [120;32;121;37;40;100;41;115;37;40;98;41;100]%N);([98]%N, [37;40;98;41;115]%N);([100]%N, []%N)], [65]%N, CErr CSyntax);
  ([([100]%N, [37;40;122;122;41;115;37;40;98;41;115;37;40;97;41;115]%N)], [([97]%N, [37;37;37;40;100;41;115]%N);([100]%N, [37;40;67;41;115;37;40;67;41;115;37;40;100;41;115]%N)], [97]%N, CErr CMissing);
  ([([97]%N, []%N);([100]%N, []%N)], [([97]%N, [37;40;122;122;41;115]%N);([98]%N, [37;40;122;122;41;115;37;37;37;40;98;41;115;120]%N);([100]%N, []%N)], [97]%N, CErr CMissing);
  ([([99]%N, [37;40;67;41;115;37;40;67;41;115;37;40;41;115]%N)], [([97]%N, [37;40;107;49;41;115]%N);([107;49]%N, [37;40;107;50;41;115]%N);([107;50]%N, [37;40;107;51;41;115]%N);([107;51]%N, [37;40;107;52;41;115]%N);([107;52]%N, [37;40;107;53;41;115]%N);([107;53]%N, [37;40;107;54;41;115]%N);([107;54]%N, [37;40;107;55;41;115]%N);([107;55]%N, [37;40;107;56;41;115]%N);([107;56]%N, [37;40;107;57;41;115]%N);([107;57]%N, [37;40;107;49;48;41;115]%N);([107;49;48]%N, [37;40;107;49;49;41;115]%N);([107;49;49]%N, [37;40;107;49;50;41;115]%N);([107;49;50]%N, [101;110;100]%N)], [65]%N, CErr CDepth);
  ([([97]%N, [120;32;121;120;32;121]%N);([99]%N, []%N)], [([97]%N, [37;40;98;41;115;41;115;37;37]%N);([99]%N, [37;40;97;41;115;37;40;98;41;115]%N);([100]%N, []%N)], [65]%N, CErr CMissing);
  ([([100]%N, []%N)], [([98]%N, []%N)], [97]%N, CVal None);
  ([([97]%N, []%N);([98]%N, [37;40;100;41;115]%N)], [([98]%N, [37;40;122;122;41;115]%N);([99]%N, [37;40;67;41;115;37;40;122;122;41;115]%N);([100]%N, []%N)], [68]%N, CVal (Some []%N));
  ([], [([98]%N, [37;40;98;41;115]%N);([99]%N, []%N)], [68]%N, CVal None);
  ([([97]%N, [37;40;122;122;41;115]%N);([99]%N, []%N)], [([98]%N, [37;40;97;41;115;37;37;37;37]%N);([99]%N, [37;120;37;40;97;41;115;37;37]%N)], [68]%N, CVal None);
  ([([97]%N, []%N);([99]%N, [97;37;40;67;41;115;37;40;97;41;115]%N)], [([97]%N, [37;40;107;49;41;115]%N);([107;49]%N, [37;40;107;50;41;115]%N);([107;50]%N, [37;40;107;51;41;115]%N);([107;51]%N, [37;40;107;52;41;115]%N);([107;52]%N, [37;40;107;53;41;115]%N);([107;53]%N, [37;40;107;54;41;115]%N);([107;54]%N, [37;40;107;55;41;115]%N);([107;55]%N, [37;40;107;56;41;115]%N);([107;56]%N, [37;40;107;57;41;115]%N);([107;57]%N, [37;40;107;49;48;41;115]%N);([107;49;48]%N, [101;110;100]%N)], [65]%N, CVal (Some [101;110;100]%N));
  ([([98]%N, [37;40;97;41;115;37;40;67;41;115]%N);([99]%N, [37;40;97;41;115;37;40;97;41;115]%N)], [([98]%N, []%N);([99]%N, [120;32;121]%N);([100]%N, []%N)], [65]%N, CVal None);
  ([([98]%N, [37;40;98;41;115;120]%N);([99]%N, []%N);([100]%N, [37;40;100;41;115]%N)], [([97]%N, []%N);([99]%N, [37;40;98;41;115]%N)], [65]%N, CVal (Some []%N));
  ([([98]%N, []%N);([99]%N, [37;40;97;41;115]%N);([100]%N, [37;37;40;122;122;41;115]%N)], [([98]%N, [37;37]%N);([100]%N, [37;120]%N)], [65]%N, CVal None);
  ([([97]%N, [37;37;37;40;100;41;115]%N)], [([98]%N, [37;40;67;41;115;37;40;122;122;41;115;37;40;67;41;115]%N)], [97]%N, CErr CMissing);
  ([([97]%N, [37;37;120;32;121]%N)], [([98]%N, [97;37;37]%N);([99]%N, [37;40;122;122;41;115;37;40;122;122;41;115;120;32;121]%N)], [98]%N, CVal (Some [97;37]%N));
  ([([97]%N, [37;37;97;37;40;98;41;100]%N)], [([97]%N, [37;40;107;49;41;115]%N);([107;49]%N, [37;40;107;50;41;115]%N);([107;50]%N, [37;40;107;51;41;115]%N);([107;51]%N, [37;40;107;52;41;115]%N);([107;52]%N, [37;40;107;53;41;115]%N);([107;53]%N, [37;40;107;54;41;115]%N);([107;54]%N, [37;40;107;55;41;115]%N);([107;55]%N, [37;40;107;56;41;115]%N);([107;56]%N, [37;40;107;57;41;115]%N);([107;57]%N, [37;40;107;49;48;41;115]%N);([107;49;48]%N, [37;37]%N)], [65]%N, CErr CDepth);
  ([([98]%N, []%N);([99]%N, [37;40;97;41;115;37;40;97;41;115]%N)], [([97]%N, [120;32;121]%N);([100]%N, [97]%N)], [65]%N, CVal (Some [120;32;121]%N));
  ([([98]%N, []%N);([99]%N, []%N);([100]%N, [37;40;98;41;115;37;37]%N)], [([97]%N, [37;40;98;37;40;97;41;115]%N);([100]%N, []%N)], [97]%N, CErr CMissing);
  ([([97]%N, [37;40;100;41;115;37;40;97;41;115;37;37]%N);([99]%N, [97]%N)], [([98]%N, [120;32;121]%N);([100]%N, [37;40;100;41;115;37;40;100;41;115;37;40;41;115]%N)], [65]%N, CErr CDepth);
  ([([100]%N, [97;37;40;98;41;115]%N)], [([97]%N, [37;40;122;122;41;115;37;40;122;122;41;115;37;37]%N);([98]%N, [37;40;98;41;115;37;40;67;41;115;37;40;98;41;115]%N);([99]%N, [37;40;97;41;115;37;37;37;40;98;41;115]%N)], [98]%N, CErr CDepth);
  ([([98]%N, [37;40;100;41;115]%N);([100]%N, [37;40;98;41;115]%N)], [([100]%N, [37;40;122;122;41;115;37;40;98;41;115;37;40;67;41;115]%N)], [68]%N, CErr CMissing);
  ([([97]%N, []%N);([98]%N, [97]%N);([99]%N, []%N);([100]%N, [37;40;100;41;115]%N)], [([97]%N, [37;40;107;49;41;115]%N);([107;49]%N, [37;40;107;50;41;115]%N);([107;50]%N, [37;40;107;51;41;115]%N);([107;51]%N, [37;40;107;52;41;115]%N);([107;52]%N, [37;40;107;53;41;115]%N);([107;53]%N, [37;40;107;54;41;115]%N);([107;54]%N, [37;40;107;55;41;115]%N);([107;55]%N, [37;40;107;56;41;115]%N);([107;56]%N, [37;37]%N)], [65]%N, CVal (Some [37]%N));
  ([([100]%N, [37;40;98;41;115;37;37;37;40;41;115]%N)], [([97]%N, [97;37;40;98;41;115;37;40;97;41;115]%N);([98]%N, []%N);([99]%N, [37;40;98;41;115]%N)], [97]%N, CErr CDepth);
  ([([97]%N, [37;40;100;41;115;37;120;37;37]%N);([100]%N, [120;32;121]%N)], [], [65]%N, CErr CSyntax);
  ([([97]%N, [37;40;97;41;115;37;40;98;41;100;97]%N);([99]%N, []%N);([100]%N, [97;37;40;97;41;115;37;40;100;41;115]%N)], [([98]%N, [37;40;122;122;41;115;37;40;100;41;115;37;120]%N);([99]%N, [41;115;120;32;121]%N);([100]%N, [37;40;98;41;115;97]%N)], [98]%N, CErr CMissing);
  ([([97]%N, [37;40;122;122;41;115;37;40;67;41;115;37;40;122;122;41;115]%N);([98]%N, [37;40;100;41;115;37;40;97;41;115]%N)], [([97]%N, []%N);([100]%N, [37;120;37;40;100;41;115;37;40;122;122;41;115]%N)], [68]%N, CErr CSyntax);
  ([([97]%N, [37]%N);([100]%N, [37;40;67;41;115;37;40;97;41;115;37;40;100;41;115]%N)], [([98]%N, [120;32;121]%N)], [98]%N, CVal (Some [120;32;121]%N));
  ([([97]%N, []%N);([98]%N, [37;40;67;41;115;37;40;122;122;41;115;120;32;121]%N);([99]%N, [37;40;97;41;115]%N);([100]%N, [37;40;122;122;41;115]%N)], [([97]%N, [37;40;107;49;41;115]%N);([107;49]%N, [37;40;107;50;41;115]%N);([107;50]%N, [37;40;107;51;41;115]%N);([107;51]%N, [37;40;107;52;41;115]%N);([107;52]%N, [37;40;107;53;41;115]%N);([107;53]%N, [37;40;107;54;41;115]%N);([107;54]%N, [37;40;107;55;41;115]%N);([107;55]%N, [37;40;107;56;41;115]%N);([107;56]%N, [37;40;107;57;41;115]%N);([107;57]%N, [37;40;107;49;48;41;115]%N);([107;49;48]%N, [37;40;107;49;49;41;115]%N);([107;49;49]%N, [101;110;100]%N)], [65]%N, CErr CDepth);
  ([([97]%N, [37;40;97;41;115;37;40;98;41;115]%N);([98]%N, []%N);([100]%N, [37;37;37;40;122;122;41;115;120;32;121]%N)], [([97]%N, []%N);([98]%N, [37;40;100;41;115]%N);([100]%N, [37;40;67;41;115;37;40;98;41;115;120]%N)], [97]%N, CVal (Some []%N));
  ([], [([98]%N, [37;40;98;41;100;37;40;100;41;115]%N);([99]%N, [37;40;97;41;115;37;40;67;41;115;37;40;97;41;115]%N)], [65]%N, CVal None);
  ([([97]%N, []%N);([98]%N, [120;32;121]%N);([99]%N, [37;40;122;122;41;115;37;40;98]%N);([100]%N, [37;40;67;41;115;37;40;100;41;115;37;37]%N)], [([98]%N, [120;32;121;37;40;100;41;115;97]%N);([99]%N, []%N)], [68]%N, CErr CDepth);
  ([([98]%N, [37;40;100;41;115;120;32;121]%N);([100]%N, []%N)], [([97]%N, [37;40;100;41;115]%N);([100]%N, [37;40;122;122;41;115;97;37;37]%N)], [65]%N, CErr CMissing);
  ([([98]%N, []%N);([99]%N, [97]%N);([100]%N, [37;40;98;41;115;37;40;100;41;115]%N)], [([97]%N, []%N);([100]%N, []%N)], [98]%N, CVal (Some []%N));
  ([([97]%N, []%N);([99]%N, []%N);([100]%N, [41;115;37;40;98;41;115]%N)], [([97]%N, [37;40;107;49;41;115]%N);([107;49]%N, [37;40;107;50;41;115]%N);([107;50]%N, [37;40;107;51;41;115]%N);([107;51]%N, [37;40;107;52;41;115]%N);([107;52]%N, [37;40;107;53;41;115]%N);([107;53]%N, [37;40;107;54;41;115]%N);([107;54]%N, [37;40;107;55;41;115]%N);([107;55]%N, [101;110;100]%N)], [65]%N, CVal (Some [101;110;100]%N));
  ([], [([98]%N, [37;40;98;41;115]%N)], [97]%N, CVal None);
  ([([97]%N, [37;40;98;41;115]%N);([100]%N, [37;37;37;37]%N)], [([97]%N, [120;32;121]%N);([98]%N, [37;40;122;122;41;115;37;37;37;40;97;41;115]%N);([100]%N, [37;40;100;41;115]%N)], [98]%N, CErr CMissing);
  ([([97]%N, [37;40;67;41;115]%N)], [([99]%N, [37;37;97]%N)], [98]%N, CVal None);
  ([([97]%N, [97]%N);([98]%N, [37;37]%N);([99]%N, [37;37;37;40;122;122;41;115;120;32;121]%N)], [([97]%N, [37;40;122;122;41;115;37;40;98;41;115;37;40;122;122;41;115]%N);([99]%N, [37;120;37;37;97]%N)], [65]%N, CErr CMissing);
  ([([99]%N, [120;32;121]%N);([100]%N, [37;40;97;41;115]%N)], [([97]%N, [120;32;121;37;40;100;41;115;37;40;122;122;41;115]%N);([98]%N, [37;40;97;41;115;97]%N);([99]%N, [37;40;100;41;115]%N)], [68]%N, CErr CDepth);
  ([([98]%N, [37;40;122;122;41;115;37;40;98;41;115]%N)], [([97]%N, [37;40;107;49;41;115]%N);([107;49]%N, [37;40;107;50;41;115]%N);([107;50]%N, [37;40;107;51;41;115]%N);([107;51]%N, [37;40;107;52;41;115]%N);([107;52]%N, [37;40;107;53;41;115]%N);([107;53]%N, [37;40;107;54;41;115]%N);([107;54]%N, [37;40;107;55;41;115]%N);([107;55]%N, [101;110;100]%N)], [65]%N, CVal (Some [101;110;100]%N));
  ([([98]%N, [37;40;97;41;115;97;37;40;122;122;41;115]%N)], [([98]%N, []%N);([99]%N, [120;32;121;37;40;98;41;100]%N);([100]%N, [40;98;41;115;37;40;97;41;115;37;120]%N)], [97]%N, CVal None);
  ([([98]%N, [37;40;98;41;115;120;32;121;37;40;98;41;100]%N);([99]%N, []%N)], [([98]%N, []%N);([99]%N, [120;32;121;97;97]%N);([100]%N, []%N)], [98]%N, CVal (Some []%N));
  ([([98]%N, []%N);([99]%N, [37;37;37;40;100;41;115;37;40;67;41;115]%N);([100]%N, [97;37;40;67;41;115]%N)], [([100]%N, [37;40;98;97;37;40;97;41;115]%N)], [68]%N, CErr CMissing);
  ([([97]%N, [97]%N);([98]%N, []%N);([99]%N, [120;32;121;37;40;122;122;41;115;37;40;67;41;115]%N)], [([99]%N, [37;120]%N);([100]%N, [37;40;97;41;115;97;37;37]%N)], [65]%N, CVal (Some [97]%N));
  ([([98]%N, [97]%N);([100]%N, []%N)], [([97]%N, [37;40;100;41;115;37;40;98;41;115;120]%N);([100]%N, [37;40;97;41;115;37;40;97;41;115;37;37]%N)], [98]%N, CVal (Some [97]%N))].
Example py_config : forallb (fun c => let '(d, s, k, r) := c in same_c (conf_get U {| f_default := d; f_sections := [] |} s k) r) config_cases = true.
Proof. vm_compute. reflexivity. Qed.

(** ConfigParser.read *)
Definition ini_cases : list (str * (conf_file + ini_err)) := [
  ([91;65;93;13;58;13;9;32;32;13;9;32;32;13;61;118;13;9;32;32;13;32;32;32;100;58;13;32;32;59;32;99;61;49]%N, inr IOption);
  ([91;65;93]%N, inl {| f_default := []; f_sections := [([65]%N, [])] |});
  ([91;65;93;10;32;32;32;91;93;93;10;9;97;58;118;10;32;10;32;32;91;93;120;10;32;32;32;107;49;58;97;58;98;10;35;32;99;61;49]%N, inl {| f_default := []; f_sections := [([65]%N, []);([93]%N, [([97]%N, [118;10;10;91;93;120;10;107;49;58;97;58;98]%N)])] |});
  ([13]%N, inl {| f_default := []; f_sections := [] |});
  ([91;68;69;70;65;85;76;84;93;10;32;32;32;103;58;10;32;32;32;98;32;61;32;118;32;59;32;99;10;32;32;103;58;118;32;59;32;99;10;32;98;58]%N, inr IOption);
  ([32;32;119;111;114;100]%N, inr INoHeader);
  ([91;68;69;70;65;85;76;84;93;10;32;10;91;93;93;10;102;58;91;113;93;10]%N, inl {| f_default := []; f_sections := [([93]%N, [([102]%N, [91;113;93]%N)])] |});
  ([91;65;93;32;59;32;99;10]%N, inl {| f_default := []; f_sections := [([65]%N, [])] |});
  ([91;68;69;70;65;85;76;84;93;13;99;9;61;32;32;120;32;121;32;13;32;100;9;61;32;32;120;32;121;32;13;32;32;91;66;93;13;32;32;107;32;50;32;61;32;49;61;50;13;107;32;50;32;61;32;91;113;93;13;32;32;32;91;120;13]%N, inl {| f_default := [([99]%N, [120;32;121;10;100;9;61;32;32;120;32;121;10;91;66;93;10;107;32;50;32;61;32;49;61;50]%N);([107;32;50]%N, [91;113;93;10;91;120]%N)]; f_sections := [] |});
  ([32;32;32;91;66;93;13;10;99;61;120;32;121;32;13;10;32;32;32;100;61;118;32;59;32;99;13;10;32;35;32;99;61;49;13;10;32;61;118;13;10;97;32;61;32;118]%N, inl {| f_default := []; f_sections := [([66]%N, [([99]%N, [120;32;121;10;100;61;118;32;59;32;99;10;61;118]%N);([97]%N, [118]%N)])] |});
  ([91;65;93;13;10;32;100;32;58;32;49;61;50;13;10;32;102;61;49;61;50;13;10;32;91;120;13;10;65;58;118;32;59;32;99;13;10]%N, inr IParsing);
  ([91;68;69;70;65;85;76;84;93;10;101;58;35;122;10;32;32;58;32;98;10;32;32;32;98;58;91;113;93;10;9;97;9;61;32;32;49;61;50;10;32;32;59;32;99;61;49;10;32;32;32;107;49;61;10;98;32;61;32;120;32;121;32;10]%N, inl {| f_default := [([101]%N, [35;122;10;58;32;98;10;98;58;91;113;93;10;97;9;61;32;32;49;61;50;10;107;49;61]%N);([98]%N, [120;32;121]%N)]; f_sections := [] |});
  ([91;68;69;70;65;85;76;84;93;13;28;28;107;28;50;61;118;13;91;93;93]%N, inl {| f_default := [([107;28;50]%N, [118]%N)]; f_sections := [([93]%N, [])] |});
  ([102;58;35;122;13;12;12;12;107;12;50;12;61;12;118;12;59;12;99;13;12;107;49;9;61;12;12;120;12;121;12;13;12;12;35;12;99;61;49;13;98;58;13;99;61;118]%N, inr INoHeader);
  ([91;68;69;70;65;85;76;84;93;13;10;9;65;58;97;58;98;13;10;97;58;118;13;10;98;58;97;58;98;13;10]%N, inr IOption);
  ([91;65;93;10;109;111;114;101;32;116;101;120;116;10;9;91;93;32;59;32;99;10;32;32;32;35;32;99;61;49;10;91;65;93;10]%N, inr ISection);
  ([32;32;32;101;61;13;10;98;58;97;58;98;13;10;32;32;107;49;58;118;13;10;102;58;120;32;121;32]%N, inr INoHeader);
  ([91;65;93;13;10;32;97;61;118;13;10;32;35;32;99;61;49;13;10;107;32;50;61;120;32;121;32;13;10;32;13;10;32;32;91;120;93;121;93;120;13;10;32;32;32;107;49;9;61;32;32;118;13;10;100;32;61;32;49;61;50]%N, inl {| f_default := []; f_sections := [([65]%N, [([97]%N, [118]%N);([107;32;50]%N, [120;32;121;10;10;91;120;93;121;93;120;10;107;49;9;61;32;32;118]%N);([100]%N, [49;61;50]%N)])] |});
  ([91;68;69;70;65;85;76;84;93;10;65;58;118;10;32;101;58;10;32;32;98;58;91;113;93]%N, inl {| f_default := [([97]%N, [118;10;101;58;10;98;58;91;113;93]%N)]; f_sections := [] |});
  ([91;68;69;70;65;85;76;84;93;13;10;107;32;50;9;61;32;32;120;32;121;32;13;10]%N, inl {| f_default := [([107;32;50]%N, [120;32;121]%N)]; f_sections := [] |});
  ([91;68;69;70;65;85;76;84;93;10;35;32;99;61;49;10;65;9;61;32;32;118;32;59;32;99;10;100;32;61;32;97;58;98;10;32;32;32;59;32;99;61;49;10]%N, inl {| f_default := [([97]%N, [118;32;59;32;99]%N);([100]%N, [97;58;98]%N)]; f_sections := [] |});
  ([91;68;69;70;65;85;76;84;93;13;32;97;32;58;32;13]%N, inl {| f_default := [([97]%N, []%N)]; f_sections := [] |});
  ([13;10]%N, inl {| f_default := []; f_sections := [] |});
  ([32;32;103;32;58;32;49;61;50;10;9;99;58;120;32;121;32;10;32]%N, inr INoHeader);
  ([91;65;93;13;32;58;32;98;13;32;101;9;61;32;32;118;32;59;32;99;13;102;61;49;61;50]%N, inr IParsing)].
Example py_ini : forallb (fun c => same_f (read_text U (fst c)) (snd c)) ini_cases = true.
Proof. vm_compute. reflexivity. Qed.

