(** Literal test vectors of the project's own test suite, run through the model.  These are tests
    of the model, not theorems about the code: they check that the transcription gives the answer
    the project itself records.  Vectors that take minutes to evaluate are left out, as said below;
    the suite's random tests have no literals and are not here.
    A test under [Check] is evaluated when this file is compiled, but takes too long without the virtual
    machine to be kept as a lemma.
    All of them run with assertions on and signed overflow wrapping; some (the byte constructor on
    negative arrays, C22) do not pass with signed overflow trapped. *)
From Coq Require Import String.
From Verif Require Import Machine BigInt BigIntBytes BigIntText BigIntDouble BigIntLog PyBind Examples.
Local Open Scope Z_scope.

Definition c := Cfg true false.

Definition run {A} (o : outcome A) (f : A -> bool) : bool := match o with Ret a => f a | _ => false end.

(** ASSERT_EQ on two BigIntegers: operator== of src/BigInteger.cpp. *)
Definition same (o p : outcome bigint) : bool := run o (fun a => run p (fun b => run (bi_eq c a b) (fun r => r))).
Definition thrown {A} (o : outcome A) (e : exn) : bool :=
  match o, e with
  | Throw OutOfRange, OutOfRange | Throw OverflowError, OverflowError | Throw DivideByZero, DivideByZero => true
  | _, _ => false
  end.
Definition two (op : cfg -> bigint -> bigint -> outcome bigint) (a b : outcome bigint) : outcome bigint :=
  x <- a ;; y <- b ;; op c x y.
Definition P (s : string) : outcome bigint := bi_parse c s.
Definition I (n : Z) : outcome bigint := bi_of_int32 c n.
Definition L (n : Z) : outcome bigint := bi_of_int64 c n.
Definition BY (l : list Z) : outcome bigint := bi_of_bytes c l false false.
Definition bytes_ok (o : outcome bigint) (l : list Z) : bool :=
  run o (fun a => run (bi_to_bytes c a false false) (fun l' =>
    vec_eqb l l' && same (BY l') o)).


(** tests/ToByteArray.cpp:7-49 (int_byte_array). *)
Definition int_bytes : list (Z * list Z) :=
  [(0, [0]);
   (3, [3]);
   (128, [128; 0]);
   (200, [200; 0]);
   (256, [0; 1]);
   (2005, [213; 7]);
   (10197, [213; 39]);
   (33023, [255; 128; 0]);
   (2368349, [93; 35; 36]);
   (10756957, [93; 35; 164; 0]);
   (193100307, [19; 122; 130; 11]);
   (1266842131, [19; 122; 130; 75]);
   (2147483647, [255; 255; 255; 127]);
   ((-1), [255]);
   ((-128), [128]);
   ((-172), [84; 255]);
   ((-23439), [113; 164]);
   ((-51301), [155; 55; 255]);
   ((-126341), [123; 18; 254]);
   ((-13194515), [237; 170; 54; 255]);
   ((-2068145902), [18; 153; 186; 132]);
   ((-2147483648), [0; 0; 0; 128])].
Example int_byte_array : forallb (fun p => bytes_ok (I (fst p)) (snd p)) int_bytes = true.
Proof. vm_compute. reflexivity. Qed.

(** tests/ToByteArray.cpp:51-97 (long_byte_array). *)
Definition long_bytes : list (Z * list Z) :=
  [(4296090163, [51; 34; 17; 0; 1]);
   (12886024755, [51; 34; 17; 0; 3]);
   (549756936755, [51; 34; 17; 0; 128; 0]);
   (4179004301875, [51; 34; 17; 0; 205; 3]);
   (273920130359859, [51; 34; 17; 0; 33; 249; 0]);
   (2051319331365427, [51; 34; 17; 0; 170; 73; 7]);
   (36047634746647091, [51; 34; 17; 0; 34; 17; 128; 0]);
   (8526495038821179955, [51; 34; 17; 0; 16; 50; 84; 118]);
   (9223372036854775807, [255; 255; 255; 255; 255; 255; 255; 127]);
   ((-4296090163), [205; 221; 238; 255; 254]);
   ((-549756936755), [205; 221; 238; 255; 127; 255]);
   ((-4179004301875), [205; 221; 238; 255; 50; 252]);
   ((-273920130359859), [205; 221; 238; 255; 222; 6; 255]);
   ((-2051319331365427), [205; 221; 238; 255; 85; 182; 248]);
   ((-36047634746647091), [205; 221; 238; 255; 221; 238; 127; 255]);
   ((-8526495038821179955), [205; 221; 238; 255; 239; 205; 171; 137]);
   ((-9223372036854775808), [0; 0; 0; 0; 0; 0; 0; 128]);
   ((-4294967296), [0; 0; 0; 0; 255]);
   ((-12884901888), [0; 0; 0; 0; 253]);
   ((-549755813888), [0; 0; 0; 0; 128]);
   ((-1090921693184), [0; 0; 0; 0; 2; 255]);
   ((-1095216660480), [0; 0; 0; 0; 1; 255]);
   ((-280371170115584), [0; 0; 0; 0; 1; 1; 255]);
   ((-281470681743360), [0; 0; 0; 0; 1; 0; 255]);
   ((-71776114766249984), [0; 0; 0; 0; 1; 0; 1; 255]);
   ((-72057589742960640), [0; 0; 0; 0; 1; 0; 0; 255])].
Example long_byte_array : forallb (fun p => bytes_ok (L (fst p)) (snd p)) long_bytes = true.
Proof. vm_compute. reflexivity. Qed.

(** tests/ToByteArray.cpp:99-124 (string_byte_array) but for its two 500-byte rows; the expected arrays are big-endian. *)
Definition string_bytes : list (string * list Z) :=
  [("0", [0]);
   ("127", [127]);
   ("128", [0; 128]);
   ("33022", [0; 128; 254]);
   ("-32514", [128; 254]);
   ("-18374686475376656384", [255; 1; 0; 0; 1; 0; 0; 0; 0]);
   ("-18446744069414584320", [255; 0; 0; 0; 1; 0; 0; 0; 0])]%string.
Example string_byte_array : forallb (fun p => bytes_ok (P (fst p)) (rev (snd p))) string_bytes = true.
Proof. vm_compute. reflexivity. Qed.

(** tests/bigint_test_sa.cpp:5-303 (simple arithmetic). *)
Example sa_simple_add : same (I 3) (two bi_add (I 1) (I 2)) = true.
Proof. vm_compute. reflexivity. Qed.
Example sa_simple_sub : same (I 1) (two bi_sub (I 2) (I 1)) = true.
Proof. vm_compute. reflexivity. Qed.
Example sa_simple_mul : same (I 600000) (two bi_mul (I 1000) (I 600)) = true.
Proof. vm_compute. reflexivity. Qed.
Example sa_simple_mul_big : same (P "97800033500257101420") (two bi_mul (L 9899809879) (L 9878980980)) = true.
Proof. vm_compute. reflexivity. Qed.
Example sa_simple_mul_big_2 : same (P "97800033500257101420") (two bi_mul (L (-9899809879)) (L (-9878980980))) = true.
Proof. vm_compute. reflexivity. Qed.
Example sa_simple_mul_big_3 : same (P "-97800033500257101420") (two bi_mul (L 9899809879) (L (-9878980980))) = true.
Proof. vm_compute. reflexivity. Qed.
(** sa_simple_mul_very_big *)
Check (eq_refl true <: same (P "1144538136926594110508426131715315812591088805139030677194973063150474266174687878642596081926117042264662236011612211694612718410777133741810033035776122924787218639520327198437943918235712633298145207807217428086070304441348") (two bi_mul (P "1238738247813274897348578923475824379878934275982347985798425798234798579823475934298090342758907342895798342789") (P "923954789437582348237487248329848972342317846327478123487123847231848123489712389489237489172848127474750824858932")) = true).
(** sa_simple_mul_very_big_2 *)
Check (eq_refl true <: same (P "1144538136926594110508426131715315812591088805139030677194973063150474266174687878642596081926117042264662236011612211694612718410777133741810033035776122924787218639520327198437943918235712633298145207807217428086070304441348") (two bi_mul (P "-1238738247813274897348578923475824379878934275982347985798425798234798579823475934298090342758907342895798342789") (P "-923954789437582348237487248329848972342317846327478123487123847231848123489712389489237489172848127474750824858932")) = true).
(** sa_simple_mul_very_big_3 *)
Check (eq_refl true <: same (P "-1144538136926594110508426131715315812591088805139030677194973063150474266174687878642596081926117042264662236011612211694612718410777133741810033035776122924787218639520327198437943918235712633298145207807217428086070304441348") (two bi_mul (P "-1238738247813274897348578923475824379878934275982347985798425798234798579823475934298090342758907342895798342789") (P "923954789437582348237487248329848972342317846327478123487123847231848123489712389489237489172848127474750824858932")) = true).
Example sa_simple_div : same (I 5) (two bi_div (I 100) (I 20)) = true.
Proof. vm_compute. reflexivity. Qed.
Example sa_simple_div_big : same (I 270) (two bi_div (L 892374832784) (L 3294723897)) = true.
Proof. vm_compute. reflexivity. Qed.
Example sa_simple_div_big_2 : same (I 270) (two bi_div (L (-892374832784)) (L (-3294723897))) = true.
Proof. vm_compute. reflexivity. Qed.
Example sa_simple_div_big_3 : same (I (-270)) (two bi_div (L (-892374832784)) (L 3294723897)) = true.
Proof. vm_compute. reflexivity. Qed.
(** sa_simple_div_very_big *)
Check (eq_refl true <: same (P "1251161871178245320331256510682369180791525158725012933980595128404921766946080311082133420627430548511036178147087468260614630992362103288043972158192931498347387943570323657491356642757242544525626017851577351727852757690485109061016") (two bi_div (P "298374983274893789478932789479823798472138947823749871293847982317498712389479821374981723894789123784972193874982137894712897498123794871239847891238748912374923178941728934798127489123749231794872398479182734981273498123749127398471928347921834798127948712384718902380912734801237408912734071238407120983480912740891274801723897120398709812374") (P "238478321748973874082138237480273184723847802317082317481802476574657635453233243456788882472634234546246323874")) = true).
(** sa_simple_div_very_big_2 *)
Check (eq_refl true <: same (P "-1251161871178245320331256510682369180791525158725012933980595128404921766946080311082133420627430548511036178147087468260614630992362103288043972158192931498347387943570323657491356642757242544525626017851577351727852757690485109061016") (two bi_div (P "-298374983274893789478932789479823798472138947823749871293847982317498712389479821374981723894789123784972193874982137894712897498123794871239847891238748912374923178941728934798127489123749231794872398479182734981273498123749127398471928347921834798127948712384718902380912734801237408912734071238407120983480912740891274801723897120398709812374") (P "238478321748973874082138237480273184723847802317082317481802476574657635453233243456788882472634234546246323874")) = true).
(** sa_simple_div_very_big_3 *)
Check (eq_refl true <: same (P "1251161871178245320331256510682369180791525158725012933980595128404921766946080311082133420627430548511036178147087468260614630992362103288043972158192931498347387943570323657491356642757242544525626017851577351727852757690485109061016") (two bi_div (P "-298374983274893789478932789479823798472138947823749871293847982317498712389479821374981723894789123784972193874982137894712897498123794871239847891238748912374923178941728934798127489123749231794872398479182734981273498123749127398471928347921834798127948712384718902380912734801237408912734071238407120983480912740891274801723897120398709812374") (P "-238478321748973874082138237480273184723847802317082317481802476574657635453233243456788882472634234546246323874")) = true).
(** sa_simple_div_very_big_alt *)
Check (eq_refl true <: same (I 0) (two bi_div (P "238478321748973874082138237480273184723847802317082317481802476574657635453233243456788882472634234546246323874") (P "298374983274893789478932789479823798472138947823749871293847982317498712389479821374981723894789123784972193874982137894712897498123794871239847891238748912374923178941728934798127489123749231794872398479182734981273498123749127398471928347921834798127948712384718902380912734801237408912734071238407120983480912740891274801723897120398709812374")) = true).
Example sa_simple_mod : same (I 3) (two bi_rem (I 10) (I 7)) = true.
Proof. vm_compute. reflexivity. Qed.
Example sa_simple_mod_big : same (I 64) (two bi_rem (L 2834789327894723894) (I 7123)) = true.
Proof. vm_compute. reflexivity. Qed.
Example sa_simple_mod_big_2 : same (I 7123) (two bi_rem (I 7123) (L 2834789327894723894)) = true.
Proof. vm_compute. reflexivity. Qed.
Example sa_simple_mod_big_3 : same (I (-64)) (two bi_rem (L (-2834789327894723894)) (I 7123)) = true.
Proof. vm_compute. reflexivity. Qed.
Example sa_simple_mod_big_4 : same (I 0) (two bi_rem (L (-2834789327894723894)) (L (-2834789327894723894))) = true.
Proof. vm_compute. reflexivity. Qed.
Example sa_simple_mod_big_5 : same (I 0) (two bi_rem (L (-2834789327894723894)) (L 2834789327894723894)) = true.
Proof. vm_compute. reflexivity. Qed.

(** tests/scratch_test.cpp:24-58. *)
Example scratch_0 : same (I 2) (two bi_add (I 1) (I 1)) = true.
Proof. vm_compute. reflexivity. Qed.
Example scratch_1 : same (I 0) (two bi_sub (I 1) (I 1)) = true.
Proof. vm_compute. reflexivity. Qed.
Example scratch_2 : same (I 2) (two bi_mul (I 1) (I 2)) = true.
Proof. vm_compute. reflexivity. Qed.
Example scratch_3 : same (I 3) (two bi_div (I 6) (I 2)) = true.
Proof. vm_compute. reflexivity. Qed.

(** tests/modpow.cpp:215-283 (mod_pow2Large1SmallInt_Threshold), the two vectors with the
    smallest moduli; the other eight take minutes each. *)
(** modpow_threshold_1 *)
Check (eq_refl true <: same (P "-4559679593639479333979462122256288215243720737403") (x <- P "-19804882257271871615998867413310154569092691610863183900352723872936597192840601413521317416195627481021453523098672122338092864102790996172" ;; e <- P "5005126326020660905045117276428380928616741884628331700680598638081087432348216495484429178211470872172882902036752474804904132643" ;; z <- P "-103139435102033366056363338063498713727200190198435" ;; bi_mod_pow c x e z) = true).
(** modpow_threshold_9 *)
Check (eq_refl true <: same (P "-1905434239471820365929630558127219204166613") (x <- P "-1506852741293695463963822334869441845197951776565891060639754936248401744065969556756496718308248025911048010080232290368562210204958094544173209793990218122" ;; e <- P "64905085725614938357105826012272472070910693443851911667721848542473785070747281964799379996923261457185847459711" ;; z <- P "2740467233603031668807697475486217767705051" ;; bi_mod_pow c x e z) = true).

(** tests/divide.cpp:163-169, tests/op_divide.cpp:150-156 (RunOverflow). *)
Example divide_overflow : same (BY [255; 255; 255; 255; 255; 255; 255; 255; 0]) (two bi_div (BY [1; 0; 0; 0; 0; 0; 0; 0; 254; 255; 255; 255; 255; 255; 255; 255; 0]) (BY [255; 255; 255; 255; 255; 255; 255; 255; 0])) = true.
Proof. vm_compute. reflexivity. Qed.

(** tests/pow.cpp:216-222, 231-235. *)
Example pow_negative_1 : thrown (x <- I 1 ;; bi_pow c x (-1)) OutOfRange = true.
Proof. vm_compute. reflexivity. Qed.
Example pow_negative_0 : thrown (x <- I 0 ;; bi_pow c x (-1)) OutOfRange = true.
Proof. vm_compute. reflexivity. Qed.
Example pow_overflow : thrown (x <- BY (List.repeat 0 999 ++ [1]) ;; bi_pow c x 2147483647) OverflowError = true.
Proof. vm_compute. reflexivity. Qed.

(** tests/properties.cpp:19-26, 54-60, 80-86. *)
Example zero_text : run (bi_zero c) (fun b => run (bi_to_string c b) (fun s => String.eqb "0" s)) = true.
Proof. vm_compute. reflexivity. Qed.
Example zero_double : same (bi_of_double c 0) (bi_zero c) = true.
Proof. vm_compute. reflexivity. Qed.
Example one_text : run (bi_one c) (fun b => run (bi_to_string c b) (fun s => String.eqb "1" s)) = true.
Proof. vm_compute. reflexivity. Qed.
Example one_double : same (bi_of_double c 4607182418800017408) (bi_one c) = true.
Proof. vm_compute. reflexivity. Qed.
Example minus_one_text : run (bi_minus_one c) (fun b => run (bi_to_string c b) (fun s => String.eqb "-1" s)) = true.
Proof. vm_compute. reflexivity. Qed.
Example minus_one_double : same (bi_of_double c 13830554455654793216) (bi_minus_one c) = true.
Proof. vm_compute. reflexivity. Qed.
Example zero_ulong : same (bi_of_uint64 c 0) (bi_zero c) = true.
Proof. vm_compute. reflexivity. Qed.
Example one_long : same (L 1) (bi_one c) = true.
Proof. vm_compute. reflexivity. Qed.
Example minus_one_long : same (L (-1)) (bi_minus_one c) = true.
Proof. vm_compute. reflexivity. Qed.
Example zero_bytes : same (BY [0;0;0;0]) (bi_zero c) = true.
Proof. vm_compute. reflexivity. Qed.
Example one_bytes : same (BY [1;0;0;0]) (bi_one c) = true.
Proof. vm_compute. reflexivity. Qed.
Example minus_one_bytes : same (BY [255;255;255;255]) (bi_minus_one c) = true.
Proof. vm_compute. reflexivity. Qed.
Example constants_0 : same (two bi_add (bi_one c) (bi_minus_one c)) (bi_zero c) = true.
Proof. vm_compute. reflexivity. Qed.
Example constants_1 : same (two bi_sub (bi_one c) (bi_one c)) (bi_zero c) = true.
Proof. vm_compute. reflexivity. Qed.
Example constants_2 : same (two bi_sub (bi_minus_one c) (bi_minus_one c)) (bi_zero c) = true.
Proof. vm_compute. reflexivity. Qed.
Example constants_3 : same (two bi_sub (bi_zero c) (bi_minus_one c)) (bi_one c) = true.
Proof. vm_compute. reflexivity. Qed.
Example constants_4 : same (two bi_sub (bi_zero c) (bi_one c)) (bi_minus_one c) = true.
Proof. vm_compute. reflexivity. Qed.
Example one_quotient : same (two bi_div (I 671832) (I 671832)) (bi_one c) = true.
Proof. vm_compute. reflexivity. Qed.
Example minus_one_quotient : same (two bi_div (I 671832) (I (-671832))) (bi_minus_one c) = true.
Proof. vm_compute. reflexivity. Qed.

(** tests/IsZero.cpp:18-24, IsOne.cpp:18-24, IsEven.cpp:51-78, IsPowerOfTwo.cpp:103-109. *)
Example is_zero_zero : run (bi_zero c) (fun b => run (bi_is_zero c b) (Bool.eqb true)) = true.
Proof. vm_compute. reflexivity. Qed.
Example is_zero_minus_one : run (bi_minus_one c) (fun b => run (bi_is_zero c b) (Bool.eqb false)) = true.
Proof. vm_compute. reflexivity. Qed.
Example is_zero_one : run (bi_one c) (fun b => run (bi_is_zero c b) (Bool.eqb false)) = true.
Proof. vm_compute. reflexivity. Qed.
Example is_one_zero : run (bi_zero c) (fun b => run (bi_is_one c b) (Bool.eqb false)) = true.
Proof. vm_compute. reflexivity. Qed.
Example is_one_minus_one : run (bi_minus_one c) (fun b => run (bi_is_one c b) (Bool.eqb false)) = true.
Proof. vm_compute. reflexivity. Qed.
Example is_one_one : run (bi_one c) (fun b => run (bi_is_one c b) (Bool.eqb true)) = true.
Proof. vm_compute. reflexivity. Qed.
Example is_power_of_two_zero : run (bi_zero c) (fun b => run (bi_is_power_of_two c b) (Bool.eqb false)) = true.
Proof. vm_compute. reflexivity. Qed.
Example is_power_of_two_minus_one : run (bi_minus_one c) (fun b => run (bi_is_power_of_two c b) (Bool.eqb false)) = true.
Proof. vm_compute. reflexivity. Qed.
Example is_power_of_two_one : run (bi_one c) (fun b => run (bi_is_power_of_two c b) (Bool.eqb true)) = true.
Proof. vm_compute. reflexivity. Qed.
Example is_even_zero : run (bi_zero c) (fun b => run (bi_is_even c b) (Bool.eqb true)) = true.
Proof. vm_compute. reflexivity. Qed.
Example is_even_minus_one : run (bi_minus_one c) (fun b => run (bi_is_even c b) (Bool.eqb false)) = true.
Proof. vm_compute. reflexivity. Qed.
Example is_even_one : run (bi_one c) (fun b => run (bi_is_even c b) (Bool.eqb false)) = true.
Proof. vm_compute. reflexivity. Qed.
Example is_even_1 : run (two bi_mul (two bi_add (L 9223372036854775807) (bi_one c)) (I (-1))) (fun b => run (bi_is_even c b) (Bool.eqb true)) = true.
Proof. vm_compute. reflexivity. Qed.
Example is_even_2 : run (two bi_mul (two bi_add (L 9223372036854775807) (I 2)) (I (-1))) (fun b => run (bi_is_even c b) (Bool.eqb false)) = true.
Proof. vm_compute. reflexivity. Qed.
Example is_even_3 : run (two bi_mul (two bi_sub (I 32767) (bi_one c)) (I (-1))) (fun b => run (bi_is_even c b) (Bool.eqb true)) = true.
Proof. vm_compute. reflexivity. Qed.
Example is_even_4 : run (two bi_mul (two bi_sub (I 32767) (I 2)) (I (-1))) (fun b => run (bi_is_even c b) (Bool.eqb false)) = true.
Proof. vm_compute. reflexivity. Qed.

(** tests/BigInteger_AddTests.cpp:7-39 (unary_plus). *)
Example unary_plus_0 : same (x <- P "-123123123123123123123123123123123123123123123123123123123123123123123123123123123123123123123123" ;; bi_pos c x) (P "-123123123123123123123123123123123123123123123123123123123123123123123123123123123123123123123123") = true.
Proof. vm_compute. reflexivity. Qed.
Example unary_plus_1 : same (x <- P "123123123123123123123123123123123123123123123123123123123123123123123123123123123123123123123123" ;; bi_pos c x) (P "123123123123123123123123123123123123123123123123123123123123123123123123123123123123123123123123") = true.
Proof. vm_compute. reflexivity. Qed.
Example unary_plus_2 : same (x <- I 123 ;; bi_pos c x) (I 123) = true.
Proof. vm_compute. reflexivity. Qed.
Example unary_plus_3 : same (x <- I (-123) ;; bi_pos c x) (I (-123)) = true.
Proof. vm_compute. reflexivity. Qed.
Example unary_plus_4 : same (x <- I 0 ;; bi_pos c x) (I 0) = true.
Proof. vm_compute. reflexivity. Qed.
Example unary_plus_5 : same (x <- I (-1) ;; bi_pos c x) (I (-1)) = true.
Proof. vm_compute. reflexivity. Qed.
Example unary_plus_6 : same (x <- I 1 ;; bi_pos c x) (I 1) = true.
Proof. vm_compute. reflexivity. Qed.
Example unary_plus_7 : same (x <- Ret bi_default ;; bi_pos c x) (Ret bi_default) = true.
Proof. vm_compute. reflexivity. Qed.
Example unary_plus_8 : same (x <- I (-2147483648) ;; bi_pos c x) (I (-2147483648)) = true.
Proof. vm_compute. reflexivity. Qed.
Example unary_plus_9 : same (x <- I 2147483647 ;; bi_pos c x) (I 2147483647) = true.
Proof. vm_compute. reflexivity. Qed.
Example unary_plus_10 : same (x <- L (-9223372036854775808) ;; bi_pos c x) (L (-9223372036854775808)) = true.
Proof. vm_compute. reflexivity. Qed.
Example unary_plus_11 : same (x <- L 9223372036854775807 ;; bi_pos c x) (L 9223372036854775807) = true.
Proof. vm_compute. reflexivity. Qed.

(** tests/BigInteger_AddTests.cpp:41-307 (binary_plus), four of the twenty long rows. *)
Example add_0 : same (L (-2147483649)) (two bi_add (I (-2147483648)) (I (-1))) && same (L (-2147483649)) (two bi_add (I (-1)) (I (-2147483648))) = true.
Proof. vm_compute. reflexivity. Qed.
Example add_1 : same (I (-2147483647)) (two bi_add (I (-2147483648)) (I 1)) && same (I (-2147483647)) (two bi_add (I 1) (I (-2147483648))) = true.
Proof. vm_compute. reflexivity. Qed.
Example add_2 : same (I 2147483646) (two bi_add (I 2147483647) (I (-1))) && same (I 2147483646) (two bi_add (I (-1)) (I 2147483647)) = true.
Proof. vm_compute. reflexivity. Qed.
Example add_3 : same (L 2147483648) (two bi_add (I 2147483647) (I 1)) && same (L 2147483648) (two bi_add (I 1) (I 2147483647)) = true.
Proof. vm_compute. reflexivity. Qed.
Example add_4 : same (BY [255;255;255;255;255;255;255;127;255]) (two bi_add (L (-9223372036854775808)) (I (-1))) && same (BY [255;255;255;255;255;255;255;127;255]) (two bi_add (I (-1)) (L (-9223372036854775808))) = true.
Proof. vm_compute. reflexivity. Qed.
Example add_5 : same (L (-9223372036854775807)) (two bi_add (L (-9223372036854775808)) (I 1)) && same (L (-9223372036854775807)) (two bi_add (I 1) (L (-9223372036854775808))) = true.
Proof. vm_compute. reflexivity. Qed.
Example add_6 : same (L 9223372036854775806) (two bi_add (L 9223372036854775807) (I (-1))) && same (L 9223372036854775806) (two bi_add (I (-1)) (L 9223372036854775807)) = true.
Proof. vm_compute. reflexivity. Qed.
Example add_7 : same (bi_of_uint64 c 9223372036854775808) (two bi_add (L 9223372036854775807) (I 1)) && same (bi_of_uint64 c 9223372036854775808) (two bi_add (I 1) (L 9223372036854775807)) = true.
Proof. vm_compute. reflexivity. Qed.
Example add_8 : same (P "123123123123123357357357357357357357357357357357357357357357357357357357357357357357357") (two bi_add (P "123123123123123123123123123123123123123123123123123123123123123123123123123123123123123") (P "234234234234234234234234234234234234234234234234234234234234234234234234")) && same (P "123123123123123357357357357357357357357357357357357357357357357357357357357357357357357") (two bi_add (P "234234234234234234234234234234234234234234234234234234234234234234234234") (P "123123123123123123123123123123123123123123123123123123123123123123123123123123123123123")) = true.
Proof. vm_compute. reflexivity. Qed.
Example add_9 : same (P "123123123123122888888888888888888888888888888888888888888888888888888888888888888888889") (two bi_add (P "123123123123123123123123123123123123123123123123123123123123123123123123123123123123123") (P "-234234234234234234234234234234234234234234234234234234234234234234234234")) && same (P "123123123123122888888888888888888888888888888888888888888888888888888888888888888888889") (two bi_add (P "-234234234234234234234234234234234234234234234234234234234234234234234234") (P "123123123123123123123123123123123123123123123123123123123123123123123123123123123123123")) = true.
Proof. vm_compute. reflexivity. Qed.
Example add_10 : same (P "123123123123123123123123123123123123123123123123123123123123123123123123123123123123246") (two bi_add (P "123123123123123123123123123123123123123123123123123123123123123123123123123123123123123") (I 123)) && same (P "123123123123123123123123123123123123123123123123123123123123123123123123123123123123246") (two bi_add (I 123) (P "123123123123123123123123123123123123123123123123123123123123123123123123123123123123123")) = true.
Proof. vm_compute. reflexivity. Qed.
Example add_11 : same (P "123123123123123123123123123123123123123123123123123123123123123123123123123123123123000") (two bi_add (P "123123123123123123123123123123123123123123123123123123123123123123123123123123123123123") (I (-123))) && same (P "123123123123123123123123123123123123123123123123123123123123123123123123123123123123000") (two bi_add (I (-123)) (P "123123123123123123123123123123123123123123123123123123123123123123123123123123123123123")) = true.
Proof. vm_compute. reflexivity. Qed.
Example add_12 : same (P "123123123123123123123123123123123123123123123123123123123123123123123123123123123123123") (two bi_add (P "123123123123123123123123123123123123123123123123123123123123123123123123123123123123123") (bi_zero c)) && same (P "123123123123123123123123123123123123123123123123123123123123123123123123123123123123123") (two bi_add (bi_zero c) (P "123123123123123123123123123123123123123123123123123123123123123123123123123123123123123")) = true.
Proof. vm_compute. reflexivity. Qed.
Example add_13 : same (P "-123123123123123123123123123123123123123123123123123123123123123123123123123123123123123") (two bi_add (P "-123123123123123123123123123123123123123123123123123123123123123123123123123123123123123") (bi_zero c)) && same (P "-123123123123123123123123123123123123123123123123123123123123123123123123123123123123123") (two bi_add (bi_zero c) (P "-123123123123123123123123123123123123123123123123123123123123123123123123123123123123123")) = true.
Proof. vm_compute. reflexivity. Qed.
Example add_14 : same (I 123) (two bi_add (I 123) (bi_zero c)) && same (I 123) (two bi_add (bi_zero c) (I 123)) = true.
Proof. vm_compute. reflexivity. Qed.
Example add_15 : same (I (-123)) (two bi_add (I (-123)) (bi_zero c)) && same (I (-123)) (two bi_add (bi_zero c) (I (-123))) = true.
Proof. vm_compute. reflexivity. Qed.
Example add_16 : same (bi_zero c) (two bi_add (bi_zero c) (bi_zero c)) && same (bi_zero c) (two bi_add (bi_zero c) (bi_zero c)) = true.
Proof. vm_compute. reflexivity. Qed.
Example add_17 : same (L 6442450944) (two bi_add (L 3221225472) (L 3221225472)) && same (L 6442450944) (two bi_add (L 3221225472) (L 3221225472)) = true.
Proof. vm_compute. reflexivity. Qed.
Example add_18 : same (L 3221225472) (two bi_add (bi_zero c) (L 3221225472)) && same (L 3221225472) (two bi_add (L 3221225472) (bi_zero c)) = true.
Proof. vm_compute. reflexivity. Qed.
Example add_19 : same (BY [31; 241; 161; 51; 117; 216; 167; 196; 193; 148; 84; 216; 183; 131; 35; 223; 214; 101; 149; 188; 223; 102; 254; 169; 137; 218; 93; 160; 163; 73; 5; 2; 91; 120; 185; 115; 216; 128; 192; 50; 80; 88; 249; 163; 230; 3; 216; 81; 162; 164; 13; 135; 18; 193; 237; 184; 241; 248; 167; 154; 122; 9; 33; 120; 144; 83; 125; 64; 204; 176; 7; 87; 164; 98; 107; 136; 108; 90; 194; 134; 2; 12; 253; 255; 58; 125; 238; 153; 138; 0; 130; 222; 216; 36; 185; 71; 53; 131; 20; 148; 133; 151; 133; 240; 155; 183; 226; 176; 84; 102; 75; 152; 55; 32; 152; 109; 11; 32; 61; 18; 100; 226; 180; 204; 47; 41; 125; 127; 170; 34; 82; 233; 69; 45; 2; 107; 134; 12; 100; 130; 155; 62; 69; 37; 180; 233; 167; 183; 142; 74; 60; 21; 70; 1; 49; 162; 225; 184; 192; 114; 58; 98; 5; 50; 20; 98; 81; 9; 32; 44; 230; 253; 187; 186; 116; 38; 157; 145; 22; 70; 129; 197; 241; 94; 231; 58; 164; 67; 253; 93; 137; 204; 74; 241; 71; 58; 56; 19; 17; 83; 152; 157; 153; 98; 101; 62; 90; 139; 141; 9; 4; 80; 162; 123; 242; 117; 113; 165; 74; 216; 188; 13; 13; 193; 161; 25; 178; 201; 113; 59; 237; 138; 128; 195; 173; 227; 42; 144; 251; 168; 225; 24; 183; 241; 88; 58; 42; 208; 254; 209; 200; 146; 199; 56; 151; 137; 143; 217; 192; 74; 139; 143; 24; 82; 29; 121; 206; 223; 204; 14; 75; 226; 171; 163; 246; 163; 87; 27; 104; 104; 239; 226; 201; 160; 113; 90; 195; 71; 44; 35; 84; 82; 205; 175; 30; 84; 254; 100; 212; 223; 105; 73; 3; 241; 134; 232; 230; 37; 66; 242; 51; 116; 112; 87; 92; 167; 196; 120; 223; 193; 183; 134; 178; 170; 187; 247; 18; 251; 131; 163; 164; 240; 69; 136; 253; 164; 223; 216; 24; 139; 117; 157; 7; 58; 238; 222; 226; 117; 83; 118; 143; 134; 134; 18; 41; 228; 151; 88; 54; 144; 212; 234; 160; 159; 77; 66; 47; 232; 89; 183; 199; 234; 95; 85; 77; 24; 128; 120; 187; 218; 20; 157; 167; 14; 19; 31; 107; 49; 94; 27; 13; 135; 162; 136; 181; 137; 253; 101; 236; 171; 177; 252; 26; 158; 173; 163; 38; 49; 198; 16; 99; 32; 157; 91; 122; 56; 67; 146; 140; 48; 216; 251; 135; 64; 170; 64; 73; 215; 158; 196; 27; 27; 140; 16; 42; 26; 129; 9; 97; 112; 249; 57; 109; 78; 184; 237; 226; 128; 52; 121; 104; 89; 241; 168; 66; 130; 206; 170; 19; 148; 160; 4; 23; 192; 126; 119; 97; 194; 237; 82; 95; 19; 152; 18; 55; 32; 243; 7; 115; 126; 167; 169; 208; 57; 89; 60; 87; 63; 15; 72; 104; 107; 69; 47; 244; 123; 84; 197; 25; 233; 201; 32; 146; 226; 25; 84; 193; 222; 113; 34; 143; 198; 55; 149; 236; 246; 52; 221; 103; 65; 31; 34; 179; 165; 234; 243; 206; 104; 29; 187; 203; 45; 237; 137; 180; 135; 22; 238; 31; 4; 123; 121; 205; 237; 184; 161; 52; 175; 67; 254; 71; 118; 93; 216; 201; 167; 109; 237; 247; 38; 133; 89; 192; 182; 86; 97; 216; 173; 225; 101; 224; 69; 190; 98; 198; 166; 84; 198; 236; 72; 190; 30; 36; 31; 115; 84; 207; 21; 192; 13; 25; 40; 246; 248; 126; 33; 184; 23; 150; 87; 201; 134; 206; 222; 29; 1; 184; 250; 17; 34; 82; 167; 1; 174; 104; 103; 52; 160; 66; 2; 145; 194; 237; 211; 75; 184; 79; 197; 228; 164; 238; 61; 48; 149; 127; 56; 79; 70; 2; 113; 155; 213; 4; 157; 186; 114; 39; 72; 144; 23; 236; 23; 212; 148; 197; 7; 153; 250; 146; 101; 178; 243; 22; 108; 52; 20; 119; 108; 47; 48; 23; 238; 158; 208; 102; 188; 189; 79; 25; 217; 145; 6; 52; 205; 184; 214; 105; 155; 207; 120; 159; 84; 180; 157; 191; 168; 190; 152; 105; 165; 251; 186; 25; 96; 255; 254; 121; 3; 45; 8; 73; 73; 225; 185; 212; 171; 190; 73; 180; 94; 171; 219; 156; 182; 144; 194; 57; 1; 17; 189; 253; 37; 230; 115; 221; 214; 237; 212; 205; 185; 92; 102; 109; 198; 47; 85; 115; 250; 201; 19; 234; 117; 227; 11; 250; 32; 30; 98; 207; 60; 196; 120; 241; 112; 11; 35; 99; 109; 219; 253; 189; 233; 124; 250; 1; 69; 109; 213; 135; 59; 79; 62; 55; 253; 210; 136; 65; 218; 120; 189; 183; 139; 5; 144; 244; 227; 116; 253; 187; 11; 241; 5; 31; 203; 85; 0; 249; 233; 9; 181; 178; 72; 218; 147; 237; 133; 64; 244; 157; 130; 226; 136; 245; 30; 70; 50; 228; 235; 5; 29; 209; 111; 25; 124; 74; 73; 31; 108; 167; 210; 143; 88; 209; 195; 10; 110; 176; 113; 163; 111; 163; 127; 95; 57; 41; 104; 16; 0; 133; 35; 28; 13; 227; 235; 228; 67; 46; 94; 73; 163; 101; 211; 76; 203; 242; 137; 183; 49; 20; 215; 129; 115; 71; 150; 122; 81; 16; 224; 83; 225; 57; 31; 231; 132; 182; 129; 116; 229; 222; 199; 63; 81; 39; 255; 9; 207; 51; 148; 70; 159; 176; 222; 235; 174; 161; 168; 197; 77; 113; 147; 51; 78; 11; 104; 106; 70; 236; 199; 21; 113; 21; 210; 82; 77; 151; 48; 76; 72; 140; 171; 29; 123; 154; 180; 48; 90; 51; 57; 227; 13; 187; 39; 116; 75; 148; 241; 70; 190; 149; 195; 226; 107; 127; 213; 137; 222; 139; 158; 23; 113; 92; 125; 192; 198; 117; 183; 180; 87; 56; 15; 18; 178; 228; 7; 181; 238; 94; 7; 185; 165; 233; 141]) (two bi_add (BY [86; 40; 240; 54; 176; 173; 86; 246; 44; 114; 227; 38; 121; 29; 118; 9; 250; 39; 166; 53; 89; 182; 206; 34; 18; 186; 194; 31; 31; 100; 147; 122; 139; 172; 194; 117; 20; 197; 208; 5; 106; 23; 124; 19; 116; 173; 97; 202; 241; 114; 49; 31; 25; 186; 193; 159; 89; 206; 35; 246; 235; 55; 214; 200; 223; 105; 154; 204; 91; 0; 245; 53; 86; 160; 202; 66; 58; 187; 173; 101; 89; 247; 45; 173; 50; 116; 96; 209; 234; 34; 28; 70; 161; 218; 26; 51; 64; 180; 52; 11; 18; 148; 111; 240; 124; 252; 200; 121; 239; 127; 100; 158; 32; 190; 156; 243; 9; 41; 149; 106; 8; 201; 225; 57; 228; 175; 147; 123; 134; 151; 1; 133; 134; 161; 83; 197; 136; 60; 48; 54; 171; 231; 225; 107; 189; 125; 37; 227; 62; 38; 41; 23; 30; 201; 3; 72; 178; 53; 12; 205; 104; 76; 242; 88; 126; 223; 23; 126; 107; 214; 106; 204; 248; 95; 190; 32; 231; 118; 123; 102; 137; 175; 61; 95; 110; 233; 102; 189; 158; 10; 19; 82; 48; 99; 205; 95; 244; 137; 237; 222; 102; 166; 120; 104; 188; 92; 31; 191; 10; 226; 96; 59; 186; 165; 67; 185; 15; 146; 233; 148; 120; 90; 224; 96; 194; 23; 156; 148; 146; 95; 43; 94; 137; 156; 0; 227; 54; 213; 163; 17; 202; 167; 178; 187; 169; 216; 151; 138; 31; 20; 79; 98; 159; 89; 102; 11; 197; 24; 165; 164; 192; 138; 44; 171; 182; 2; 178; 30; 165; 96; 130; 58; 239; 216; 201; 208; 168; 36; 183; 234; 127; 17; 116; 126; 15; 201; 190; 47; 54; 244; 29; 30; 47; 255; 81; 64; 122; 6; 4; 166; 37; 121; 229; 191; 145; 21; 114; 199; 143; 149; 99; 160; 96; 186; 36; 174; 21; 174; 155; 237; 68; 130; 232; 176; 66; 99; 10; 240; 134; 137; 85; 161; 31; 17; 196; 6; 44; 180; 236; 250; 87; 247; 160; 160; 144; 124; 190; 116; 218; 162; 42; 204; 107; 23; 98; 163; 145; 52; 125; 46; 11; 130; 64; 6; 64; 194; 129; 79; 245; 30; 130; 96; 194; 161; 149; 76; 226; 71; 32; 197; 165; 149; 21; 228; 94; 137; 54; 7; 174; 33; 116; 247; 55; 189; 238; 212; 182; 153; 95; 206; 251; 111; 126; 188; 31; 201; 9; 202; 129; 21; 192; 73; 20; 183; 136; 117; 108; 92; 168; 183; 140; 121; 160; 212; 169; 139; 41; 5; 178; 193; 150; 73; 232; 81; 202; 54; 22; 88; 196; 149; 128; 108; 134; 152; 97; 43; 227; 128; 52; 121; 104; 89; 241; 168; 66; 130; 206; 170; 19; 148; 160; 4; 23; 192; 126; 119; 97; 194; 237; 82; 95; 19; 152; 18; 55; 32; 243; 7; 115; 126; 167; 169; 208; 57; 89; 60; 87; 63; 15; 72; 104; 107; 69; 47; 244; 123; 84; 197; 25; 233; 201; 32; 146; 226; 25; 84; 193; 222; 113; 34; 143; 198; 55; 149; 236; 246; 52; 221; 103; 65; 31; 34; 179; 165; 234; 243; 206; 104; 29; 187; 203; 45; 237; 137; 180; 135; 22; 238; 31; 4; 123; 121; 205; 237; 184; 161; 52; 175; 67; 254; 71; 118; 93; 216; 201; 167; 109; 237; 247; 38; 133; 89; 192; 182; 86; 97; 216; 173; 225; 101; 224; 69; 190; 98; 198; 166; 84; 198; 236; 72; 190; 30; 36; 31; 115; 84; 207; 21; 192; 13; 25; 40; 246; 248; 126; 33; 184; 23; 150; 87; 201; 134; 206; 222; 29; 1; 184; 250; 17; 34; 82; 167; 1; 174; 104; 103; 52; 160; 66; 2; 145; 194; 237; 211; 75; 184; 79; 197; 228; 164; 238; 61; 48; 149; 127; 56; 79; 70; 2; 113; 155; 213; 4; 157; 186; 114; 39; 72; 144; 23; 236; 23; 212; 148; 197; 7; 153; 250; 146; 101; 178; 243; 22; 108; 52; 20; 119; 108; 47; 48; 23; 238; 158; 208; 102; 188; 189; 79; 25; 217; 145; 6; 52; 205; 184; 214; 105; 155; 207; 120; 159; 84; 180; 157; 191; 168; 190; 152; 105; 165; 251; 186; 25; 96; 255; 254; 121; 3; 45; 8; 73; 73; 225; 185; 212; 171; 190; 73; 180; 94; 171; 219; 156; 182; 144; 194; 57; 1; 17; 189; 253; 37; 230; 115; 221; 214; 237; 212; 205; 185; 92; 102; 109; 198; 47; 85; 115; 250; 201; 19; 234; 117; 227; 11; 250; 32; 30; 98; 207; 60; 196; 120; 241; 112; 11; 35; 99; 109; 219; 253; 189; 233; 124; 250; 1; 69; 109; 213; 135; 59; 79; 62; 55; 253; 210; 136; 65; 218; 120; 189; 183; 139; 5; 144; 244; 227; 116; 253; 187; 11; 241; 5; 31; 203; 85; 0; 249; 233; 9; 181; 178; 72; 218; 147; 237; 133; 64; 244; 157; 130; 226; 136; 245; 30; 70; 50; 228; 235; 5; 29; 209; 111; 25; 124; 74; 73; 31; 108; 167; 210; 143; 88; 209; 195; 10; 110; 176; 113; 163; 111; 163; 127; 95; 57; 41; 104; 16; 0; 133; 35; 28; 13; 227; 235; 228; 67; 46; 94; 73; 163; 101; 211; 76; 203; 242; 137; 183; 49; 20; 215; 129; 115; 71; 150; 122; 81; 16; 224; 83; 225; 57; 31; 231; 132; 182; 129; 116; 229; 222; 199; 63; 81; 39; 255; 9; 207; 51; 148; 70; 159; 176; 222; 235; 174; 161; 168; 197; 77; 113; 147; 51; 78; 11; 104; 106; 70; 236; 199; 21; 113; 21; 210; 82; 77; 151; 48; 76; 72; 140; 171; 29; 123; 154; 180; 48; 90; 51; 57; 227; 13; 187; 39; 116; 75; 148; 241; 70; 190; 149; 195; 226; 107; 127; 213; 137; 222; 139; 158; 23; 113; 92; 125; 192; 198; 117; 183; 180; 87; 56; 15; 18; 178; 228; 7; 181; 238; 94; 7; 185; 165; 233; 141]) (BY [201; 200; 177; 252; 196; 42; 81; 206; 148; 34; 113; 177; 62; 102; 173; 213; 220; 61; 239; 134; 134; 176; 47; 135; 119; 32; 155; 128; 132; 229; 113; 135; 207; 203; 246; 253; 195; 187; 239; 44; 230; 64; 125; 144; 114; 86; 118; 135; 176; 49; 220; 103; 249; 6; 44; 25; 152; 42; 132; 164; 142; 209; 74; 175; 176; 233; 226; 115; 112; 176; 18; 33; 78; 194; 160; 69; 50; 159; 20; 33; 169; 20; 207; 82; 8; 9; 142; 200; 159; 221; 101; 152; 55; 74; 158; 20; 245; 206; 223; 136; 115; 3; 22; 0; 31; 187; 25; 55; 101; 230; 230; 249; 22; 98; 251; 121; 1; 247; 167; 167; 91; 25; 211; 146; 75; 121; 233; 3; 36; 139; 80; 100; 191; 139; 174; 165; 253; 207; 51; 76; 240; 86; 99; 185; 246; 107; 130; 212; 79; 36; 19; 254; 39; 56; 45; 90; 47; 131; 180; 165; 209; 21; 19; 217; 149; 130; 57; 139; 180; 85; 123; 49; 195; 90; 182; 5; 182; 26; 155; 223; 247; 21; 180; 255; 120; 81; 61; 134; 94; 83; 118; 122; 26; 142; 122; 218; 67; 137; 35; 116; 49; 247; 32; 250; 168; 225; 58; 204; 130; 39; 163; 20; 232; 213; 174; 188; 97; 19; 97; 67; 68; 179; 44; 96; 223; 1; 22; 53; 223; 219; 193; 44; 247; 38; 173; 0; 244; 186; 87; 151; 23; 113; 4; 54; 175; 97; 146; 69; 223; 189; 121; 48; 40; 223; 48; 126; 202; 192; 27; 166; 202; 4; 236; 166; 102; 118; 28; 193; 39; 174; 200; 167; 188; 202; 44; 211; 174; 246; 176; 125; 111; 209; 85; 34; 98; 145; 4; 24; 246; 46; 54; 52; 158; 176; 204; 19; 132; 94; 208; 57; 68; 208; 29; 49; 245; 210; 116; 94; 178; 92; 208; 211; 15; 157; 55; 249; 174; 202; 67; 212; 114; 4; 202; 249; 120; 148; 8; 11; 253; 25; 79; 79; 38; 119; 57; 158; 179; 36; 44; 144; 29; 166; 102; 153; 93; 98; 36; 1; 121; 211; 100; 186; 26; 251; 198; 64; 6; 36; 185; 97; 201; 104; 96; 153; 13; 128; 173; 152; 100; 152; 69; 138; 157; 179; 183; 203; 157; 48; 155; 21; 111; 7; 146; 42; 180; 149; 52; 42; 176; 249; 152; 143; 106; 203; 198; 180; 70; 204; 140; 221; 181; 140; 156; 225; 141; 218; 28; 103; 68; 251; 162; 214; 136; 164; 241; 194; 214; 53; 228; 120; 75; 130; 231; 107; 0; 181; 31; 210; 236; 2; 133; 209; 163; 190; 95; 227; 106; 177; 156; 218; 120; 205; 230; 181; 86; 194])) && same (BY [31; 241; 161; 51; 117; 216; 167; 196; 193; 148; 84; 216; 183; 131; 35; 223; 214; 101; 149; 188; 223; 102; 254; 169; 137; 218; 93; 160; 163; 73; 5; 2; 91; 120; 185; 115; 216; 128; 192; 50; 80; 88; 249; 163; 230; 3; 216; 81; 162; 164; 13; 135; 18; 193; 237; 184; 241; 248; 167; 154; 122; 9; 33; 120; 144; 83; 125; 64; 204; 176; 7; 87; 164; 98; 107; 136; 108; 90; 194; 134; 2; 12; 253; 255; 58; 125; 238; 153; 138; 0; 130; 222; 216; 36; 185; 71; 53; 131; 20; 148; 133; 151; 133; 240; 155; 183; 226; 176; 84; 102; 75; 152; 55; 32; 152; 109; 11; 32; 61; 18; 100; 226; 180; 204; 47; 41; 125; 127; 170; 34; 82; 233; 69; 45; 2; 107; 134; 12; 100; 130; 155; 62; 69; 37; 180; 233; 167; 183; 142; 74; 60; 21; 70; 1; 49; 162; 225; 184; 192; 114; 58; 98; 5; 50; 20; 98; 81; 9; 32; 44; 230; 253; 187; 186; 116; 38; 157; 145; 22; 70; 129; 197; 241; 94; 231; 58; 164; 67; 253; 93; 137; 204; 74; 241; 71; 58; 56; 19; 17; 83; 152; 157; 153; 98; 101; 62; 90; 139; 141; 9; 4; 80; 162; 123; 242; 117; 113; 165; 74; 216; 188; 13; 13; 193; 161; 25; 178; 201; 113; 59; 237; 138; 128; 195; 173; 227; 42; 144; 251; 168; 225; 24; 183; 241; 88; 58; 42; 208; 254; 209; 200; 146; 199; 56; 151; 137; 143; 217; 192; 74; 139; 143; 24; 82; 29; 121; 206; 223; 204; 14; 75; 226; 171; 163; 246; 163; 87; 27; 104; 104; 239; 226; 201; 160; 113; 90; 195; 71; 44; 35; 84; 82; 205; 175; 30; 84; 254; 100; 212; 223; 105; 73; 3; 241; 134; 232; 230; 37; 66; 242; 51; 116; 112; 87; 92; 167; 196; 120; 223; 193; 183; 134; 178; 170; 187; 247; 18; 251; 131; 163; 164; 240; 69; 136; 253; 164; 223; 216; 24; 139; 117; 157; 7; 58; 238; 222; 226; 117; 83; 118; 143; 134; 134; 18; 41; 228; 151; 88; 54; 144; 212; 234; 160; 159; 77; 66; 47; 232; 89; 183; 199; 234; 95; 85; 77; 24; 128; 120; 187; 218; 20; 157; 167; 14; 19; 31; 107; 49; 94; 27; 13; 135; 162; 136; 181; 137; 253; 101; 236; 171; 177; 252; 26; 158; 173; 163; 38; 49; 198; 16; 99; 32; 157; 91; 122; 56; 67; 146; 140; 48; 216; 251; 135; 64; 170; 64; 73; 215; 158; 196; 27; 27; 140; 16; 42; 26; 129; 9; 97; 112; 249; 57; 109; 78; 184; 237; 226; 128; 52; 121; 104; 89; 241; 168; 66; 130; 206; 170; 19; 148; 160; 4; 23; 192; 126; 119; 97; 194; 237; 82; 95; 19; 152; 18; 55; 32; 243; 7; 115; 126; 167; 169; 208; 57; 89; 60; 87; 63; 15; 72; 104; 107; 69; 47; 244; 123; 84; 197; 25; 233; 201; 32; 146; 226; 25; 84; 193; 222; 113; 34; 143; 198; 55; 149; 236; 246; 52; 221; 103; 65; 31; 34; 179; 165; 234; 243; 206; 104; 29; 187; 203; 45; 237; 137; 180; 135; 22; 238; 31; 4; 123; 121; 205; 237; 184; 161; 52; 175; 67; 254; 71; 118; 93; 216; 201; 167; 109; 237; 247; 38; 133; 89; 192; 182; 86; 97; 216; 173; 225; 101; 224; 69; 190; 98; 198; 166; 84; 198; 236; 72; 190; 30; 36; 31; 115; 84; 207; 21; 192; 13; 25; 40; 246; 248; 126; 33; 184; 23; 150; 87; 201; 134; 206; 222; 29; 1; 184; 250; 17; 34; 82; 167; 1; 174; 104; 103; 52; 160; 66; 2; 145; 194; 237; 211; 75; 184; 79; 197; 228; 164; 238; 61; 48; 149; 127; 56; 79; 70; 2; 113; 155; 213; 4; 157; 186; 114; 39; 72; 144; 23; 236; 23; 212; 148; 197; 7; 153; 250; 146; 101; 178; 243; 22; 108; 52; 20; 119; 108; 47; 48; 23; 238; 158; 208; 102; 188; 189; 79; 25; 217; 145; 6; 52; 205; 184; 214; 105; 155; 207; 120; 159; 84; 180; 157; 191; 168; 190; 152; 105; 165; 251; 186; 25; 96; 255; 254; 121; 3; 45; 8; 73; 73; 225; 185; 212; 171; 190; 73; 180; 94; 171; 219; 156; 182; 144; 194; 57; 1; 17; 189; 253; 37; 230; 115; 221; 214; 237; 212; 205; 185; 92; 102; 109; 198; 47; 85; 115; 250; 201; 19; 234; 117; 227; 11; 250; 32; 30; 98; 207; 60; 196; 120; 241; 112; 11; 35; 99; 109; 219; 253; 189; 233; 124; 250; 1; 69; 109; 213; 135; 59; 79; 62; 55; 253; 210; 136; 65; 218; 120; 189; 183; 139; 5; 144; 244; 227; 116; 253; 187; 11; 241; 5; 31; 203; 85; 0; 249; 233; 9; 181; 178; 72; 218; 147; 237; 133; 64; 244; 157; 130; 226; 136; 245; 30; 70; 50; 228; 235; 5; 29; 209; 111; 25; 124; 74; 73; 31; 108; 167; 210; 143; 88; 209; 195; 10; 110; 176; 113; 163; 111; 163; 127; 95; 57; 41; 104; 16; 0; 133; 35; 28; 13; 227; 235; 228; 67; 46; 94; 73; 163; 101; 211; 76; 203; 242; 137; 183; 49; 20; 215; 129; 115; 71; 150; 122; 81; 16; 224; 83; 225; 57; 31; 231; 132; 182; 129; 116; 229; 222; 199; 63; 81; 39; 255; 9; 207; 51; 148; 70; 159; 176; 222; 235; 174; 161; 168; 197; 77; 113; 147; 51; 78; 11; 104; 106; 70; 236; 199; 21; 113; 21; 210; 82; 77; 151; 48; 76; 72; 140; 171; 29; 123; 154; 180; 48; 90; 51; 57; 227; 13; 187; 39; 116; 75; 148; 241; 70; 190; 149; 195; 226; 107; 127; 213; 137; 222; 139; 158; 23; 113; 92; 125; 192; 198; 117; 183; 180; 87; 56; 15; 18; 178; 228; 7; 181; 238; 94; 7; 185; 165; 233; 141]) (two bi_add (BY [201; 200; 177; 252; 196; 42; 81; 206; 148; 34; 113; 177; 62; 102; 173; 213; 220; 61; 239; 134; 134; 176; 47; 135; 119; 32; 155; 128; 132; 229; 113; 135; 207; 203; 246; 253; 195; 187; 239; 44; 230; 64; 125; 144; 114; 86; 118; 135; 176; 49; 220; 103; 249; 6; 44; 25; 152; 42; 132; 164; 142; 209; 74; 175; 176; 233; 226; 115; 112; 176; 18; 33; 78; 194; 160; 69; 50; 159; 20; 33; 169; 20; 207; 82; 8; 9; 142; 200; 159; 221; 101; 152; 55; 74; 158; 20; 245; 206; 223; 136; 115; 3; 22; 0; 31; 187; 25; 55; 101; 230; 230; 249; 22; 98; 251; 121; 1; 247; 167; 167; 91; 25; 211; 146; 75; 121; 233; 3; 36; 139; 80; 100; 191; 139; 174; 165; 253; 207; 51; 76; 240; 86; 99; 185; 246; 107; 130; 212; 79; 36; 19; 254; 39; 56; 45; 90; 47; 131; 180; 165; 209; 21; 19; 217; 149; 130; 57; 139; 180; 85; 123; 49; 195; 90; 182; 5; 182; 26; 155; 223; 247; 21; 180; 255; 120; 81; 61; 134; 94; 83; 118; 122; 26; 142; 122; 218; 67; 137; 35; 116; 49; 247; 32; 250; 168; 225; 58; 204; 130; 39; 163; 20; 232; 213; 174; 188; 97; 19; 97; 67; 68; 179; 44; 96; 223; 1; 22; 53; 223; 219; 193; 44; 247; 38; 173; 0; 244; 186; 87; 151; 23; 113; 4; 54; 175; 97; 146; 69; 223; 189; 121; 48; 40; 223; 48; 126; 202; 192; 27; 166; 202; 4; 236; 166; 102; 118; 28; 193; 39; 174; 200; 167; 188; 202; 44; 211; 174; 246; 176; 125; 111; 209; 85; 34; 98; 145; 4; 24; 246; 46; 54; 52; 158; 176; 204; 19; 132; 94; 208; 57; 68; 208; 29; 49; 245; 210; 116; 94; 178; 92; 208; 211; 15; 157; 55; 249; 174; 202; 67; 212; 114; 4; 202; 249; 120; 148; 8; 11; 253; 25; 79; 79; 38; 119; 57; 158; 179; 36; 44; 144; 29; 166; 102; 153; 93; 98; 36; 1; 121; 211; 100; 186; 26; 251; 198; 64; 6; 36; 185; 97; 201; 104; 96; 153; 13; 128; 173; 152; 100; 152; 69; 138; 157; 179; 183; 203; 157; 48; 155; 21; 111; 7; 146; 42; 180; 149; 52; 42; 176; 249; 152; 143; 106; 203; 198; 180; 70; 204; 140; 221; 181; 140; 156; 225; 141; 218; 28; 103; 68; 251; 162; 214; 136; 164; 241; 194; 214; 53; 228; 120; 75; 130; 231; 107; 0; 181; 31; 210; 236; 2; 133; 209; 163; 190; 95; 227; 106; 177; 156; 218; 120; 205; 230; 181; 86; 194]) (BY [86; 40; 240; 54; 176; 173; 86; 246; 44; 114; 227; 38; 121; 29; 118; 9; 250; 39; 166; 53; 89; 182; 206; 34; 18; 186; 194; 31; 31; 100; 147; 122; 139; 172; 194; 117; 20; 197; 208; 5; 106; 23; 124; 19; 116; 173; 97; 202; 241; 114; 49; 31; 25; 186; 193; 159; 89; 206; 35; 246; 235; 55; 214; 200; 223; 105; 154; 204; 91; 0; 245; 53; 86; 160; 202; 66; 58; 187; 173; 101; 89; 247; 45; 173; 50; 116; 96; 209; 234; 34; 28; 70; 161; 218; 26; 51; 64; 180; 52; 11; 18; 148; 111; 240; 124; 252; 200; 121; 239; 127; 100; 158; 32; 190; 156; 243; 9; 41; 149; 106; 8; 201; 225; 57; 228; 175; 147; 123; 134; 151; 1; 133; 134; 161; 83; 197; 136; 60; 48; 54; 171; 231; 225; 107; 189; 125; 37; 227; 62; 38; 41; 23; 30; 201; 3; 72; 178; 53; 12; 205; 104; 76; 242; 88; 126; 223; 23; 126; 107; 214; 106; 204; 248; 95; 190; 32; 231; 118; 123; 102; 137; 175; 61; 95; 110; 233; 102; 189; 158; 10; 19; 82; 48; 99; 205; 95; 244; 137; 237; 222; 102; 166; 120; 104; 188; 92; 31; 191; 10; 226; 96; 59; 186; 165; 67; 185; 15; 146; 233; 148; 120; 90; 224; 96; 194; 23; 156; 148; 146; 95; 43; 94; 137; 156; 0; 227; 54; 213; 163; 17; 202; 167; 178; 187; 169; 216; 151; 138; 31; 20; 79; 98; 159; 89; 102; 11; 197; 24; 165; 164; 192; 138; 44; 171; 182; 2; 178; 30; 165; 96; 130; 58; 239; 216; 201; 208; 168; 36; 183; 234; 127; 17; 116; 126; 15; 201; 190; 47; 54; 244; 29; 30; 47; 255; 81; 64; 122; 6; 4; 166; 37; 121; 229; 191; 145; 21; 114; 199; 143; 149; 99; 160; 96; 186; 36; 174; 21; 174; 155; 237; 68; 130; 232; 176; 66; 99; 10; 240; 134; 137; 85; 161; 31; 17; 196; 6; 44; 180; 236; 250; 87; 247; 160; 160; 144; 124; 190; 116; 218; 162; 42; 204; 107; 23; 98; 163; 145; 52; 125; 46; 11; 130; 64; 6; 64; 194; 129; 79; 245; 30; 130; 96; 194; 161; 149; 76; 226; 71; 32; 197; 165; 149; 21; 228; 94; 137; 54; 7; 174; 33; 116; 247; 55; 189; 238; 212; 182; 153; 95; 206; 251; 111; 126; 188; 31; 201; 9; 202; 129; 21; 192; 73; 20; 183; 136; 117; 108; 92; 168; 183; 140; 121; 160; 212; 169; 139; 41; 5; 178; 193; 150; 73; 232; 81; 202; 54; 22; 88; 196; 149; 128; 108; 134; 152; 97; 43; 227; 128; 52; 121; 104; 89; 241; 168; 66; 130; 206; 170; 19; 148; 160; 4; 23; 192; 126; 119; 97; 194; 237; 82; 95; 19; 152; 18; 55; 32; 243; 7; 115; 126; 167; 169; 208; 57; 89; 60; 87; 63; 15; 72; 104; 107; 69; 47; 244; 123; 84; 197; 25; 233; 201; 32; 146; 226; 25; 84; 193; 222; 113; 34; 143; 198; 55; 149; 236; 246; 52; 221; 103; 65; 31; 34; 179; 165; 234; 243; 206; 104; 29; 187; 203; 45; 237; 137; 180; 135; 22; 238; 31; 4; 123; 121; 205; 237; 184; 161; 52; 175; 67; 254; 71; 118; 93; 216; 201; 167; 109; 237; 247; 38; 133; 89; 192; 182; 86; 97; 216; 173; 225; 101; 224; 69; 190; 98; 198; 166; 84; 198; 236; 72; 190; 30; 36; 31; 115; 84; 207; 21; 192; 13; 25; 40; 246; 248; 126; 33; 184; 23; 150; 87; 201; 134; 206; 222; 29; 1; 184; 250; 17; 34; 82; 167; 1; 174; 104; 103; 52; 160; 66; 2; 145; 194; 237; 211; 75; 184; 79; 197; 228; 164; 238; 61; 48; 149; 127; 56; 79; 70; 2; 113; 155; 213; 4; 157; 186; 114; 39; 72; 144; 23; 236; 23; 212; 148; 197; 7; 153; 250; 146; 101; 178; 243; 22; 108; 52; 20; 119; 108; 47; 48; 23; 238; 158; 208; 102; 188; 189; 79; 25; 217; 145; 6; 52; 205; 184; 214; 105; 155; 207; 120; 159; 84; 180; 157; 191; 168; 190; 152; 105; 165; 251; 186; 25; 96; 255; 254; 121; 3; 45; 8; 73; 73; 225; 185; 212; 171; 190; 73; 180; 94; 171; 219; 156; 182; 144; 194; 57; 1; 17; 189; 253; 37; 230; 115; 221; 214; 237; 212; 205; 185; 92; 102; 109; 198; 47; 85; 115; 250; 201; 19; 234; 117; 227; 11; 250; 32; 30; 98; 207; 60; 196; 120; 241; 112; 11; 35; 99; 109; 219; 253; 189; 233; 124; 250; 1; 69; 109; 213; 135; 59; 79; 62; 55; 253; 210; 136; 65; 218; 120; 189; 183; 139; 5; 144; 244; 227; 116; 253; 187; 11; 241; 5; 31; 203; 85; 0; 249; 233; 9; 181; 178; 72; 218; 147; 237; 133; 64; 244; 157; 130; 226; 136; 245; 30; 70; 50; 228; 235; 5; 29; 209; 111; 25; 124; 74; 73; 31; 108; 167; 210; 143; 88; 209; 195; 10; 110; 176; 113; 163; 111; 163; 127; 95; 57; 41; 104; 16; 0; 133; 35; 28; 13; 227; 235; 228; 67; 46; 94; 73; 163; 101; 211; 76; 203; 242; 137; 183; 49; 20; 215; 129; 115; 71; 150; 122; 81; 16; 224; 83; 225; 57; 31; 231; 132; 182; 129; 116; 229; 222; 199; 63; 81; 39; 255; 9; 207; 51; 148; 70; 159; 176; 222; 235; 174; 161; 168; 197; 77; 113; 147; 51; 78; 11; 104; 106; 70; 236; 199; 21; 113; 21; 210; 82; 77; 151; 48; 76; 72; 140; 171; 29; 123; 154; 180; 48; 90; 51; 57; 227; 13; 187; 39; 116; 75; 148; 241; 70; 190; 149; 195; 226; 107; 127; 213; 137; 222; 139; 158; 23; 113; 92; 125; 192; 198; 117; 183; 180; 87; 56; 15; 18; 178; 228; 7; 181; 238; 94; 7; 185; 165; 233; 141])) = true.
Proof. vm_compute. reflexivity. Qed.
Example add_20 : same (BY [36; 49; 74; 174; 90; 20; 251; 144; 37; 190; 4; 154; 244; 191; 239; 162; 101; 1; 131; 191; 39; 54; 60; 33; 42; 41; 191; 11; 44; 7; 219; 110; 52; 216; 32; 113; 100; 34; 34; 189; 145; 6; 123; 44; 125; 191; 155; 124; 40; 130; 217; 37; 46; 186; 32; 239; 245; 39; 134; 49; 87; 240; 99; 29; 227; 149; 163; 40; 98; 81; 147; 30; 1; 231; 162; 157; 23; 207; 30; 85; 212; 235; 209; 45; 246; 243; 142; 174; 115; 213; 45; 58; 105; 253; 12; 124; 26; 148; 205; 28; 44; 155; 188; 220; 190; 134; 61; 158; 237; 158; 106; 252; 143; 100; 162; 241; 65; 229; 161; 126; 142; 244; 181; 141; 36; 89; 180; 3; 218; 38; 130; 131; 1; 1; 40; 56; 47; 245; 110; 111; 181; 239; 192; 212; 106; 48; 171; 5; 90; 26; 58; 53; 242; 79; 141; 55; 230; 47; 183; 101; 210; 58; 196; 199; 27; 231; 250; 141; 60; 106; 194; 76; 118; 49; 200; 159; 52; 225; 34; 243; 174; 174; 168; 191; 235; 77; 145; 178; 116; 240; 82; 255; 62; 9; 157; 123; 42; 248; 184; 131; 54; 29; 201; 240; 88; 237; 190; 192; 134; 238; 3; 4; 12; 195; 182; 35; 145; 5; 219; 206; 86; 72; 24; 75; 23; 194; 14; 108; 147; 77; 116; 59; 40; 158; 189; 144; 229; 183; 103; 253; 142; 208; 43; 134; 237; 77; 243; 122; 82; 122; 234; 37; 28; 234; 45; 238; 4; 125; 217; 149; 223; 82; 44; 57; 122; 199; 220; 109; 6; 38; 61; 217; 157; 221; 63; 134; 28; 146; 94; 202; 207; 147; 25; 25; 99; 78; 30; 62; 113; 207; 139; 104; 222; 209; 29; 60; 163; 242; 12; 37; 113; 133; 115; 44; 61; 16; 135; 62; 170; 167; 210; 114; 30; 15; 197; 76; 56; 19; 214; 43; 169; 158; 252; 55; 154; 213; 250; 204; 192; 3; 226; 41; 134; 57; 88; 74; 31; 237; 220; 82; 198; 223; 147; 202; 252; 25; 73; 207; 12; 209; 3; 143; 28; 224; 124; 211; 136; 60; 145; 103; 22; 187; 126; 166; 196; 168; 235; 229; 182; 123; 44; 74; 55; 132; 101; 201; 10; 49; 58; 129; 140; 42; 192; 238; 0; 82; 12; 166; 189; 133; 193; 227; 91; 116; 59; 10; 96; 237; 5; 84; 45; 99; 25; 144; 165; 184; 88; 152; 122; 178; 200; 87; 1; 16; 219; 235; 251; 144; 166; 113; 156; 69; 40; 49; 185; 72; 239; 194; 72; 90; 104; 29; 43; 230; 84; 40; 17; 47; 72; 71; 250; 116; 43; 10; 188; 106; 225; 75; 153; 80; 14; 207; 70; 148; 184; 231; 59; 232; 215; 93; 201; 150; 80; 31; 74; 171; 43; 27; 188; 178; 217; 204; 72; 95; 119; 40; 26; 30; 116; 79; 102; 164; 41; 248; 76; 152; 214; 151; 46; 108; 236; 41; 88; 234; 125; 100; 35; 11; 191; 16; 63; 197; 142; 230; 118; 65; 135; 231; 29; 143; 204; 29; 115; 135; 246; 37; 108; 88; 211; 177; 212; 147; 237; 79; 198; 176; 116; 93; 225; 19; 4; 15; 94; 100; 16; 161; 21; 66; 129; 10; 17; 239; 122; 158; 160; 207; 182; 208; 244; 88; 247; 203; 55; 14; 59; 171; 216; 63; 32; 198; 205; 41; 5; 10; 139; 188; 190; 15; 119; 85; 16; 42; 214; 201; 159; 229; 25; 79; 175; 246; 249; 164; 105; 137; 27; 56; 216; 80; 40; 100; 200; 214; 34; 187; 61; 232; 234; 112; 18; 227; 16; 167; 88; 159; 72; 205; 245; 110; 110; 86; 146; 137; 143; 41; 204; 41; 192; 123; 238; 83; 228; 110; 230; 18; 140; 58; 7; 26; 140; 183; 250; 168; 60; 203; 229; 82; 75; 201; 65; 78; 66; 105; 225; 209; 210; 63; 70; 248; 238; 19; 39; 110; 129; 190; 254; 162; 192; 70; 18; 13; 197; 218; 226; 182; 92; 233; 76; 195; 68; 122; 221; 246; 58; 160; 17; 123; 140; 21; 64; 77; 243; 15; 43; 120; 143; 139; 39; 125; 205; 67; 146; 5; 182; 51; 137; 103; 135; 43; 117; 233; 242; 130; 179; 116; 54; 49; 52; 225; 173; 131; 21; 170; 5; 197; 26; 181; 174; 106; 38; 208; 194; 206; 246; 1; 231; 216; 63; 6; 23; 169; 243; 97; 159; 87; 90; 113; 91; 183]) (two bi_add (BY [198; 217; 4; 222; 16; 231; 19; 145; 51; 164; 49; 225; 215; 187; 74; 123; 65; 118; 208; 50; 202; 68; 14; 87; 37; 153; 10; 0; 126; 155; 50; 20; 61; 175; 88; 248; 231; 35; 116; 233; 144; 45; 44; 63; 57; 207; 196; 31; 46; 81; 164; 63; 133; 143; 60; 130; 203; 173; 185; 119; 221; 19; 18; 152; 113; 29; 163; 40; 98; 81; 147; 30; 1; 231; 162; 157; 23; 207; 30; 85; 212; 235; 209; 45; 246; 243; 142; 174; 115; 213; 45; 58; 105; 253; 12; 124; 26; 148; 205; 28; 44; 155; 188; 220; 190; 134; 61; 158; 237; 158; 106; 252; 143; 100; 162; 241; 65; 229; 161; 126; 142; 244; 181; 141; 36; 89; 180; 3; 218; 38; 130; 131; 1; 1; 40; 56; 47; 245; 110; 111; 181; 239; 192; 212; 106; 48; 171; 5; 90; 26; 58; 53; 242; 79; 141; 55; 230; 47; 183; 101; 210; 58; 196; 199; 27; 231; 250; 141; 60; 106; 194; 76; 118; 49; 200; 159; 52; 225; 34; 243; 174; 174; 168; 191; 235; 77; 145; 178; 116; 240; 82; 255; 62; 9; 157; 123; 42; 248; 184; 131; 54; 29; 201; 240; 88; 237; 190; 192; 134; 238; 3; 4; 12; 195; 182; 35; 145; 5; 219; 206; 86; 72; 24; 75; 23; 194; 14; 108; 147; 77; 116; 59; 40; 158; 189; 144; 229; 183; 103; 253; 142; 208; 43; 134; 237; 77; 243; 122; 82; 122; 234; 37; 28; 234; 45; 238; 4; 125; 217; 149; 223; 82; 44; 57; 122; 199; 220; 109; 6; 38; 61; 217; 157; 221; 63; 134; 28; 146; 94; 202; 207; 147; 25; 25; 99; 78; 30; 62; 113; 207; 139; 104; 222; 209; 29; 60; 163; 242; 12; 37; 113; 133; 115; 44; 61; 16; 135; 62; 170; 167; 210; 114; 30; 15; 197; 76; 56; 19; 214; 43; 169; 158; 252; 55; 154; 213; 250; 204; 192; 3; 226; 41; 134; 57; 88; 74; 31; 237; 220; 82; 198; 223; 147; 202; 252; 25; 73; 207; 12; 209; 3; 143; 28; 224; 124; 211; 136; 60; 145; 103; 22; 187; 126; 166; 196; 168; 235; 229; 182; 123; 44; 74; 55; 132; 101; 201; 10; 49; 58; 129; 140; 42; 192; 238; 0; 82; 12; 166; 189; 133; 193; 227; 91; 116; 59; 10; 96; 237; 5; 84; 45; 99; 25; 144; 165; 184; 88; 152; 122; 178; 200; 87; 1; 16; 219; 235; 251; 144; 166; 113; 156; 69; 40; 49; 185; 72; 239; 194; 72; 90; 104; 29; 43; 230; 84; 40; 17; 47; 72; 71; 250; 116; 43; 10; 188; 106; 225; 75; 153; 80; 14; 207; 70; 148; 184; 231; 59; 232; 215; 93; 201; 150; 80; 31; 74; 171; 43; 27; 188; 178; 217; 204; 72; 95; 119; 40; 26; 30; 116; 79; 102; 164; 41; 248; 76; 152; 214; 151; 46; 108; 236; 41; 88; 234; 125; 100; 35; 11; 191; 16; 63; 197; 142; 230; 118; 65; 135; 231; 29; 143; 204; 29; 115; 135; 246; 37; 108; 88; 211; 177; 212; 147; 237; 79; 198; 176; 116; 93; 225; 19; 4; 15; 94; 100; 16; 161; 21; 66; 129; 10; 17; 239; 122; 158; 160; 207; 182; 208; 244; 88; 247; 203; 55; 14; 59; 171; 216; 63; 32; 198; 205; 41; 5; 10; 139; 188; 190; 15; 119; 85; 16; 42; 214; 201; 159; 229; 25; 79; 175; 246; 249; 164; 105; 137; 27; 56; 216; 80; 40; 100; 200; 214; 34; 187; 61; 232; 234; 112; 18; 227; 16; 167; 88; 159; 72; 205; 245; 110; 110; 86; 146; 137; 143; 41; 204; 41; 192; 123; 238; 83; 228; 110; 230; 18; 140; 58; 7; 26; 140; 183; 250; 168; 60; 203; 229; 82; 75; 201; 65; 78; 66; 105; 225; 209; 210; 63; 70; 248; 238; 19; 39; 110; 129; 190; 254; 162; 192; 70; 18; 13; 197; 218; 226; 182; 92; 233; 76; 195; 68; 122; 221; 246; 58; 160; 17; 123; 140; 21; 64; 77; 243; 15; 43; 120; 143; 139; 39; 125; 205; 67; 146; 5; 182; 51; 137; 103; 135; 43; 117; 233; 242; 130; 179; 116; 54; 49; 52; 225; 173; 131; 21; 170; 5; 197; 26; 181; 174; 106; 38; 208; 194; 206; 246; 1; 231; 216; 63; 6; 23; 169; 243; 97; 159; 87; 90; 113; 91; 183]) (BY [94; 87; 69; 208; 73; 45; 231; 255; 241; 25; 211; 184; 28; 4; 165; 39; 36; 139; 178; 140; 93; 241; 45; 202; 4; 144; 180; 11; 174; 107; 168; 90; 247; 40; 200; 120; 124; 254; 173; 211; 0; 217; 78; 237; 67; 240; 214; 92; 250; 48; 53; 230; 168; 42; 228; 108; 42; 122; 204; 185; 121; 220; 81; 133; 113; 120])) && same (BY [36; 49; 74; 174; 90; 20; 251; 144; 37; 190; 4; 154; 244; 191; 239; 162; 101; 1; 131; 191; 39; 54; 60; 33; 42; 41; 191; 11; 44; 7; 219; 110; 52; 216; 32; 113; 100; 34; 34; 189; 145; 6; 123; 44; 125; 191; 155; 124; 40; 130; 217; 37; 46; 186; 32; 239; 245; 39; 134; 49; 87; 240; 99; 29; 227; 149; 163; 40; 98; 81; 147; 30; 1; 231; 162; 157; 23; 207; 30; 85; 212; 235; 209; 45; 246; 243; 142; 174; 115; 213; 45; 58; 105; 253; 12; 124; 26; 148; 205; 28; 44; 155; 188; 220; 190; 134; 61; 158; 237; 158; 106; 252; 143; 100; 162; 241; 65; 229; 161; 126; 142; 244; 181; 141; 36; 89; 180; 3; 218; 38; 130; 131; 1; 1; 40; 56; 47; 245; 110; 111; 181; 239; 192; 212; 106; 48; 171; 5; 90; 26; 58; 53; 242; 79; 141; 55; 230; 47; 183; 101; 210; 58; 196; 199; 27; 231; 250; 141; 60; 106; 194; 76; 118; 49; 200; 159; 52; 225; 34; 243; 174; 174; 168; 191; 235; 77; 145; 178; 116; 240; 82; 255; 62; 9; 157; 123; 42; 248; 184; 131; 54; 29; 201; 240; 88; 237; 190; 192; 134; 238; 3; 4; 12; 195; 182; 35; 145; 5; 219; 206; 86; 72; 24; 75; 23; 194; 14; 108; 147; 77; 116; 59; 40; 158; 189; 144; 229; 183; 103; 253; 142; 208; 43; 134; 237; 77; 243; 122; 82; 122; 234; 37; 28; 234; 45; 238; 4; 125; 217; 149; 223; 82; 44; 57; 122; 199; 220; 109; 6; 38; 61; 217; 157; 221; 63; 134; 28; 146; 94; 202; 207; 147; 25; 25; 99; 78; 30; 62; 113; 207; 139; 104; 222; 209; 29; 60; 163; 242; 12; 37; 113; 133; 115; 44; 61; 16; 135; 62; 170; 167; 210; 114; 30; 15; 197; 76; 56; 19; 214; 43; 169; 158; 252; 55; 154; 213; 250; 204; 192; 3; 226; 41; 134; 57; 88; 74; 31; 237; 220; 82; 198; 223; 147; 202; 252; 25; 73; 207; 12; 209; 3; 143; 28; 224; 124; 211; 136; 60; 145; 103; 22; 187; 126; 166; 196; 168; 235; 229; 182; 123; 44; 74; 55; 132; 101; 201; 10; 49; 58; 129; 140; 42; 192; 238; 0; 82; 12; 166; 189; 133; 193; 227; 91; 116; 59; 10; 96; 237; 5; 84; 45; 99; 25; 144; 165; 184; 88; 152; 122; 178; 200; 87; 1; 16; 219; 235; 251; 144; 166; 113; 156; 69; 40; 49; 185; 72; 239; 194; 72; 90; 104; 29; 43; 230; 84; 40; 17; 47; 72; 71; 250; 116; 43; 10; 188; 106; 225; 75; 153; 80; 14; 207; 70; 148; 184; 231; 59; 232; 215; 93; 201; 150; 80; 31; 74; 171; 43; 27; 188; 178; 217; 204; 72; 95; 119; 40; 26; 30; 116; 79; 102; 164; 41; 248; 76; 152; 214; 151; 46; 108; 236; 41; 88; 234; 125; 100; 35; 11; 191; 16; 63; 197; 142; 230; 118; 65; 135; 231; 29; 143; 204; 29; 115; 135; 246; 37; 108; 88; 211; 177; 212; 147; 237; 79; 198; 176; 116; 93; 225; 19; 4; 15; 94; 100; 16; 161; 21; 66; 129; 10; 17; 239; 122; 158; 160; 207; 182; 208; 244; 88; 247; 203; 55; 14; 59; 171; 216; 63; 32; 198; 205; 41; 5; 10; 139; 188; 190; 15; 119; 85; 16; 42; 214; 201; 159; 229; 25; 79; 175; 246; 249; 164; 105; 137; 27; 56; 216; 80; 40; 100; 200; 214; 34; 187; 61; 232; 234; 112; 18; 227; 16; 167; 88; 159; 72; 205; 245; 110; 110; 86; 146; 137; 143; 41; 204; 41; 192; 123; 238; 83; 228; 110; 230; 18; 140; 58; 7; 26; 140; 183; 250; 168; 60; 203; 229; 82; 75; 201; 65; 78; 66; 105; 225; 209; 210; 63; 70; 248; 238; 19; 39; 110; 129; 190; 254; 162; 192; 70; 18; 13; 197; 218; 226; 182; 92; 233; 76; 195; 68; 122; 221; 246; 58; 160; 17; 123; 140; 21; 64; 77; 243; 15; 43; 120; 143; 139; 39; 125; 205; 67; 146; 5; 182; 51; 137; 103; 135; 43; 117; 233; 242; 130; 179; 116; 54; 49; 52; 225; 173; 131; 21; 170; 5; 197; 26; 181; 174; 106; 38; 208; 194; 206; 246; 1; 231; 216; 63; 6; 23; 169; 243; 97; 159; 87; 90; 113; 91; 183]) (two bi_add (BY [94; 87; 69; 208; 73; 45; 231; 255; 241; 25; 211; 184; 28; 4; 165; 39; 36; 139; 178; 140; 93; 241; 45; 202; 4; 144; 180; 11; 174; 107; 168; 90; 247; 40; 200; 120; 124; 254; 173; 211; 0; 217; 78; 237; 67; 240; 214; 92; 250; 48; 53; 230; 168; 42; 228; 108; 42; 122; 204; 185; 121; 220; 81; 133; 113; 120]) (BY [198; 217; 4; 222; 16; 231; 19; 145; 51; 164; 49; 225; 215; 187; 74; 123; 65; 118; 208; 50; 202; 68; 14; 87; 37; 153; 10; 0; 126; 155; 50; 20; 61; 175; 88; 248; 231; 35; 116; 233; 144; 45; 44; 63; 57; 207; 196; 31; 46; 81; 164; 63; 133; 143; 60; 130; 203; 173; 185; 119; 221; 19; 18; 152; 113; 29; 163; 40; 98; 81; 147; 30; 1; 231; 162; 157; 23; 207; 30; 85; 212; 235; 209; 45; 246; 243; 142; 174; 115; 213; 45; 58; 105; 253; 12; 124; 26; 148; 205; 28; 44; 155; 188; 220; 190; 134; 61; 158; 237; 158; 106; 252; 143; 100; 162; 241; 65; 229; 161; 126; 142; 244; 181; 141; 36; 89; 180; 3; 218; 38; 130; 131; 1; 1; 40; 56; 47; 245; 110; 111; 181; 239; 192; 212; 106; 48; 171; 5; 90; 26; 58; 53; 242; 79; 141; 55; 230; 47; 183; 101; 210; 58; 196; 199; 27; 231; 250; 141; 60; 106; 194; 76; 118; 49; 200; 159; 52; 225; 34; 243; 174; 174; 168; 191; 235; 77; 145; 178; 116; 240; 82; 255; 62; 9; 157; 123; 42; 248; 184; 131; 54; 29; 201; 240; 88; 237; 190; 192; 134; 238; 3; 4; 12; 195; 182; 35; 145; 5; 219; 206; 86; 72; 24; 75; 23; 194; 14; 108; 147; 77; 116; 59; 40; 158; 189; 144; 229; 183; 103; 253; 142; 208; 43; 134; 237; 77; 243; 122; 82; 122; 234; 37; 28; 234; 45; 238; 4; 125; 217; 149; 223; 82; 44; 57; 122; 199; 220; 109; 6; 38; 61; 217; 157; 221; 63; 134; 28; 146; 94; 202; 207; 147; 25; 25; 99; 78; 30; 62; 113; 207; 139; 104; 222; 209; 29; 60; 163; 242; 12; 37; 113; 133; 115; 44; 61; 16; 135; 62; 170; 167; 210; 114; 30; 15; 197; 76; 56; 19; 214; 43; 169; 158; 252; 55; 154; 213; 250; 204; 192; 3; 226; 41; 134; 57; 88; 74; 31; 237; 220; 82; 198; 223; 147; 202; 252; 25; 73; 207; 12; 209; 3; 143; 28; 224; 124; 211; 136; 60; 145; 103; 22; 187; 126; 166; 196; 168; 235; 229; 182; 123; 44; 74; 55; 132; 101; 201; 10; 49; 58; 129; 140; 42; 192; 238; 0; 82; 12; 166; 189; 133; 193; 227; 91; 116; 59; 10; 96; 237; 5; 84; 45; 99; 25; 144; 165; 184; 88; 152; 122; 178; 200; 87; 1; 16; 219; 235; 251; 144; 166; 113; 156; 69; 40; 49; 185; 72; 239; 194; 72; 90; 104; 29; 43; 230; 84; 40; 17; 47; 72; 71; 250; 116; 43; 10; 188; 106; 225; 75; 153; 80; 14; 207; 70; 148; 184; 231; 59; 232; 215; 93; 201; 150; 80; 31; 74; 171; 43; 27; 188; 178; 217; 204; 72; 95; 119; 40; 26; 30; 116; 79; 102; 164; 41; 248; 76; 152; 214; 151; 46; 108; 236; 41; 88; 234; 125; 100; 35; 11; 191; 16; 63; 197; 142; 230; 118; 65; 135; 231; 29; 143; 204; 29; 115; 135; 246; 37; 108; 88; 211; 177; 212; 147; 237; 79; 198; 176; 116; 93; 225; 19; 4; 15; 94; 100; 16; 161; 21; 66; 129; 10; 17; 239; 122; 158; 160; 207; 182; 208; 244; 88; 247; 203; 55; 14; 59; 171; 216; 63; 32; 198; 205; 41; 5; 10; 139; 188; 190; 15; 119; 85; 16; 42; 214; 201; 159; 229; 25; 79; 175; 246; 249; 164; 105; 137; 27; 56; 216; 80; 40; 100; 200; 214; 34; 187; 61; 232; 234; 112; 18; 227; 16; 167; 88; 159; 72; 205; 245; 110; 110; 86; 146; 137; 143; 41; 204; 41; 192; 123; 238; 83; 228; 110; 230; 18; 140; 58; 7; 26; 140; 183; 250; 168; 60; 203; 229; 82; 75; 201; 65; 78; 66; 105; 225; 209; 210; 63; 70; 248; 238; 19; 39; 110; 129; 190; 254; 162; 192; 70; 18; 13; 197; 218; 226; 182; 92; 233; 76; 195; 68; 122; 221; 246; 58; 160; 17; 123; 140; 21; 64; 77; 243; 15; 43; 120; 143; 139; 39; 125; 205; 67; 146; 5; 182; 51; 137; 103; 135; 43; 117; 233; 242; 130; 179; 116; 54; 49; 52; 225; 173; 131; 21; 170; 5; 197; 26; 181; 174; 106; 38; 208; 194; 206; 246; 1; 231; 216; 63; 6; 23; 169; 243; 97; 159; 87; 90; 113; 91; 183])) = true.
Proof. vm_compute. reflexivity. Qed.
Example add_21 : same (BY [146; 156; 244; 147; 25; 150; 224; 172; 79; 118; 145; 52; 218; 173; 9; 240; 91; 222; 181; 155; 82; 171; 88; 42; 198; 237; 215; 50; 91; 201; 192; 162; 133; 24; 16; 4; 97; 234; 29; 129; 244; 56; 89; 181; 120; 205; 4; 59; 48; 65; 239; 221; 28; 30; 68; 55; 99; 237; 38; 56; 213; 40; 234; 136; 218; 42; 244; 222; 198; 205; 75; 121; 153; 122; 245; 76; 13; 71; 98; 246; 182; 167; 166; 245; 82; 27; 9; 155; 164; 246; 127; 166; 62; 213; 164; 203; 78; 208; 219; 77; 217; 38; 117; 99; 245; 118; 67; 161; 41; 247; 41; 28; 138; 48; 129; 45; 130; 244; 54; 190; 33; 89; 57; 208; 78; 165; 58; 196; 213; 41; 253; 61; 108; 21; 28; 143; 50; 67; 255; 219; 215; 103; 113; 172; 204; 99; 27; 14; 83; 119; 72; 89; 154; 28; 44; 128; 237; 165; 20; 80; 60; 127; 204; 0; 250; 236; 176; 117; 19; 242; 250; 63; 244; 90; 231; 186; 231; 140; 3; 234; 137; 44; 112; 94; 224; 163; 162; 80; 232; 156; 162; 141; 46; 175; 159; 88; 155; 113; 178; 224]) (two bi_add (BY [244; 59; 44; 170; 37; 221; 223; 139; 132; 163; 64; 134; 19; 185; 87; 16; 126; 53; 194; 177; 204; 67; 92; 78; 2; 50; 244; 90; 36; 135; 200; 124; 203; 47; 226; 32; 205; 133; 15; 8]) (BY [158; 96; 200; 233; 243; 184; 0; 33; 203; 210; 80; 174; 198; 244; 177; 223; 221; 168; 243; 233; 133; 103; 252; 219; 195; 187; 227; 215; 54; 66; 248; 37; 186; 232; 45; 227; 147; 100; 14; 121; 244; 56; 89; 181; 120; 205; 4; 59; 48; 65; 239; 221; 28; 30; 68; 55; 99; 237; 38; 56; 213; 40; 234; 136; 218; 42; 244; 222; 198; 205; 75; 121; 153; 122; 245; 76; 13; 71; 98; 246; 182; 167; 166; 245; 82; 27; 9; 155; 164; 246; 127; 166; 62; 213; 164; 203; 78; 208; 219; 77; 217; 38; 117; 99; 245; 118; 67; 161; 41; 247; 41; 28; 138; 48; 129; 45; 130; 244; 54; 190; 33; 89; 57; 208; 78; 165; 58; 196; 213; 41; 253; 61; 108; 21; 28; 143; 50; 67; 255; 219; 215; 103; 113; 172; 204; 99; 27; 14; 83; 119; 72; 89; 154; 28; 44; 128; 237; 165; 20; 80; 60; 127; 204; 0; 250; 236; 176; 117; 19; 242; 250; 63; 244; 90; 231; 186; 231; 140; 3; 234; 137; 44; 112; 94; 224; 163; 162; 80; 232; 156; 162; 141; 46; 175; 159; 88; 155; 113; 178; 224])) && same (BY [146; 156; 244; 147; 25; 150; 224; 172; 79; 118; 145; 52; 218; 173; 9; 240; 91; 222; 181; 155; 82; 171; 88; 42; 198; 237; 215; 50; 91; 201; 192; 162; 133; 24; 16; 4; 97; 234; 29; 129; 244; 56; 89; 181; 120; 205; 4; 59; 48; 65; 239; 221; 28; 30; 68; 55; 99; 237; 38; 56; 213; 40; 234; 136; 218; 42; 244; 222; 198; 205; 75; 121; 153; 122; 245; 76; 13; 71; 98; 246; 182; 167; 166; 245; 82; 27; 9; 155; 164; 246; 127; 166; 62; 213; 164; 203; 78; 208; 219; 77; 217; 38; 117; 99; 245; 118; 67; 161; 41; 247; 41; 28; 138; 48; 129; 45; 130; 244; 54; 190; 33; 89; 57; 208; 78; 165; 58; 196; 213; 41; 253; 61; 108; 21; 28; 143; 50; 67; 255; 219; 215; 103; 113; 172; 204; 99; 27; 14; 83; 119; 72; 89; 154; 28; 44; 128; 237; 165; 20; 80; 60; 127; 204; 0; 250; 236; 176; 117; 19; 242; 250; 63; 244; 90; 231; 186; 231; 140; 3; 234; 137; 44; 112; 94; 224; 163; 162; 80; 232; 156; 162; 141; 46; 175; 159; 88; 155; 113; 178; 224]) (two bi_add (BY [158; 96; 200; 233; 243; 184; 0; 33; 203; 210; 80; 174; 198; 244; 177; 223; 221; 168; 243; 233; 133; 103; 252; 219; 195; 187; 227; 215; 54; 66; 248; 37; 186; 232; 45; 227; 147; 100; 14; 121; 244; 56; 89; 181; 120; 205; 4; 59; 48; 65; 239; 221; 28; 30; 68; 55; 99; 237; 38; 56; 213; 40; 234; 136; 218; 42; 244; 222; 198; 205; 75; 121; 153; 122; 245; 76; 13; 71; 98; 246; 182; 167; 166; 245; 82; 27; 9; 155; 164; 246; 127; 166; 62; 213; 164; 203; 78; 208; 219; 77; 217; 38; 117; 99; 245; 118; 67; 161; 41; 247; 41; 28; 138; 48; 129; 45; 130; 244; 54; 190; 33; 89; 57; 208; 78; 165; 58; 196; 213; 41; 253; 61; 108; 21; 28; 143; 50; 67; 255; 219; 215; 103; 113; 172; 204; 99; 27; 14; 83; 119; 72; 89; 154; 28; 44; 128; 237; 165; 20; 80; 60; 127; 204; 0; 250; 236; 176; 117; 19; 242; 250; 63; 244; 90; 231; 186; 231; 140; 3; 234; 137; 44; 112; 94; 224; 163; 162; 80; 232; 156; 162; 141; 46; 175; 159; 88; 155; 113; 178; 224]) (BY [244; 59; 44; 170; 37; 221; 223; 139; 132; 163; 64; 134; 19; 185; 87; 16; 126; 53; 194; 177; 204; 67; 92; 78; 2; 50; 244; 90; 36; 135; 200; 124; 203; 47; 226; 32; 205; 133; 15; 8])) = true.
Proof. vm_compute. reflexivity. Qed.
Example add_22 : same (BY [1; 124; 121; 60; 239; 22; 189; 56; 94; 22; 165; 135; 202; 19; 183; 79; 123; 163; 9; 199; 80; 248; 87; 177; 125; 242; 21; 208; 198; 110; 16; 231; 155; 172; 125; 186; 196; 19; 129; 222; 247; 16; 225; 0; 252; 85; 127; 210; 198; 222; 230; 101; 160; 90; 86; 10; 36; 201; 191; 252; 1; 238; 113; 240; 4; 190; 235; 28; 150; 252; 137; 103; 36; 44; 205; 64; 23; 86; 181; 39; 116; 65; 10; 233; 135; 170; 69; 65; 88; 116; 150; 253; 84; 132; 220; 10; 160; 240; 251; 60; 107; 99; 60; 201; 83; 126; 67; 116; 141; 21; 242; 204; 18; 150; 135; 192; 228; 136; 102; 89; 120; 170; 196; 33; 101; 141; 18; 159; 79; 195; 160; 38; 90; 120; 189; 17; 5; 64; 149; 10; 103; 208; 179; 67; 129; 201; 233; 190; 8; 190; 166; 255; 201; 188; 18; 67; 153; 46; 230; 130; 133; 3; 215; 36; 52; 190; 238; 232; 91; 133; 80; 193; 146; 76; 17; 214; 226; 73; 80; 2; 150; 219; 45; 153; 18; 210; 105; 15; 19; 104; 125; 126; 223; 20; 51; 72; 193; 178; 56; 250; 65; 9; 33; 130; 110; 228; 108; 124; 170; 60; 97; 79; 221; 227; 235; 170; 214; 61; 17; 97; 85; 222; 212; 242; 7; 209; 226; 126; 24; 201; 21; 47; 16; 86; 192; 141; 186; 171; 43; 45; 102; 236; 101; 215; 7; 45; 161; 252; 41; 136; 114; 131; 161; 215; 165; 99; 53; 46; 122; 157; 2; 237; 100; 225; 39; 49; 62; 135; 34]) (two bi_add (BY [165; 251; 97; 124; 9; 100; 64; 52; 114; 152; 96; 161; 41; 198; 16; 15; 109; 31; 86; 73; 95; 140; 118; 79; 108; 17; 69; 186; 143; 30; 118; 218; 35; 55; 227; 48; 14; 225; 215; 63; 98; 27; 118; 4; 66; 236; 4; 232; 143; 73; 45; 81; 92; 150; 83; 25; 132; 18; 16; 248; 31; 134; 165; 83; 33; 134; 126; 242; 227; 223; 0; 140; 72; 23; 230; 68; 22; 113; 13; 128; 12; 92; 42; 70; 241; 36; 125; 140; 228; 202; 171; 252; 209; 222; 31; 220; 118; 34; 226; 187; 110; 18; 5; 176; 72; 161; 9; 69; 176; 14; 2; 19; 4; 143; 235; 194; 91; 94; 97; 252; 8; 241; 13; 24; 51; 4; 186; 105; 247; 10; 206; 243; 142; 81; 18; 250; 87; 121; 253; 80; 27; 56; 220; 213; 200; 152; 247; 65]) (BY [92; 128; 23; 192; 229; 178; 124; 4; 236; 125; 68; 230; 160; 77; 166; 64; 14; 132; 179; 125; 241; 107; 225; 97; 17; 225; 208; 21; 55; 80; 154; 12; 120; 117; 154; 137; 182; 50; 169; 158; 149; 245; 106; 252; 185; 105; 122; 234; 54; 149; 185; 20; 68; 196; 2; 241; 159; 182; 175; 4; 226; 103; 204; 156; 227; 55; 109; 42; 178; 28; 137; 219; 219; 20; 231; 251; 0; 229; 167; 167; 103; 229; 223; 162; 150; 133; 200; 180; 115; 169; 234; 0; 131; 165; 188; 46; 41; 206; 25; 129; 252; 80; 55; 25; 11; 221; 57; 47; 221; 6; 240; 185; 14; 7; 156; 253; 136; 42; 5; 93; 111; 185; 182; 9; 50; 137; 88; 53; 88; 184; 210; 50; 203; 38; 171; 23; 173; 198; 151; 185; 75; 152; 215; 109; 184; 48; 242; 124; 8; 190; 166; 255; 201; 188; 18; 67; 153; 46; 230; 130; 133; 3; 215; 36; 52; 190; 238; 232; 91; 133; 80; 193; 146; 76; 17; 214; 226; 73; 80; 2; 150; 219; 45; 153; 18; 210; 105; 15; 19; 104; 125; 126; 223; 20; 51; 72; 193; 178; 56; 250; 65; 9; 33; 130; 110; 228; 108; 124; 170; 60; 97; 79; 221; 227; 235; 170; 214; 61; 17; 97; 85; 222; 212; 242; 7; 209; 226; 126; 24; 201; 21; 47; 16; 86; 192; 141; 186; 171; 43; 45; 102; 236; 101; 215; 7; 45; 161; 252; 41; 136; 114; 131; 161; 215; 165; 99; 53; 46; 122; 157; 2; 237; 100; 225; 39; 49; 62; 135; 34])) && same (BY [1; 124; 121; 60; 239; 22; 189; 56; 94; 22; 165; 135; 202; 19; 183; 79; 123; 163; 9; 199; 80; 248; 87; 177; 125; 242; 21; 208; 198; 110; 16; 231; 155; 172; 125; 186; 196; 19; 129; 222; 247; 16; 225; 0; 252; 85; 127; 210; 198; 222; 230; 101; 160; 90; 86; 10; 36; 201; 191; 252; 1; 238; 113; 240; 4; 190; 235; 28; 150; 252; 137; 103; 36; 44; 205; 64; 23; 86; 181; 39; 116; 65; 10; 233; 135; 170; 69; 65; 88; 116; 150; 253; 84; 132; 220; 10; 160; 240; 251; 60; 107; 99; 60; 201; 83; 126; 67; 116; 141; 21; 242; 204; 18; 150; 135; 192; 228; 136; 102; 89; 120; 170; 196; 33; 101; 141; 18; 159; 79; 195; 160; 38; 90; 120; 189; 17; 5; 64; 149; 10; 103; 208; 179; 67; 129; 201; 233; 190; 8; 190; 166; 255; 201; 188; 18; 67; 153; 46; 230; 130; 133; 3; 215; 36; 52; 190; 238; 232; 91; 133; 80; 193; 146; 76; 17; 214; 226; 73; 80; 2; 150; 219; 45; 153; 18; 210; 105; 15; 19; 104; 125; 126; 223; 20; 51; 72; 193; 178; 56; 250; 65; 9; 33; 130; 110; 228; 108; 124; 170; 60; 97; 79; 221; 227; 235; 170; 214; 61; 17; 97; 85; 222; 212; 242; 7; 209; 226; 126; 24; 201; 21; 47; 16; 86; 192; 141; 186; 171; 43; 45; 102; 236; 101; 215; 7; 45; 161; 252; 41; 136; 114; 131; 161; 215; 165; 99; 53; 46; 122; 157; 2; 237; 100; 225; 39; 49; 62; 135; 34]) (two bi_add (BY [92; 128; 23; 192; 229; 178; 124; 4; 236; 125; 68; 230; 160; 77; 166; 64; 14; 132; 179; 125; 241; 107; 225; 97; 17; 225; 208; 21; 55; 80; 154; 12; 120; 117; 154; 137; 182; 50; 169; 158; 149; 245; 106; 252; 185; 105; 122; 234; 54; 149; 185; 20; 68; 196; 2; 241; 159; 182; 175; 4; 226; 103; 204; 156; 227; 55; 109; 42; 178; 28; 137; 219; 219; 20; 231; 251; 0; 229; 167; 167; 103; 229; 223; 162; 150; 133; 200; 180; 115; 169; 234; 0; 131; 165; 188; 46; 41; 206; 25; 129; 252; 80; 55; 25; 11; 221; 57; 47; 221; 6; 240; 185; 14; 7; 156; 253; 136; 42; 5; 93; 111; 185; 182; 9; 50; 137; 88; 53; 88; 184; 210; 50; 203; 38; 171; 23; 173; 198; 151; 185; 75; 152; 215; 109; 184; 48; 242; 124; 8; 190; 166; 255; 201; 188; 18; 67; 153; 46; 230; 130; 133; 3; 215; 36; 52; 190; 238; 232; 91; 133; 80; 193; 146; 76; 17; 214; 226; 73; 80; 2; 150; 219; 45; 153; 18; 210; 105; 15; 19; 104; 125; 126; 223; 20; 51; 72; 193; 178; 56; 250; 65; 9; 33; 130; 110; 228; 108; 124; 170; 60; 97; 79; 221; 227; 235; 170; 214; 61; 17; 97; 85; 222; 212; 242; 7; 209; 226; 126; 24; 201; 21; 47; 16; 86; 192; 141; 186; 171; 43; 45; 102; 236; 101; 215; 7; 45; 161; 252; 41; 136; 114; 131; 161; 215; 165; 99; 53; 46; 122; 157; 2; 237; 100; 225; 39; 49; 62; 135; 34]) (BY [165; 251; 97; 124; 9; 100; 64; 52; 114; 152; 96; 161; 41; 198; 16; 15; 109; 31; 86; 73; 95; 140; 118; 79; 108; 17; 69; 186; 143; 30; 118; 218; 35; 55; 227; 48; 14; 225; 215; 63; 98; 27; 118; 4; 66; 236; 4; 232; 143; 73; 45; 81; 92; 150; 83; 25; 132; 18; 16; 248; 31; 134; 165; 83; 33; 134; 126; 242; 227; 223; 0; 140; 72; 23; 230; 68; 22; 113; 13; 128; 12; 92; 42; 70; 241; 36; 125; 140; 228; 202; 171; 252; 209; 222; 31; 220; 118; 34; 226; 187; 110; 18; 5; 176; 72; 161; 9; 69; 176; 14; 2; 19; 4; 143; 235; 194; 91; 94; 97; 252; 8; 241; 13; 24; 51; 4; 186; 105; 247; 10; 206; 243; 142; 81; 18; 250; 87; 121; 253; 80; 27; 56; 220; 213; 200; 152; 247; 65])) = true.
Proof. vm_compute. reflexivity. Qed.

(** tests/BigInteger_SubtractTests.cpp:8-41 (unary_minus). *)
Example negate_0 : same (P "-123123123123123123123123123123123123123123123123123123123123123123123123123123123123123123123123") (x <- (P "123123123123123123123123123123123123123123123123123123123123123123123123123123123123123123123123") ;; bi_neg c x) = true.
Proof. vm_compute. reflexivity. Qed.
Example negate_1 : same (P "123123123123123123123123123123123123123123123123123123123123123123123123123123123123123123123123") (x <- (P "-123123123123123123123123123123123123123123123123123123123123123123123123123123123123123123123123") ;; bi_neg c x) = true.
Proof. vm_compute. reflexivity. Qed.
Example negate_2 : same (I (-123)) (x <- (I 123) ;; bi_neg c x) = true.
Proof. vm_compute. reflexivity. Qed.
Example negate_3 : same (I 123) (x <- (I (-123)) ;; bi_neg c x) = true.
Proof. vm_compute. reflexivity. Qed.
Example negate_4 : same (I 0) (x <- (I 0) ;; bi_neg c x) = true.
Proof. vm_compute. reflexivity. Qed.
Example negate_5 : same (I 1) (x <- (I (-1)) ;; bi_neg c x) = true.
Proof. vm_compute. reflexivity. Qed.
Example negate_6 : same (I (-1)) (x <- (I 1) ;; bi_neg c x) = true.
Proof. vm_compute. reflexivity. Qed.
Example negate_7 : same (I (-2147483647)) (x <- (I 2147483647) ;; bi_neg c x) = true.
Proof. vm_compute. reflexivity. Qed.
Example negate_8 : same (L (-9223372036854775807)) (x <- (L 9223372036854775807) ;; bi_neg c x) = true.
Proof. vm_compute. reflexivity. Qed.
Example negate_9 : same (bi_of_uint64 c 9223372036854775808) (x <- (L (-9223372036854775808)) ;; bi_neg c x) = true.
Proof. vm_compute. reflexivity. Qed.
Example negate_10 : same (bi_of_uint32 c 2147483648) (x <- (I (-2147483648)) ;; bi_neg c x) = true.
Proof. vm_compute. reflexivity. Qed.

(** tests/BigInteger_SubtractTests.cpp:43-215 (binary_minus), four of the twenty long rows. *)
Example sub_0 : same (I (-2147483647)) (two bi_sub (I (-2147483648)) (I (-1))) && same (x <- (I (-2147483647)) ;; bi_neg c x) (two bi_sub (I (-1)) (I (-2147483648))) = true.
Proof. vm_compute. reflexivity. Qed.
Example sub_1 : same (L (-2147483649)) (two bi_sub (I (-2147483648)) (I 1)) && same (x <- (L (-2147483649)) ;; bi_neg c x) (two bi_sub (I 1) (I (-2147483648))) = true.
Proof. vm_compute. reflexivity. Qed.
Example sub_2 : same (L 2147483648) (two bi_sub (I 2147483647) (I (-1))) && same (x <- (L 2147483648) ;; bi_neg c x) (two bi_sub (I (-1)) (I 2147483647)) = true.
Proof. vm_compute. reflexivity. Qed.
Example sub_3 : same (I 2147483646) (two bi_sub (I 2147483647) (I 1)) && same (x <- (I 2147483646) ;; bi_neg c x) (two bi_sub (I 1) (I 2147483647)) = true.
Proof. vm_compute. reflexivity. Qed.
Example sub_4 : same (L (-9223372036854775807)) (two bi_sub (L (-9223372036854775808)) (I (-1))) && same (x <- (L (-9223372036854775807)) ;; bi_neg c x) (two bi_sub (I (-1)) (L (-9223372036854775808))) = true.
Proof. vm_compute. reflexivity. Qed.
Example sub_5 : same (BY [ 255; 255; 255; 255; 255; 255; 255; 127; 255 ]) (two bi_sub (L (-9223372036854775808)) (I 1)) && same (x <- (BY [ 255; 255; 255; 255; 255; 255; 255; 127; 255 ]) ;; bi_neg c x) (two bi_sub (I 1) (L (-9223372036854775808))) = true.
Proof. vm_compute. reflexivity. Qed.
Example sub_6 : same (bi_of_uint64 c 9223372036854775808) (two bi_sub (L 9223372036854775807) (I (-1))) && same (x <- (bi_of_uint64 c 9223372036854775808) ;; bi_neg c x) (two bi_sub (I (-1)) (L 9223372036854775807)) = true.
Proof. vm_compute. reflexivity. Qed.
Example sub_7 : same (L 9223372036854775806) (two bi_sub (L 9223372036854775807) (I 1)) && same (x <- (L 9223372036854775806) ;; bi_neg c x) (two bi_sub (I 1) (L 9223372036854775807)) = true.
Proof. vm_compute. reflexivity. Qed.
Example sub_8 : same (P "123123123123123123123122888888888888888888888888888888888888888888888888888888888888888888888889") (two bi_sub (P "123123123123123123123123123123123123123123123123123123123123123123123123123123123123123123123123") (P "234234234234234234234234234234234234234234234234234234234234234234234234")) && same (x <- (P "123123123123123123123122888888888888888888888888888888888888888888888888888888888888888888888889") ;; bi_neg c x) (two bi_sub (P "234234234234234234234234234234234234234234234234234234234234234234234234") (P "123123123123123123123123123123123123123123123123123123123123123123123123123123123123123123123123")) = true.
Proof. vm_compute. reflexivity. Qed.
Example sub_9 : same (P "123123123123123123123123357357357357357357357357357357357357357357357357357357357357357357357357") (two bi_sub (P "123123123123123123123123123123123123123123123123123123123123123123123123123123123123123123123123") (x <- (P "234234234234234234234234234234234234234234234234234234234234234234234234") ;; bi_neg c x)) && same (x <- (P "123123123123123123123123357357357357357357357357357357357357357357357357357357357357357357357357") ;; bi_neg c x) (two bi_sub (x <- (P "234234234234234234234234234234234234234234234234234234234234234234234234") ;; bi_neg c x) (P "123123123123123123123123123123123123123123123123123123123123123123123123123123123123123123123123")) = true.
Proof. vm_compute. reflexivity. Qed.
Example sub_10 : same (P "-123123123123123123123123357357357357357357357357357357357357357357357357357357357357357357357357") (two bi_sub (x <- (P "123123123123123123123123123123123123123123123123123123123123123123123123123123123123123123123123") ;; bi_neg c x) (P "234234234234234234234234234234234234234234234234234234234234234234234234")) && same (x <- (P "-123123123123123123123123357357357357357357357357357357357357357357357357357357357357357357357357") ;; bi_neg c x) (two bi_sub (P "234234234234234234234234234234234234234234234234234234234234234234234234") (x <- (P "123123123123123123123123123123123123123123123123123123123123123123123123123123123123123123123123") ;; bi_neg c x)) = true.
Proof. vm_compute. reflexivity. Qed.
Example sub_11 : same (P "-123123123123123123123122888888888888888888888888888888888888888888888888888888888888888888888889") (two bi_sub (x <- (P "123123123123123123123123123123123123123123123123123123123123123123123123123123123123123123123123") ;; bi_neg c x) (x <- (P "234234234234234234234234234234234234234234234234234234234234234234234234") ;; bi_neg c x)) && same (x <- (P "-123123123123123123123122888888888888888888888888888888888888888888888888888888888888888888888889") ;; bi_neg c x) (two bi_sub (x <- (P "234234234234234234234234234234234234234234234234234234234234234234234234") ;; bi_neg c x) (x <- (P "123123123123123123123123123123123123123123123123123123123123123123123123123123123123123123123123") ;; bi_neg c x)) = true.
Proof. vm_compute. reflexivity. Qed.
Example sub_12 : same (P "123123123123123123123123123123123123123123123123123123123123123123123123123123123123123123123000") (two bi_sub (P "123123123123123123123123123123123123123123123123123123123123123123123123123123123123123123123123") (I 123)) && same (x <- (P "123123123123123123123123123123123123123123123123123123123123123123123123123123123123123123123000") ;; bi_neg c x) (two bi_sub (I 123) (P "123123123123123123123123123123123123123123123123123123123123123123123123123123123123123123123123")) = true.
Proof. vm_compute. reflexivity. Qed.
Example sub_13 : same (P "123123123123123123123123123123123123123123123123123123123123123123123123123123123123123123123246") (two bi_sub (P "123123123123123123123123123123123123123123123123123123123123123123123123123123123123123123123123") (I (-123))) && same (x <- (P "123123123123123123123123123123123123123123123123123123123123123123123123123123123123123123123246") ;; bi_neg c x) (two bi_sub (I (-123)) (P "123123123123123123123123123123123123123123123123123123123123123123123123123123123123123123123123")) = true.
Proof. vm_compute. reflexivity. Qed.
Example sub_14 : same (P "-123123123123123123123123123123123123123123123123123123123123123123123123123123123123123123123246") (two bi_sub (x <- (P "123123123123123123123123123123123123123123123123123123123123123123123123123123123123123123123123") ;; bi_neg c x) (I 123)) && same (x <- (P "-123123123123123123123123123123123123123123123123123123123123123123123123123123123123123123123246") ;; bi_neg c x) (two bi_sub (I 123) (x <- (P "123123123123123123123123123123123123123123123123123123123123123123123123123123123123123123123123") ;; bi_neg c x)) = true.
Proof. vm_compute. reflexivity. Qed.
Example sub_15 : same (P "-123123123123123123123123123123123123123123123123123123123123123123123123123123123123123123123000") (two bi_sub (x <- (P "123123123123123123123123123123123123123123123123123123123123123123123123123123123123123123123123") ;; bi_neg c x) (I (-123))) && same (x <- (P "-123123123123123123123123123123123123123123123123123123123123123123123123123123123123123123123000") ;; bi_neg c x) (two bi_sub (I (-123)) (x <- (P "123123123123123123123123123123123123123123123123123123123123123123123123123123123123123123123123") ;; bi_neg c x)) = true.
Proof. vm_compute. reflexivity. Qed.
Example sub_16 : same (BY [141; 95; 62; 58; 235; 130; 5; 40; 152; 79; 114; 117; 58; 183; 200; 51; 29; 234; 182; 174; 210; 5; 159; 155; 154; 153; 39; 159; 154; 126; 33; 243; 187; 224; 203; 119; 80; 9; 225; 216; 131; 214; 254; 130; 1; 87; 235; 66; 65; 65; 85; 183; 31; 179; 149; 134; 193; 163; 159; 81; 93; 102; 139; 25; 47; 128; 183; 88; 235; 79; 226; 20; 8; 222; 41; 253; 7; 28; 153; 68; 176; 226; 94; 90; 42; 107; 210; 8; 75; 69; 182; 173; 105; 144; 124; 30; 75; 229; 84; 130; 158; 144; 89; 240; 93; 65; 175; 66; 138; 153; 125; 164; 9; 92; 161; 121; 8; 50; 237; 194; 172; 175; 14; 167; 152; 54; 170; 119; 98; 12; 177; 32; 199; 21; 165; 31; 139; 108; 252; 233; 186; 144; 126; 178; 198; 17; 163; 14; 239; 1; 22; 25; 246; 144; 214; 237; 130; 178; 87; 39; 151; 54; 223; 127; 232; 92; 222; 242; 182; 128; 239; 154; 53; 5; 8; 27; 49; 92; 224; 134; 145; 153; 137; 95; 245; 151; 41; 55; 64; 183; 156; 215; 21; 213; 82; 133; 176; 0; 202; 106; 53; 175; 87; 110; 19; 123; 228; 242; 135; 186; 189; 38; 210; 207; 148; 252; 173; 126; 136; 81; 52; 167; 179; 0; 227; 21; 134; 95; 179; 131; 105; 49; 146; 117; 83; 226; 66; 26; 76; 122; 178; 54; 174; 133; 250; 118; 5; 69; 64; 86; 213; 49; 119; 122; 53; 141; 250; 87; 137; 254; 245; 133; 64; 4; 80; 140; 149; 93; 125; 178; 185; 146; 50; 14; 157; 253; 249; 45; 6; 109; 16; 64; 30; 92; 173; 55; 186; 23; 64; 197; 231; 233; 144; 78; 133; 44; 246; 167; 51; 108; 225; 168; 199; 142; 156; 66; 253; 104; 221; 56; 147; 204; 80; 29; 237; 180; 102; 227; 87; 25; 210; 125; 30; 183; 201; 206; 1; 229; 137; 111; 6; 82; 249; 153; 138; 104; 120; 143; 192; 106; 58; 81; 58; 7; 51; 26; 154; 115; 97; 207; 197; 17; 81; 28; 155; 98; 139; 16; 196; 204; 65; 25; 224; 108; 50; 66; 212; 182; 144; 134; 60; 214; 36; 238; 221; 128; 68; 23; 133; 175; 54; 142; 131; 185; 170; 243; 1; 221; 253; 39; 219; 103; 205; 241; 39; 32; 112; 205; 210; 240; 69; 227; 225; 218; 145; 238; 236; 98; 61; 26; 29; 115; 139; 18; 151; 178; 149; 38; 196; 62; 65; 247; 184; 104; 169; 214; 9; 51; 197; 190; 17; 120; 68; 147; 106; 83; 171; 166; 39; 187; 7; 159; 159; 226; 10; 105; 227; 128; 52; 121; 104; 89; 241; 168; 66; 130; 206; 170; 19; 148; 160; 4; 23; 192; 126; 119; 97; 194; 237; 82; 95; 19; 152; 18; 55; 32; 243; 7; 115; 126; 167; 169; 208; 57; 89; 60; 87; 63; 15; 72; 104; 107; 69; 47; 244; 123; 84; 197; 25; 233; 201; 32; 146; 226; 25; 84; 193; 222; 113; 34; 143; 198; 55; 149; 236; 246; 52; 221; 103; 65; 31; 34; 179; 165; 234; 243; 206; 104; 29; 187; 203; 45; 237; 137; 180; 135; 22; 238; 31; 4; 123; 121; 205; 237; 184; 161; 52; 175; 67; 254; 71; 118; 93; 216; 201; 167; 109; 237; 247; 38; 133; 89; 192; 182; 86; 97; 216; 173; 225; 101; 224; 69; 190; 98; 198; 166; 84; 198; 236; 72; 190; 30; 36; 31; 115; 84; 207; 21; 192; 13; 25; 40; 246; 248; 126; 33; 184; 23; 150; 87; 201; 134; 206; 222; 29; 1; 184; 250; 17; 34; 82; 167; 1; 174; 104; 103; 52; 160; 66; 2; 145; 194; 237; 211; 75; 184; 79; 197; 228; 164; 238; 61; 48; 149; 127; 56; 79; 70; 2; 113; 155; 213; 4; 157; 186; 114; 39; 72; 144; 23; 236; 23; 212; 148; 197; 7; 153; 250; 146; 101; 178; 243; 22; 108; 52; 20; 119; 108; 47; 48; 23; 238; 158; 208; 102; 188; 189; 79; 25; 217; 145; 6; 52; 205; 184; 214; 105; 155; 207; 120; 159; 84; 180; 157; 191; 168; 190; 152; 105; 165; 251; 186; 25; 96; 255; 254; 121; 3; 45; 8; 73; 73; 225; 185; 212; 171; 190; 73; 180; 94; 171; 219; 156; 182; 144; 194; 57; 1; 17; 189; 253; 37; 230; 115; 221; 214; 237; 212; 205; 185; 92; 102; 109; 198; 47; 85; 115; 250; 201; 19; 234; 117; 227; 11; 250; 32; 30; 98; 207; 60; 196; 120; 241; 112; 11; 35; 99; 109; 219; 253; 189; 233; 124; 250; 1; 69; 109; 213; 135; 59; 79; 62; 55; 253; 210; 136; 65; 218; 120; 189; 183; 139; 5; 144; 244; 227; 116; 253; 187; 11; 241; 5; 31; 203; 85; 0; 249; 233; 9; 181; 178; 72; 218; 147; 237; 133; 64; 244; 157; 130; 226; 136; 245; 30; 70; 50; 228; 235; 5; 29; 209; 111; 25; 124; 74; 73; 31; 108; 167; 210; 143; 88; 209; 195; 10; 110; 176; 113; 163; 111; 163; 127; 95; 57; 41; 104; 16; 0; 133; 35; 28; 13; 227; 235; 228; 67; 46; 94; 73; 163; 101; 211; 76; 203; 242; 137; 183; 49; 20; 215; 129; 115; 71; 150; 122; 81; 16; 224; 83; 225; 57; 31; 231; 132; 182; 129; 116; 229; 222; 199; 63; 81; 39; 255; 9; 207; 51; 148; 70; 159; 176; 222; 235; 174; 161; 168; 197; 77; 113; 147; 51; 78; 11; 104; 106; 70; 236; 199; 21; 113; 21; 210; 82; 77; 151; 48; 76; 72; 140; 171; 29; 123; 154; 180; 48; 90; 51; 57; 227; 13; 187; 39; 116; 75; 148; 241; 70; 190; 149; 195; 226; 107; 127; 213; 137; 222; 139; 158; 23; 113; 92; 125; 192; 198; 117; 183; 180; 87; 56; 15; 18; 178; 228; 7; 181; 238; 94; 7; 185; 165; 233; 141]) (two bi_sub (BY [86; 40; 240; 54; 176; 173; 86; 246; 44; 114; 227; 38; 121; 29; 118; 9; 250; 39; 166; 53; 89; 182; 206; 34; 18; 186; 194; 31; 31; 100; 147; 122; 139; 172; 194; 117; 20; 197; 208; 5; 106; 23; 124; 19; 116; 173; 97; 202; 241; 114; 49; 31; 25; 186; 193; 159; 89; 206; 35; 246; 235; 55; 214; 200; 223; 105; 154; 204; 91; 0; 245; 53; 86; 160; 202; 66; 58; 187; 173; 101; 89; 247; 45; 173; 50; 116; 96; 209; 234; 34; 28; 70; 161; 218; 26; 51; 64; 180; 52; 11; 18; 148; 111; 240; 124; 252; 200; 121; 239; 127; 100; 158; 32; 190; 156; 243; 9; 41; 149; 106; 8; 201; 225; 57; 228; 175; 147; 123; 134; 151; 1; 133; 134; 161; 83; 197; 136; 60; 48; 54; 171; 231; 225; 107; 189; 125; 37; 227; 62; 38; 41; 23; 30; 201; 3; 72; 178; 53; 12; 205; 104; 76; 242; 88; 126; 223; 23; 126; 107; 214; 106; 204; 248; 95; 190; 32; 231; 118; 123; 102; 137; 175; 61; 95; 110; 233; 102; 189; 158; 10; 19; 82; 48; 99; 205; 95; 244; 137; 237; 222; 102; 166; 120; 104; 188; 92; 31; 191; 10; 226; 96; 59; 186; 165; 67; 185; 15; 146; 233; 148; 120; 90; 224; 96; 194; 23; 156; 148; 146; 95; 43; 94; 137; 156; 0; 227; 54; 213; 163; 17; 202; 167; 178; 187; 169; 216; 151; 138; 31; 20; 79; 98; 159; 89; 102; 11; 197; 24; 165; 164; 192; 138; 44; 171; 182; 2; 178; 30; 165; 96; 130; 58; 239; 216; 201; 208; 168; 36; 183; 234; 127; 17; 116; 126; 15; 201; 190; 47; 54; 244; 29; 30; 47; 255; 81; 64; 122; 6; 4; 166; 37; 121; 229; 191; 145; 21; 114; 199; 143; 149; 99; 160; 96; 186; 36; 174; 21; 174; 155; 237; 68; 130; 232; 176; 66; 99; 10; 240; 134; 137; 85; 161; 31; 17; 196; 6; 44; 180; 236; 250; 87; 247; 160; 160; 144; 124; 190; 116; 218; 162; 42; 204; 107; 23; 98; 163; 145; 52; 125; 46; 11; 130; 64; 6; 64; 194; 129; 79; 245; 30; 130; 96; 194; 161; 149; 76; 226; 71; 32; 197; 165; 149; 21; 228; 94; 137; 54; 7; 174; 33; 116; 247; 55; 189; 238; 212; 182; 153; 95; 206; 251; 111; 126; 188; 31; 201; 9; 202; 129; 21; 192; 73; 20; 183; 136; 117; 108; 92; 168; 183; 140; 121; 160; 212; 169; 139; 41; 5; 178; 193; 150; 73; 232; 81; 202; 54; 22; 88; 196; 149; 128; 108; 134; 152; 97; 43; 227; 128; 52; 121; 104; 89; 241; 168; 66; 130; 206; 170; 19; 148; 160; 4; 23; 192; 126; 119; 97; 194; 237; 82; 95; 19; 152; 18; 55; 32; 243; 7; 115; 126; 167; 169; 208; 57; 89; 60; 87; 63; 15; 72; 104; 107; 69; 47; 244; 123; 84; 197; 25; 233; 201; 32; 146; 226; 25; 84; 193; 222; 113; 34; 143; 198; 55; 149; 236; 246; 52; 221; 103; 65; 31; 34; 179; 165; 234; 243; 206; 104; 29; 187; 203; 45; 237; 137; 180; 135; 22; 238; 31; 4; 123; 121; 205; 237; 184; 161; 52; 175; 67; 254; 71; 118; 93; 216; 201; 167; 109; 237; 247; 38; 133; 89; 192; 182; 86; 97; 216; 173; 225; 101; 224; 69; 190; 98; 198; 166; 84; 198; 236; 72; 190; 30; 36; 31; 115; 84; 207; 21; 192; 13; 25; 40; 246; 248; 126; 33; 184; 23; 150; 87; 201; 134; 206; 222; 29; 1; 184; 250; 17; 34; 82; 167; 1; 174; 104; 103; 52; 160; 66; 2; 145; 194; 237; 211; 75; 184; 79; 197; 228; 164; 238; 61; 48; 149; 127; 56; 79; 70; 2; 113; 155; 213; 4; 157; 186; 114; 39; 72; 144; 23; 236; 23; 212; 148; 197; 7; 153; 250; 146; 101; 178; 243; 22; 108; 52; 20; 119; 108; 47; 48; 23; 238; 158; 208; 102; 188; 189; 79; 25; 217; 145; 6; 52; 205; 184; 214; 105; 155; 207; 120; 159; 84; 180; 157; 191; 168; 190; 152; 105; 165; 251; 186; 25; 96; 255; 254; 121; 3; 45; 8; 73; 73; 225; 185; 212; 171; 190; 73; 180; 94; 171; 219; 156; 182; 144; 194; 57; 1; 17; 189; 253; 37; 230; 115; 221; 214; 237; 212; 205; 185; 92; 102; 109; 198; 47; 85; 115; 250; 201; 19; 234; 117; 227; 11; 250; 32; 30; 98; 207; 60; 196; 120; 241; 112; 11; 35; 99; 109; 219; 253; 189; 233; 124; 250; 1; 69; 109; 213; 135; 59; 79; 62; 55; 253; 210; 136; 65; 218; 120; 189; 183; 139; 5; 144; 244; 227; 116; 253; 187; 11; 241; 5; 31; 203; 85; 0; 249; 233; 9; 181; 178; 72; 218; 147; 237; 133; 64; 244; 157; 130; 226; 136; 245; 30; 70; 50; 228; 235; 5; 29; 209; 111; 25; 124; 74; 73; 31; 108; 167; 210; 143; 88; 209; 195; 10; 110; 176; 113; 163; 111; 163; 127; 95; 57; 41; 104; 16; 0; 133; 35; 28; 13; 227; 235; 228; 67; 46; 94; 73; 163; 101; 211; 76; 203; 242; 137; 183; 49; 20; 215; 129; 115; 71; 150; 122; 81; 16; 224; 83; 225; 57; 31; 231; 132; 182; 129; 116; 229; 222; 199; 63; 81; 39; 255; 9; 207; 51; 148; 70; 159; 176; 222; 235; 174; 161; 168; 197; 77; 113; 147; 51; 78; 11; 104; 106; 70; 236; 199; 21; 113; 21; 210; 82; 77; 151; 48; 76; 72; 140; 171; 29; 123; 154; 180; 48; 90; 51; 57; 227; 13; 187; 39; 116; 75; 148; 241; 70; 190; 149; 195; 226; 107; 127; 213; 137; 222; 139; 158; 23; 113; 92; 125; 192; 198; 117; 183; 180; 87; 56; 15; 18; 178; 228; 7; 181; 238; 94; 7; 185; 165; 233; 141]) (BY [201; 200; 177; 252; 196; 42; 81; 206; 148; 34; 113; 177; 62; 102; 173; 213; 220; 61; 239; 134; 134; 176; 47; 135; 119; 32; 155; 128; 132; 229; 113; 135; 207; 203; 246; 253; 195; 187; 239; 44; 230; 64; 125; 144; 114; 86; 118; 135; 176; 49; 220; 103; 249; 6; 44; 25; 152; 42; 132; 164; 142; 209; 74; 175; 176; 233; 226; 115; 112; 176; 18; 33; 78; 194; 160; 69; 50; 159; 20; 33; 169; 20; 207; 82; 8; 9; 142; 200; 159; 221; 101; 152; 55; 74; 158; 20; 245; 206; 223; 136; 115; 3; 22; 0; 31; 187; 25; 55; 101; 230; 230; 249; 22; 98; 251; 121; 1; 247; 167; 167; 91; 25; 211; 146; 75; 121; 233; 3; 36; 139; 80; 100; 191; 139; 174; 165; 253; 207; 51; 76; 240; 86; 99; 185; 246; 107; 130; 212; 79; 36; 19; 254; 39; 56; 45; 90; 47; 131; 180; 165; 209; 21; 19; 217; 149; 130; 57; 139; 180; 85; 123; 49; 195; 90; 182; 5; 182; 26; 155; 223; 247; 21; 180; 255; 120; 81; 61; 134; 94; 83; 118; 122; 26; 142; 122; 218; 67; 137; 35; 116; 49; 247; 32; 250; 168; 225; 58; 204; 130; 39; 163; 20; 232; 213; 174; 188; 97; 19; 97; 67; 68; 179; 44; 96; 223; 1; 22; 53; 223; 219; 193; 44; 247; 38; 173; 0; 244; 186; 87; 151; 23; 113; 4; 54; 175; 97; 146; 69; 223; 189; 121; 48; 40; 223; 48; 126; 202; 192; 27; 166; 202; 4; 236; 166; 102; 118; 28; 193; 39; 174; 200; 167; 188; 202; 44; 211; 174; 246; 176; 125; 111; 209; 85; 34; 98; 145; 4; 24; 246; 46; 54; 52; 158; 176; 204; 19; 132; 94; 208; 57; 68; 208; 29; 49; 245; 210; 116; 94; 178; 92; 208; 211; 15; 157; 55; 249; 174; 202; 67; 212; 114; 4; 202; 249; 120; 148; 8; 11; 253; 25; 79; 79; 38; 119; 57; 158; 179; 36; 44; 144; 29; 166; 102; 153; 93; 98; 36; 1; 121; 211; 100; 186; 26; 251; 198; 64; 6; 36; 185; 97; 201; 104; 96; 153; 13; 128; 173; 152; 100; 152; 69; 138; 157; 179; 183; 203; 157; 48; 155; 21; 111; 7; 146; 42; 180; 149; 52; 42; 176; 249; 152; 143; 106; 203; 198; 180; 70; 204; 140; 221; 181; 140; 156; 225; 141; 218; 28; 103; 68; 251; 162; 214; 136; 164; 241; 194; 214; 53; 228; 120; 75; 130; 231; 107; 0; 181; 31; 210; 236; 2; 133; 209; 163; 190; 95; 227; 106; 177; 156; 218; 120; 205; 230; 181; 86; 194])) && same (x <- (BY [141; 95; 62; 58; 235; 130; 5; 40; 152; 79; 114; 117; 58; 183; 200; 51; 29; 234; 182; 174; 210; 5; 159; 155; 154; 153; 39; 159; 154; 126; 33; 243; 187; 224; 203; 119; 80; 9; 225; 216; 131; 214; 254; 130; 1; 87; 235; 66; 65; 65; 85; 183; 31; 179; 149; 134; 193; 163; 159; 81; 93; 102; 139; 25; 47; 128; 183; 88; 235; 79; 226; 20; 8; 222; 41; 253; 7; 28; 153; 68; 176; 226; 94; 90; 42; 107; 210; 8; 75; 69; 182; 173; 105; 144; 124; 30; 75; 229; 84; 130; 158; 144; 89; 240; 93; 65; 175; 66; 138; 153; 125; 164; 9; 92; 161; 121; 8; 50; 237; 194; 172; 175; 14; 167; 152; 54; 170; 119; 98; 12; 177; 32; 199; 21; 165; 31; 139; 108; 252; 233; 186; 144; 126; 178; 198; 17; 163; 14; 239; 1; 22; 25; 246; 144; 214; 237; 130; 178; 87; 39; 151; 54; 223; 127; 232; 92; 222; 242; 182; 128; 239; 154; 53; 5; 8; 27; 49; 92; 224; 134; 145; 153; 137; 95; 245; 151; 41; 55; 64; 183; 156; 215; 21; 213; 82; 133; 176; 0; 202; 106; 53; 175; 87; 110; 19; 123; 228; 242; 135; 186; 189; 38; 210; 207; 148; 252; 173; 126; 136; 81; 52; 167; 179; 0; 227; 21; 134; 95; 179; 131; 105; 49; 146; 117; 83; 226; 66; 26; 76; 122; 178; 54; 174; 133; 250; 118; 5; 69; 64; 86; 213; 49; 119; 122; 53; 141; 250; 87; 137; 254; 245; 133; 64; 4; 80; 140; 149; 93; 125; 178; 185; 146; 50; 14; 157; 253; 249; 45; 6; 109; 16; 64; 30; 92; 173; 55; 186; 23; 64; 197; 231; 233; 144; 78; 133; 44; 246; 167; 51; 108; 225; 168; 199; 142; 156; 66; 253; 104; 221; 56; 147; 204; 80; 29; 237; 180; 102; 227; 87; 25; 210; 125; 30; 183; 201; 206; 1; 229; 137; 111; 6; 82; 249; 153; 138; 104; 120; 143; 192; 106; 58; 81; 58; 7; 51; 26; 154; 115; 97; 207; 197; 17; 81; 28; 155; 98; 139; 16; 196; 204; 65; 25; 224; 108; 50; 66; 212; 182; 144; 134; 60; 214; 36; 238; 221; 128; 68; 23; 133; 175; 54; 142; 131; 185; 170; 243; 1; 221; 253; 39; 219; 103; 205; 241; 39; 32; 112; 205; 210; 240; 69; 227; 225; 218; 145; 238; 236; 98; 61; 26; 29; 115; 139; 18; 151; 178; 149; 38; 196; 62; 65; 247; 184; 104; 169; 214; 9; 51; 197; 190; 17; 120; 68; 147; 106; 83; 171; 166; 39; 187; 7; 159; 159; 226; 10; 105; 227; 128; 52; 121; 104; 89; 241; 168; 66; 130; 206; 170; 19; 148; 160; 4; 23; 192; 126; 119; 97; 194; 237; 82; 95; 19; 152; 18; 55; 32; 243; 7; 115; 126; 167; 169; 208; 57; 89; 60; 87; 63; 15; 72; 104; 107; 69; 47; 244; 123; 84; 197; 25; 233; 201; 32; 146; 226; 25; 84; 193; 222; 113; 34; 143; 198; 55; 149; 236; 246; 52; 221; 103; 65; 31; 34; 179; 165; 234; 243; 206; 104; 29; 187; 203; 45; 237; 137; 180; 135; 22; 238; 31; 4; 123; 121; 205; 237; 184; 161; 52; 175; 67; 254; 71; 118; 93; 216; 201; 167; 109; 237; 247; 38; 133; 89; 192; 182; 86; 97; 216; 173; 225; 101; 224; 69; 190; 98; 198; 166; 84; 198; 236; 72; 190; 30; 36; 31; 115; 84; 207; 21; 192; 13; 25; 40; 246; 248; 126; 33; 184; 23; 150; 87; 201; 134; 206; 222; 29; 1; 184; 250; 17; 34; 82; 167; 1; 174; 104; 103; 52; 160; 66; 2; 145; 194; 237; 211; 75; 184; 79; 197; 228; 164; 238; 61; 48; 149; 127; 56; 79; 70; 2; 113; 155; 213; 4; 157; 186; 114; 39; 72; 144; 23; 236; 23; 212; 148; 197; 7; 153; 250; 146; 101; 178; 243; 22; 108; 52; 20; 119; 108; 47; 48; 23; 238; 158; 208; 102; 188; 189; 79; 25; 217; 145; 6; 52; 205; 184; 214; 105; 155; 207; 120; 159; 84; 180; 157; 191; 168; 190; 152; 105; 165; 251; 186; 25; 96; 255; 254; 121; 3; 45; 8; 73; 73; 225; 185; 212; 171; 190; 73; 180; 94; 171; 219; 156; 182; 144; 194; 57; 1; 17; 189; 253; 37; 230; 115; 221; 214; 237; 212; 205; 185; 92; 102; 109; 198; 47; 85; 115; 250; 201; 19; 234; 117; 227; 11; 250; 32; 30; 98; 207; 60; 196; 120; 241; 112; 11; 35; 99; 109; 219; 253; 189; 233; 124; 250; 1; 69; 109; 213; 135; 59; 79; 62; 55; 253; 210; 136; 65; 218; 120; 189; 183; 139; 5; 144; 244; 227; 116; 253; 187; 11; 241; 5; 31; 203; 85; 0; 249; 233; 9; 181; 178; 72; 218; 147; 237; 133; 64; 244; 157; 130; 226; 136; 245; 30; 70; 50; 228; 235; 5; 29; 209; 111; 25; 124; 74; 73; 31; 108; 167; 210; 143; 88; 209; 195; 10; 110; 176; 113; 163; 111; 163; 127; 95; 57; 41; 104; 16; 0; 133; 35; 28; 13; 227; 235; 228; 67; 46; 94; 73; 163; 101; 211; 76; 203; 242; 137; 183; 49; 20; 215; 129; 115; 71; 150; 122; 81; 16; 224; 83; 225; 57; 31; 231; 132; 182; 129; 116; 229; 222; 199; 63; 81; 39; 255; 9; 207; 51; 148; 70; 159; 176; 222; 235; 174; 161; 168; 197; 77; 113; 147; 51; 78; 11; 104; 106; 70; 236; 199; 21; 113; 21; 210; 82; 77; 151; 48; 76; 72; 140; 171; 29; 123; 154; 180; 48; 90; 51; 57; 227; 13; 187; 39; 116; 75; 148; 241; 70; 190; 149; 195; 226; 107; 127; 213; 137; 222; 139; 158; 23; 113; 92; 125; 192; 198; 117; 183; 180; 87; 56; 15; 18; 178; 228; 7; 181; 238; 94; 7; 185; 165; 233; 141]) ;; bi_neg c x) (two bi_sub (BY [201; 200; 177; 252; 196; 42; 81; 206; 148; 34; 113; 177; 62; 102; 173; 213; 220; 61; 239; 134; 134; 176; 47; 135; 119; 32; 155; 128; 132; 229; 113; 135; 207; 203; 246; 253; 195; 187; 239; 44; 230; 64; 125; 144; 114; 86; 118; 135; 176; 49; 220; 103; 249; 6; 44; 25; 152; 42; 132; 164; 142; 209; 74; 175; 176; 233; 226; 115; 112; 176; 18; 33; 78; 194; 160; 69; 50; 159; 20; 33; 169; 20; 207; 82; 8; 9; 142; 200; 159; 221; 101; 152; 55; 74; 158; 20; 245; 206; 223; 136; 115; 3; 22; 0; 31; 187; 25; 55; 101; 230; 230; 249; 22; 98; 251; 121; 1; 247; 167; 167; 91; 25; 211; 146; 75; 121; 233; 3; 36; 139; 80; 100; 191; 139; 174; 165; 253; 207; 51; 76; 240; 86; 99; 185; 246; 107; 130; 212; 79; 36; 19; 254; 39; 56; 45; 90; 47; 131; 180; 165; 209; 21; 19; 217; 149; 130; 57; 139; 180; 85; 123; 49; 195; 90; 182; 5; 182; 26; 155; 223; 247; 21; 180; 255; 120; 81; 61; 134; 94; 83; 118; 122; 26; 142; 122; 218; 67; 137; 35; 116; 49; 247; 32; 250; 168; 225; 58; 204; 130; 39; 163; 20; 232; 213; 174; 188; 97; 19; 97; 67; 68; 179; 44; 96; 223; 1; 22; 53; 223; 219; 193; 44; 247; 38; 173; 0; 244; 186; 87; 151; 23; 113; 4; 54; 175; 97; 146; 69; 223; 189; 121; 48; 40; 223; 48; 126; 202; 192; 27; 166; 202; 4; 236; 166; 102; 118; 28; 193; 39; 174; 200; 167; 188; 202; 44; 211; 174; 246; 176; 125; 111; 209; 85; 34; 98; 145; 4; 24; 246; 46; 54; 52; 158; 176; 204; 19; 132; 94; 208; 57; 68; 208; 29; 49; 245; 210; 116; 94; 178; 92; 208; 211; 15; 157; 55; 249; 174; 202; 67; 212; 114; 4; 202; 249; 120; 148; 8; 11; 253; 25; 79; 79; 38; 119; 57; 158; 179; 36; 44; 144; 29; 166; 102; 153; 93; 98; 36; 1; 121; 211; 100; 186; 26; 251; 198; 64; 6; 36; 185; 97; 201; 104; 96; 153; 13; 128; 173; 152; 100; 152; 69; 138; 157; 179; 183; 203; 157; 48; 155; 21; 111; 7; 146; 42; 180; 149; 52; 42; 176; 249; 152; 143; 106; 203; 198; 180; 70; 204; 140; 221; 181; 140; 156; 225; 141; 218; 28; 103; 68; 251; 162; 214; 136; 164; 241; 194; 214; 53; 228; 120; 75; 130; 231; 107; 0; 181; 31; 210; 236; 2; 133; 209; 163; 190; 95; 227; 106; 177; 156; 218; 120; 205; 230; 181; 86; 194]) (BY [86; 40; 240; 54; 176; 173; 86; 246; 44; 114; 227; 38; 121; 29; 118; 9; 250; 39; 166; 53; 89; 182; 206; 34; 18; 186; 194; 31; 31; 100; 147; 122; 139; 172; 194; 117; 20; 197; 208; 5; 106; 23; 124; 19; 116; 173; 97; 202; 241; 114; 49; 31; 25; 186; 193; 159; 89; 206; 35; 246; 235; 55; 214; 200; 223; 105; 154; 204; 91; 0; 245; 53; 86; 160; 202; 66; 58; 187; 173; 101; 89; 247; 45; 173; 50; 116; 96; 209; 234; 34; 28; 70; 161; 218; 26; 51; 64; 180; 52; 11; 18; 148; 111; 240; 124; 252; 200; 121; 239; 127; 100; 158; 32; 190; 156; 243; 9; 41; 149; 106; 8; 201; 225; 57; 228; 175; 147; 123; 134; 151; 1; 133; 134; 161; 83; 197; 136; 60; 48; 54; 171; 231; 225; 107; 189; 125; 37; 227; 62; 38; 41; 23; 30; 201; 3; 72; 178; 53; 12; 205; 104; 76; 242; 88; 126; 223; 23; 126; 107; 214; 106; 204; 248; 95; 190; 32; 231; 118; 123; 102; 137; 175; 61; 95; 110; 233; 102; 189; 158; 10; 19; 82; 48; 99; 205; 95; 244; 137; 237; 222; 102; 166; 120; 104; 188; 92; 31; 191; 10; 226; 96; 59; 186; 165; 67; 185; 15; 146; 233; 148; 120; 90; 224; 96; 194; 23; 156; 148; 146; 95; 43; 94; 137; 156; 0; 227; 54; 213; 163; 17; 202; 167; 178; 187; 169; 216; 151; 138; 31; 20; 79; 98; 159; 89; 102; 11; 197; 24; 165; 164; 192; 138; 44; 171; 182; 2; 178; 30; 165; 96; 130; 58; 239; 216; 201; 208; 168; 36; 183; 234; 127; 17; 116; 126; 15; 201; 190; 47; 54; 244; 29; 30; 47; 255; 81; 64; 122; 6; 4; 166; 37; 121; 229; 191; 145; 21; 114; 199; 143; 149; 99; 160; 96; 186; 36; 174; 21; 174; 155; 237; 68; 130; 232; 176; 66; 99; 10; 240; 134; 137; 85; 161; 31; 17; 196; 6; 44; 180; 236; 250; 87; 247; 160; 160; 144; 124; 190; 116; 218; 162; 42; 204; 107; 23; 98; 163; 145; 52; 125; 46; 11; 130; 64; 6; 64; 194; 129; 79; 245; 30; 130; 96; 194; 161; 149; 76; 226; 71; 32; 197; 165; 149; 21; 228; 94; 137; 54; 7; 174; 33; 116; 247; 55; 189; 238; 212; 182; 153; 95; 206; 251; 111; 126; 188; 31; 201; 9; 202; 129; 21; 192; 73; 20; 183; 136; 117; 108; 92; 168; 183; 140; 121; 160; 212; 169; 139; 41; 5; 178; 193; 150; 73; 232; 81; 202; 54; 22; 88; 196; 149; 128; 108; 134; 152; 97; 43; 227; 128; 52; 121; 104; 89; 241; 168; 66; 130; 206; 170; 19; 148; 160; 4; 23; 192; 126; 119; 97; 194; 237; 82; 95; 19; 152; 18; 55; 32; 243; 7; 115; 126; 167; 169; 208; 57; 89; 60; 87; 63; 15; 72; 104; 107; 69; 47; 244; 123; 84; 197; 25; 233; 201; 32; 146; 226; 25; 84; 193; 222; 113; 34; 143; 198; 55; 149; 236; 246; 52; 221; 103; 65; 31; 34; 179; 165; 234; 243; 206; 104; 29; 187; 203; 45; 237; 137; 180; 135; 22; 238; 31; 4; 123; 121; 205; 237; 184; 161; 52; 175; 67; 254; 71; 118; 93; 216; 201; 167; 109; 237; 247; 38; 133; 89; 192; 182; 86; 97; 216; 173; 225; 101; 224; 69; 190; 98; 198; 166; 84; 198; 236; 72; 190; 30; 36; 31; 115; 84; 207; 21; 192; 13; 25; 40; 246; 248; 126; 33; 184; 23; 150; 87; 201; 134; 206; 222; 29; 1; 184; 250; 17; 34; 82; 167; 1; 174; 104; 103; 52; 160; 66; 2; 145; 194; 237; 211; 75; 184; 79; 197; 228; 164; 238; 61; 48; 149; 127; 56; 79; 70; 2; 113; 155; 213; 4; 157; 186; 114; 39; 72; 144; 23; 236; 23; 212; 148; 197; 7; 153; 250; 146; 101; 178; 243; 22; 108; 52; 20; 119; 108; 47; 48; 23; 238; 158; 208; 102; 188; 189; 79; 25; 217; 145; 6; 52; 205; 184; 214; 105; 155; 207; 120; 159; 84; 180; 157; 191; 168; 190; 152; 105; 165; 251; 186; 25; 96; 255; 254; 121; 3; 45; 8; 73; 73; 225; 185; 212; 171; 190; 73; 180; 94; 171; 219; 156; 182; 144; 194; 57; 1; 17; 189; 253; 37; 230; 115; 221; 214; 237; 212; 205; 185; 92; 102; 109; 198; 47; 85; 115; 250; 201; 19; 234; 117; 227; 11; 250; 32; 30; 98; 207; 60; 196; 120; 241; 112; 11; 35; 99; 109; 219; 253; 189; 233; 124; 250; 1; 69; 109; 213; 135; 59; 79; 62; 55; 253; 210; 136; 65; 218; 120; 189; 183; 139; 5; 144; 244; 227; 116; 253; 187; 11; 241; 5; 31; 203; 85; 0; 249; 233; 9; 181; 178; 72; 218; 147; 237; 133; 64; 244; 157; 130; 226; 136; 245; 30; 70; 50; 228; 235; 5; 29; 209; 111; 25; 124; 74; 73; 31; 108; 167; 210; 143; 88; 209; 195; 10; 110; 176; 113; 163; 111; 163; 127; 95; 57; 41; 104; 16; 0; 133; 35; 28; 13; 227; 235; 228; 67; 46; 94; 73; 163; 101; 211; 76; 203; 242; 137; 183; 49; 20; 215; 129; 115; 71; 150; 122; 81; 16; 224; 83; 225; 57; 31; 231; 132; 182; 129; 116; 229; 222; 199; 63; 81; 39; 255; 9; 207; 51; 148; 70; 159; 176; 222; 235; 174; 161; 168; 197; 77; 113; 147; 51; 78; 11; 104; 106; 70; 236; 199; 21; 113; 21; 210; 82; 77; 151; 48; 76; 72; 140; 171; 29; 123; 154; 180; 48; 90; 51; 57; 227; 13; 187; 39; 116; 75; 148; 241; 70; 190; 149; 195; 226; 107; 127; 213; 137; 222; 139; 158; 23; 113; 92; 125; 192; 198; 117; 183; 180; 87; 56; 15; 18; 178; 228; 7; 181; 238; 94; 7; 185; 165; 233; 141])) = true.
Proof. vm_compute. reflexivity. Qed.
Example sub_17 : same (BY [104; 130; 191; 13; 199; 185; 44; 145; 65; 138; 94; 40; 187; 183; 165; 83; 29; 235; 29; 166; 108; 83; 224; 140; 32; 9; 86; 244; 207; 47; 138; 185; 69; 134; 144; 127; 107; 37; 198; 21; 144; 84; 221; 81; 245; 222; 237; 194; 51; 32; 111; 89; 220; 100; 88; 21; 161; 51; 237; 189; 99; 55; 192; 18; 0; 165; 162; 40; 98; 81; 147; 30; 1; 231; 162; 157; 23; 207; 30; 85; 212; 235; 209; 45; 246; 243; 142; 174; 115; 213; 45; 58; 105; 253; 12; 124; 26; 148; 205; 28; 44; 155; 188; 220; 190; 134; 61; 158; 237; 158; 106; 252; 143; 100; 162; 241; 65; 229; 161; 126; 142; 244; 181; 141; 36; 89; 180; 3; 218; 38; 130; 131; 1; 1; 40; 56; 47; 245; 110; 111; 181; 239; 192; 212; 106; 48; 171; 5; 90; 26; 58; 53; 242; 79; 141; 55; 230; 47; 183; 101; 210; 58; 196; 199; 27; 231; 250; 141; 60; 106; 194; 76; 118; 49; 200; 159; 52; 225; 34; 243; 174; 174; 168; 191; 235; 77; 145; 178; 116; 240; 82; 255; 62; 9; 157; 123; 42; 248; 184; 131; 54; 29; 201; 240; 88; 237; 190; 192; 134; 238; 3; 4; 12; 195; 182; 35; 145; 5; 219; 206; 86; 72; 24; 75; 23; 194; 14; 108; 147; 77; 116; 59; 40; 158; 189; 144; 229; 183; 103; 253; 142; 208; 43; 134; 237; 77; 243; 122; 82; 122; 234; 37; 28; 234; 45; 238; 4; 125; 217; 149; 223; 82; 44; 57; 122; 199; 220; 109; 6; 38; 61; 217; 157; 221; 63; 134; 28; 146; 94; 202; 207; 147; 25; 25; 99; 78; 30; 62; 113; 207; 139; 104; 222; 209; 29; 60; 163; 242; 12; 37; 113; 133; 115; 44; 61; 16; 135; 62; 170; 167; 210; 114; 30; 15; 197; 76; 56; 19; 214; 43; 169; 158; 252; 55; 154; 213; 250; 204; 192; 3; 226; 41; 134; 57; 88; 74; 31; 237; 220; 82; 198; 223; 147; 202; 252; 25; 73; 207; 12; 209; 3; 143; 28; 224; 124; 211; 136; 60; 145; 103; 22; 187; 126; 166; 196; 168; 235; 229; 182; 123; 44; 74; 55; 132; 101; 201; 10; 49; 58; 129; 140; 42; 192; 238; 0; 82; 12; 166; 189; 133; 193; 227; 91; 116; 59; 10; 96; 237; 5; 84; 45; 99; 25; 144; 165; 184; 88; 152; 122; 178; 200; 87; 1; 16; 219; 235; 251; 144; 166; 113; 156; 69; 40; 49; 185; 72; 239; 194; 72; 90; 104; 29; 43; 230; 84; 40; 17; 47; 72; 71; 250; 116; 43; 10; 188; 106; 225; 75; 153; 80; 14; 207; 70; 148; 184; 231; 59; 232; 215; 93; 201; 150; 80; 31; 74; 171; 43; 27; 188; 178; 217; 204; 72; 95; 119; 40; 26; 30; 116; 79; 102; 164; 41; 248; 76; 152; 214; 151; 46; 108; 236; 41; 88; 234; 125; 100; 35; 11; 191; 16; 63; 197; 142; 230; 118; 65; 135; 231; 29; 143; 204; 29; 115; 135; 246; 37; 108; 88; 211; 177; 212; 147; 237; 79; 198; 176; 116; 93; 225; 19; 4; 15; 94; 100; 16; 161; 21; 66; 129; 10; 17; 239; 122; 158; 160; 207; 182; 208; 244; 88; 247; 203; 55; 14; 59; 171; 216; 63; 32; 198; 205; 41; 5; 10; 139; 188; 190; 15; 119; 85; 16; 42; 214; 201; 159; 229; 25; 79; 175; 246; 249; 164; 105; 137; 27; 56; 216; 80; 40; 100; 200; 214; 34; 187; 61; 232; 234; 112; 18; 227; 16; 167; 88; 159; 72; 205; 245; 110; 110; 86; 146; 137; 143; 41; 204; 41; 192; 123; 238; 83; 228; 110; 230; 18; 140; 58; 7; 26; 140; 183; 250; 168; 60; 203; 229; 82; 75; 201; 65; 78; 66; 105; 225; 209; 210; 63; 70; 248; 238; 19; 39; 110; 129; 190; 254; 162; 192; 70; 18; 13; 197; 218; 226; 182; 92; 233; 76; 195; 68; 122; 221; 246; 58; 160; 17; 123; 140; 21; 64; 77; 243; 15; 43; 120; 143; 139; 39; 125; 205; 67; 146; 5; 182; 51; 137; 103; 135; 43; 117; 233; 242; 130; 179; 116; 54; 49; 52; 225; 173; 131; 21; 170; 5; 197; 26; 181; 174; 106; 38; 208; 194; 206; 246; 1; 231; 216; 63; 6; 23; 169; 243; 97; 159; 87; 90; 113; 91; 183]) (two bi_sub (BY [198; 217; 4; 222; 16; 231; 19; 145; 51; 164; 49; 225; 215; 187; 74; 123; 65; 118; 208; 50; 202; 68; 14; 87; 37; 153; 10; 0; 126; 155; 50; 20; 61; 175; 88; 248; 231; 35; 116; 233; 144; 45; 44; 63; 57; 207; 196; 31; 46; 81; 164; 63; 133; 143; 60; 130; 203; 173; 185; 119; 221; 19; 18; 152; 113; 29; 163; 40; 98; 81; 147; 30; 1; 231; 162; 157; 23; 207; 30; 85; 212; 235; 209; 45; 246; 243; 142; 174; 115; 213; 45; 58; 105; 253; 12; 124; 26; 148; 205; 28; 44; 155; 188; 220; 190; 134; 61; 158; 237; 158; 106; 252; 143; 100; 162; 241; 65; 229; 161; 126; 142; 244; 181; 141; 36; 89; 180; 3; 218; 38; 130; 131; 1; 1; 40; 56; 47; 245; 110; 111; 181; 239; 192; 212; 106; 48; 171; 5; 90; 26; 58; 53; 242; 79; 141; 55; 230; 47; 183; 101; 210; 58; 196; 199; 27; 231; 250; 141; 60; 106; 194; 76; 118; 49; 200; 159; 52; 225; 34; 243; 174; 174; 168; 191; 235; 77; 145; 178; 116; 240; 82; 255; 62; 9; 157; 123; 42; 248; 184; 131; 54; 29; 201; 240; 88; 237; 190; 192; 134; 238; 3; 4; 12; 195; 182; 35; 145; 5; 219; 206; 86; 72; 24; 75; 23; 194; 14; 108; 147; 77; 116; 59; 40; 158; 189; 144; 229; 183; 103; 253; 142; 208; 43; 134; 237; 77; 243; 122; 82; 122; 234; 37; 28; 234; 45; 238; 4; 125; 217; 149; 223; 82; 44; 57; 122; 199; 220; 109; 6; 38; 61; 217; 157; 221; 63; 134; 28; 146; 94; 202; 207; 147; 25; 25; 99; 78; 30; 62; 113; 207; 139; 104; 222; 209; 29; 60; 163; 242; 12; 37; 113; 133; 115; 44; 61; 16; 135; 62; 170; 167; 210; 114; 30; 15; 197; 76; 56; 19; 214; 43; 169; 158; 252; 55; 154; 213; 250; 204; 192; 3; 226; 41; 134; 57; 88; 74; 31; 237; 220; 82; 198; 223; 147; 202; 252; 25; 73; 207; 12; 209; 3; 143; 28; 224; 124; 211; 136; 60; 145; 103; 22; 187; 126; 166; 196; 168; 235; 229; 182; 123; 44; 74; 55; 132; 101; 201; 10; 49; 58; 129; 140; 42; 192; 238; 0; 82; 12; 166; 189; 133; 193; 227; 91; 116; 59; 10; 96; 237; 5; 84; 45; 99; 25; 144; 165; 184; 88; 152; 122; 178; 200; 87; 1; 16; 219; 235; 251; 144; 166; 113; 156; 69; 40; 49; 185; 72; 239; 194; 72; 90; 104; 29; 43; 230; 84; 40; 17; 47; 72; 71; 250; 116; 43; 10; 188; 106; 225; 75; 153; 80; 14; 207; 70; 148; 184; 231; 59; 232; 215; 93; 201; 150; 80; 31; 74; 171; 43; 27; 188; 178; 217; 204; 72; 95; 119; 40; 26; 30; 116; 79; 102; 164; 41; 248; 76; 152; 214; 151; 46; 108; 236; 41; 88; 234; 125; 100; 35; 11; 191; 16; 63; 197; 142; 230; 118; 65; 135; 231; 29; 143; 204; 29; 115; 135; 246; 37; 108; 88; 211; 177; 212; 147; 237; 79; 198; 176; 116; 93; 225; 19; 4; 15; 94; 100; 16; 161; 21; 66; 129; 10; 17; 239; 122; 158; 160; 207; 182; 208; 244; 88; 247; 203; 55; 14; 59; 171; 216; 63; 32; 198; 205; 41; 5; 10; 139; 188; 190; 15; 119; 85; 16; 42; 214; 201; 159; 229; 25; 79; 175; 246; 249; 164; 105; 137; 27; 56; 216; 80; 40; 100; 200; 214; 34; 187; 61; 232; 234; 112; 18; 227; 16; 167; 88; 159; 72; 205; 245; 110; 110; 86; 146; 137; 143; 41; 204; 41; 192; 123; 238; 83; 228; 110; 230; 18; 140; 58; 7; 26; 140; 183; 250; 168; 60; 203; 229; 82; 75; 201; 65; 78; 66; 105; 225; 209; 210; 63; 70; 248; 238; 19; 39; 110; 129; 190; 254; 162; 192; 70; 18; 13; 197; 218; 226; 182; 92; 233; 76; 195; 68; 122; 221; 246; 58; 160; 17; 123; 140; 21; 64; 77; 243; 15; 43; 120; 143; 139; 39; 125; 205; 67; 146; 5; 182; 51; 137; 103; 135; 43; 117; 233; 242; 130; 179; 116; 54; 49; 52; 225; 173; 131; 21; 170; 5; 197; 26; 181; 174; 106; 38; 208; 194; 206; 246; 1; 231; 216; 63; 6; 23; 169; 243; 97; 159; 87; 90; 113; 91; 183]) (BY [94; 87; 69; 208; 73; 45; 231; 255; 241; 25; 211; 184; 28; 4; 165; 39; 36; 139; 178; 140; 93; 241; 45; 202; 4; 144; 180; 11; 174; 107; 168; 90; 247; 40; 200; 120; 124; 254; 173; 211; 0; 217; 78; 237; 67; 240; 214; 92; 250; 48; 53; 230; 168; 42; 228; 108; 42; 122; 204; 185; 121; 220; 81; 133; 113; 120])) && same (x <- (BY [104; 130; 191; 13; 199; 185; 44; 145; 65; 138; 94; 40; 187; 183; 165; 83; 29; 235; 29; 166; 108; 83; 224; 140; 32; 9; 86; 244; 207; 47; 138; 185; 69; 134; 144; 127; 107; 37; 198; 21; 144; 84; 221; 81; 245; 222; 237; 194; 51; 32; 111; 89; 220; 100; 88; 21; 161; 51; 237; 189; 99; 55; 192; 18; 0; 165; 162; 40; 98; 81; 147; 30; 1; 231; 162; 157; 23; 207; 30; 85; 212; 235; 209; 45; 246; 243; 142; 174; 115; 213; 45; 58; 105; 253; 12; 124; 26; 148; 205; 28; 44; 155; 188; 220; 190; 134; 61; 158; 237; 158; 106; 252; 143; 100; 162; 241; 65; 229; 161; 126; 142; 244; 181; 141; 36; 89; 180; 3; 218; 38; 130; 131; 1; 1; 40; 56; 47; 245; 110; 111; 181; 239; 192; 212; 106; 48; 171; 5; 90; 26; 58; 53; 242; 79; 141; 55; 230; 47; 183; 101; 210; 58; 196; 199; 27; 231; 250; 141; 60; 106; 194; 76; 118; 49; 200; 159; 52; 225; 34; 243; 174; 174; 168; 191; 235; 77; 145; 178; 116; 240; 82; 255; 62; 9; 157; 123; 42; 248; 184; 131; 54; 29; 201; 240; 88; 237; 190; 192; 134; 238; 3; 4; 12; 195; 182; 35; 145; 5; 219; 206; 86; 72; 24; 75; 23; 194; 14; 108; 147; 77; 116; 59; 40; 158; 189; 144; 229; 183; 103; 253; 142; 208; 43; 134; 237; 77; 243; 122; 82; 122; 234; 37; 28; 234; 45; 238; 4; 125; 217; 149; 223; 82; 44; 57; 122; 199; 220; 109; 6; 38; 61; 217; 157; 221; 63; 134; 28; 146; 94; 202; 207; 147; 25; 25; 99; 78; 30; 62; 113; 207; 139; 104; 222; 209; 29; 60; 163; 242; 12; 37; 113; 133; 115; 44; 61; 16; 135; 62; 170; 167; 210; 114; 30; 15; 197; 76; 56; 19; 214; 43; 169; 158; 252; 55; 154; 213; 250; 204; 192; 3; 226; 41; 134; 57; 88; 74; 31; 237; 220; 82; 198; 223; 147; 202; 252; 25; 73; 207; 12; 209; 3; 143; 28; 224; 124; 211; 136; 60; 145; 103; 22; 187; 126; 166; 196; 168; 235; 229; 182; 123; 44; 74; 55; 132; 101; 201; 10; 49; 58; 129; 140; 42; 192; 238; 0; 82; 12; 166; 189; 133; 193; 227; 91; 116; 59; 10; 96; 237; 5; 84; 45; 99; 25; 144; 165; 184; 88; 152; 122; 178; 200; 87; 1; 16; 219; 235; 251; 144; 166; 113; 156; 69; 40; 49; 185; 72; 239; 194; 72; 90; 104; 29; 43; 230; 84; 40; 17; 47; 72; 71; 250; 116; 43; 10; 188; 106; 225; 75; 153; 80; 14; 207; 70; 148; 184; 231; 59; 232; 215; 93; 201; 150; 80; 31; 74; 171; 43; 27; 188; 178; 217; 204; 72; 95; 119; 40; 26; 30; 116; 79; 102; 164; 41; 248; 76; 152; 214; 151; 46; 108; 236; 41; 88; 234; 125; 100; 35; 11; 191; 16; 63; 197; 142; 230; 118; 65; 135; 231; 29; 143; 204; 29; 115; 135; 246; 37; 108; 88; 211; 177; 212; 147; 237; 79; 198; 176; 116; 93; 225; 19; 4; 15; 94; 100; 16; 161; 21; 66; 129; 10; 17; 239; 122; 158; 160; 207; 182; 208; 244; 88; 247; 203; 55; 14; 59; 171; 216; 63; 32; 198; 205; 41; 5; 10; 139; 188; 190; 15; 119; 85; 16; 42; 214; 201; 159; 229; 25; 79; 175; 246; 249; 164; 105; 137; 27; 56; 216; 80; 40; 100; 200; 214; 34; 187; 61; 232; 234; 112; 18; 227; 16; 167; 88; 159; 72; 205; 245; 110; 110; 86; 146; 137; 143; 41; 204; 41; 192; 123; 238; 83; 228; 110; 230; 18; 140; 58; 7; 26; 140; 183; 250; 168; 60; 203; 229; 82; 75; 201; 65; 78; 66; 105; 225; 209; 210; 63; 70; 248; 238; 19; 39; 110; 129; 190; 254; 162; 192; 70; 18; 13; 197; 218; 226; 182; 92; 233; 76; 195; 68; 122; 221; 246; 58; 160; 17; 123; 140; 21; 64; 77; 243; 15; 43; 120; 143; 139; 39; 125; 205; 67; 146; 5; 182; 51; 137; 103; 135; 43; 117; 233; 242; 130; 179; 116; 54; 49; 52; 225; 173; 131; 21; 170; 5; 197; 26; 181; 174; 106; 38; 208; 194; 206; 246; 1; 231; 216; 63; 6; 23; 169; 243; 97; 159; 87; 90; 113; 91; 183]) ;; bi_neg c x) (two bi_sub (BY [94; 87; 69; 208; 73; 45; 231; 255; 241; 25; 211; 184; 28; 4; 165; 39; 36; 139; 178; 140; 93; 241; 45; 202; 4; 144; 180; 11; 174; 107; 168; 90; 247; 40; 200; 120; 124; 254; 173; 211; 0; 217; 78; 237; 67; 240; 214; 92; 250; 48; 53; 230; 168; 42; 228; 108; 42; 122; 204; 185; 121; 220; 81; 133; 113; 120]) (BY [198; 217; 4; 222; 16; 231; 19; 145; 51; 164; 49; 225; 215; 187; 74; 123; 65; 118; 208; 50; 202; 68; 14; 87; 37; 153; 10; 0; 126; 155; 50; 20; 61; 175; 88; 248; 231; 35; 116; 233; 144; 45; 44; 63; 57; 207; 196; 31; 46; 81; 164; 63; 133; 143; 60; 130; 203; 173; 185; 119; 221; 19; 18; 152; 113; 29; 163; 40; 98; 81; 147; 30; 1; 231; 162; 157; 23; 207; 30; 85; 212; 235; 209; 45; 246; 243; 142; 174; 115; 213; 45; 58; 105; 253; 12; 124; 26; 148; 205; 28; 44; 155; 188; 220; 190; 134; 61; 158; 237; 158; 106; 252; 143; 100; 162; 241; 65; 229; 161; 126; 142; 244; 181; 141; 36; 89; 180; 3; 218; 38; 130; 131; 1; 1; 40; 56; 47; 245; 110; 111; 181; 239; 192; 212; 106; 48; 171; 5; 90; 26; 58; 53; 242; 79; 141; 55; 230; 47; 183; 101; 210; 58; 196; 199; 27; 231; 250; 141; 60; 106; 194; 76; 118; 49; 200; 159; 52; 225; 34; 243; 174; 174; 168; 191; 235; 77; 145; 178; 116; 240; 82; 255; 62; 9; 157; 123; 42; 248; 184; 131; 54; 29; 201; 240; 88; 237; 190; 192; 134; 238; 3; 4; 12; 195; 182; 35; 145; 5; 219; 206; 86; 72; 24; 75; 23; 194; 14; 108; 147; 77; 116; 59; 40; 158; 189; 144; 229; 183; 103; 253; 142; 208; 43; 134; 237; 77; 243; 122; 82; 122; 234; 37; 28; 234; 45; 238; 4; 125; 217; 149; 223; 82; 44; 57; 122; 199; 220; 109; 6; 38; 61; 217; 157; 221; 63; 134; 28; 146; 94; 202; 207; 147; 25; 25; 99; 78; 30; 62; 113; 207; 139; 104; 222; 209; 29; 60; 163; 242; 12; 37; 113; 133; 115; 44; 61; 16; 135; 62; 170; 167; 210; 114; 30; 15; 197; 76; 56; 19; 214; 43; 169; 158; 252; 55; 154; 213; 250; 204; 192; 3; 226; 41; 134; 57; 88; 74; 31; 237; 220; 82; 198; 223; 147; 202; 252; 25; 73; 207; 12; 209; 3; 143; 28; 224; 124; 211; 136; 60; 145; 103; 22; 187; 126; 166; 196; 168; 235; 229; 182; 123; 44; 74; 55; 132; 101; 201; 10; 49; 58; 129; 140; 42; 192; 238; 0; 82; 12; 166; 189; 133; 193; 227; 91; 116; 59; 10; 96; 237; 5; 84; 45; 99; 25; 144; 165; 184; 88; 152; 122; 178; 200; 87; 1; 16; 219; 235; 251; 144; 166; 113; 156; 69; 40; 49; 185; 72; 239; 194; 72; 90; 104; 29; 43; 230; 84; 40; 17; 47; 72; 71; 250; 116; 43; 10; 188; 106; 225; 75; 153; 80; 14; 207; 70; 148; 184; 231; 59; 232; 215; 93; 201; 150; 80; 31; 74; 171; 43; 27; 188; 178; 217; 204; 72; 95; 119; 40; 26; 30; 116; 79; 102; 164; 41; 248; 76; 152; 214; 151; 46; 108; 236; 41; 88; 234; 125; 100; 35; 11; 191; 16; 63; 197; 142; 230; 118; 65; 135; 231; 29; 143; 204; 29; 115; 135; 246; 37; 108; 88; 211; 177; 212; 147; 237; 79; 198; 176; 116; 93; 225; 19; 4; 15; 94; 100; 16; 161; 21; 66; 129; 10; 17; 239; 122; 158; 160; 207; 182; 208; 244; 88; 247; 203; 55; 14; 59; 171; 216; 63; 32; 198; 205; 41; 5; 10; 139; 188; 190; 15; 119; 85; 16; 42; 214; 201; 159; 229; 25; 79; 175; 246; 249; 164; 105; 137; 27; 56; 216; 80; 40; 100; 200; 214; 34; 187; 61; 232; 234; 112; 18; 227; 16; 167; 88; 159; 72; 205; 245; 110; 110; 86; 146; 137; 143; 41; 204; 41; 192; 123; 238; 83; 228; 110; 230; 18; 140; 58; 7; 26; 140; 183; 250; 168; 60; 203; 229; 82; 75; 201; 65; 78; 66; 105; 225; 209; 210; 63; 70; 248; 238; 19; 39; 110; 129; 190; 254; 162; 192; 70; 18; 13; 197; 218; 226; 182; 92; 233; 76; 195; 68; 122; 221; 246; 58; 160; 17; 123; 140; 21; 64; 77; 243; 15; 43; 120; 143; 139; 39; 125; 205; 67; 146; 5; 182; 51; 137; 103; 135; 43; 117; 233; 242; 130; 179; 116; 54; 49; 52; 225; 173; 131; 21; 170; 5; 197; 26; 181; 174; 106; 38; 208; 194; 206; 246; 1; 231; 216; 63; 6; 23; 169; 243; 97; 159; 87; 90; 113; 91; 183])) = true.
Proof. vm_compute. reflexivity. Qed.
Example sub_18 : same (BY [86; 219; 99; 192; 49; 36; 223; 106; 185; 208; 239; 215; 76; 196; 165; 48; 160; 140; 206; 199; 70; 220; 95; 114; 62; 118; 16; 131; 237; 68; 208; 86; 17; 71; 180; 61; 57; 33; 1; 143; 11; 199; 166; 74; 135; 50; 251; 196; 207; 190; 16; 34; 227; 225; 187; 200; 156; 18; 217; 199; 42; 215; 21; 119; 37; 213; 11; 33; 57; 50; 180; 134; 102; 133; 10; 179; 242; 184; 157; 9; 73; 88; 89; 10; 173; 228; 246; 100; 91; 9; 128; 89; 193; 42; 91; 52; 177; 47; 36; 178; 38; 217; 138; 156; 10; 137; 188; 94; 214; 8; 214; 227; 117; 207; 126; 210; 125; 11; 201; 65; 222; 166; 198; 47; 177; 90; 197; 59; 42; 214; 2; 194; 147; 234; 227; 112; 205; 188; 0; 36; 40; 152; 142; 83; 51; 156; 228; 241; 172; 136; 183; 166; 101; 227; 211; 127; 18; 90; 235; 175; 195; 128; 51; 255; 5; 19; 79; 138; 236; 13; 5; 192; 11; 165; 24; 69; 24; 115; 252; 21; 118; 211; 143; 161; 31; 92; 93; 175; 23; 99; 93; 114; 209; 80; 96; 167; 100; 142; 77; 31]) (two bi_sub (BY [244; 59; 44; 170; 37; 221; 223; 139; 132; 163; 64; 134; 19; 185; 87; 16; 126; 53; 194; 177; 204; 67; 92; 78; 2; 50; 244; 90; 36; 135; 200; 124; 203; 47; 226; 32; 205; 133; 15; 8]) (BY [158; 96; 200; 233; 243; 184; 0; 33; 203; 210; 80; 174; 198; 244; 177; 223; 221; 168; 243; 233; 133; 103; 252; 219; 195; 187; 227; 215; 54; 66; 248; 37; 186; 232; 45; 227; 147; 100; 14; 121; 244; 56; 89; 181; 120; 205; 4; 59; 48; 65; 239; 221; 28; 30; 68; 55; 99; 237; 38; 56; 213; 40; 234; 136; 218; 42; 244; 222; 198; 205; 75; 121; 153; 122; 245; 76; 13; 71; 98; 246; 182; 167; 166; 245; 82; 27; 9; 155; 164; 246; 127; 166; 62; 213; 164; 203; 78; 208; 219; 77; 217; 38; 117; 99; 245; 118; 67; 161; 41; 247; 41; 28; 138; 48; 129; 45; 130; 244; 54; 190; 33; 89; 57; 208; 78; 165; 58; 196; 213; 41; 253; 61; 108; 21; 28; 143; 50; 67; 255; 219; 215; 103; 113; 172; 204; 99; 27; 14; 83; 119; 72; 89; 154; 28; 44; 128; 237; 165; 20; 80; 60; 127; 204; 0; 250; 236; 176; 117; 19; 242; 250; 63; 244; 90; 231; 186; 231; 140; 3; 234; 137; 44; 112; 94; 224; 163; 162; 80; 232; 156; 162; 141; 46; 175; 159; 88; 155; 113; 178; 224])) && same (x <- (BY [86; 219; 99; 192; 49; 36; 223; 106; 185; 208; 239; 215; 76; 196; 165; 48; 160; 140; 206; 199; 70; 220; 95; 114; 62; 118; 16; 131; 237; 68; 208; 86; 17; 71; 180; 61; 57; 33; 1; 143; 11; 199; 166; 74; 135; 50; 251; 196; 207; 190; 16; 34; 227; 225; 187; 200; 156; 18; 217; 199; 42; 215; 21; 119; 37; 213; 11; 33; 57; 50; 180; 134; 102; 133; 10; 179; 242; 184; 157; 9; 73; 88; 89; 10; 173; 228; 246; 100; 91; 9; 128; 89; 193; 42; 91; 52; 177; 47; 36; 178; 38; 217; 138; 156; 10; 137; 188; 94; 214; 8; 214; 227; 117; 207; 126; 210; 125; 11; 201; 65; 222; 166; 198; 47; 177; 90; 197; 59; 42; 214; 2; 194; 147; 234; 227; 112; 205; 188; 0; 36; 40; 152; 142; 83; 51; 156; 228; 241; 172; 136; 183; 166; 101; 227; 211; 127; 18; 90; 235; 175; 195; 128; 51; 255; 5; 19; 79; 138; 236; 13; 5; 192; 11; 165; 24; 69; 24; 115; 252; 21; 118; 211; 143; 161; 31; 92; 93; 175; 23; 99; 93; 114; 209; 80; 96; 167; 100; 142; 77; 31]) ;; bi_neg c x) (two bi_sub (BY [158; 96; 200; 233; 243; 184; 0; 33; 203; 210; 80; 174; 198; 244; 177; 223; 221; 168; 243; 233; 133; 103; 252; 219; 195; 187; 227; 215; 54; 66; 248; 37; 186; 232; 45; 227; 147; 100; 14; 121; 244; 56; 89; 181; 120; 205; 4; 59; 48; 65; 239; 221; 28; 30; 68; 55; 99; 237; 38; 56; 213; 40; 234; 136; 218; 42; 244; 222; 198; 205; 75; 121; 153; 122; 245; 76; 13; 71; 98; 246; 182; 167; 166; 245; 82; 27; 9; 155; 164; 246; 127; 166; 62; 213; 164; 203; 78; 208; 219; 77; 217; 38; 117; 99; 245; 118; 67; 161; 41; 247; 41; 28; 138; 48; 129; 45; 130; 244; 54; 190; 33; 89; 57; 208; 78; 165; 58; 196; 213; 41; 253; 61; 108; 21; 28; 143; 50; 67; 255; 219; 215; 103; 113; 172; 204; 99; 27; 14; 83; 119; 72; 89; 154; 28; 44; 128; 237; 165; 20; 80; 60; 127; 204; 0; 250; 236; 176; 117; 19; 242; 250; 63; 244; 90; 231; 186; 231; 140; 3; 234; 137; 44; 112; 94; 224; 163; 162; 80; 232; 156; 162; 141; 46; 175; 159; 88; 155; 113; 178; 224]) (BY [244; 59; 44; 170; 37; 221; 223; 139; 132; 163; 64; 134; 19; 185; 87; 16; 126; 53; 194; 177; 204; 67; 92; 78; 2; 50; 244; 90; 36; 135; 200; 124; 203; 47; 226; 32; 205; 133; 15; 8])) = true.
Proof. vm_compute. reflexivity. Qed.
Example sub_19 : same (BY [73; 123; 74; 188; 35; 177; 195; 47; 134; 26; 28; 187; 136; 120; 106; 206; 94; 155; 162; 203; 109; 32; 149; 237; 90; 48; 116; 164; 88; 206; 219; 205; 171; 193; 72; 167; 87; 174; 46; 161; 204; 37; 11; 8; 136; 130; 138; 253; 88; 180; 115; 60; 24; 210; 80; 40; 228; 91; 96; 243; 61; 30; 217; 182; 61; 78; 17; 200; 49; 195; 119; 176; 108; 2; 255; 72; 21; 140; 101; 216; 164; 118; 74; 163; 90; 159; 180; 215; 112; 33; 193; 251; 78; 57; 99; 173; 77; 84; 200; 58; 114; 193; 205; 150; 61; 196; 207; 21; 211; 7; 18; 89; 245; 135; 79; 197; 210; 51; 92; 159; 153; 55; 87; 14; 1; 123; 97; 52; 159; 82; 251; 192; 195; 42; 103; 226; 170; 178; 101; 151; 207; 159; 4; 104; 16; 104; 5; 197; 247; 65; 89; 0; 54; 67; 237; 188; 102; 209; 25; 125; 122; 252; 40; 219; 203; 65; 17; 23; 164; 122; 175; 62; 109; 179; 238; 41; 29; 182; 175; 253; 105; 36; 210; 102; 237; 45; 150; 240; 236; 151; 130; 129; 32; 235; 204; 183; 62; 77; 199; 5; 190; 246; 222; 125; 145; 27; 147; 131; 85; 195; 158; 176; 34; 28; 20; 85; 41; 194; 238; 158; 170; 33; 43; 13; 248; 46; 29; 129; 231; 54; 234; 208; 239; 169; 63; 114; 69; 84; 212; 210; 153; 19; 154; 40; 248; 210; 94; 3; 214; 119; 141; 124; 94; 40; 90; 156; 202; 209; 133; 98; 253; 18; 155; 30; 216; 206; 193; 120; 221]) (two bi_sub (BY [165; 251; 97; 124; 9; 100; 64; 52; 114; 152; 96; 161; 41; 198; 16; 15; 109; 31; 86; 73; 95; 140; 118; 79; 108; 17; 69; 186; 143; 30; 118; 218; 35; 55; 227; 48; 14; 225; 215; 63; 98; 27; 118; 4; 66; 236; 4; 232; 143; 73; 45; 81; 92; 150; 83; 25; 132; 18; 16; 248; 31; 134; 165; 83; 33; 134; 126; 242; 227; 223; 0; 140; 72; 23; 230; 68; 22; 113; 13; 128; 12; 92; 42; 70; 241; 36; 125; 140; 228; 202; 171; 252; 209; 222; 31; 220; 118; 34; 226; 187; 110; 18; 5; 176; 72; 161; 9; 69; 176; 14; 2; 19; 4; 143; 235; 194; 91; 94; 97; 252; 8; 241; 13; 24; 51; 4; 186; 105; 247; 10; 206; 243; 142; 81; 18; 250; 87; 121; 253; 80; 27; 56; 220; 213; 200; 152; 247; 65]) (BY [92; 128; 23; 192; 229; 178; 124; 4; 236; 125; 68; 230; 160; 77; 166; 64; 14; 132; 179; 125; 241; 107; 225; 97; 17; 225; 208; 21; 55; 80; 154; 12; 120; 117; 154; 137; 182; 50; 169; 158; 149; 245; 106; 252; 185; 105; 122; 234; 54; 149; 185; 20; 68; 196; 2; 241; 159; 182; 175; 4; 226; 103; 204; 156; 227; 55; 109; 42; 178; 28; 137; 219; 219; 20; 231; 251; 0; 229; 167; 167; 103; 229; 223; 162; 150; 133; 200; 180; 115; 169; 234; 0; 131; 165; 188; 46; 41; 206; 25; 129; 252; 80; 55; 25; 11; 221; 57; 47; 221; 6; 240; 185; 14; 7; 156; 253; 136; 42; 5; 93; 111; 185; 182; 9; 50; 137; 88; 53; 88; 184; 210; 50; 203; 38; 171; 23; 173; 198; 151; 185; 75; 152; 215; 109; 184; 48; 242; 124; 8; 190; 166; 255; 201; 188; 18; 67; 153; 46; 230; 130; 133; 3; 215; 36; 52; 190; 238; 232; 91; 133; 80; 193; 146; 76; 17; 214; 226; 73; 80; 2; 150; 219; 45; 153; 18; 210; 105; 15; 19; 104; 125; 126; 223; 20; 51; 72; 193; 178; 56; 250; 65; 9; 33; 130; 110; 228; 108; 124; 170; 60; 97; 79; 221; 227; 235; 170; 214; 61; 17; 97; 85; 222; 212; 242; 7; 209; 226; 126; 24; 201; 21; 47; 16; 86; 192; 141; 186; 171; 43; 45; 102; 236; 101; 215; 7; 45; 161; 252; 41; 136; 114; 131; 161; 215; 165; 99; 53; 46; 122; 157; 2; 237; 100; 225; 39; 49; 62; 135; 34])) && same (x <- (BY [73; 123; 74; 188; 35; 177; 195; 47; 134; 26; 28; 187; 136; 120; 106; 206; 94; 155; 162; 203; 109; 32; 149; 237; 90; 48; 116; 164; 88; 206; 219; 205; 171; 193; 72; 167; 87; 174; 46; 161; 204; 37; 11; 8; 136; 130; 138; 253; 88; 180; 115; 60; 24; 210; 80; 40; 228; 91; 96; 243; 61; 30; 217; 182; 61; 78; 17; 200; 49; 195; 119; 176; 108; 2; 255; 72; 21; 140; 101; 216; 164; 118; 74; 163; 90; 159; 180; 215; 112; 33; 193; 251; 78; 57; 99; 173; 77; 84; 200; 58; 114; 193; 205; 150; 61; 196; 207; 21; 211; 7; 18; 89; 245; 135; 79; 197; 210; 51; 92; 159; 153; 55; 87; 14; 1; 123; 97; 52; 159; 82; 251; 192; 195; 42; 103; 226; 170; 178; 101; 151; 207; 159; 4; 104; 16; 104; 5; 197; 247; 65; 89; 0; 54; 67; 237; 188; 102; 209; 25; 125; 122; 252; 40; 219; 203; 65; 17; 23; 164; 122; 175; 62; 109; 179; 238; 41; 29; 182; 175; 253; 105; 36; 210; 102; 237; 45; 150; 240; 236; 151; 130; 129; 32; 235; 204; 183; 62; 77; 199; 5; 190; 246; 222; 125; 145; 27; 147; 131; 85; 195; 158; 176; 34; 28; 20; 85; 41; 194; 238; 158; 170; 33; 43; 13; 248; 46; 29; 129; 231; 54; 234; 208; 239; 169; 63; 114; 69; 84; 212; 210; 153; 19; 154; 40; 248; 210; 94; 3; 214; 119; 141; 124; 94; 40; 90; 156; 202; 209; 133; 98; 253; 18; 155; 30; 216; 206; 193; 120; 221]) ;; bi_neg c x) (two bi_sub (BY [92; 128; 23; 192; 229; 178; 124; 4; 236; 125; 68; 230; 160; 77; 166; 64; 14; 132; 179; 125; 241; 107; 225; 97; 17; 225; 208; 21; 55; 80; 154; 12; 120; 117; 154; 137; 182; 50; 169; 158; 149; 245; 106; 252; 185; 105; 122; 234; 54; 149; 185; 20; 68; 196; 2; 241; 159; 182; 175; 4; 226; 103; 204; 156; 227; 55; 109; 42; 178; 28; 137; 219; 219; 20; 231; 251; 0; 229; 167; 167; 103; 229; 223; 162; 150; 133; 200; 180; 115; 169; 234; 0; 131; 165; 188; 46; 41; 206; 25; 129; 252; 80; 55; 25; 11; 221; 57; 47; 221; 6; 240; 185; 14; 7; 156; 253; 136; 42; 5; 93; 111; 185; 182; 9; 50; 137; 88; 53; 88; 184; 210; 50; 203; 38; 171; 23; 173; 198; 151; 185; 75; 152; 215; 109; 184; 48; 242; 124; 8; 190; 166; 255; 201; 188; 18; 67; 153; 46; 230; 130; 133; 3; 215; 36; 52; 190; 238; 232; 91; 133; 80; 193; 146; 76; 17; 214; 226; 73; 80; 2; 150; 219; 45; 153; 18; 210; 105; 15; 19; 104; 125; 126; 223; 20; 51; 72; 193; 178; 56; 250; 65; 9; 33; 130; 110; 228; 108; 124; 170; 60; 97; 79; 221; 227; 235; 170; 214; 61; 17; 97; 85; 222; 212; 242; 7; 209; 226; 126; 24; 201; 21; 47; 16; 86; 192; 141; 186; 171; 43; 45; 102; 236; 101; 215; 7; 45; 161; 252; 41; 136; 114; 131; 161; 215; 165; 99; 53; 46; 122; 157; 2; 237; 100; 225; 39; 49; 62; 135; 34]) (BY [165; 251; 97; 124; 9; 100; 64; 52; 114; 152; 96; 161; 41; 198; 16; 15; 109; 31; 86; 73; 95; 140; 118; 79; 108; 17; 69; 186; 143; 30; 118; 218; 35; 55; 227; 48; 14; 225; 215; 63; 98; 27; 118; 4; 66; 236; 4; 232; 143; 73; 45; 81; 92; 150; 83; 25; 132; 18; 16; 248; 31; 134; 165; 83; 33; 134; 126; 242; 227; 223; 0; 140; 72; 23; 230; 68; 22; 113; 13; 128; 12; 92; 42; 70; 241; 36; 125; 140; 228; 202; 171; 252; 209; 222; 31; 220; 118; 34; 226; 187; 110; 18; 5; 176; 72; 161; 9; 69; 176; 14; 2; 19; 4; 143; 235; 194; 91; 94; 97; 252; 8; 241; 13; 24; 51; 4; 186; 105; 247; 10; 206; 243; 142; 81; 18; 250; 87; 121; 253; 80; 27; 56; 220; 213; 200; 152; 247; 65])) = true.
Proof. vm_compute. reflexivity. Qed.

(** bindings/python/test_python_bindings.py.  [N v] is BigInteger(v) for a Python int [v] and
    [Q v o] says that [o] equals the Python int [v]. *)
Definition N (v : Z) : outcome bigint := py_init_int c (v =? 0) v.
Definition Q (v : Z) (o : outcome bigint) : bool := run o (fun b => run (py_eq_int c (v =? 0) b v) (fun r => r)).
Definition QI (v : Z) (o : outcome Z) : bool := run o (Z.eqb v).
Definition lift (f : cfg -> bool -> bigint -> Z -> outcome bigint) (a : outcome bigint) (v : Z) : outcome bigint :=
  x <- a ;; f c (v =? 0) x v.
Definition liftr (f : cfg -> bool -> bigint -> Z -> outcome Z) (v : Z) (a : outcome bigint) : outcome Z :=
  x <- a ;; f c (v =? 0) x v.
Definition two_pair (f : cfg -> bigint -> bigint -> outcome (bigint * bigint)) (a b : outcome bigint) :=
  x <- a ;; y <- b ;; f c x y.
Definition QB (l : list Z) (o : outcome (list Z)) : bool := run o (vec_eqb l).

(** :6-32. *)
Example py_from_bytes_1 : Q 456 (BY [200; 1]) = true.
Proof. vm_compute. reflexivity. Qed.
Example py_from_bytes_2 : Q (-456) (BY [56; 254]) = true.
Proof. vm_compute. reflexivity. Qed.
Example py_from_int_0 : Q 0 (N 0) = true.
Proof. vm_compute. reflexivity. Qed.
Example py_from_int_1 : Q 4294967295 (N 4294967295) = true.
Proof. vm_compute. reflexivity. Qed.
Example py_from_int_2 : Q (-2147483648) (N (-2147483648)) = true.
Proof. vm_compute. reflexivity. Qed.
Example py_from_int_3 : Q 4294967296 (N 4294967296) = true.
Proof. vm_compute. reflexivity. Qed.
Example py_from_int_4 : Q 18446744073709551615 (N 18446744073709551615) = true.
Proof. vm_compute. reflexivity. Qed.
(** :34-59. *)
Example py_bytes_1 : QB [200; 1] (x <- N 456 ;; py_bytes c x) = true.
Proof. vm_compute. reflexivity. Qed.
Example py_to_array_0 : QB [254; 128; 0] (x <- N 33022 ;; py_to_array c x false false) = true.
Proof. vm_compute. reflexivity. Qed.
Example py_to_array_1 : QB [0; 128; 254] (x <- N 33022 ;; py_to_array c x false true) = true.
Proof. vm_compute. reflexivity. Qed.
Example py_to_array_2 : QB [254; 128] (x <- N 33022 ;; py_to_array c x true false) = true.
Proof. vm_compute. reflexivity. Qed.
Example py_to_array_3 : QB [128; 254] (x <- N 33022 ;; py_to_array c x true true) = true.
Proof. vm_compute. reflexivity. Qed.
Example py_to_array_4 : QB [120] (x <- N 120 ;; py_to_array c x false false) = true.
Proof. vm_compute. reflexivity. Qed.
Example py_to_array_5 : QB [128; 0] (x <- N 128 ;; py_to_array c x false false) = true.
Proof. vm_compute. reflexivity. Qed.
(** :61-151. *)
Example py_add_int : Q 12937123987123987123987123987123987123987123129387129387123987123988 (lift py_add_int (N 1) 12937123987123987123987123987123987123987123129387129387123987123987) = true.
Proof. vm_compute. reflexivity. Qed.
Example py_add_big : Q 12937123987123987123987123987123987123987123129387129387123987123988 (two bi_add (N 1) (N 12937123987123987123987123987123987123987123129387129387123987123987)) = true.
Proof. vm_compute. reflexivity. Qed.
Example py_radd : QI 12937123987123987123987123987123987123987123129387129387123987123988 (liftr py_radd 12937123987123987123987123987123987123987123129387129387123987123987 (N 1)) = true.
Proof. vm_compute. reflexivity. Qed.
Example py_sub_int : Q (-12937123987123987123987123987123987123987123129387129387123987123986) (lift py_sub_int (N 1) 12937123987123987123987123987123987123987123129387129387123987123987) = true.
Proof. vm_compute. reflexivity. Qed.
Example py_sub_big : Q (-12937123987123987123987123987123987123987123129387129387123987123986) (two bi_sub (N 1) (N 12937123987123987123987123987123987123987123129387129387123987123987)) = true.
Proof. vm_compute. reflexivity. Qed.
Example py_rsub : QI 12937123987123987123987123987123987123987123129387129387123987123986 (liftr py_rsub 12937123987123987123987123987123987123987123129387129387123987123987 (N 1)) = true.
Proof. vm_compute. reflexivity. Qed.
Example py_mul_int : Q 25874247974247974247974247974247974247974246258774258774247974247974 (lift py_mul_int (N 2) 12937123987123987123987123987123987123987123129387129387123987123987) = true.
Proof. vm_compute. reflexivity. Qed.
Example py_mul_big : Q 25874247974247974247974247974247974247974246258774258774247974247974 (two bi_mul (N 2) (N 12937123987123987123987123987123987123987123129387129387123987123987)) = true.
Proof. vm_compute. reflexivity. Qed.
Example py_rmul : QI 25874247974247974247974247974247974247974246258774258774247974247974 (liftr py_rmul 12937123987123987123987123987123987123987123129387129387123987123987 (N 2)) = true.
Proof. vm_compute. reflexivity. Qed.
(** :153-176. *)
Example py_mod_1 : Q 112 (two bi_rem (N 860593) (N (-201))) && Q 112 (lift py_mod_int (N 860593) (-201)) && QI 112 (liftr py_rmod 860593 (N (-201))) = true.
Proof. vm_compute. reflexivity. Qed.
Example py_mod_2 : Q 888269 (two bi_rem (N 20195283520469175757) (N 1048576)) = true.
Proof. vm_compute. reflexivity. Qed.
Example py_mod_3 : Q (-3100049211437790421) (two bi_rem (N (-18224909727634776050312394179610579601844989529623334093909233530432892596607)) (N 14954691977398614017)) = true.
Proof. vm_compute. reflexivity. Qed.
(** :178-206. *)
Example py_comparison : run (N 2) (fun b => run (py_lt_int c false b 3) (fun r => r) && run (py_gt_int c false b 1) (fun r => r)) = true.
Proof. vm_compute. reflexivity. Qed.
Example py_divmod_1 : run (two_pair py_divmod (N 9) (N 4)) (fun p => Q 2 (Ret (fst p)) && Q 1 (Ret (snd p))) = true.
Proof. vm_compute. reflexivity. Qed.
Example py_divmod_2 : run (x <- N 9 ;; py_divmod_int c false x 4) (fun p => Q 2 (Ret (fst p)) && Q 1 (Ret (snd p))) = true.
Proof. vm_compute. reflexivity. Qed.
Example py_rdivmod_1 : run (x <- N 4 ;; py_rdivmod_str c false x 9) (fun p => String.eqb "2" (fst p) && String.eqb "1" (snd p)) = true.
Proof. vm_compute. reflexivity. Qed.
(** :208-227. *)
Example py_hash_1 : run (a <- N 5 ;; py_hash c a) (fun h5 => run (a <- N 4 ;; py_hash c a) (fun h4 => negb (h5 =? h4))) = true.
Proof. vm_compute. reflexivity. Qed.
Example py_ne : run (a <- N 5 ;; b <- N 4 ;; bi_ne c a b) (fun r => r) = true.
Proof. vm_compute. reflexivity. Qed.
(** :229-270. *)
Example py_pow_1 : Q 625 (two py_pow (N 5) (N 4)) && Q 625 (x <- N 5 ;; py_pow_int c x 4) && QI 625 (x <- N 4 ;; py_rpow c false x 5) = true.
Proof. vm_compute. reflexivity. Qed.
Example py_pow_2 : Q 1 (x <- N 5 ;; e <- N 4 ;; z <- N 3 ;; bi_mod_pow c x e z) && Q 1 (x <- N 5 ;; z <- N 3 ;; py_mod_pow_int_exp c false x 4 z) && Q 1 (x <- N 5 ;; e <- N 4 ;; py_mod_pow_int_mod c false x e 3) = true.
Proof. vm_compute. reflexivity. Qed.
(** :272-299. *)
Example py_div : Q 2 (two bi_div (N 5) (N 2)) && Q 2 (lift py_truediv_int (N 5) 2) && Q 2 (lift py_floordiv_int (N 5) 2) && QI 2 (liftr py_rtruediv 5 (N 2)) && QI 2 (liftr py_rfloordiv 5 (N 2)) = true.
Proof. vm_compute. reflexivity. Qed.
(** :301-367. *)
Example py_lshift_1 : Q 20 (two py_lshift (N 5) (N 2)) && Q 20 (x <- N 5 ;; py_lshift_int c x 2) && QI 20 (x <- N 2 ;; py_rlshift c false x 5) = true.
Proof. vm_compute. reflexivity. Qed.
Example py_lshift_2 : Q 4 (two py_lshift (N 8) (N (-1))) && QI 4 (x <- N (-1) ;; py_rlshift c false x 8) = true.
Proof. vm_compute. reflexivity. Qed.
Example py_rshift_1 : Q 3 (two py_rshift (N 12) (N 2)) && Q 3 (x <- N 12 ;; py_rshift_int c x 2) && QI 3 (x <- N 2 ;; py_rrshift c false x 12) = true.
Proof. vm_compute. reflexivity. Qed.
Example py_rshift_2 : Q 6 (two py_rshift (N 3) (N (-1))) && QI 6 (x <- N (-1) ;; py_rrshift c false x 3) = true.
Proof. vm_compute. reflexivity. Qed.
(** :369-407. *)
Example py_and_1 : Q 5 (two bi_and (N 13) (N 5)) && Q 5 (lift py_and_int (N 13) 5) && QI 5 (liftr py_rand 13 (N 5)) = true.
Proof. vm_compute. reflexivity. Qed.
Example py_or_1 : Q 11 (two bi_or (N 9) (N 2)) && Q 11 (lift py_or_int (N 9) 2) && QI 11 (liftr py_ror 9 (N 2)) = true.
Proof. vm_compute. reflexivity. Qed.
Example py_xor_1 : Q 1 (two bi_xor (N 9) (N 8)) && Q 1 (lift py_xor_int (N 9) 8) && QI 1 (liftr py_rxor 9 (N 8)) = true.
Proof. vm_compute. reflexivity. Qed.
(** :409-440. *)
Example py_unary : Q (-9) (x <- N 9 ;; bi_neg c x) && Q 9 (x <- N (-9) ;; bi_neg c x) && Q (-9) (x <- N (-9) ;; bi_pos c x) && Q 9 (x <- N (-9) ;; bi_abs c x) && Q (-10) (x <- N 9 ;; bi_not c x) = true.
Proof. vm_compute. reflexivity. Qed.
Example py_constants : same (N 0) (bi_zero c) && same (N 1) (bi_one c) && same (N (-1)) (bi_minus_one c) = true.
Proof. vm_compute. reflexivity. Qed.
Example py_even_1 : run (bi_zero c) (fun b => run (bi_is_even c b) (Bool.eqb true)) = true.
Proof. vm_compute. reflexivity. Qed.
Example py_even_2 : run (bi_one c) (fun b => run (bi_is_even c b) (Bool.eqb false)) = true.
Proof. vm_compute. reflexivity. Qed.
Example py_pow2_1 : run (N 2) (fun b => run (bi_is_power_of_two c b) (Bool.eqb true)) = true.
Proof. vm_compute. reflexivity. Qed.
Example py_pow2_2 : run (N 3) (fun b => run (bi_is_power_of_two c b) (Bool.eqb false)) = true.
Proof. vm_compute. reflexivity. Qed.
