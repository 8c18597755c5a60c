(** C62: the multipliers that are called primes. *)
From Coq Require Import NArith List Bool Ascii String.
From Verif Require Import CSem Bits Stadtx Xxhash Primes.
Import ListNotations.
Local Open Scope N_scope.

(** Certificates for Pocklington's criterion, [Primes.check], of the multipliers and of the
    prime factors in them.  They were computed; nothing depends on how. *)
Definition certificates : list certificate := [
  (1149901, 2, [(3833, 1%nat, 1142489)]);
  (81530280703, 2, [(1149901, 1%nat, 13551881571)]);
  (17048867929148541611, 2, [(81530280703, 1%nat, 14446539654399383201)]);
  (133963, 2, [(2, 1%nat, 66981); (269, 1%nat, 120194)]);
  (98192672093539, 2, [(2503, 1%nat, 62095949471832); (133963, 1%nat, 68042174987379)]);
  (9386433910765580089, 2, [(98192672093539, 1%nat, 6268148715892869556)]);
  (84221, 2, [(4211, 1%nat, 72777)]);
  (137318971661, 2, [(5, 1%nat, 106588120791); (84221, 1%nat, 89100950850)]);
  (306877691488569581, 2, [(137318971661, 1%nat, 83249483175828893)]);
  (15343884574428479051, 2, [(306877691488569581, 1%nat, 4631811699067612514)]);
  (1602451, 2, [(2, 1%nat, 801225); (1187, 1%nat, 695785)]);
  (842889227, 2, [(1602451, 1%nat, 831089720)]);
  (13662985319504319857, 3, [(2, 4%nat, 6831492659752159928); (842889227, 1%nat, 1424429772759025011)]);
  (47206543, 3, [(2, 1%nat, 23603271); (5099, 1%nat, 37953037)]);
  (11242949449147999147, 3, [(3, 5%nat, 587319851852159330); (47206543, 1%nat, 4077412887491527907)]);
  (13469698308701, 2, [(5, 2%nat, 2455370210491); (313, 1%nat, 5994585985662); (619, 1%nat, 3063429674741)]);
  (13862205317416547141, 2, [(13469698308701, 1%nat, 2756888934770519718)]);
  (392410999, 3, [(2, 1%nat, 196205499); (15809, 1%nat, 168059332)]);
  (14653293970879851569, 3, [(2, 4%nat, 7326646985439925784); (392410999, 1%nat, 13895354743053368884)]);
  (157519, 2, [(2917, 1%nat, 54802)]);
  (2463597161, 2, [(157519, 1%nat, 387040150)]);
  (690889, 2, [(2617, 1%nat, 277159)]);
  (56652899, 2, [(690889, 1%nat, 20962436)]);
  (3399173941, 2, [(56652899, 1%nat, 2323880778)]);
  (85427, 2, [(353, 1%nat, 31318)]);
  (1195979, 2, [(85427, 1%nat, 418589)]);
  (2762711491, 2, [(1195979, 1%nat, 1507315631)]);
  (4132018243, 5, [(3, 2%nat, 535082205); (14563, 1%nat, 238815770)]);
  (2263940449, 17, [(2, 5%nat, 1131970224); (11, 1%nat, 1770052366); (179, 1%nat, 646681981)]);
  (61927, 2, [(10321, 1%nat, 31455)]);
  (3391989499, 2, [(61927, 1%nat, 3035026104)]);
  (59011, 2, [(281, 1%nat, 5047)]);
  (3300603253, 2, [(59011, 1%nat, 869780099)]);
  (2654435761, 2, [(31, 2%nat, 673362799); (677, 1%nat, 1495310294)]);
  (2246822519, 2, [(271, 1%nat, 183971938); (1033, 1%nat, 358084234)]);
  (10081759, 2, [(31, 1%nat, 3399108); (809, 1%nat, 6467051)]);
  (3266489917, 2, [(10081759, 1%nat, 1374134899)]);
  (48907, 2, [(13, 1%nat, 12625); (19, 1%nat, 31459)]);
  (47733233, 2, [(48907, 1%nat, 36841616)]);
  (668265263, 2, [(47733233, 1%nat, 573224180)]);
  (132331, 2, [(401, 1%nat, 12764)]);
  (374761393, 2, [(132331, 1%nat, 18274285)]);
  (1193513, 3, [(2, 3%nat, 596756); (193, 1%nat, 17504)]);
  (529919773, 2, [(1193513, 1%nat, 277847378)]);
  (11400714785074694791, 2, [(23, 1%nat, 5766856305135538309); (529919773, 1%nat, 9491566014788838529)]);
  (309667, 2, [(7, 1%nat, 13033); (101, 1%nat, 91524)]);
  (163673, 2, [(499, 1%nat, 92928)]);
  (327347, 2, [(163673, 1%nat, 109116)]);
  (14029467366897019727, 2, [(309667, 1%nat, 2550641719980957653); (327347, 1%nat, 5837166021669295275)]);
  (3025079, 7, [(2, 1%nat, 1512539); (1249, 1%nat, 2624573)]);
  (6050159, 2, [(3025079, 1%nat, 2016720)]);
  (72601909, 2, [(6050159, 1%nat, 39022418)]);
  (40239698234820979, 5, [(3, 1%nat, 23594630822820032); (72601909, 1%nat, 10682813839389733)]);
  (1609587929392839161, 2, [(40239698234820979, 1%nat, 807501317524778824)]);
  (171300821, 2, [(43, 1%nat, 18032243); (1433, 1%nat, 23293265)]);
  (9650029242287828579, 2, [(29, 1%nat, 4722660665942986549); (171300821, 1%nat, 8267255654171720253)]);
  (149624719, 2, [(17, 1%nat, 63816313); (2393, 1%nat, 101117168)]);
  (2870177450012600261, 2, [(13, 1%nat, 2818718999850783914); (149624719, 1%nat, 1708367032352814598)]);
  (220513, 2, [(2297, 1%nat, 62162)]);
  (1323079, 2, [(220513, 1%nat, 1239074)]);
  (887164931901979, 2, [(3, 3%nat, 865805379104596); (1323079, 1%nat, 206011461088868)]);
  (9228289621644385559, 2, [(887164931901979, 1%nat, 3106724060876384085)]);
  (141961, 11, [(2, 3%nat, 70980); (13, 2%nat, 61659)]);
  (17272254549501317, 2, [(7673, 1%nat, 5286441487549487); (141961, 1%nat, 11403558236839081)]);
  (241811563693018439, 2, [(17272254549501317, 1%nat, 10287655490083248)]);
  (10639708802492811317, 2, [(241811563693018439, 1%nat, 5559794347632727711)]);
  (160883, 2, [(2, 1%nat, 80441); (257, 1%nat, 86090)]);
  (49121, 2, [(307, 1%nat, 3637)]);
  (392969, 2, [(49121, 1%nat, 140236)]);
  (9237798674842895029, 2, [(160883, 1%nat, 5384201522262165259); (392969, 1%nat, 4889842200350141499)]);
  (702184459, 2, [(137, 1%nat, 42169403); (541, 1%nat, 456140927)]);
  (13738569650958393067, 2, [(7, 2%nat, 12953717703996960876); (702184459, 1%nat, 7228594426362096148)]);
  (930199, 3, [(2, 1%nat, 465099); (677, 1%nat, 139913)]);
  (15200346511439, 3, [(11, 1%nat, 1129788159242); (930199, 1%nat, 2075605207212)]);
  (11068010709532216339, 2, [(15200346511439, 1%nat, 7165179462179643493)]);
  (1604636053, 2, [(17, 1%nat, 465787989); (9157, 1%nat, 786112961)]);
  (6418544213, 2, [(1604636053, 1%nat, 5562738318)]);
  (12301783250715526861, 2, [(6418544213, 1%nat, 548994605579753559)])].

Lemma certified : forall n l, check [] certificates = Some l -> existsb (N.eqb n) l = true -> is_prime n.
Proof. intros n l C E. apply (check_prime certificates). now rewrite C. Qed.

(** What [check] makes of them is computed once. *)
Definition checked : list N := match check [] certificates with Some l => l | None => [] end.
Definition t1ha_primes : list N := [prime_0; prime_1; prime_2; prime_3; prime_4; prime_5; prime_6].
Definition t1ha_primes32 : list N := [prime32_0; prime32_1; prime32_2; prime32_3; prime32_4; prime32_5; prime32_6].
Definition xxh_primes : list N :=
  [XXH_PRIME32_1; XXH_PRIME32_2; XXH_PRIME32_3; XXH_PRIME32_4; XXH_PRIME32_5;
   XXH_PRIME64_1; XXH_PRIME64_2; XXH_PRIME64_3; XXH_PRIME64_4; XXH_PRIME64_5].
(** the multipliers of tests/stadtx/stadtx_hash.h:65-72 without the two of C52_primes_refuted *)
Definition stadtx_primes : list N :=
  [0x801178846e899d17; 0x93a7d6c8c62e4835; 0x803340f36895c2b5; 0xbea9344eb7565eeb; 0x9999791977e30c13; 0xaab8b6b05abfc6cd].
Definition all_primes : list N := t1ha_primes ++ t1ha_primes32 ++ xxh_primes ++ stadtx_primes.
Lemma all_checked : forallb (fun n => existsb (N.eqb n) checked) all_primes = true.
Proof. vm_compute. reflexivity. Qed.
Lemma all_prime : Forall is_prime all_primes.
Proof.
  apply Forall_forall. intros n I. pose proof all_checked as C. rewrite forallb_forall in C. specialize (C n I). unfold checked in C.
  destruct (check [] certificates) as [l|] eqn:E; [exact (certified n l E C)|discriminate C].
Qed.

(** The "'magic' primes" of src/t1ha_bits.h:1080-1087 and the "32-bit 'magic' primes" of
    src/t1ha0.c:259-266 are prime numbers. *)
Theorem C62_primes : Forall is_prime t1ha_primes /\ Forall is_prime t1ha_primes32.
Proof.
  pose proof all_prime as A. unfold all_primes in A. rewrite !Forall_app in A. split; apply A.
Qed.
Print Assumptions C62_primes.
(** So are the constants of tests/xxhash/xxhash.h:1164-1168 and 1686-1690 and six of the eight
    of tests/stadtx/stadtx_hash.h:65-72. *)
Theorem C62_others : Forall is_prime xxh_primes /\ Forall is_prime stadtx_primes.
Proof.
  pose proof all_prime as A. unfold all_primes in A. rewrite !Forall_app in A. split; apply A.
Qed.
Print Assumptions C62_others.

(** The comments there give the same numbers in binary notation. *)
Fixpoint binary (x : N) (s : string) : N :=
  match s with EmptyString => x | String c s => binary (2 * x + (if Ascii.eqb c "1" then 1 else 0)) s end.
Theorem C62_comments : xxh_primes = map (binary 0)
  ["10011110001101110111100110110001";
   "10000101111010111100101001110111";
   "11000010101100101010111000111101";
   "00100111110101001110101100101111";
   "00010110010101100110011110110001";
   "1001111000110111011110011011000110000101111010111100101010000111";
   "1100001010110010101011100011110100100111110101001110101101001111";
   "0001011001010110011001111011000110011110001101110111100111111001";
   "1000010111101011110010100111011111000010101100101010111001100011";
   "0010011111010100111010110010111100010110010101100110011111000101"]%string.
Proof. vm_compute. reflexivity. Qed.
Print Assumptions C62_comments.

(** Not every odd number is prime: not the next one, nor one of StadtX's multipliers. *)
Example C62_case : is_prime prime32_0 /\ ~ is_prime (prime32_0 + 2) /\ ~ is_prime 0xdd51e5d1c9a5a151.
Proof.
  split; [|split].
  - pose proof (proj2 C62_primes) as F. now inversion F.
  - intros [_ P]. destruct (P 89) as [E|E]; [exists 27680867; reflexivity|discriminate E|discriminate E].
  - intros [_ P]. destruct (P 13) as [E|E]; [exists 1226752341899202901; reflexivity|discriminate E|discriminate E].
Qed.
