(** Vectors of /repo/tests/test_lcrng.py replayed on the model. Tests of the
    transcription, not proofs of the properties. *)
From Coq Require Import NArith List.
From Verif Require Import Base.Word Model.Lcrng32 Model.Lcrng64 Model.LcrngClasses.
Import ListNotations.
Open Scope N_scope.

Fixpoint run {S R} (n : nat) (f : S -> S * R) (s : S) : S * list R :=
  match n with
  | O => (s, [])
  | Datatypes.S n' => let '(s1, r) := f s in let '(s2, rs) := run n' f s1 in (s2, r :: rs)
  end.
Definition trace {S R} n (f : S -> S * R) s := snd (run n f s).
Definition both {A} (x : A) := (x, x).

(** Run [f arg] five times for each argument in turn. *)
Fixpoint run_args {S R A} (f : A -> S -> S * R) (args : list A) (s : S) : list (list R) :=
  match args with
  | [] => []
  | a :: t => let '(s1, rs) := run 5 (f a) s in rs :: run_args f t s1
  end.

Definition c32 p := match consts_of32 8 p with Ok c => c | Raise _ => (0, 0) end.
Definition c64 p := match consts_of64 8 p with Ok c => c | Raise _ => (0, 0) end.
Definition next32 p := let '(a, m) := c32 p in fun s => both (lcrng32_next a m s).
Definition next16 p := let '(a, m) := c32 p in lcrng32_next_u16 a m.
Definition rand32 p := let '(a, m) := c32 p in
  fun mx s => lcrng32_next_rand NumPy (p32_dist p) a m s mx.
Definition jump32 p := let '(a, m) := c32 p in fun adv s => lcrng32_jump a m s adv.

Example next_pokerng : trace 5 (next32 PokeRNGMod) 0x12345678
  = [192004491; 2229936802; 3649731437; 4108329948; 646229279].
Proof. now vm_compute. Qed.
Example next_arng : trace 5 (next32 ARNG) 0x12345678
  = [775181657; 499207454; 4082793175; 2119206356; 103760037].
Proof. now vm_compute. Qed.
Example next_xdrng : trace 5 (next32 XDRNG) 0x12345678
  = [3018423131; 1530878130; 3423460525; 3768712380; 1536596111].
Proof. now vm_compute. Qed.
Example next_pokerngr : trace 5 (next32 PokeRNGRDiv) 0x12345678
  = [1358145273; 3431847134; 687875895; 3556988756; 4100256197].
Proof. now vm_compute. Qed.
Example next_arngr : trace 5 (next32 ARNGR) 0x12345678
  = [2408337579; 2286114914; 3692372301; 373632348; 1342820287].
Proof. now vm_compute. Qed.
Example next_xdrngr : trace 5 (next32 XDRNGR) 0x12345678
  = [3745948697; 399063950; 1307699815; 631669108; 1486693829].
Proof. now vm_compute. Qed.
Example u16_pokerng : trace 5 (next16 PokeRNGMod) 0x12345678 = [2929; 34026; 55690; 62688; 9860].
Proof. now vm_compute. Qed.
Example rand_div : run_args (rand32 PokeRNGDiv) [2; 5; 25; 100; 256] 0x12345678
  = map (map (@Ok N)) [[0; 1; 1; 1; 0]; [2; 2; 0; 2; 1]; [19; 1; 11; 14; 3];
     [70; 74; 25; 72; 68]; [230; 42; 92; 133; 221]].
Proof. now vm_compute. Qed.
Example rand_mod : run_args (rand32 PokeRNGMod) [2; 5; 25; 100; 256] 0x12345678
  = map (map (@Ok N)) [[1; 0; 0; 0; 0]; [2; 2; 3; 3; 3]; [8; 3; 18; 2; 0];
     [94; 1; 8; 41; 61]; [76; 93; 38; 12; 132]].
Proof. now vm_compute. Qed.
Example rand_rdiv : run_args (rand32 PokeRNGRDiv) [2; 5; 25; 100; 256] 0x12345678
  = map (map (@Ok N)) [[0; 1; 0; 1; 1]; [4; 2; 3; 1; 4]; [3; 10; 15; 24; 15];
     [86; 91; 20; 45; 44]; [143; 22; 59; 75; 170]].
Proof. now vm_compute. Qed.
Example jump_pokerng : run_args (jump32 PokeRNGDiv)
    [1; 12; 123; 1234; 12345; 123456; 1234567; 12345678; 123456789; 1234567890] 0x12345678
  = map (map (@Ok N))
    [[192004491; 2229936802; 3649731437; 4108329948; 646229279];
     [3217940315; 2989472983; 1881563539; 3165858191; 2153296075];
     [884291604; 1663541777; 2082535634; 1887281063; 2025557024];
     [3011737306; 1905980836; 3245851390; 262176104; 3955640162];
     [3287845061; 3956680460; 3808542695; 2116860230; 1948537945];
     [3476392857; 4053402329; 2324806169; 2304553305; 490399897];
     [1341700934; 1149868455; 2488120972; 4194967557; 4183583842];
     [2393760392; 3229015614; 3240924420; 4267819098; 2417425856];
     [3312129815; 2870499730; 313239201; 2214150644; 110078075];
     [3277903853; 4242316335; 3551096257; 2703579427; 796073685]].
Proof. now vm_compute. Qed.
Definition next64 p := let '(a, m) := c64 p in fun s => both (lcrng64_next a m s).
Definition rand64 p := let '(a, m) := c64 p in fun mx s => lcrng64_next_rand (p64_dist p) a m s mx.
Definition u32_64 p := let '(a, m) := c64 p in lcrng64_next_u32 a m.
Example next_bwrng : trace 5 (next64 BWRNG) 0x1234567887654321
  = [16002821226169746376; 2040015457476601003; 2028497181719615802; 16094432643137068197; 16420378533051693276].
Proof. now vm_compute. Qed.
Example next_bwrngr : trace 5 (next64 BWRNGR) 0x1234567887654321
  = [2641392895229885446; 6370139599609869703; 9218825391134224756; 13553550761165321565; 11857309827725451154].
Proof. now vm_compute. Qed.
Example u32_bwrngr : trace 5 (u32_64 BWRNGR) 0x1234567887654321
  = [614997207; 1483163703; 2146425049; 3155681947; 2760745079].
Proof. now vm_compute. Qed.
Example rand_bwrng : run_args (rand64 BWRNG) [2; 5; 25; 100; 256] 0x1234567887654321
  = map (map (@Ok N)) [[1; 0; 0; 1; 1]; [1; 1; 1; 0; 3]; [10; 3; 8; 24; 23];
     [67; 16; 63; 83; 84]; [123; 158; 75; 92; 208]].
Proof. now vm_compute. Qed.
