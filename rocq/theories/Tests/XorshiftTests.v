(** The vectors of tests/test_xorshift.py, on the model. Sanity checks only. *)
From Coq Require Import NArith ZArith List SpecFloat.
From Verif Require Import Base.Word Model.Float Model.Util Model.Xorshift Model.Xoroshiro.
Import ListNotations.
Open Scope N_scope.

(** [n] results of a method, threading the state. *)
Fixpoint draws {S A} (n : nat) (f : S -> S * A) (st : S) : S * list A :=
  match n with
  | O => (st, [])
  | Datatypes.S k => let '(st, a) := f st in let '(st, l) := draws k f st in (st, a :: l)
  end.
Fixpoint draws_each {S A P} (ps : list P) (f : P -> S -> S * A) (st : S) : S * list (list A) :=
  match ps with
  | [] => (st, [])
  | p :: t => let '(st, l) := draws 5 (f p) st in let '(st, ls) := draws_each t f st in (st, l :: ls)
  end.
Definition X (m : mode) := xs_new [9; 9; 9; 9] 0x12345678 0x87654321 0xDEADBEEF 0xBEEFCAFE.
Definition oks := map (@Ok N).

Example xs_next_vec m : snd (draws 5 (xs_next m) (X m)) = [249089229; 2735340156; 283144756; 3499684588; 418312854].
Proof. destruct m; now vm_compute. Qed.
Example xs_prev_vec m : snd (draws 5 (xs_previous m) (fst (draws 5 (xs_next m) (X m))))
  = [418312854; 3499684588; 283144756; 2735340156; 249089229].
Proof. destruct m; now vm_compute. Qed.

Definition X1 m := draws_each [2; 5; 25; 100; 256] (fun mx st => xs_next_rand m st mx) (X m).
Example xs_rand_vec m : snd (X1 m) = map oks
  [[1; 0; 0; 0; 0]; [1; 1; 0; 2; 2]; [3; 22; 8; 19; 21]; [30; 40; 93; 72; 39]; [82; 60; 116; 44; 6]].
Proof. destruct m; now vm_compute. Qed.
Definition X2 m := draws_each [(0, 2); (2, 5); (10, 25); (50, 100); (240, 256)]%Z
  (fun p st => xs_next_randrange m st (fst p) (snd p)) (fst (X1 m)).
Example xs_randrange_vec m : snd (X2 m) = map oks
  [[1; 1; 1; 0; 1]; [2; 4; 3; 2; 4]; [19; 13; 10; 15; 14]; [94; 91; 99; 91; 91]; [250; 243; 240; 255; 247]].
Proof. destruct m; now vm_compute. Qed.
Definition X3 m := draws_each [(0, 2); (2, 5); (3, 12); (10, 25); (50, 100); (240, 256)]
  (fun p st => xs_next_float_randrange m st (f32_of_N (fst p)) (f32_of_N (snd p))) (fst (X2 m)).
(** The decimal literals of the test, as binary64 significands and exponents. *)
Example xs_float_vec m : snd (X3 m) = 
  [[S754_finite false 6333281196834816 (-52); S754_finite false 8118560723304448 (-52); S754_finite false 6835680969752576 (-54); S754_finite false 6793562104528896 (-52); S754_finite false 5381372294201344 (-52)];
   [S754_finite false 5209132378357760 (-50); S754_finite false 5357745251287040 (-50); S754_finite false 6015742721916928 (-51); S754_finite false 4530581987655680 (-50); S754_finite false 7067825965367296 (-51)];
   [S754_finite false 7958729823617024 (-50); S754_finite false 5715979707351040 (-49); S754_finite false 7731430759071744 (-51); S754_finite false 8895141410504704 (-50); S754_finite false 6527561341337600 (-49)];
   [S754_finite false 6639915152441344 (-49); S754_finite false 5640216844959744 (-48); S754_finite false 5579772562243584 (-48); S754_finite false 7539056086876160 (-49); S754_finite false 5979119267348480 (-49)];
   [S754_finite false 6140283947319296 (-46); S754_finite false 5189119240044544 (-46); S754_finite false 4515055932538880 (-46); S754_finite false 7715310605959168 (-47); S754_finite false 7898566257278976 (-47)];
   [S754_finite false 8923175735787520 (-45); S754_finite false 8945218044821504 (-45); S754_finite false 8972863608455168 (-45); S754_finite false 8879291639005184 (-45); S754_finite false 8621281947680768 (-45)]].
Proof. destruct m; now vm_compute. Qed.
Definition X4 m := draws_each [2; 5; 25; 100; 256] (fun mx st => xs_next_alternate_rand m st mx) (fst (X3 m)).
Example xs_alternate_vec m : snd (X4 m) = map oks
  [[1; 0; 1; 0; 1]; [1; 0; 2; 3; 4]; [13; 0; 0; 20; 2]; [78; 81; 17; 80; 66]; [154; 56; 253; 228; 88]].
Proof. destruct m; now vm_compute. Qed.

Definition R0 := xo_new [7; 7] 0x12345678 xo_seed1_default.
Definition S0 := sm_new [7; 7] 0x12345678.
Example sm_init_vec : map (sm_new [0; 0]) [0x12345678; 0x87654321; 0xCAFEBEEF; 0xDEADBEEF; 0xBEEFCAFE] =
  [[4103302876398381935; 16133041902329894167]; [15779530522407162504; 18036422292597032046];
   [16974760463792686510; 6191428841595969426]; [5395234354446855067; 16021672434157553954];
   [6041607748924030458; 8399375536991227553]].
Proof. now vm_compute. Qed.
Example sm_next_vec : snd (draws 5 sm_next S0) = [416673884; 10456666; 1220117690; 3668624070; 2653509652].
Proof. now vm_compute. Qed.
Example sm_prev_vec : snd (draws 5 sm_previous (fst (draws 5 sm_next S0)))
  = [2653509652; 3668624070; 1220117690; 10456666; 416673884].
Proof. now vm_compute. Qed.
Example xo_next_vec : snd (draws 5 xo_next R0) =
  [9413281288113209555; 5254920089485994697; 13325847552699995764; 18221136201721511112; 15617030143133486355].
Proof. now vm_compute. Qed.
Example sm_rand_vec m :
  snd (draws_each [2; 5; 25; 100; 256] (fun mx st => sm_next_rand m st mx) S0) = map oks
  [[0; 0; 0; 0; 0]; [4; 4; 1; 3; 1]; [15; 12; 24; 5; 20]; [33; 83; 8; 75; 86]; [124; 99; 230; 179; 252]].
Proof. destruct m; now vm_compute. Qed.
Definition xo_nr m mx st := match xo_next_rand 50 m st mx with Ok p => p | Raise _ => ([], 0) end.
Example xo_rand_vec m :
  snd (draws_each [2; 5; 25; 100; 256] (xo_nr m) R0) =
  [[1; 1; 0; 0; 1]; [3; 1; 3; 2; 1]; [20; 5; 22; 18; 15]; [71; 41; 5; 57; 59]; [217; 128; 23; 79; 63]].
Proof. destruct m; now vm_compute. Qed.
