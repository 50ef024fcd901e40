(** One of nine vectors of tests/_test_sha1.py for each language and version. *)
From Coq Require Import NArith List.
From Verif Require Import Base.Word Model.SHA1 Model.SHA1Class.
Import ListNotations.
Open Scope N_scope.

Definition sha_vector (language version ds_type button : N) : N :=
  let o := sha1_new (repeat 0xDEADBEEF 80) version language ds_type 0x9BF123456 false 6 6 in
  match snd (sha_calls (o, []) [SButton button; STimer0 0x666 0x3F; SDate 2067 10 31 1; STime 16 12 20; SPrecompute; SHash]) with
  | [ONone; ONone; ONone; ONone; ONone; OVal v] => v | _ => 0 end.
Example sha_vectors :
  map (fun '(l, v, d, b) => sha_vector l v d b) [
  (L_ENGLISH, G_BLACK, DS_DS, 0xFF2F0000); (L_ENGLISH, G_WHITE, DS_DSI, 0x7C2F0000);
  (L_ENGLISH, G_BLACK2, DS_DS3, 0xFE260000); (L_ENGLISH, G_WHITE2, DS_DS, 0xFF2F0000);
  (L_FRENCH, G_BLACK, DS_DSI, 0xFE260000); (L_FRENCH, G_WHITE, DS_DS3, 0xFF2F0000);
  (L_FRENCH, G_BLACK2, DS_DS, 0x7C2F0000); (L_FRENCH, G_WHITE2, DS_DSI, 0xFE260000);
  (L_GERMAN, G_BLACK, DS_DS3, 0x7C2F0000); (L_GERMAN, G_WHITE, DS_DS, 0xFE260000);
  (L_GERMAN, G_BLACK2, DS_DSI, 0xFF2F0000); (L_GERMAN, G_WHITE2, DS_DS3, 0x7C2F0000);
  (L_ITALIAN, G_BLACK, DS_DS, 0xFF2F0000); (L_ITALIAN, G_WHITE, DS_DSI, 0x7C2F0000);
  (L_ITALIAN, G_BLACK2, DS_DS3, 0xFE260000); (L_ITALIAN, G_WHITE2, DS_DS, 0xFF2F0000);
  (L_JAPANESE, G_BLACK, DS_DSI, 0xFE260000); (L_JAPANESE, G_WHITE, DS_DS3, 0xFF2F0000);
  (L_JAPANESE, G_BLACK2, DS_DS, 0x7C2F0000); (L_JAPANESE, G_WHITE2, DS_DSI, 0xFE260000);
  (L_KOREAN, G_BLACK, DS_DS3, 0x7C2F0000); (L_KOREAN, G_WHITE, DS_DS, 0xFE260000);
  (L_KOREAN, G_BLACK2, DS_DSI, 0xFF2F0000); (L_KOREAN, G_WHITE2, DS_DS3, 0x7C2F0000);
  (L_SPANISH, G_BLACK, DS_DS, 0xFF2F0000); (L_SPANISH, G_WHITE, DS_DSI, 0x7C2F0000);
  (L_SPANISH, G_BLACK2, DS_DS3, 0xFE260000); (L_SPANISH, G_WHITE2, DS_DS, 0xFF2F0000)] = [
  14644003586327074781; 6065857695645131080; 2351634568753011849; 8997968921221641627;
  2450127695464482389; 14656067288772048613; 3482728319237823315; 15327940828616460441;
  4108577700302145644; 12478577452885234582; 3174501681344249918; 10604441977207634922;
  7126331150413790754; 2763698222146525203; 13161624042940596963; 11031263726792470576;
  13073166072067922820; 17120274909984281466; 13406626795859800133; 11895150060597153281;
  17550928766481677964; 8258976521829195541; 10238351584713989001; 17197804922636351458;
  10997353737939279544; 17336076056080720501; 3755166278974137513; 10594827938166313193].
Proof. now vm_compute. Qed.
