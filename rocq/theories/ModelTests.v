(** ModelTests.v -- the unit tests of the repository, run on the model by
    computation.  GENERATED by tools/gen_model_tests.py, which parses the values
    and byte vectors out of the `#[cfg(test)]` modules of /repo/src.  These are
    tests of the model's fidelity, not proofs of properties. *)
From Verif Require Import Base Utf8 Lib Topic.
From Verif Require V4Connect V4ConnAck V4Publish V4PubAck V4SubAck V4Subscribe V4Mod.
From Verif Require V5Connect V5ConnAck V5Disconnect V5Publish V5PubAck V5PubRec V5PubRel V5PubComp
  V5SubAck V5Subscribe V5UnsubAck V5Unsubscribe V5Mod.

(** what every parsing test does: parse_fixed_header, split_to(frame_length), X::read *)
Definition test_read {A} (r : FixedHeader -> reader A) (s : bytes) : outcome A :=
  h <-? parse_fixed_header s ;;
  n <-? frame_length h ;; f <-? split_to n s ;;
  p <-? r h (fst f) ;;
  Ok (fst p).
(** the same frame through the module's `read` with a large limit *)
Definition whole_read {A} (r : bytes -> N -> outcome A * bytes) (s : bytes) : outcome A :=
  fst (r s 1000).
(** what every encoding test does: write into a fresh buffer and look at it *)
Definition test_write {A} (w : A -> writer N) (a : A) : option bytes :=
  match w a [] with (Ok _, b) => Some b | _ => None end.
(** the first frame of a test vector (some vectors carry extra stream bytes) *)
Definition frame_of (s : bytes) : bytes :=
  match (h <-? parse_fixed_header s ;; n <-? frame_length h ;; split_to n s) with
  | Ok (f, _) => f | _ => [] end.

(** src/v5/connack.rs:481 `sample`/`sample_bytes` *)
Example v5_connack_sample_parsing : test_read V5ConnAck.read [32; 87; 0; 0; 84; 17; 0; 0; 4; 210; 33; 1; 176; 36; 2; 37; 1; 39; 0; 0; 0; 100; 18; 0; 4; 116; 101; 115; 116; 34; 1; 200; 31; 0; 4; 116; 101; 115; 116; 38; 0; 4; 116; 101; 115; 116; 0; 4; 116; 101; 115; 116; 40; 1; 41; 1; 42; 0; 19; 4; 210; 26; 0; 4; 116; 101; 115; 116; 28; 0; 4; 116; 101; 115; 116; 21; 0; 4; 116; 101; 115; 116; 22; 0; 4; 1; 2; 3; 4] = Ok (V5ConnAck.mkConnAck false V5ConnAck.Success (Some (V5ConnAck.mkConnAckProperties (Some 1234) (Some 432) (Some 2) (Some 1) (Some 100) (Some [116; 101; 115; 116]) (Some 456) (Some [116; 101; 115; 116]) [([116; 101; 115; 116], [116; 101; 115; 116])] (Some 1) (Some 1) (Some 0) (Some 1234) (Some [116; 101; 115; 116]) (Some [116; 101; 115; 116]) (Some [116; 101; 115; 116]) (Some [1; 2; 3; 4])))).
Proof. vm_compute. reflexivity. Qed.
Example v5_connack_sample_parsing_read : whole_read V5Mod.read [32; 87; 0; 0; 84; 17; 0; 0; 4; 210; 33; 1; 176; 36; 2; 37; 1; 39; 0; 0; 0; 100; 18; 0; 4; 116; 101; 115; 116; 34; 1; 200; 31; 0; 4; 116; 101; 115; 116; 38; 0; 4; 116; 101; 115; 116; 0; 4; 116; 101; 115; 116; 40; 1; 41; 1; 42; 0; 19; 4; 210; 26; 0; 4; 116; 101; 115; 116; 28; 0; 4; 116; 101; 115; 116; 21; 0; 4; 116; 101; 115; 116; 22; 0; 4; 1; 2; 3; 4] = Ok (V5Mod.ConnAck (V5ConnAck.mkConnAck false V5ConnAck.Success (Some (V5ConnAck.mkConnAckProperties (Some 1234) (Some 432) (Some 2) (Some 1) (Some 100) (Some [116; 101; 115; 116]) (Some 456) (Some [116; 101; 115; 116]) [([116; 101; 115; 116], [116; 101; 115; 116])] (Some 1) (Some 1) (Some 0) (Some 1234) (Some [116; 101; 115; 116]) (Some [116; 101; 115; 116]) (Some [116; 101; 115; 116]) (Some [1; 2; 3; 4]))))).
Proof. vm_compute. reflexivity. Qed.

(** the matching encoding test *)
Example v5_connack_sample_encoding : test_write V5ConnAck.write (V5ConnAck.mkConnAck false V5ConnAck.Success (Some (V5ConnAck.mkConnAckProperties (Some 1234) (Some 432) (Some 2) (Some 1) (Some 100) (Some [116; 101; 115; 116]) (Some 456) (Some [116; 101; 115; 116]) [([116; 101; 115; 116], [116; 101; 115; 116])] (Some 1) (Some 1) (Some 0) (Some 1234) (Some [116; 101; 115; 116]) (Some [116; 101; 115; 116]) (Some [116; 101; 115; 116]) (Some [1; 2; 3; 4])))) = Some (frame_of [32; 87; 0; 0; 84; 17; 0; 0; 4; 210; 33; 1; 176; 36; 2; 37; 1; 39; 0; 0; 0; 100; 18; 0; 4; 116; 101; 115; 116; 34; 1; 200; 31; 0; 4; 116; 101; 115; 116; 38; 0; 4; 116; 101; 115; 116; 0; 4; 116; 101; 115; 116; 40; 1; 41; 1; 42; 0; 19; 4; 210; 26; 0; 4; 116; 101; 115; 116; 28; 0; 4; 116; 101; 115; 116; 21; 0; 4; 116; 101; 115; 116; 22; 0; 4; 1; 2; 3; 4]).
Proof. vm_compute. reflexivity. Qed.

(** src/v5/connect.rs:698 `sample`/`sample_bytes` *)
Example v5_connect_sample_parsing : test_read V5Connect.read [16; 157; 1; 0; 4; 77; 81; 84; 84; 5; 198; 0; 0; 47; 17; 0; 0; 4; 210; 33; 1; 176; 39; 0; 0; 0; 100; 34; 1; 200; 25; 1; 23; 1; 38; 0; 4; 116; 101; 115; 116; 0; 4; 116; 101; 115; 116; 21; 0; 4; 116; 101; 115; 116; 22; 0; 4; 1; 2; 3; 4; 0; 9; 109; 121; 45; 100; 101; 118; 105; 99; 101; 47; 24; 0; 0; 4; 210; 1; 0; 2; 0; 0; 16; 225; 3; 0; 4; 116; 101; 115; 116; 8; 0; 5; 116; 111; 112; 105; 99; 9; 0; 4; 1; 2; 3; 4; 38; 0; 4; 116; 101; 115; 116; 0; 4; 116; 101; 115; 116; 0; 15; 109; 121; 100; 101; 118; 105; 99; 101; 47; 115; 116; 97; 116; 117; 115; 0; 4; 100; 101; 97; 100; 0; 6; 109; 97; 116; 116; 101; 111; 0; 7; 99; 111; 108; 108; 105; 110; 97] = Ok (V5Connect.mkConnect V5 0 [109; 121; 45; 100; 101; 118; 105; 99; 101] true (Some (V5Connect.mkLastWill [109; 121; 100; 101; 118; 105; 99; 101; 47; 115; 116; 97; 116; 117; 115] [100; 101; 97; 100] AtMostOnce false (Some (V5Connect.mkWillProperties (Some 1234) (Some 0) (Some 4321) (Some [116; 101; 115; 116]) (Some [116; 111; 112; 105; 99]) (Some [1; 2; 3; 4]) [([116; 101; 115; 116], [116; 101; 115; 116])])))) (Some (V5Connect.mkLogin [109; 97; 116; 116; 101; 111] [99; 111; 108; 108; 105; 110; 97])) (Some (V5Connect.mkConnectProperties (Some 1234) (Some 432) (Some 100) (Some 456) (Some 1) (Some 1) [([116; 101; 115; 116], [116; 101; 115; 116])] (Some [116; 101; 115; 116]) (Some [1; 2; 3; 4])))).
Proof. vm_compute. reflexivity. Qed.
Example v5_connect_sample_parsing_read : whole_read V5Mod.read [16; 157; 1; 0; 4; 77; 81; 84; 84; 5; 198; 0; 0; 47; 17; 0; 0; 4; 210; 33; 1; 176; 39; 0; 0; 0; 100; 34; 1; 200; 25; 1; 23; 1; 38; 0; 4; 116; 101; 115; 116; 0; 4; 116; 101; 115; 116; 21; 0; 4; 116; 101; 115; 116; 22; 0; 4; 1; 2; 3; 4; 0; 9; 109; 121; 45; 100; 101; 118; 105; 99; 101; 47; 24; 0; 0; 4; 210; 1; 0; 2; 0; 0; 16; 225; 3; 0; 4; 116; 101; 115; 116; 8; 0; 5; 116; 111; 112; 105; 99; 9; 0; 4; 1; 2; 3; 4; 38; 0; 4; 116; 101; 115; 116; 0; 4; 116; 101; 115; 116; 0; 15; 109; 121; 100; 101; 118; 105; 99; 101; 47; 115; 116; 97; 116; 117; 115; 0; 4; 100; 101; 97; 100; 0; 6; 109; 97; 116; 116; 101; 111; 0; 7; 99; 111; 108; 108; 105; 110; 97] = Ok (V5Mod.Connect (V5Connect.mkConnect V5 0 [109; 121; 45; 100; 101; 118; 105; 99; 101] true (Some (V5Connect.mkLastWill [109; 121; 100; 101; 118; 105; 99; 101; 47; 115; 116; 97; 116; 117; 115] [100; 101; 97; 100] AtMostOnce false (Some (V5Connect.mkWillProperties (Some 1234) (Some 0) (Some 4321) (Some [116; 101; 115; 116]) (Some [116; 111; 112; 105; 99]) (Some [1; 2; 3; 4]) [([116; 101; 115; 116], [116; 101; 115; 116])])))) (Some (V5Connect.mkLogin [109; 97; 116; 116; 101; 111] [99; 111; 108; 108; 105; 110; 97])) (Some (V5Connect.mkConnectProperties (Some 1234) (Some 432) (Some 100) (Some 456) (Some 1) (Some 1) [([116; 101; 115; 116], [116; 101; 115; 116])] (Some [116; 101; 115; 116]) (Some [1; 2; 3; 4]))))).
Proof. vm_compute. reflexivity. Qed.

(** the matching encoding test *)
Example v5_connect_sample_encoding : test_write V5Connect.write (V5Connect.mkConnect V5 0 [109; 121; 45; 100; 101; 118; 105; 99; 101] true (Some (V5Connect.mkLastWill [109; 121; 100; 101; 118; 105; 99; 101; 47; 115; 116; 97; 116; 117; 115] [100; 101; 97; 100] AtMostOnce false (Some (V5Connect.mkWillProperties (Some 1234) (Some 0) (Some 4321) (Some [116; 101; 115; 116]) (Some [116; 111; 112; 105; 99]) (Some [1; 2; 3; 4]) [([116; 101; 115; 116], [116; 101; 115; 116])])))) (Some (V5Connect.mkLogin [109; 97; 116; 116; 101; 111] [99; 111; 108; 108; 105; 110; 97])) (Some (V5Connect.mkConnectProperties (Some 1234) (Some 432) (Some 100) (Some 456) (Some 1) (Some 1) [([116; 101; 115; 116], [116; 101; 115; 116])] (Some [116; 101; 115; 116]) (Some [1; 2; 3; 4])))) = Some (frame_of [16; 157; 1; 0; 4; 77; 81; 84; 84; 5; 198; 0; 0; 47; 17; 0; 0; 4; 210; 33; 1; 176; 39; 0; 0; 0; 100; 34; 1; 200; 25; 1; 23; 1; 38; 0; 4; 116; 101; 115; 116; 0; 4; 116; 101; 115; 116; 21; 0; 4; 116; 101; 115; 116; 22; 0; 4; 1; 2; 3; 4; 0; 9; 109; 121; 45; 100; 101; 118; 105; 99; 101; 47; 24; 0; 0; 4; 210; 1; 0; 2; 0; 0; 16; 225; 3; 0; 4; 116; 101; 115; 116; 8; 0; 5; 116; 111; 112; 105; 99; 9; 0; 4; 1; 2; 3; 4; 38; 0; 4; 116; 101; 115; 116; 0; 4; 116; 101; 115; 116; 0; 15; 109; 121; 100; 101; 118; 105; 99; 101; 47; 115; 116; 97; 116; 117; 115; 0; 4; 100; 101; 97; 100; 0; 6; 109; 97; 116; 116; 101; 111; 0; 7; 99; 111; 108; 108; 105; 110; 97]).
Proof. vm_compute. reflexivity. Qed.

(** src/v5/connect.rs:807 `sample2`/`sample2_bytes` *)
Example v5_connect_sample2_parsing : test_read V5Connect.read [16; 31; 0; 4; 77; 81; 84; 84; 5; 2; 0; 10; 0; 0; 18; 104; 97; 99; 107; 97; 116; 104; 111; 110; 109; 113; 116; 116; 53; 116; 101; 115; 116; 16; 17; 18] = Ok (V5Connect.mkConnect V5 10 [104; 97; 99; 107; 97; 116; 104; 111; 110; 109; 113; 116; 116; 53; 116; 101; 115; 116] true None None None).
Proof. vm_compute. reflexivity. Qed.
Example v5_connect_sample2_parsing_read : whole_read V5Mod.read [16; 31; 0; 4; 77; 81; 84; 84; 5; 2; 0; 10; 0; 0; 18; 104; 97; 99; 107; 97; 116; 104; 111; 110; 109; 113; 116; 116; 53; 116; 101; 115; 116; 16; 17; 18] = Ok (V5Mod.Connect (V5Connect.mkConnect V5 10 [104; 97; 99; 107; 97; 116; 104; 111; 110; 109; 113; 116; 116; 53; 116; 101; 115; 116] true None None None)).
Proof. vm_compute. reflexivity. Qed.

(** the matching encoding test *)
Example v5_connect_sample2_encoding : test_write V5Connect.write (V5Connect.mkConnect V5 10 [104; 97; 99; 107; 97; 116; 104; 111; 110; 109; 113; 116; 116; 53; 116; 101; 115; 116] true None None None) = Some (frame_of [16; 31; 0; 4; 77; 81; 84; 84; 5; 2; 0; 10; 0; 0; 18; 104; 97; 99; 107; 97; 116; 104; 111; 110; 109; 113; 116; 116; 53; 116; 101; 115; 116; 16; 17; 18]).
Proof. vm_compute. reflexivity. Qed.

(** src/v5/connect.rs:856 `sample3`/`sample3_bytes` *)
Example v5_connect_sample3_parsing : test_read V5Connect.read [16; 110; 0; 4; 77; 81; 84; 84; 5; 198; 0; 0; 47; 17; 0; 0; 4; 210; 33; 1; 176; 39; 0; 0; 0; 100; 34; 1; 200; 25; 1; 23; 1; 38; 0; 4; 116; 101; 115; 116; 0; 4; 116; 101; 115; 116; 21; 0; 4; 116; 101; 115; 116; 22; 0; 4; 1; 2; 3; 4; 0; 9; 109; 121; 45; 100; 101; 118; 105; 99; 101; 0; 0; 15; 109; 121; 100; 101; 118; 105; 99; 101; 47; 115; 116; 97; 116; 117; 115; 0; 4; 100; 101; 97; 100; 0; 6; 109; 97; 116; 116; 101; 111; 0; 7; 99; 111; 108; 108; 105; 110; 97] = Ok (V5Connect.mkConnect V5 0 [109; 121; 45; 100; 101; 118; 105; 99; 101] true (Some (V5Connect.mkLastWill [109; 121; 100; 101; 118; 105; 99; 101; 47; 115; 116; 97; 116; 117; 115] [100; 101; 97; 100] AtMostOnce false None)) (Some (V5Connect.mkLogin [109; 97; 116; 116; 101; 111] [99; 111; 108; 108; 105; 110; 97])) (Some (V5Connect.mkConnectProperties (Some 1234) (Some 432) (Some 100) (Some 456) (Some 1) (Some 1) [([116; 101; 115; 116], [116; 101; 115; 116])] (Some [116; 101; 115; 116]) (Some [1; 2; 3; 4])))).
Proof. vm_compute. reflexivity. Qed.
Example v5_connect_sample3_parsing_read : whole_read V5Mod.read [16; 110; 0; 4; 77; 81; 84; 84; 5; 198; 0; 0; 47; 17; 0; 0; 4; 210; 33; 1; 176; 39; 0; 0; 0; 100; 34; 1; 200; 25; 1; 23; 1; 38; 0; 4; 116; 101; 115; 116; 0; 4; 116; 101; 115; 116; 21; 0; 4; 116; 101; 115; 116; 22; 0; 4; 1; 2; 3; 4; 0; 9; 109; 121; 45; 100; 101; 118; 105; 99; 101; 0; 0; 15; 109; 121; 100; 101; 118; 105; 99; 101; 47; 115; 116; 97; 116; 117; 115; 0; 4; 100; 101; 97; 100; 0; 6; 109; 97; 116; 116; 101; 111; 0; 7; 99; 111; 108; 108; 105; 110; 97] = Ok (V5Mod.Connect (V5Connect.mkConnect V5 0 [109; 121; 45; 100; 101; 118; 105; 99; 101] true (Some (V5Connect.mkLastWill [109; 121; 100; 101; 118; 105; 99; 101; 47; 115; 116; 97; 116; 117; 115] [100; 101; 97; 100] AtMostOnce false None)) (Some (V5Connect.mkLogin [109; 97; 116; 116; 101; 111] [99; 111; 108; 108; 105; 110; 97])) (Some (V5Connect.mkConnectProperties (Some 1234) (Some 432) (Some 100) (Some 456) (Some 1) (Some 1) [([116; 101; 115; 116], [116; 101; 115; 116])] (Some [116; 101; 115; 116]) (Some [1; 2; 3; 4]))))).
Proof. vm_compute. reflexivity. Qed.

(** the matching encoding test *)
Example v5_connect_sample3_encoding : test_write V5Connect.write (V5Connect.mkConnect V5 0 [109; 121; 45; 100; 101; 118; 105; 99; 101] true (Some (V5Connect.mkLastWill [109; 121; 100; 101; 118; 105; 99; 101; 47; 115; 116; 97; 116; 117; 115] [100; 101; 97; 100] AtMostOnce false None)) (Some (V5Connect.mkLogin [109; 97; 116; 116; 101; 111] [99; 111; 108; 108; 105; 110; 97])) (Some (V5Connect.mkConnectProperties (Some 1234) (Some 432) (Some 100) (Some 456) (Some 1) (Some 1) [([116; 101; 115; 116], [116; 101; 115; 116])] (Some [116; 101; 115; 116]) (Some [1; 2; 3; 4])))) = Some (frame_of [16; 110; 0; 4; 77; 81; 84; 84; 5; 198; 0; 0; 47; 17; 0; 0; 4; 210; 33; 1; 176; 39; 0; 0; 0; 100; 34; 1; 200; 25; 1; 23; 1; 38; 0; 4; 116; 101; 115; 116; 0; 4; 116; 101; 115; 116; 21; 0; 4; 116; 101; 115; 116; 22; 0; 4; 1; 2; 3; 4; 0; 9; 109; 121; 45; 100; 101; 118; 105; 99; 101; 0; 0; 15; 109; 121; 100; 101; 118; 105; 99; 101; 47; 115; 116; 97; 116; 117; 115; 0; 4; 100; 101; 97; 100; 0; 6; 109; 97; 116; 116; 101; 111; 0; 7; 99; 111; 108; 108; 105; 110; 97]).
Proof. vm_compute. reflexivity. Qed.

(** src/v5/disconnect.rs:379 `sample2`/`sample_bytes2` *)
Example v5_disconnect_sample2_parsing : test_read V5Disconnect.read [224; 34; 128; 32; 17; 0; 0; 4; 210; 31; 0; 4; 116; 101; 115; 116; 38; 0; 4; 116; 101; 115; 116; 0; 4; 116; 101; 115; 116; 28; 0; 4; 116; 101; 115; 116] = Ok (V5Disconnect.mkDisconnect V5Disconnect.UnspecifiedError (Some (V5Disconnect.mkDisconnectProperties (Some 1234) (Some [116; 101; 115; 116]) [([116; 101; 115; 116], [116; 101; 115; 116])] (Some [116; 101; 115; 116])))).
Proof. vm_compute. reflexivity. Qed.
Example v5_disconnect_sample2_parsing_read : whole_read V5Mod.read [224; 34; 128; 32; 17; 0; 0; 4; 210; 31; 0; 4; 116; 101; 115; 116; 38; 0; 4; 116; 101; 115; 116; 0; 4; 116; 101; 115; 116; 28; 0; 4; 116; 101; 115; 116] = Ok (V5Mod.Disconnect (V5Disconnect.mkDisconnect V5Disconnect.UnspecifiedError (Some (V5Disconnect.mkDisconnectProperties (Some 1234) (Some [116; 101; 115; 116]) [([116; 101; 115; 116], [116; 101; 115; 116])] (Some [116; 101; 115; 116]))))).
Proof. vm_compute. reflexivity. Qed.

(** the matching encoding test *)
Example v5_disconnect_sample2_encoding : test_write V5Disconnect.write (V5Disconnect.mkDisconnect V5Disconnect.UnspecifiedError (Some (V5Disconnect.mkDisconnectProperties (Some 1234) (Some [116; 101; 115; 116]) [([116; 101; 115; 116], [116; 101; 115; 116])] (Some [116; 101; 115; 116])))) = Some (frame_of [224; 34; 128; 32; 17; 0; 0; 4; 210; 31; 0; 4; 116; 101; 115; 116; 38; 0; 4; 116; 101; 115; 116; 0; 4; 116; 101; 115; 116; 28; 0; 4; 116; 101; 115; 116]).
Proof. vm_compute. reflexivity. Qed.

(** src/v5/puback.rs:213 `sample`/`sample_bytes` *)
Example v5_puback_sample_parsing : test_read V5PubAck.read [64; 24; 0; 42; 16; 20; 31; 0; 4; 116; 101; 115; 116; 38; 0; 4; 116; 101; 115; 116; 0; 4; 116; 101; 115; 116] = Ok (V5PubAck.mkPubAck 42 V5PubAck.NoMatchingSubscribers (Some (V5PubAck.mkPubAckProperties (Some [116; 101; 115; 116]) [([116; 101; 115; 116], [116; 101; 115; 116])]))).
Proof. vm_compute. reflexivity. Qed.
Example v5_puback_sample_parsing_read : whole_read V5Mod.read [64; 24; 0; 42; 16; 20; 31; 0; 4; 116; 101; 115; 116; 38; 0; 4; 116; 101; 115; 116; 0; 4; 116; 101; 115; 116] = Ok (V5Mod.PubAck (V5PubAck.mkPubAck 42 V5PubAck.NoMatchingSubscribers (Some (V5PubAck.mkPubAckProperties (Some [116; 101; 115; 116]) [([116; 101; 115; 116], [116; 101; 115; 116])])))).
Proof. vm_compute. reflexivity. Qed.

(** the matching encoding test *)
Example v5_puback_sample_encoding : test_write V5PubAck.write (V5PubAck.mkPubAck 42 V5PubAck.NoMatchingSubscribers (Some (V5PubAck.mkPubAckProperties (Some [116; 101; 115; 116]) [([116; 101; 115; 116], [116; 101; 115; 116])]))) = Some (frame_of [64; 24; 0; 42; 16; 20; 31; 0; 4; 116; 101; 115; 116; 38; 0; 4; 116; 101; 115; 116; 0; 4; 116; 101; 115; 116]).
Proof. vm_compute. reflexivity. Qed.

(** src/v5/puback.rs:259 `sample2`/`sample2_bytes` *)
Example v5_puback_sample2_parsing : test_read V5PubAck.read [64; 3; 0; 42; 16] = Ok (V5PubAck.mkPubAck 42 V5PubAck.NoMatchingSubscribers None).
Proof. vm_compute. reflexivity. Qed.
Example v5_puback_sample2_parsing_read : whole_read V5Mod.read [64; 3; 0; 42; 16] = Ok (V5Mod.PubAck (V5PubAck.mkPubAck 42 V5PubAck.NoMatchingSubscribers None)).
Proof. vm_compute. reflexivity. Qed.

(** the matching encoding test *)
Example v5_puback_sample2_encoding : test_write V5PubAck.write (V5PubAck.mkPubAck 42 V5PubAck.NoMatchingSubscribers None) = Some (frame_of [64; 3; 0; 42; 16]).
Proof. vm_compute. reflexivity. Qed.

(** src/v5/puback.rs:292 `sample3`/`sample3_bytes` *)
Example v5_puback_sample3_parsing : test_read V5PubAck.read [64; 2; 0; 42] = Ok (V5PubAck.mkPubAck 42 V5PubAck.Success None).
Proof. vm_compute. reflexivity. Qed.
Example v5_puback_sample3_parsing_read : whole_read V5Mod.read [64; 2; 0; 42] = Ok (V5Mod.PubAck (V5PubAck.mkPubAck 42 V5PubAck.Success None)).
Proof. vm_compute. reflexivity. Qed.

(** the matching encoding test *)
Example v5_puback_sample3_encoding : test_write V5PubAck.write (V5PubAck.mkPubAck 42 V5PubAck.Success None) = Some (frame_of [64; 2; 0; 42]).
Proof. vm_compute. reflexivity. Qed.

(** src/v5/pubcomp.rs:193 `sample`/`sample_bytes` *)
Example v5_pubcomp_sample_parsing : test_read V5PubComp.read [112; 24; 0; 42; 146; 20; 31; 0; 4; 116; 101; 115; 116; 38; 0; 4; 116; 101; 115; 116; 0; 4; 116; 101; 115; 116] = Ok (V5PubComp.mkPubComp 42 V5PubComp.PacketIdentifierNotFound (Some (V5PubComp.mkPubCompProperties (Some [116; 101; 115; 116]) [([116; 101; 115; 116], [116; 101; 115; 116])]))).
Proof. vm_compute. reflexivity. Qed.
Example v5_pubcomp_sample_parsing_read : whole_read V5Mod.read [112; 24; 0; 42; 146; 20; 31; 0; 4; 116; 101; 115; 116; 38; 0; 4; 116; 101; 115; 116; 0; 4; 116; 101; 115; 116] = Ok (V5Mod.PubComp (V5PubComp.mkPubComp 42 V5PubComp.PacketIdentifierNotFound (Some (V5PubComp.mkPubCompProperties (Some [116; 101; 115; 116]) [([116; 101; 115; 116], [116; 101; 115; 116])])))).
Proof. vm_compute. reflexivity. Qed.

(** the matching encoding test *)
Example v5_pubcomp_sample_encoding : test_write V5PubComp.write (V5PubComp.mkPubComp 42 V5PubComp.PacketIdentifierNotFound (Some (V5PubComp.mkPubCompProperties (Some [116; 101; 115; 116]) [([116; 101; 115; 116], [116; 101; 115; 116])]))) = Some (frame_of [112; 24; 0; 42; 146; 20; 31; 0; 4; 116; 101; 115; 116; 38; 0; 4; 116; 101; 115; 116; 0; 4; 116; 101; 115; 116]).
Proof. vm_compute. reflexivity. Qed.

(** src/v5/publish.rs:331 `sample_v5`/`sample_bytes` *)
Example v5_publish_sample_v5_parsing : test_read V5Publish.read [52; 62; 0; 4; 116; 101; 115; 116; 0; 42; 49; 1; 1; 2; 0; 0; 16; 225; 35; 0; 100; 8; 0; 5; 116; 111; 112; 105; 99; 9; 0; 4; 1; 2; 3; 4; 38; 0; 4; 116; 101; 115; 116; 0; 4; 116; 101; 115; 116; 11; 120; 11; 121; 3; 0; 4; 116; 101; 115; 116; 116; 101; 115; 116] = Ok (V5Publish.mkPublish false ExactlyOnce false [116; 101; 115; 116] 42 (Some (V5Publish.mkPublishProperties (Some 1) (Some 4321) (Some 100) (Some [116; 111; 112; 105; 99]) (Some [1; 2; 3; 4]) [([116; 101; 115; 116], [116; 101; 115; 116])] [120; 121] (Some [116; 101; 115; 116]))) [116; 101; 115; 116]).
Proof. vm_compute. reflexivity. Qed.
Example v5_publish_sample_v5_parsing_read : whole_read V5Mod.read [52; 62; 0; 4; 116; 101; 115; 116; 0; 42; 49; 1; 1; 2; 0; 0; 16; 225; 35; 0; 100; 8; 0; 5; 116; 111; 112; 105; 99; 9; 0; 4; 1; 2; 3; 4; 38; 0; 4; 116; 101; 115; 116; 0; 4; 116; 101; 115; 116; 11; 120; 11; 121; 3; 0; 4; 116; 101; 115; 116; 116; 101; 115; 116] = Ok (V5Mod.Publish (V5Publish.mkPublish false ExactlyOnce false [116; 101; 115; 116] 42 (Some (V5Publish.mkPublishProperties (Some 1) (Some 4321) (Some 100) (Some [116; 111; 112; 105; 99]) (Some [1; 2; 3; 4]) [([116; 101; 115; 116], [116; 101; 115; 116])] [120; 121] (Some [116; 101; 115; 116]))) [116; 101; 115; 116])).
Proof. vm_compute. reflexivity. Qed.

(** the matching encoding test *)
Example v5_publish_sample_v5_encoding : test_write V5Publish.write (V5Publish.mkPublish false ExactlyOnce false [116; 101; 115; 116] 42 (Some (V5Publish.mkPublishProperties (Some 1) (Some 4321) (Some 100) (Some [116; 111; 112; 105; 99]) (Some [1; 2; 3; 4]) [([116; 101; 115; 116], [116; 101; 115; 116])] [120; 121] (Some [116; 101; 115; 116]))) [116; 101; 115; 116]) = Some (frame_of [52; 62; 0; 4; 116; 101; 115; 116; 0; 42; 49; 1; 1; 2; 0; 0; 16; 225; 35; 0; 100; 8; 0; 5; 116; 111; 112; 105; 99; 9; 0; 4; 1; 2; 3; 4; 38; 0; 4; 116; 101; 115; 116; 0; 4; 116; 101; 115; 116; 11; 120; 11; 121; 3; 0; 4; 116; 101; 115; 116; 116; 101; 115; 116]).
Proof. vm_compute. reflexivity. Qed.

(** src/v5/pubrec.rs:208 `sample`/`sample_bytes` *)
Example v5_pubrec_sample_parsing : test_read V5PubRec.read [80; 24; 0; 42; 16; 20; 31; 0; 4; 116; 101; 115; 116; 38; 0; 4; 116; 101; 115; 116; 0; 4; 116; 101; 115; 116] = Ok (V5PubRec.mkPubRec 42 V5PubRec.NoMatchingSubscribers (Some (V5PubRec.mkPubRecProperties (Some [116; 101; 115; 116]) [([116; 101; 115; 116], [116; 101; 115; 116])]))).
Proof. vm_compute. reflexivity. Qed.
Example v5_pubrec_sample_parsing_read : whole_read V5Mod.read [80; 24; 0; 42; 16; 20; 31; 0; 4; 116; 101; 115; 116; 38; 0; 4; 116; 101; 115; 116; 0; 4; 116; 101; 115; 116] = Ok (V5Mod.PubRec (V5PubRec.mkPubRec 42 V5PubRec.NoMatchingSubscribers (Some (V5PubRec.mkPubRecProperties (Some [116; 101; 115; 116]) [([116; 101; 115; 116], [116; 101; 115; 116])])))).
Proof. vm_compute. reflexivity. Qed.

(** the matching encoding test *)
Example v5_pubrec_sample_encoding : test_write V5PubRec.write (V5PubRec.mkPubRec 42 V5PubRec.NoMatchingSubscribers (Some (V5PubRec.mkPubRecProperties (Some [116; 101; 115; 116]) [([116; 101; 115; 116], [116; 101; 115; 116])]))) = Some (frame_of [80; 24; 0; 42; 16; 20; 31; 0; 4; 116; 101; 115; 116; 38; 0; 4; 116; 101; 115; 116; 0; 4; 116; 101; 115; 116]).
Proof. vm_compute. reflexivity. Qed.

(** src/v5/pubrel.rs:192 `sample`/`sample_bytes` *)
Example v5_pubrel_sample_parsing : test_read V5PubRel.read [98; 24; 0; 42; 146; 20; 31; 0; 4; 116; 101; 115; 116; 38; 0; 4; 116; 101; 115; 116; 0; 4; 116; 101; 115; 116] = Ok (V5PubRel.mkPubRel 42 V5PubRel.PacketIdentifierNotFound (Some (V5PubRel.mkPubRelProperties (Some [116; 101; 115; 116]) [([116; 101; 115; 116], [116; 101; 115; 116])]))).
Proof. vm_compute. reflexivity. Qed.
Example v5_pubrel_sample_parsing_read : whole_read V5Mod.read [98; 24; 0; 42; 146; 20; 31; 0; 4; 116; 101; 115; 116; 38; 0; 4; 116; 101; 115; 116; 0; 4; 116; 101; 115; 116] = Ok (V5Mod.PubRel (V5PubRel.mkPubRel 42 V5PubRel.PacketIdentifierNotFound (Some (V5PubRel.mkPubRelProperties (Some [116; 101; 115; 116]) [([116; 101; 115; 116], [116; 101; 115; 116])])))).
Proof. vm_compute. reflexivity. Qed.

(** the matching encoding test *)
Example v5_pubrel_sample_encoding : test_write V5PubRel.write (V5PubRel.mkPubRel 42 V5PubRel.PacketIdentifierNotFound (Some (V5PubRel.mkPubRelProperties (Some [116; 101; 115; 116]) [([116; 101; 115; 116], [116; 101; 115; 116])]))) = Some (frame_of [98; 24; 0; 42; 146; 20; 31; 0; 4; 116; 101; 115; 116; 38; 0; 4; 116; 101; 115; 116; 0; 4; 116; 101; 115; 116]).
Proof. vm_compute. reflexivity. Qed.

(** src/v5/suback.rs:213 `sample`/`sample_bytes` *)
Example v5_suback_sample_parsing : test_read V5SubAck.read [144; 27; 0; 42; 20; 31; 0; 4; 116; 101; 115; 116; 38; 0; 4; 116; 101; 115; 116; 0; 4; 116; 101; 115; 116; 0; 1; 2; 128] = Ok (V5SubAck.mkSubAck 42 [V5SubAck.QoS0; V5SubAck.QoS1; V5SubAck.QoS2; V5SubAck.Unspecified] (Some (V5SubAck.mkSubAckProperties (Some [116; 101; 115; 116]) [([116; 101; 115; 116], [116; 101; 115; 116])]))).
Proof. vm_compute. reflexivity. Qed.
Example v5_suback_sample_parsing_read : whole_read V5Mod.read [144; 27; 0; 42; 20; 31; 0; 4; 116; 101; 115; 116; 38; 0; 4; 116; 101; 115; 116; 0; 4; 116; 101; 115; 116; 0; 1; 2; 128] = Ok (V5Mod.SubAck (V5SubAck.mkSubAck 42 [V5SubAck.QoS0; V5SubAck.QoS1; V5SubAck.QoS2; V5SubAck.Unspecified] (Some (V5SubAck.mkSubAckProperties (Some [116; 101; 115; 116]) [([116; 101; 115; 116], [116; 101; 115; 116])])))).
Proof. vm_compute. reflexivity. Qed.

(** the matching encoding test *)
Example v5_suback_sample_encoding : test_write V5SubAck.write (V5SubAck.mkSubAck 42 [V5SubAck.QoS0; V5SubAck.QoS1; V5SubAck.QoS2; V5SubAck.Unspecified] (Some (V5SubAck.mkSubAckProperties (Some [116; 101; 115; 116]) [([116; 101; 115; 116], [116; 101; 115; 116])]))) = Some (frame_of [144; 27; 0; 42; 20; 31; 0; 4; 116; 101; 115; 116; 38; 0; 4; 116; 101; 115; 116; 0; 4; 116; 101; 115; 116; 0; 1; 2; 128]).
Proof. vm_compute. reflexivity. Qed.

(** src/v5/subscribe.rs:332 `sample`/`sample_bytes` *)
Example v5_subscribe_sample_parsing : test_read V5Subscribe.read [130; 26; 0; 42; 15; 11; 100; 38; 0; 4; 116; 101; 115; 116; 0; 4; 116; 101; 115; 116; 0; 5; 104; 101; 108; 108; 111; 45] = Ok (V5Subscribe.mkSubscribe 42 [(V5Subscribe.set_retain_forward_rule (V5Subscribe.set_preserve_retain (V5Subscribe.set_nolocal (V5Subscribe.filter_new [104; 101; 108; 108; 111] AtLeastOnce) true) true) V5Subscribe.Never)] (Some (V5Subscribe.mkSubscribeProperties (Some 100) [([116; 101; 115; 116], [116; 101; 115; 116])]))).
Proof. vm_compute. reflexivity. Qed.
Example v5_subscribe_sample_parsing_read : whole_read V5Mod.read [130; 26; 0; 42; 15; 11; 100; 38; 0; 4; 116; 101; 115; 116; 0; 4; 116; 101; 115; 116; 0; 5; 104; 101; 108; 108; 111; 45] = Ok (V5Mod.Subscribe (V5Subscribe.mkSubscribe 42 [(V5Subscribe.set_retain_forward_rule (V5Subscribe.set_preserve_retain (V5Subscribe.set_nolocal (V5Subscribe.filter_new [104; 101; 108; 108; 111] AtLeastOnce) true) true) V5Subscribe.Never)] (Some (V5Subscribe.mkSubscribeProperties (Some 100) [([116; 101; 115; 116], [116; 101; 115; 116])])))).
Proof. vm_compute. reflexivity. Qed.

(** the matching encoding test *)
Example v5_subscribe_sample_encoding : test_write V5Subscribe.write (V5Subscribe.mkSubscribe 42 [(V5Subscribe.set_retain_forward_rule (V5Subscribe.set_preserve_retain (V5Subscribe.set_nolocal (V5Subscribe.filter_new [104; 101; 108; 108; 111] AtLeastOnce) true) true) V5Subscribe.Never)] (Some (V5Subscribe.mkSubscribeProperties (Some 100) [([116; 101; 115; 116], [116; 101; 115; 116])]))) = Some (frame_of [130; 26; 0; 42; 15; 11; 100; 38; 0; 4; 116; 101; 115; 116; 0; 4; 116; 101; 115; 116; 0; 5; 104; 101; 108; 108; 111; 45]).
Proof. vm_compute. reflexivity. Qed.

(** src/v5/subscribe.rs:389 `sample2`/`sample2_bytes` *)
Example v5_subscribe_sample2_parsing : test_read V5Subscribe.read [130; 17; 0; 42; 0; 0; 11; 104; 101; 108; 108; 111; 47; 119; 111; 114; 108; 100; 1] = Ok (V5Subscribe.mkSubscribe 42 [(V5Subscribe.filter_new [104; 101; 108; 108; 111; 47; 119; 111; 114; 108; 100] AtLeastOnce)] None).
Proof. vm_compute. reflexivity. Qed.
Example v5_subscribe_sample2_parsing_read : whole_read V5Mod.read [130; 17; 0; 42; 0; 0; 11; 104; 101; 108; 108; 111; 47; 119; 111; 114; 108; 100; 1] = Ok (V5Mod.Subscribe (V5Subscribe.mkSubscribe 42 [(V5Subscribe.filter_new [104; 101; 108; 108; 111; 47; 119; 111; 114; 108; 100] AtLeastOnce)] None)).
Proof. vm_compute. reflexivity. Qed.

(** the matching encoding test *)
Example v5_subscribe_sample2_encoding : test_write V5Subscribe.write (V5Subscribe.mkSubscribe 42 [(V5Subscribe.filter_new [104; 101; 108; 108; 111; 47; 119; 111; 114; 108; 100] AtLeastOnce)] None) = Some (frame_of [130; 17; 0; 42; 0; 0; 11; 104; 101; 108; 108; 111; 47; 119; 111; 114; 108; 100; 1]).
Proof. vm_compute. reflexivity. Qed.

(** src/v5/unsuback.rs:199 `sample`/`sample_bytes` *)
Example v5_unsuback_sample_parsing : test_read V5UnsubAck.read [176; 25; 0; 10; 20; 31; 0; 4; 116; 101; 115; 116; 38; 0; 4; 116; 101; 115; 116; 0; 4; 116; 101; 115; 116; 135; 143] = Ok (V5UnsubAck.mkUnsubAck 10 [V5UnsubAck.NotAuthorized; V5UnsubAck.TopicFilterInvalid] (Some (V5UnsubAck.mkUnsubAckProperties (Some [116; 101; 115; 116]) [([116; 101; 115; 116], [116; 101; 115; 116])]))).
Proof. vm_compute. reflexivity. Qed.
Example v5_unsuback_sample_parsing_read : whole_read V5Mod.read [176; 25; 0; 10; 20; 31; 0; 4; 116; 101; 115; 116; 38; 0; 4; 116; 101; 115; 116; 0; 4; 116; 101; 115; 116; 135; 143] = Ok (V5Mod.UnsubAck (V5UnsubAck.mkUnsubAck 10 [V5UnsubAck.NotAuthorized; V5UnsubAck.TopicFilterInvalid] (Some (V5UnsubAck.mkUnsubAckProperties (Some [116; 101; 115; 116]) [([116; 101; 115; 116], [116; 101; 115; 116])])))).
Proof. vm_compute. reflexivity. Qed.

(** the matching encoding test *)
Example v5_unsuback_sample_encoding : test_write V5UnsubAck.write (V5UnsubAck.mkUnsubAck 10 [V5UnsubAck.NotAuthorized; V5UnsubAck.TopicFilterInvalid] (Some (V5UnsubAck.mkUnsubAckProperties (Some [116; 101; 115; 116]) [([116; 101; 115; 116], [116; 101; 115; 116])]))) = Some (frame_of [176; 25; 0; 10; 20; 31; 0; 4; 116; 101; 115; 116; 38; 0; 4; 116; 101; 115; 116; 0; 4; 116; 101; 115; 116; 135; 143]).
Proof. vm_compute. reflexivity. Qed.

(** src/v5/unsubscribe.rs:155 `sample`/`sample_bytes` *)
Example v5_unsubscribe_sample_parsing : test_read V5Unsubscribe.read [162; 30; 0; 10; 13; 38; 0; 4; 116; 101; 115; 116; 0; 4; 116; 101; 115; 116; 0; 5; 104; 101; 108; 108; 111; 0; 5; 119; 111; 114; 108; 100] = Ok (V5Unsubscribe.mkUnsubscribe 10 [[104; 101; 108; 108; 111]; [119; 111; 114; 108; 100]] (Some (V5Unsubscribe.mkUnsubscribeProperties [([116; 101; 115; 116], [116; 101; 115; 116])]))).
Proof. vm_compute. reflexivity. Qed.
Example v5_unsubscribe_sample_parsing_read : whole_read V5Mod.read [162; 30; 0; 10; 13; 38; 0; 4; 116; 101; 115; 116; 0; 4; 116; 101; 115; 116; 0; 5; 104; 101; 108; 108; 111; 0; 5; 119; 111; 114; 108; 100] = Ok (V5Mod.Unsubscribe (V5Unsubscribe.mkUnsubscribe 10 [[104; 101; 108; 108; 111]; [119; 111; 114; 108; 100]] (Some (V5Unsubscribe.mkUnsubscribeProperties [([116; 101; 115; 116], [116; 101; 115; 116])])))).
Proof. vm_compute. reflexivity. Qed.

(** the matching encoding test *)
Example v5_unsubscribe_sample_encoding : test_write V5Unsubscribe.write (V5Unsubscribe.mkUnsubscribe 10 [[104; 101; 108; 108; 111]; [119; 111; 114; 108; 100]] (Some (V5Unsubscribe.mkUnsubscribeProperties [([116; 101; 115; 116], [116; 101; 115; 116])]))) = Some (frame_of [162; 30; 0; 10; 13; 38; 0; 4; 116; 101; 115; 116; 0; 4; 116; 101; 115; 116; 0; 5; 104; 101; 108; 108; 111; 0; 5; 119; 111; 114; 108; 100]).
Proof. vm_compute. reflexivity. Qed.

(** src/v5/unsubscribe.rs:204 `sample2`/`sample2_bytes` *)
Example v5_unsubscribe_sample2_parsing : test_read V5Unsubscribe.read [162; 10; 0; 10; 0; 0; 5; 104; 101; 108; 108; 111] = Ok (V5Unsubscribe.mkUnsubscribe 10 [[104; 101; 108; 108; 111]] None).
Proof. vm_compute. reflexivity. Qed.
Example v5_unsubscribe_sample2_parsing_read : whole_read V5Mod.read [162; 10; 0; 10; 0; 0; 5; 104; 101; 108; 108; 111] = Ok (V5Mod.Unsubscribe (V5Unsubscribe.mkUnsubscribe 10 [[104; 101; 108; 108; 111]] None)).
Proof. vm_compute. reflexivity. Qed.

(** the matching encoding test *)
Example v5_unsubscribe_sample2_encoding : test_write V5Unsubscribe.write (V5Unsubscribe.mkUnsubscribe 10 [[104; 101; 108; 108; 111]] None) = Some (frame_of [162; 10; 0; 10; 0; 0; 5; 104; 101; 108; 108; 111]).
Proof. vm_compute. reflexivity. Qed.

(** src/v5/disconnect.rs:347-376 `disconnect1_*` *)
Example v5_disconnect1_parsing : test_read V5Disconnect.read [224; 0] = Ok V5Disconnect.new.
Proof. vm_compute. reflexivity. Qed.
Example v5_disconnect1_encoding : test_write V5Disconnect.write V5Disconnect.new = Some [224; 0].
Proof. vm_compute. reflexivity. Qed.

(** src/v4/connack.rs:87 `connack_parsing_works` *)
Example v4_connack_parsing_works : test_read V4ConnAck.read [32; 2; 1; 0; 222; 173; 190; 239] = Ok (V4ConnAck.mkConnAck true V4ConnAck.Success).
Proof. vm_compute. reflexivity. Qed.
Example v4_connack_parsing_works_read : whole_read V4Mod.read [32; 2; 1; 0; 222; 173; 190; 239] = Ok (V4Mod.ConnAck (V4ConnAck.mkConnAck true V4ConnAck.Success)).
Proof. vm_compute. reflexivity. Qed.

(** src/v4/connack.rs:115 `connack_encoding_works` *)
Example v4_connack_encoding_works : test_write V4ConnAck.write (V4ConnAck.mkConnAck true V4ConnAck.Success) = Some [32; 2; 1; 0].
Proof. vm_compute. reflexivity. Qed.

(** src/v4/connect.rs:279 `connect_parsing_works` *)
Example v4_connect_parsing_works : test_read V4Connect.read [16; 39; 0; 4; 77; 81; 84; 84; 4; 206; 0; 10; 0; 4; 116; 101; 115; 116; 0; 2; 47; 97; 0; 7; 111; 102; 102; 108; 105; 110; 101; 0; 4; 114; 117; 109; 113; 0; 2; 109; 113; 222; 173; 190; 239] = Ok (V4Connect.mkConnect V4 10 [116; 101; 115; 116] true (Some (V4Connect.lw_new [47; 97] [111; 102; 102; 108; 105; 110; 101] AtLeastOnce false)) (Some (V4Connect.login_new [114; 117; 109; 113] [109; 113]))).
Proof. vm_compute. reflexivity. Qed.
Example v4_connect_parsing_works_read : whole_read V4Mod.read [16; 39; 0; 4; 77; 81; 84; 84; 4; 206; 0; 10; 0; 4; 116; 101; 115; 116; 0; 2; 47; 97; 0; 7; 111; 102; 102; 108; 105; 110; 101; 0; 4; 114; 117; 109; 113; 0; 2; 109; 113; 222; 173; 190; 239] = Ok (V4Mod.Connect (V4Connect.mkConnect V4 10 [116; 101; 115; 116] true (Some (V4Connect.lw_new [47; 97] [111; 102; 102; 108; 105; 110; 101] AtLeastOnce false)) (Some (V4Connect.login_new [114; 117; 109; 113] [109; 113])))).
Proof. vm_compute. reflexivity. Qed.

(** src/v4/connect.rs:394 `connect_encoding_works` *)
Example v4_connect_encoding_works : test_write V4Connect.write (V4Connect.mkConnect V4 10 [116; 101; 115; 116] true (Some (V4Connect.lw_new [47; 97] [111; 102; 102; 108; 105; 110; 101] AtLeastOnce false)) (Some (V4Connect.login_new [114; 117; 115; 116] [109; 113]))) = Some [16; 39; 0; 4; 77; 81; 84; 84; 4; 206; 0; 10; 0; 4; 116; 101; 115; 116; 0; 2; 47; 97; 0; 7; 111; 102; 102; 108; 105; 110; 101; 0; 4; 114; 117; 115; 116; 0; 2; 109; 113].
Proof. vm_compute. reflexivity. Qed.

(** src/v4/puback.rs:56 `puback_encoding_works` *)
Example v4_puback_encoding_works : test_read V4PubAck.read [64; 2; 0; 10; 222; 173; 190; 239] = Ok (V4PubAck.mkPubAck 10).
Proof. vm_compute. reflexivity. Qed.
Example v4_puback_encoding_works_read : whole_read V4Mod.read [64; 2; 0; 10; 222; 173; 190; 239] = Ok (V4Mod.PubAck (V4PubAck.mkPubAck 10)).
Proof. vm_compute. reflexivity. Qed.

(** src/v4/publish.rs:131 `qos1_publish_parsing_works` *)
Example v4_qos1_publish_parsing_works : test_read V4Publish.read [50; 11; 0; 3; 97; 47; 98; 0; 10; 241; 242; 243; 244; 222; 173; 190; 239] = Ok (V4Publish.mkPublish false AtLeastOnce false [97; 47; 98] 10 [241; 242; 243; 244]).
Proof. vm_compute. reflexivity. Qed.
Example v4_qos1_publish_parsing_works_read : whole_read V4Mod.read [50; 11; 0; 3; 97; 47; 98; 0; 10; 241; 242; 243; 244; 222; 173; 190; 239] = Ok (V4Mod.Publish (V4Publish.mkPublish false AtLeastOnce false [97; 47; 98] 10 [241; 242; 243; 244])).
Proof. vm_compute. reflexivity. Qed.

(** src/v4/publish.rs:172 `qos0_publish_parsing_works` *)
Example v4_qos0_publish_parsing_works : test_read V4Publish.read [48; 7; 0; 3; 97; 47; 98; 1; 2; 222; 173; 190; 239] = Ok (V4Publish.mkPublish false AtMostOnce false [97; 47; 98] 0 [1; 2]).
Proof. vm_compute. reflexivity. Qed.
Example v4_qos0_publish_parsing_works_read : whole_read V4Mod.read [48; 7; 0; 3; 97; 47; 98; 1; 2; 222; 173; 190; 239] = Ok (V4Mod.Publish (V4Publish.mkPublish false AtMostOnce false [97; 47; 98] 0 [1; 2])).
Proof. vm_compute. reflexivity. Qed.

(** src/v4/publish.rs:208 `qos1_publish_encoding_works` *)
Example v4_qos1_publish_encoding_works : test_write V4Publish.write (V4Publish.mkPublish false AtLeastOnce false [97; 47; 98] 10 [241; 242; 243; 244]) = Some [50; 11; 0; 3; 97; 47; 98; 0; 10; 241; 242; 243; 244].
Proof. vm_compute. reflexivity. Qed.

(** src/v4/publish.rs:242 `qos0_publish_encoding_works` *)
Example v4_qos0_publish_encoding_works : test_write V4Publish.write (V4Publish.mkPublish false AtMostOnce false [97; 47; 98] 0 [225; 226; 227; 228]) = Some [48; 9; 0; 3; 97; 47; 98; 225; 226; 227; 228].
Proof. vm_compute. reflexivity. Qed.

(** src/v4/suback.rs:91 `suback_parsing_works` *)
Example v4_suback_parsing_works : test_read V4SubAck.read [144; 4; 0; 15; 1; 128; 222; 173; 190; 239] = Ok (V4SubAck.mkSubAck 15 [(V4SubAck.Success AtLeastOnce); V4SubAck.Failure]).
Proof. vm_compute. reflexivity. Qed.
Example v4_suback_parsing_works_read : whole_read V4Mod.read [144; 4; 0; 15; 1; 128; 222; 173; 190; 239] = Ok (V4Mod.SubAck (V4SubAck.mkSubAck 15 [(V4SubAck.Success AtLeastOnce); V4SubAck.Failure])).
Proof. vm_compute. reflexivity. Qed.

(** src/v4/subscribe.rs:154 `subscribe_parsing_works` *)
Example v4_subscribe_parsing_works : test_read V4Subscribe.read [130; 20; 1; 4; 0; 3; 97; 47; 43; 0; 0; 1; 35; 1; 0; 5; 97; 47; 98; 47; 99; 2; 222; 173; 190; 239] = Ok (V4Subscribe.mkSubscribe 260 [(V4Subscribe.filter_new [97; 47; 43] AtMostOnce); (V4Subscribe.filter_new [35] AtLeastOnce); (V4Subscribe.filter_new [97; 47; 98; 47; 99] ExactlyOnce)]).
Proof. vm_compute. reflexivity. Qed.
Example v4_subscribe_parsing_works_read : whole_read V4Mod.read [130; 20; 1; 4; 0; 3; 97; 47; 43; 0; 0; 1; 35; 1; 0; 5; 97; 47; 98; 47; 99; 2; 222; 173; 190; 239] = Ok (V4Mod.Subscribe (V4Subscribe.mkSubscribe 260 [(V4Subscribe.filter_new [97; 47; 43] AtMostOnce); (V4Subscribe.filter_new [35] AtLeastOnce); (V4Subscribe.filter_new [97; 47; 98; 47; 99] ExactlyOnce)])).
Proof. vm_compute. reflexivity. Qed.

(** src/v4/subscribe.rs:202 `subscribe_encoding_works` *)
Example v4_subscribe_encoding_works : test_write V4Subscribe.write (V4Subscribe.mkSubscribe 260 [(V4Subscribe.filter_new [97; 47; 43] AtMostOnce); (V4Subscribe.filter_new [35] AtLeastOnce); (V4Subscribe.filter_new [97; 47; 98; 47; 99] ExactlyOnce)]) = Some [130; 20; 1; 4; 0; 3; 97; 47; 43; 0; 0; 1; 35; 1; 0; 5; 97; 47; 98; 47; 99; 2].
Proof. vm_compute. reflexivity. Qed.

(** src/topic.rs:94 *)
Example topic_1 : Topic.has_wildcards [97; 47; 98; 47; 99] = false.
Proof. vm_compute. reflexivity. Qed.

(** src/topic.rs:95 *)
Example topic_2 : Topic.has_wildcards [97; 47; 43; 47; 99] = true.
Proof. vm_compute. reflexivity. Qed.

(** src/topic.rs:96 *)
Example topic_3 : Topic.has_wildcards [97; 47; 98; 47; 35] = true.
Proof. vm_compute. reflexivity. Qed.

(** src/topic.rs:101 *)
Example topic_4 : Topic.valid_topic [43; 119; 114; 111; 110; 103] = false.
Proof. vm_compute. reflexivity. Qed.

(** src/topic.rs:102 *)
Example topic_5 : Topic.valid_topic [119; 114; 111; 35; 110; 103] = false.
Proof. vm_compute. reflexivity. Qed.

(** src/topic.rs:103 *)
Example topic_6 : Topic.valid_topic [119; 47; 114; 47; 111; 47; 110; 47; 103; 43] = false.
Proof. vm_compute. reflexivity. Qed.

(** src/topic.rs:104 *)
Example topic_7 : Topic.valid_topic [119; 114; 111; 110; 103; 47; 35; 47; 112; 97; 116; 104] = false.
Proof. vm_compute. reflexivity. Qed.

(** src/topic.rs:109 *)
Example topic_8 : Topic.valid_filter [119; 114; 111; 110; 103; 47; 35; 47; 102; 105; 108; 116; 101; 114] = false.
Proof. vm_compute. reflexivity. Qed.

(** src/topic.rs:110 *)
Example topic_9 : Topic.valid_filter [119; 114; 111; 110; 103; 47; 119; 114; 35; 110; 103; 47; 102; 105; 108; 116; 101; 114] = false.
Proof. vm_compute. reflexivity. Qed.

(** src/topic.rs:111 *)
Example topic_10 : Topic.valid_filter [119; 114; 111; 110; 103; 47; 102; 105; 108; 116; 101; 114; 35] = false.
Proof. vm_compute. reflexivity. Qed.

(** src/topic.rs:112 *)
Example topic_11 : Topic.valid_filter [99; 111; 114; 114; 101; 99; 116; 47; 102; 105; 108; 116; 101; 114; 47; 35] = true.
Proof. vm_compute. reflexivity. Qed.

(** src/topic.rs:117 *)
Example topic_12 : Topic.valid_filter [] = false.
Proof. vm_compute. reflexivity. Qed.

(** src/topic.rs:122 *)
Example topic_13 : Topic.matches [115; 121; 36; 116; 101; 109; 47; 109; 101; 116; 114; 105; 99; 115] [115; 121; 36; 116; 101; 109; 47; 43] = Ok true.
Proof. vm_compute. reflexivity. Qed.

(** src/topic.rs:123 *)
Example topic_14 : Topic.matches [36; 115; 121; 115; 116; 101; 109; 47; 109; 101; 116; 114; 105; 99; 115] [36; 115; 121; 115; 116; 101; 109; 47; 43] = Ok false.
Proof. vm_compute. reflexivity. Qed.

(** src/topic.rs:124 *)
Example topic_15 : Topic.matches [36; 115; 121; 115; 116; 101; 109; 47; 109; 101; 116; 114; 105; 99; 115] [43; 47; 43] = Ok false.
Proof. vm_compute. reflexivity. Qed.

(** src/topic.rs:131 *)
Example topic_16 : Topic.matches [97; 47; 98; 47; 99] [97; 47; 98; 47; 99] = Ok true.
Proof. vm_compute. reflexivity. Qed.

(** src/topic.rs:135 *)
Example topic_17 : Topic.matches [97; 47; 98; 47; 99] [100; 47; 98; 47; 99] = Ok false.
Proof. vm_compute. reflexivity. Qed.

(** src/topic.rs:139 *)
Example topic_18 : Topic.matches [97; 47; 98; 47; 99] [97; 47; 98; 47; 101] = Ok false.
Proof. vm_compute. reflexivity. Qed.

(** src/topic.rs:143 *)
Example topic_19 : Topic.matches [97; 47; 98; 47; 99] [97; 47; 98; 47; 99; 47; 100] = Ok false.
Proof. vm_compute. reflexivity. Qed.

(** src/topic.rs:147 *)
Example topic_20 : Topic.matches [97; 47; 98; 47; 99] [35] = Ok true.
Proof. vm_compute. reflexivity. Qed.

(** src/topic.rs:151 *)
Example topic_21 : Topic.matches [97; 47; 98; 47; 99] [97; 47; 98; 47; 99; 47; 35] = Ok true.
Proof. vm_compute. reflexivity. Qed.

(** src/topic.rs:155 *)
Example topic_22 : Topic.matches [97; 47; 98; 47; 99; 47; 100] [97; 47; 98; 47; 99] = Ok false.
Proof. vm_compute. reflexivity. Qed.

(** src/topic.rs:159 *)
Example topic_23 : Topic.matches [97; 47; 98; 47; 99; 47; 100] [97; 47; 98; 47; 99; 47; 35] = Ok true.
Proof. vm_compute. reflexivity. Qed.

(** src/topic.rs:163 *)
Example topic_24 : Topic.matches [97; 47; 98; 47; 99; 47; 100; 47; 101; 47; 102] [97; 47; 98; 47; 99; 47; 35] = Ok true.
Proof. vm_compute. reflexivity. Qed.

(** src/topic.rs:167 *)
Example topic_25 : Topic.matches [97; 47; 98; 47; 99] [97; 47; 43; 47; 99] = Ok true.
Proof. vm_compute. reflexivity. Qed.

(** src/topic.rs:170 *)
Example topic_26 : Topic.matches [97; 47; 98; 47; 99; 47; 100; 47; 101] [97; 47; 43; 47; 99; 47; 43; 47; 101] = Ok true.
Proof. vm_compute. reflexivity. Qed.

(** src/topic.rs:174 *)
Example topic_27 : Topic.matches [97; 47; 98] [97; 47; 98; 47; 43] = Ok false.
Proof. vm_compute. reflexivity. Qed.

(** src/topic.rs:178 *)
Example topic_28 : Topic.matches [97; 47; 98; 47; 43] [97; 47; 98; 47; 35] = Ok true.
Proof. vm_compute. reflexivity. Qed.

(** src/topic.rs:179 *)
Example topic_29 : Topic.matches [97; 47; 98; 47; 35] [97; 47; 98; 47; 43] = Ok false.
Proof. vm_compute. reflexivity. Qed.

(** src/topic.rs:183 *)
Example topic_30 : Topic.matches [97; 47; 98; 47; 43] [35] = Ok true.
Proof. vm_compute. reflexivity. Qed.

(** src/topic.rs:187 *)
Example topic_31 : Topic.matches [97; 47; 43; 47; 99; 47; 100] [97; 47; 43; 47; 43; 47; 100] = Ok true.
Proof. vm_compute. reflexivity. Qed.

(** src/topic.rs:188 *)
Example topic_32 : Topic.matches [97; 47; 43; 47; 43; 47; 100] [97; 47; 43; 47; 99; 47; 100] = Ok false.
Proof. vm_compute. reflexivity. Qed.
