(** tests/BufferedOutTest.cpp evaluated on the model (a check of the model, not a proof).
    [buffer] is the 128-byte static array of line 6; the tests share it, so it is filled here with a value
    no test writes. *)
From Coq Require Import String Ascii.
From Flocq Require Import IEEE754.Binary IEEE754.Bits.
From Verif Require Import Base M_BufferedOut.

Definition text (s : string) : list Z := List.map (fun c => Z.of_nat (nat_of_ascii c)) (list_ascii_of_string s).
Definition buffer : list Z := repeat 255 128.
Definition view_after (os : list op) : res (list Z) := do s <- run os (create buffer); Ok (asStringView s).
Definition data_after (os : list op) : res (list Z) := do s <- run os (create buffer); Ok (data s).
Definition size_after (os : list op) : res Z := do s <- run os (create buffer); Ok (size s).

(** BufferedOutTest.cpp:11-16 *)
Example DefaultConstructor : size (create buffer) = 0 /\ capacity (create buffer) = 128.
Proof. split; reflexivity. Qed.
(** BufferedOutTest.cpp:18-35 *)
Example OperatorInt : view_after [OI (IInt 123 [])] = Ok (text "123").
Proof. vm_compute. reflexivity. Qed.
Example OperatorLongLong : view_after [OI (IInt 123456789012345 [])] = Ok (text "123456789012345").
Proof. vm_compute. reflexivity. Qed.
Example OperatorUnsignedLongLong : view_after [OI (IInt 923456789012345 [])] = Ok (text "923456789012345").
Proof. vm_compute. reflexivity. Qed.
(** BufferedOutTest.cpp:37-42; 0x42F6E979 is the binary32 pattern of 123.456f *)
Example OperatorFloat : view_after [OI (IPrecision 2); OFloat (b32_of_bits 0x42F6E979) []] = Ok (text "123.45").
Proof. vm_compute. reflexivity. Qed.
(** BufferedOutTest.cpp:44-61 (both tests have the same body) *)
Example OperatorBytesView : data_after [OI (ISpan [0x01; 0x02; 0xF3])] = Ok (text "0102F3").
Proof. vm_compute. reflexivity. Qed.
(** BufferedOutTest.cpp:63-73 *)
Example Width : data_after [OI (IWidth 6); OI (IInt 42 []); OI (IInt 123 [])] = Ok (text "    42123").
Proof. vm_compute. reflexivity. Qed.
Example FillWidth : data_after [OI (IFill 48); OI (IWidth 6); OI (IInt 42 [])] = Ok (text "000042").
Proof. vm_compute. reflexivity. Qed.
(** BufferedOutTest.cpp:75-82 *)
Example FillWidthCombined :
  (do s <- run [OI (IFill 48); OI (IWidth 2); OI (IInt 11 []); OI (ICStr (text ":" ++ [0])); OI (IWidth 2); OI (IInt 4 [])]
               (create (repeat 0 20));
   Ok (asStringView s)) = Ok (text "11:04").
Proof. vm_compute. reflexivity. Qed.
(** BufferedOutTest.cpp:84-101 *)
Example Size : size_after [OI (ICStr (text "Hello" ++ [0]))] = Ok 5.
Proof. vm_compute. reflexivity. Qed.
Example Capacity : capacity (create buffer) = zlen buffer.
Proof. reflexivity. Qed.
Example Clear : size_after [OI (IInt 123 []); OClear] = Ok 0.
Proof. vm_compute. reflexivity. Qed.
