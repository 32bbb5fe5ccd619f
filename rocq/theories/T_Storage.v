(** tests/PersistentStorageTest.cpp evaluated on the model (a check of the model, not a proof).
    [int] is 4 bytes, little-endian, so a [TestObj] (lines 9-18) is 12 bytes; [double] is 8 bytes.
    Not covered: the [std::string] of lines 131-133 and 137, whose bytes are those of a string object. *)
From Coq Require Import String Ascii.
From Verif Require Import Base M_Storage.

Definition key (s : string) : list Z := List.map (fun c => Z.of_nat (nat_of_ascii c)) (list_ascii_of_string s).
Definition int_bytes (n : Z) : list Z := [n mod 256; n / 256 mod 256; n / 65536 mod 256; n / 16777216 mod 256].
Definition testObj (x y z : Z) : list Z := int_bytes x ++ int_bytes y ++ int_bytes z.
Definition answers (s : st) (ops : list op) : res (list ans) := do ' (l, _) <- exec 200 s ops; Ok l.
Definition fresh (n : nat) : st := ctor_init (repeat 0 n).

(** PersistentStorageTest.cpp:25-42 *)
Example SetAndGetNewObject :
  answers (fresh 1024) [OSet (key "test") (testObj 1 2 3); OGet (key "test") 12]
  = Ok [ABool true; AOpt (Some (testObj 1 2 3))].
Proof. vm_compute. reflexivity. Qed.
(** PersistentStorageTest.cpp:45-72 *)
Example SetAndGetExistingObject :
  answers (fresh 1024) [OSet (key "test") (testObj 1 2 3); OGet (key "test") 12;
                        OSet (key "test") (testObj 4 5 6); OGet (key "test") 12]
  = Ok [ABool true; AOpt (Some (testObj 1 2 3)); ABool true; AOpt (Some (testObj 4 5 6))].
Proof. vm_compute. reflexivity. Qed.
(** PersistentStorageTest.cpp:75-86 *)
Example SetNotEnoughSpace : answers (fresh 17) [OSet (key "key") (testObj 1 2 3)] = Ok [ABool false].
Proof. vm_compute. reflexivity. Qed.
(** PersistentStorageTest.cpp:89-98, 157-165 *)
Example GetNonExistingIndex : answers (fresh 1024) [OGet (key "key") 4] = Ok [AOpt None].
Proof. vm_compute. reflexivity. Qed.
(** PersistentStorageTest.cpp:101-115 *)
Example GetWrongType :
  answers (fresh 1024) [OSet (key "key") (testObj 1 2 3); OGet (key "key") 8] = Ok [ABool true; AOpt None].
Proof. vm_compute. reflexivity. Qed.
(** PersistentStorageTest.cpp:118-138, without [key3]; 0x40490FD0 is the binary32 pattern of 3.14159f *)
Example GetSetTest :
  answers (fresh 1024) [OSet (key "key1") (int_bytes 123); OSet (key "key2") (int_bytes 0x40490FD0);
                        OGet (key "key1") 4; OGet (key "key2") 4]
  = Ok [ABool true; ABool true; AOpt (Some (int_bytes 123)); AOpt (Some (int_bytes 0x40490FD0))].
Proof. vm_compute. reflexivity. Qed.
(** PersistentStorageTest.cpp:141-154 *)
Example SetWithExistingKey :
  answers (fresh 1024) [OSet (key "key") (int_bytes 123); OGet (key "key") 4;
                        OSet (key "key") (int_bytes 456); OGet (key "key") 4]
  = Ok [ABool true; AOpt (Some (int_bytes 123)); ABool true; AOpt (Some (int_bytes 456))].
Proof. vm_compute. reflexivity. Qed.
(** PersistentStorageTest.cpp:168-203: two storages over one region; the first keeps its own head, so its
    later [get] (line 196) runs with the old head on the bytes the second has written *)
Example Persistence :
  let s0 := ctor_init (repeat 127 1024) in
  fold_right Z.add 0 (buf s0) = 0 /\
  (do ' (r1, s1) <- set 200 s0 (key "key1") (testObj 1 2 3);
   do g1 <- get 200 s1 (key "key1") 12;
   do t0 <- ctor_open 200 (buf s1);
   do ' (r2, t1) <- set 200 t0 (key "key2") (testObj 4 5 6);
   do g2 <- get 200 (mkst (buf t1) (head s1)) (key "key1") 12;
   do g3 <- get 200 t1 (key "key2") 12;
   Ok (r1, g1, r2, g2, g3))
  = Ok (true, Some (testObj 1 2 3), true, Some (testObj 1 2 3), Some (testObj 4 5 6)).
Proof. split; vm_compute; reflexivity. Qed.
