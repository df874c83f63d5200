(** The expectations of /repo/tests/src/type_list_tests.cpp and value_list_tests.cpp,
    evaluated in the model.  They prove no property; they check that the model computes
    what the project's own tests observe.  Every static_assert of the two files is here
    but those about references as values, which are in TraitsTests.v. *)

Require Import ZArith List Bool.
Require Import Verif.TypeListModel.
Import ListNotations.
Open Scope nat_scope.

(** the types of the tests: a number for the type and its size *)
Definition FileError := TAtom 1 1.
Definition Int := TAtom 2 4.
Definition ReaderError := TAtom 3 1.
Definition Float := TAtom 4 4.
Definition WriterError := TAtom 5 1.
Definition Double := TAtom 6 8.
Definition UInt8 := TAtom 7 1.
Definition Bool_ := TAtom 8 1.
Definition Char := TAtom 9 1.
Definition Int16 := TAtom 10 2.
Definition UInt16 := TAtom 11 2.
Definition Int64 := TAtom 12 8.
Definition UInt64 := TAtom 13 8.
Definition Int8 := TAtom 14 1.
Definition UInt32 := TAtom 15 4.
Definition Void := TAtom 16 1.
Definition one_of (ids : list nat) (t : ty) : bool :=
  match t with TAtom i _ => existsb (Nat.eqb i) ids | _ => false end.
Definition is_enum := one_of [1; 3; 5].
Definition is_signed := one_of [2; 4; 6; 9; 10; 12; 14].
Definition is_integral := one_of [2; 7; 8; 9; 10; 11; 12; 13; 14; 15].
Definition is_floating := one_of [4; 6].
Definition is_void := one_of [16].
Definition is_class (t : ty) : bool := match t with TAtom _ _ => false | _ => true end.
Definition is_file_error := one_of [1].
Definition elems (t : ty) : list ty := match t with TTypes l => l | _ => [] end.
Definition vals (t : ty) : list val := match t with TValues l => l | _ => [] end.


(** type_list_tests.cpp:29-36 Size *)
Example types_size :
  (length (elems (TTypes []))) = 0 /\
  (length (elems (TTypes [FileError]))) = 1 /\
  (length (elems (TTypes [FileError; Int; ReaderError]))) = 3.
Proof. repeat split; vm_compute; reflexivity. Qed.

(** type_list_tests.cpp:43-70 At *)
Example types_at :
  at_impl 0 (elems (TTypes [FileError; Int; ReaderError; Float; FileError; WriterError])) = Some FileError /\
  at_impl 1 (elems (TTypes [FileError; Int; ReaderError; Float; FileError; WriterError])) = Some Int /\
  at_impl 2 (elems (TTypes [FileError; Int; ReaderError; Float; FileError; WriterError])) = Some ReaderError /\
  at_impl 3 (elems (TTypes [FileError; Int; ReaderError; Float; FileError; WriterError])) = Some Float /\
  at_impl 4 (elems (TTypes [FileError; Int; ReaderError; Float; FileError; WriterError])) = Some FileError /\
  at_impl 5 (elems (TTypes [FileError; Int; ReaderError; Float; FileError; WriterError])) = Some WriterError /\
  at_with_predicate is_file_error 0 (elems (TTypes [FileError; Int; ReaderError; Float; FileError; WriterError])) = Some FileError /\
  at_with_predicate is_file_error 1 (elems (TTypes [FileError; Int; ReaderError; Float; FileError; WriterError])) = Some FileError /\
  at_with_predicate is_enum 0 (elems (TTypes [FileError; Int; ReaderError; Float; FileError; WriterError])) = Some FileError /\
  at_with_predicate is_enum 1 (elems (TTypes [FileError; Int; ReaderError; Float; FileError; WriterError])) = Some ReaderError /\
  at_with_predicate is_enum 2 (elems (TTypes [FileError; Int; ReaderError; Float; FileError; WriterError])) = Some FileError /\
  at_with_predicate is_enum 3 (elems (TTypes [FileError; Int; ReaderError; Float; FileError; WriterError])) = Some WriterError.
Proof. repeat split; vm_compute; reflexivity. Qed.

(** type_list_tests.cpp:72-107 IndexOf *)
Example types_index_of :
  (index_of is_enum (elems (TTypes []))) = (length (elems (TTypes []))) /\
  (index_of is_signed (elems (TTypes []))) = (length (elems (TTypes []))) /\
  (index_of is_void (elems (TTypes []))) = (length (elems (TTypes []))) /\
  (index_of is_enum (elems (TTypes [FileError]))) = 0 /\
  (index_of is_signed (elems (TTypes [FileError]))) = (length (elems (TTypes [FileError]))) /\
  (index_of is_void (elems (TTypes [FileError]))) = (length (elems (TTypes [FileError]))) /\
  (index_of is_signed (elems (TTypes [FileError; Int; ReaderError; Float; FileError; WriterError]))) = 1 /\
  (index_of is_floating (elems (TTypes [FileError; Int; ReaderError; Float; FileError; WriterError]))) = 3 /\
  (index_of is_enum (elems (TTypes [FileError; Int; ReaderError; Float; FileError; WriterError]))) = 0 /\
  (index_of is_void (elems (TTypes [FileError; Int; ReaderError; Float; FileError; WriterError]))) = (length (elems (TTypes [FileError; Int; ReaderError; Float; FileError; WriterError]))).
Proof. repeat split; vm_compute; reflexivity. Qed.

(** type_list_tests.cpp:109-152 FirstIndexOfType *)
Example types_first_index_of_type :
  (first_index_of_type Float (elems (TTypes []))) = (length (elems (TTypes []))) /\
  (first_index_of_type Int (elems (TTypes []))) = (length (elems (TTypes []))) /\
  (first_index_of_type FileError (elems (TTypes []))) = (length (elems (TTypes []))) /\
  (first_index_of_type FileError (elems (TTypes [FileError]))) = 0 /\
  (first_index_of_type Int (elems (TTypes [FileError]))) = (length (elems (TTypes [FileError]))) /\
  (first_index_of_type Char (elems (TTypes [FileError]))) = (length (elems (TTypes [FileError]))) /\
  (first_index_of_type FileError (elems (TTypes [FileError; Int; ReaderError; Float; FileError; WriterError]))) = 0 /\
  (first_index_of_type Int (elems (TTypes [FileError; Int; ReaderError; Float; FileError; WriterError]))) = 1 /\
  (first_index_of_type ReaderError (elems (TTypes [FileError; Int; ReaderError; Float; FileError; WriterError]))) = 2 /\
  (first_index_of_type Float (elems (TTypes [FileError; Int; ReaderError; Float; FileError; WriterError]))) = 3 /\
  (first_index_of_type WriterError (elems (TTypes [FileError; Int; ReaderError; Float; FileError; WriterError]))) = 5 /\
  (first_index_of_type UInt16 (elems (TTypes [FileError; Int; ReaderError; Float; FileError; WriterError]))) = (length (elems (TTypes [FileError; Int; ReaderError; Float; FileError; WriterError]))).
Proof. repeat split; vm_compute; reflexivity. Qed.

(** type_list_tests.cpp:154-181 IsSame *)
Example types_is_same :
  is_same (elems (TTypes [])) = true /\
  is_same (elems (TTypes [FileError])) = true /\
  is_same (elems (TTypes [FileError; Int; ReaderError; Float; FileError; WriterError])) = false /\
  is_same (elems (TTypes [Int; Int; Int; Int; Int; Int])) = true.
Proof. repeat split; vm_compute; reflexivity. Qed.

(** type_list_tests.cpp:183-213 CountOf *)
Example types_count_of :
  (count_of FileError (elems (TTypes []))) = 0 /\
  (count_of Int (elems (TTypes []))) = 0 /\
  (count_of ReaderError (elems (TTypes []))) = 0 /\
  (count_of FileError (elems (TTypes [FileError]))) = 1 /\
  (count_of Int (elems (TTypes [FileError]))) = 0 /\
  (count_of ReaderError (elems (TTypes [FileError]))) = 0 /\
  (count_of FileError (elems (TTypes [FileError; Int; ReaderError; Float; FileError; WriterError; FileError]))) = 3 /\
  (count_of Int (elems (TTypes [FileError; Int; ReaderError; Float; FileError; WriterError; FileError]))) = 1 /\
  (count_of ReaderError (elems (TTypes [FileError; Int; ReaderError; Float; FileError; WriterError; FileError]))) = 1 /\
  (count_of Float (elems (TTypes [FileError; Int; ReaderError; Float; FileError; WriterError; FileError]))) = 1 /\
  (count_of WriterError (elems (TTypes [FileError; Int; ReaderError; Float; FileError; WriterError; FileError]))) = 1 /\
  (count_of Double (elems (TTypes [FileError; Int; ReaderError; Float; FileError; WriterError; FileError]))) = 0.
Proof. repeat split; vm_compute; reflexivity. Qed.

(** type_list_tests.cpp:215-266 CountOfPredicateCompliant *)
Example types_count_of_predicate_compliant :
  (count_of_predicate_compliant is_enum (elems (TTypes []))) = 0 /\
  (count_of_predicate_compliant is_integral (elems (TTypes []))) = 0 /\
  (count_of_predicate_compliant is_floating (elems (TTypes []))) = 0 /\
  (count_of_predicate_compliant is_enum (elems (TTypes [FileError]))) = 1 /\
  (count_of_predicate_compliant is_integral (elems (TTypes [FileError]))) = 0 /\
  (count_of_predicate_compliant is_floating (elems (TTypes [FileError]))) = 0 /\
  (count_of_predicate_compliant is_enum (elems (TTypes [FileError; Int; ReaderError; Float; FileError; WriterError; Double; FileError]))) = 5 /\
  (count_of_predicate_compliant is_floating (elems (TTypes [FileError; Int; ReaderError; Float; FileError; WriterError; Double; FileError]))) = 2 /\
  (count_of_predicate_compliant is_integral (elems (TTypes [FileError; Int; ReaderError; Float; FileError; WriterError; Double; FileError]))) = 1 /\
  (count_of_predicate_compliant is_void (elems (TTypes [FileError; Int; ReaderError; Float; FileError; WriterError; Double; FileError]))) = 0.
Proof. repeat split; vm_compute; reflexivity. Qed.

(** type_list_tests.cpp:268-356 Contains *)
Example types_contains :
  contains (elems (TTypes [])) Void = false /\
  contains (elems (TTypes [])) Int = false /\
  contains (elems (TTypes [])) ReaderError = false /\
  contains (elems (TTypes [FileError])) FileError = true /\
  contains (elems (TTypes [FileError])) Int = false /\
  contains (elems (TTypes [FileError])) ReaderError = false /\
  contains (elems (TTypes [FileError; Int; ReaderError; Float; FileError; WriterError; Double; FileError])) FileError = true /\
  contains (elems (TTypes [FileError; Int; ReaderError; Float; FileError; WriterError; Double; FileError])) Int = true /\
  contains (elems (TTypes [FileError; Int; ReaderError; Float; FileError; WriterError; Double; FileError])) ReaderError = true /\
  contains (elems (TTypes [FileError; Int; ReaderError; Float; FileError; WriterError; Double; FileError])) Float = true /\
  contains (elems (TTypes [FileError; Int; ReaderError; Float; FileError; WriterError; Double; FileError])) WriterError = true /\
  contains (elems (TTypes [FileError; Int; ReaderError; Float; FileError; WriterError; Double; FileError])) Double = true /\
  contains (elems (TTypes [FileError; Int; ReaderError; Float; FileError; WriterError; Double; FileError])) UInt8 = false /\
  contains (elems (TTypes [FileError; Int; ReaderError; Float; FileError; WriterError; Double; FileError])) Void = false /\
  contains (elems (TTypes [])) (TTypes []) = true /\
  contains (elems (TTypes [FileError; Int; ReaderError; Float; FileError; WriterError; Double; FileError])) (TTypes []) = true /\
  contains (elems (TTypes [])) (TTypes [FileError; Int; ReaderError; Float; FileError; WriterError; Double; FileError]) = false /\
  contains (elems (TTypes [FileError; Int; ReaderError; Float; FileError; WriterError; Double; FileError])) (TTypes [Int; WriterError]) = true /\
  contains (elems (TTypes [FileError; Int; ReaderError; Float; FileError; WriterError; Double; FileError])) (TTypes [Int; WriterError; Bool_]) = false /\
  contains (elems (TTypes [FileError; Int; ReaderError; Float])) (TTypes [FileError; Int; ReaderError; Float]) = true /\
  contains (elems (TTypes [FileError; Int; ReaderError; Float])) (TTypes [Float; FileError; Int; ReaderError; Float; ReaderError]) = true.
Proof. repeat split; vm_compute; reflexivity. Qed.

(** type_list_tests.cpp:358-401 ContainsPredicateCompliant *)
Example types_contains_predicate_compliant :
  contains_predicate_compliant is_enum (elems (TTypes [])) = false /\
  contains_predicate_compliant is_integral (elems (TTypes [])) = false /\
  contains_predicate_compliant is_floating (elems (TTypes [])) = false /\
  contains_predicate_compliant is_enum (elems (TTypes [FileError])) = true /\
  contains_predicate_compliant is_integral (elems (TTypes [FileError])) = false /\
  contains_predicate_compliant is_floating (elems (TTypes [FileError])) = false /\
  contains_predicate_compliant is_enum (elems (TTypes [FileError; Int; ReaderError; Float; FileError; WriterError; Double; FileError])) = true /\
  contains_predicate_compliant is_floating (elems (TTypes [FileError; Int; ReaderError; Float; FileError; WriterError; Double; FileError])) = true /\
  contains_predicate_compliant is_integral (elems (TTypes [FileError; Int; ReaderError; Float; FileError; WriterError; Double; FileError])) = true /\
  contains_predicate_compliant is_void (elems (TTypes [FileError; Int; ReaderError; Float; FileError; WriterError; Double; FileError])) = false.
Proof. repeat split; vm_compute; reflexivity. Qed.

(** type_list_tests.cpp:403-432 ContainsCopies *)
Example types_contains_copies :
  contains_copies (elems (TTypes [])) = false /\
  contains_copies (elems (TTypes [FileError])) = false /\
  contains_copies (elems (TTypes [FileError; Int; ReaderError; Float; FileError; WriterError; Double; FileError])) = true /\
  contains_copies (elems (TTypes [FileError; Int; ReaderError; Float; Int16; WriterError; Double])) = false.
Proof. repeat split; vm_compute; reflexivity. Qed.

(** type_list_tests.cpp:434-513 ListOfPredicateCompliant *)
Example types_list_of_predicate_compliant :
  list_of_predicate_compliant is_enum (elems (TTypes [])) = Some (TTypes []) /\
  list_of_predicate_compliant is_enum (elems (TTypes [FileError])) = Some (TTypes [FileError]) /\
  list_of_predicate_compliant is_integral (elems (TTypes [FileError])) = Some (TTypes []) /\
  list_of_predicate_compliant is_enum (elems (TTypes [FileError; Int; ReaderError; Float; FileError; WriterError; Double; FileError])) = Some (TTypes [FileError; ReaderError; FileError; WriterError; FileError]) /\
  list_of_predicate_compliant is_floating (elems (TTypes [FileError; Int; ReaderError; Float; FileError; WriterError; Double; FileError])) = Some (TTypes [Float; Double]) /\
  list_of_predicate_compliant is_integral (elems (TTypes [FileError; Int; ReaderError; Float; FileError; WriterError; Double; FileError])) = Some (TTypes [Int]) /\
  list_of_predicate_compliant is_enum (elems (TTypes [FileError; Int; ReaderError; Float; Int16; Float; WriterError; UInt8; Double])) = Some (TTypes [FileError; ReaderError; WriterError]) /\
  list_of_predicate_compliant is_floating (elems (TTypes [FileError; Int; ReaderError; Float; Int16; Float; WriterError; UInt8; Double])) = Some (TTypes [Float; Float; Double]) /\
  list_of_predicate_compliant is_integral (elems (TTypes [FileError; Int; ReaderError; Float; Int16; Float; WriterError; UInt8; Double])) = Some (TTypes [Int; Int16; UInt8]) /\
  list_of_predicate_compliant is_class (elems (TTypes [FileError; Int; ReaderError; Float; Int16; Float; WriterError; UInt8; Double])) = Some (TTypes []).
Proof. repeat split; vm_compute; reflexivity. Qed.

(** type_list_tests.cpp:515-585 Concatenate *)
Example types_concatenate :
  concatenate [(TTypes [])] = Some (TTypes []) /\
  concatenate [(TTypes [Int])] = Some (TTypes [Int]) /\
  concatenate [(TTypes []); (TTypes [])] = Some (TTypes []) /\
  concatenate [(TTypes []); (TTypes [Int])] = Some (TTypes [Int]) /\
  concatenate [(TTypes [Int]); (TTypes [Int])] = Some (TTypes [Int; Int]) /\
  concatenate [(TTypes [Int; ReaderError; UInt8]); (TTypes [WriterError; FileError; Int16])] = Some (TTypes [Int; ReaderError; UInt8; WriterError; FileError; Int16]) /\
  concatenate [(TTypes [(TTypes [Int; ReaderError; UInt8]); (TTypes [WriterError; FileError; Int16])]); (TTypes [(TTypes [Double; Int; Char]); (TTypes [Float; ReaderError; UInt64])])] = Some (TTypes [(TTypes [Int; ReaderError; UInt8]); (TTypes [WriterError; FileError; Int16]); (TTypes [Double; Int; Char]); (TTypes [Float; ReaderError; UInt64])]).
Proof. repeat split; vm_compute; reflexivity. Qed.

(** type_list_tests.cpp:587-604 MinSizeofIndex *)
Example types_min_sizeof_index :
  min_sizeof_index (elems (TTypes [Char])) = Some 0 /\
  min_sizeof_index (elems (TTypes [Char; UInt8])) = Some 0 /\
  min_sizeof_index (elems (TTypes [Bool_; Char; UInt8])) = Some 0 /\
  min_sizeof_index (elems (TTypes [Bool_; Char; Int16; UInt8])) = Some 0 /\
  min_sizeof_index (elems (TTypes [Int64; Int; Bool_; UInt8])) = Some 2 /\
  min_sizeof_index (elems (TTypes [Int64; Int; Int; UInt8])) = Some 3.
Proof. repeat split; vm_compute; reflexivity. Qed.

(** type_list_tests.cpp:606-623 MaxSizeofIndex *)
Example types_max_sizeof_index :
  max_sizeof_index (elems (TTypes [Char])) = Some 0 /\
  max_sizeof_index (elems (TTypes [Char; UInt8])) = Some 0 /\
  max_sizeof_index (elems (TTypes [Bool_; Char; UInt8])) = Some 0 /\
  max_sizeof_index (elems (TTypes [Bool_; Char; Int16; UInt8])) = Some 2 /\
  max_sizeof_index (elems (TTypes [Int64; Int; Bool_; UInt8])) = Some 0 /\
  max_sizeof_index (elems (TTypes [Bool_; UInt64; Int64; Int; Int; UInt8])) = Some 1.
Proof. repeat split; vm_compute; reflexivity. Qed.

(** type_list_tests.cpp:625-680 Sublist *)
Example types_sublist :
  sublist 100 (elems (TTypes [])) 0 0 = Some (elems (TTypes [])) /\
  sublist 100 (elems (TTypes [Char])) 0 1 = Some (elems (TTypes [Char])) /\
  sublist 100 (elems (TTypes [Char])) 0 0 = Some (elems (TTypes [])) /\
  sublist 100 (elems (TTypes [Char; Bool_; Float; Char])) 0 0 = Some (elems (TTypes [])) /\
  sublist 100 (elems (TTypes [Char; Bool_; Float; Char])) 0 1 = Some (elems (TTypes [Char])) /\
  sublist 100 (elems (TTypes [Char; Bool_; Float; Char])) 0 2 = Some (elems (TTypes [Char; Bool_])) /\
  sublist 100 (elems (TTypes [Char; Bool_; Float; Char])) 0 3 = Some (elems (TTypes [Char; Bool_; Float])) /\
  sublist 100 (elems (TTypes [Char; Bool_; Float; Char])) 0 4 = Some (elems (TTypes [Char; Bool_; Float; Char])) /\
  sublist 100 (elems (TTypes [Char; Bool_; Float; Char])) 1 0 = Some (elems (TTypes [])) /\
  sublist 100 (elems (TTypes [Char; Bool_; Float; Char])) 1 1 = Some (elems (TTypes [Bool_])) /\
  sublist 100 (elems (TTypes [Char; Bool_; Float; Char])) 1 2 = Some (elems (TTypes [Bool_; Float])) /\
  sublist 100 (elems (TTypes [Char; Bool_; Float; Char])) 1 3 = Some (elems (TTypes [Bool_; Float; Char])) /\
  sublist 100 (elems (TTypes [Char; Bool_; Float; Char])) 2 0 = Some (elems (TTypes [])) /\
  sublist 100 (elems (TTypes [Char; Bool_; Float; Char])) 2 1 = Some (elems (TTypes [Float])) /\
  sublist 100 (elems (TTypes [Char; Bool_; Float; Char])) 2 2 = Some (elems (TTypes [Float; Char])) /\
  sublist 100 (elems (TTypes [Char; Bool_; Float; Char])) 3 0 = Some (elems (TTypes [])) /\
  sublist 100 (elems (TTypes [Char; Bool_; Float; Char])) 3 1 = Some (elems (TTypes [Char])).
Proof. repeat split; vm_compute; reflexivity. Qed.

(** type_list_tests.cpp:682-721 ExcludeAt *)
Example types_exclude_at :
  exclude_at 100 (elems (TTypes [Char])) 0 = Some (elems (TTypes [])) /\
  exclude_at 100 (elems (TTypes [Char; UInt8])) 0 = Some (elems (TTypes [UInt8])) /\
  exclude_at 100 (elems (TTypes [Char; UInt8])) 1 = Some (elems (TTypes [Char])) /\
  exclude_at 100 (elems (TTypes [Bool_; Char; UInt8])) 0 = Some (elems (TTypes [Char; UInt8])) /\
  exclude_at 100 (elems (TTypes [Bool_; Char; UInt8])) 1 = Some (elems (TTypes [Bool_; UInt8])) /\
  exclude_at 100 (elems (TTypes [Bool_; Char; UInt8])) 2 = Some (elems (TTypes [Bool_; Char])) /\
  exclude_at 100 (elems (TTypes [Float; Char; Int16; UInt8])) 0 = Some (elems (TTypes [Char; Int16; UInt8])) /\
  exclude_at 100 (elems (TTypes [Float; Char; Int16; UInt8])) 1 = Some (elems (TTypes [Float; Int16; UInt8])) /\
  exclude_at 100 (elems (TTypes [Float; Char; Int16; UInt8])) 2 = Some (elems (TTypes [Float; Char; UInt8])) /\
  exclude_at 100 (elems (TTypes [Float; Char; Int16; UInt8])) 3 = Some (elems (TTypes [Float; Char; Int16])).
Proof. repeat split; vm_compute; reflexivity. Qed.

(** type_list_tests.cpp:723-761 SortSizeofAscending *)
Example types_sort_sizeof_ascending :
  sort_sizeof_ascending 100 (elems (TTypes [])) = Some (elems (TTypes [])) /\
  sort_sizeof_ascending 100 (elems (TTypes [Bool_])) = Some (elems (TTypes [Bool_])) /\
  sort_sizeof_ascending 100 (elems (TTypes [Bool_; Char])) = Some (elems (TTypes [Bool_; Char])) /\
  sort_sizeof_ascending 100 (elems (TTypes [Bool_; Char; Int8])) = Some (elems (TTypes [Bool_; Char; Int8])) /\
  sort_sizeof_ascending 100 (elems (TTypes [Bool_; Int16])) = Some (elems (TTypes [Bool_; Int16])) /\
  sort_sizeof_ascending 100 (elems (TTypes [Int16; Bool_])) = Some (elems (TTypes [Bool_; Int16])) /\
  sort_sizeof_ascending 100 (elems (TTypes [Float; Bool_; Int16])) = Some (elems (TTypes [Bool_; Int16; Float])) /\
  sort_sizeof_ascending 100 (elems (TTypes [Float; Int16; Bool_])) = Some (elems (TTypes [Bool_; Int16; Float])) /\
  sort_sizeof_ascending 100 (elems (TTypes [Float; Int16; Bool_; Char])) = Some (elems (TTypes [Bool_; Char; Int16; Float])) /\
  sort_sizeof_ascending 100 (elems (TTypes [UInt16; Float; Int16; Bool_; Char])) = Some (elems (TTypes [Bool_; Char; UInt16; Int16; Float])).
Proof. repeat split; vm_compute; reflexivity. Qed.

(** type_list_tests.cpp:763-804 SortSizeofDescending *)
Example types_sort_sizeof_descending :
  sort_sizeof_descending 100 (elems (TTypes [])) = Some (elems (TTypes [])) /\
  sort_sizeof_descending 100 (elems (TTypes [Bool_])) = Some (elems (TTypes [Bool_])) /\
  sort_sizeof_descending 100 (elems (TTypes [Bool_; Char])) = Some (elems (TTypes [Bool_; Char])) /\
  sort_sizeof_descending 100 (elems (TTypes [Bool_; Char; Int8])) = Some (elems (TTypes [Bool_; Char; Int8])) /\
  sort_sizeof_descending 100 (elems (TTypes [Bool_; Int16])) = Some (elems (TTypes [Int16; Bool_])) /\
  sort_sizeof_descending 100 (elems (TTypes [Int16; Bool_])) = Some (elems (TTypes [Int16; Bool_])) /\
  sort_sizeof_descending 100 (elems (TTypes [Float; Bool_; Int16])) = Some (elems (TTypes [Float; Int16; Bool_])) /\
  sort_sizeof_descending 100 (elems (TTypes [Float; Int16; Bool_])) = Some (elems (TTypes [Float; Int16; Bool_])) /\
  sort_sizeof_descending 100 (elems (TTypes [Float; Int16; Bool_; Char])) = Some (elems (TTypes [Float; Int16; Bool_; Char])) /\
  sort_sizeof_descending 100 (elems (TTypes [UInt16; Float; Int16; Bool_; Char])) = Some (elems (TTypes [Float; UInt16; Int16; Bool_; Char])).
Proof. repeat split; vm_compute; reflexivity. Qed.

(** type_list_tests.cpp:806-892 CartesianProduct *)
Example types_cartesian_product :
  cartesian_product [(TTypes [Char]); (TTypes [Int; Float])] = Some (TTypes [(TTypes [Char; Int]); (TTypes [Char; Float])]) /\
  cartesian_product [(TTypes [Int; Float; Double]); (TTypes [Char; UInt32])] = Some (TTypes [(TTypes [Int; Char]); (TTypes [Int; UInt32]); (TTypes [Float; Char]); (TTypes [Float; UInt32]); (TTypes [Double; Char]); (TTypes [Double; UInt32])]) /\
  cartesian_product [(TTypes [Double; (TValues [(Val 2 1); (Val 2 2)]); UInt32]); (TTypes [(TTypes [Int16; Int]); Float]); (TTypes [Int; Char])] = Some (TTypes [(TTypes [Double; (TTypes [Int16; Int]); Int]); (TTypes [Double; (TTypes [Int16; Int]); Char]); (TTypes [Double; Float; Int]); (TTypes [Double; Float; Char]); (TTypes [(TValues [(Val 2 1); (Val 2 2)]); (TTypes [Int16; Int]); Int]); (TTypes [(TValues [(Val 2 1); (Val 2 2)]); (TTypes [Int16; Int]); Char]); (TTypes [(TValues [(Val 2 1); (Val 2 2)]); Float; Int]); (TTypes [(TValues [(Val 2 1); (Val 2 2)]); Float; Char]); (TTypes [UInt32; (TTypes [Int16; Int]); Int]); (TTypes [UInt32; (TTypes [Int16; Int]); Char]); (TTypes [UInt32; Float; Int]); (TTypes [UInt32; Float; Char])]) /\
  cartesian_product [(TTypes [Double; Char; UInt32]); (TTypes [Int16; Float]); (TTypes [Int])] = Some (TTypes [(TTypes [Double; Int16; Int]); (TTypes [Double; Float; Int]); (TTypes [Char; Int16; Int]); (TTypes [Char; Float; Int]); (TTypes [UInt32; Int16; Int]); (TTypes [UInt32; Float; Int])]) /\
  cartesian_product [(TTypes [Int]); (TTypes [Char])] = Some (TTypes [(TTypes [Int; Char])]).
Proof. repeat split; vm_compute; reflexivity. Qed.

(** value_list_tests.cpp:28-35 Size *)
Example values_size :
  (length (vals (TValues []))) = 0 /\
  (length (vals (TValues [(Val 1 6)]))) = 1 /\
  (length (vals (TValues [(Val 1 1); (Val 2 10); (Val 3 1)]))) = 3.
Proof. repeat split; vm_compute; reflexivity. Qed.

(** value_list_tests.cpp:37-76 At *)
Example values_at :
  v_at 0 (vals (TValues [(Val 1 6)])) = Some (Val 1 6) /\
  v_at 0 (vals (TValues [(Val 1 1); (Val 2 10); (Val 3 1)])) = Some (Val 1 1) /\
  v_at 1 (vals (TValues [(Val 1 1); (Val 2 10); (Val 3 1)])) = Some (Val 2 10) /\
  v_at 2 (vals (TValues [(Val 1 1); (Val 2 10); (Val 3 1)])) = Some (Val 3 1).
Proof. repeat split; vm_compute; reflexivity. Qed.

(** value_list_tests.cpp:78-110 IndexOf *)
Example values_index_of :
  (v_index_of (Val 1 1) (vals (TValues []))) = (length (vals (TValues []))) /\
  (v_index_of (Val 2 10) (vals (TValues []))) = (length (vals (TValues []))) /\
  (v_index_of (Val 1 6) (vals (TValues [(Val 1 6)]))) = 0 /\
  (v_index_of (Val 2 1) (vals (TValues [(Val 1 6)]))) = (length (vals (TValues [(Val 1 6)]))) /\
  (v_index_of (Val 1 3) (vals (TValues [(Val 1 6)]))) = (length (vals (TValues [(Val 1 6)]))) /\
  (v_index_of (Val 1 1) (vals (TValues [(Val 1 1); (Val 2 8); (Val 3 1); (Val 1 0); (Val 5 0); (Val 1 1)]))) = 0 /\
  (v_index_of (Val 2 8) (vals (TValues [(Val 1 1); (Val 2 8); (Val 3 1); (Val 1 0); (Val 5 0); (Val 1 1)]))) = 1 /\
  (v_index_of (Val 3 1) (vals (TValues [(Val 1 1); (Val 2 8); (Val 3 1); (Val 1 0); (Val 5 0); (Val 1 1)]))) = 2 /\
  (v_index_of (Val 1 0) (vals (TValues [(Val 1 1); (Val 2 8); (Val 3 1); (Val 1 0); (Val 5 0); (Val 1 1)]))) = 3 /\
  (v_index_of (Val 5 0) (vals (TValues [(Val 1 1); (Val 2 8); (Val 3 1); (Val 1 0); (Val 5 0); (Val 1 1)]))) = 4 /\
  (v_index_of (Val 2 0) (vals (TValues [(Val 1 1); (Val 2 8); (Val 3 1); (Val 1 0); (Val 5 0); (Val 1 1)]))) = (length (vals (TValues [(Val 1 1); (Val 2 8); (Val 3 1); (Val 1 0); (Val 5 0); (Val 1 1)]))).
Proof. repeat split; vm_compute; reflexivity. Qed.

(** value_list_tests.cpp:112-139 IsSame *)
Example values_is_same :
  v_is_all_same (vals (TValues [])) = true /\
  v_is_all_same (vals (TValues [(Val 1 3)])) = true /\
  v_is_all_same (vals (TValues [(Val 1 1); (Val 2 0); (Val 3 0); (Val 1 3)])) = false /\
  v_is_all_same (vals (TValues [(Val 2 0); (Val 2 0); (Val 2 0); (Val 2 0); (Val 2 0); (Val 2 0)])) = true.
Proof. repeat split; vm_compute; reflexivity. Qed.

(** value_list_tests.cpp:141-172 CountOf *)
Example values_count_of :
  (v_count_of (Val 1 3) (vals (TValues []))) = 0 /\
  (v_count_of (Val 2 1) (vals (TValues []))) = 0 /\
  (v_count_of (Val 3 1) (vals (TValues []))) = 0 /\
  (v_count_of (Val 1 3) (vals (TValues [(Val 1 3)]))) = 1 /\
  (v_count_of (Val 2 0) (vals (TValues [(Val 1 3)]))) = 0 /\
  (v_count_of (Val 3 0) (vals (TValues [(Val 1 3)]))) = 0 /\
  (v_count_of (Val 1 3) (vals (TValues [(Val 1 3); (Val 2 10); (Val 3 1); (Val 1 3); (Val 5 1); (Val 1 0)]))) = 2 /\
  (v_count_of (Val 2 10) (vals (TValues [(Val 1 3); (Val 2 10); (Val 3 1); (Val 1 3); (Val 5 1); (Val 1 0)]))) = 1 /\
  (v_count_of (Val 3 1) (vals (TValues [(Val 1 3); (Val 2 10); (Val 3 1); (Val 1 3); (Val 5 1); (Val 1 0)]))) = 1 /\
  (v_count_of (Val 5 1) (vals (TValues [(Val 1 3); (Val 2 10); (Val 3 1); (Val 1 3); (Val 5 1); (Val 1 0)]))) = 1 /\
  (v_count_of (Val 1 0) (vals (TValues [(Val 1 3); (Val 2 10); (Val 3 1); (Val 1 3); (Val 5 1); (Val 1 0)]))) = 1 /\
  (v_count_of (Val 14 3) (vals (TValues [(Val 1 3); (Val 2 10); (Val 3 1); (Val 1 3); (Val 5 1); (Val 1 0)]))) = 0.
Proof. repeat split; vm_compute; reflexivity. Qed.

(** value_list_tests.cpp:174-206 Contains *)
Example values_contains :
  v_contains (Val 2 0) (vals (TValues [])) = false /\
  v_contains (Val 1 1) (vals (TValues [])) = false /\
  v_contains (Val 14 1) (vals (TValues [])) = false /\
  v_contains (Val 1 2) (vals (TValues [(Val 1 2)])) = true /\
  v_contains (Val 2 10) (vals (TValues [(Val 1 2)])) = false /\
  v_contains (Val 3 1) (vals (TValues [(Val 1 2)])) = false /\
  v_contains (Val 1 1) (vals (TValues [(Val 1 1); (Val 2 10); (Val 3 0); (Val 1 0); (Val 5 0); (Val 1 0)])) = true /\
  v_contains (Val 2 10) (vals (TValues [(Val 1 1); (Val 2 10); (Val 3 0); (Val 1 0); (Val 5 0); (Val 1 0)])) = true /\
  v_contains (Val 3 0) (vals (TValues [(Val 1 1); (Val 2 10); (Val 3 0); (Val 1 0); (Val 5 0); (Val 1 0)])) = true /\
  v_contains (Val 1 0) (vals (TValues [(Val 1 1); (Val 2 10); (Val 3 0); (Val 1 0); (Val 5 0); (Val 1 0)])) = true /\
  v_contains (Val 5 0) (vals (TValues [(Val 1 1); (Val 2 10); (Val 3 0); (Val 1 0); (Val 5 0); (Val 1 0)])) = true /\
  v_contains (Val 14 15) (vals (TValues [(Val 1 1); (Val 2 10); (Val 3 0); (Val 1 0); (Val 5 0); (Val 1 0)])) = false /\
  v_contains (Val 2 1) (vals (TValues [(Val 1 1); (Val 2 10); (Val 3 0); (Val 1 0); (Val 5 0); (Val 1 0)])) = false.
Proof. repeat split; vm_compute; reflexivity. Qed.

(** value_list_tests.cpp:208-239 ContainsCopies *)
Example values_contains_copies :
  v_contains_copies (vals (TValues [])) = false /\
  v_contains_copies (vals (TValues [(Val 1 3)])) = false /\
  v_contains_copies (vals (TValues [(Val 1 1); (Val 2 10); (Val 3 1); (Val 1 3); (Val 5 2); (Val 1 1)])) = true /\
  v_contains_copies (vals (TValues [(Val 1 1); (Val 2 10); (Val 3 1); (Val 1 3); (Val 5 2); (Val 1 6)])) = false.
Proof. repeat split; vm_compute; reflexivity. Qed.

(** value_list_tests.cpp:241-271 ContainsType *)
Example values_contains_type :
  v_contains_type 1 (vals (TValues [])) = false /\
  v_contains_type 2 (vals (TValues [])) = false /\
  v_contains_type 3 (vals (TValues [])) = false /\
  v_contains_type 1 (vals (TValues [(Val 1 3)])) = true /\
  v_contains_type 2 (vals (TValues [(Val 1 3)])) = false /\
  v_contains_type 3 (vals (TValues [(Val 1 3)])) = false /\
  v_contains_type 1 (vals (TValues [(Val 1 3); (Val 2 10); (Val 3 1); (Val 1 3); (Val 5 1); (Val 1 0)])) = true /\
  v_contains_type 2 (vals (TValues [(Val 1 3); (Val 2 10); (Val 3 1); (Val 1 3); (Val 5 1); (Val 1 0)])) = true /\
  v_contains_type 3 (vals (TValues [(Val 1 3); (Val 2 10); (Val 3 1); (Val 1 3); (Val 5 1); (Val 1 0)])) = true /\
  v_contains_type 5 (vals (TValues [(Val 1 3); (Val 2 10); (Val 3 1); (Val 1 3); (Val 5 1); (Val 1 0)])) = true /\
  v_contains_type 7 (vals (TValues [(Val 1 3); (Val 2 10); (Val 3 1); (Val 1 3); (Val 5 1); (Val 1 0)])) = false.
Proof. repeat split; vm_compute; reflexivity. Qed.

(** value_list_tests.cpp:273-300 MinValueOfTypeT *)
Example values_min_value_of_type_t :
  v_min 1 (vals (TValues [(Val 1 3)])) = Some 3%Z /\
  v_min 1 (vals (TValues [(Val 1 1); (Val 2 10); (Val 3 1); (Val 1 3); (Val 5 2); (Val 3 0); (Val 1 1)])) = Some 1%Z /\
  v_min 2 (vals (TValues [(Val 1 1); (Val 2 10); (Val 3 1); (Val 1 3); (Val 5 2); (Val 3 0); (Val 1 1)])) = Some 10%Z /\
  v_min 3 (vals (TValues [(Val 1 1); (Val 2 10); (Val 3 1); (Val 1 3); (Val 5 2); (Val 3 0); (Val 1 1)])) = Some 0%Z /\
  v_min 1 (vals (TValues [(Val 1 6); (Val 2 10); (Val 3 1); (Val 1 3); (Val 5 2); (Val 1 1)])) = Some 1%Z.
Proof. repeat split; vm_compute; reflexivity. Qed.

(** value_list_tests.cpp:302-330 MaxValueOfTypeT *)
Example values_max_value_of_type_t :
  v_max 1 (vals (TValues [(Val 1 3)])) = Some 3%Z /\
  v_max 1 (vals (TValues [(Val 1 1); (Val 2 10); (Val 3 1); (Val 1 3); (Val 5 2); (Val 3 0); (Val 1 1)])) = Some 3%Z /\
  v_max 2 (vals (TValues [(Val 1 1); (Val 2 10); (Val 3 1); (Val 1 3); (Val 5 2); (Val 3 0); (Val 1 1)])) = Some 10%Z /\
  v_max 3 (vals (TValues [(Val 1 1); (Val 2 10); (Val 3 1); (Val 1 3); (Val 5 2); (Val 3 0); (Val 1 1)])) = Some 1%Z /\
  v_max 5 (vals (TValues [(Val 1 1); (Val 2 10); (Val 3 1); (Val 1 3); (Val 5 2); (Val 3 0); (Val 1 1)])) = Some 2%Z /\
  v_max 1 (vals (TValues [(Val 1 1); (Val 2 10); (Val 3 1); (Val 1 3); (Val 5 2); (Val 1 6)])) = Some 6%Z.
Proof. repeat split; vm_compute; reflexivity. Qed.

(** value_list_tests.cpp:332-373 AllOfTypeT *)
Example values_all_of_type_t :
  v_list_all_of 1 (vals (TValues [])) = Some (TValues []) /\
  v_list_all_of 2 (vals (TValues [])) = Some (TValues []) /\
  v_list_all_of 1 (vals (TValues [(Val 1 3)])) = Some (TValues [(Val 1 3)]) /\
  v_list_all_of 2 (vals (TValues [(Val 1 3)])) = Some (TValues []) /\
  v_list_all_of 1 (vals (TValues [(Val 1 1); (Val 2 10); (Val 3 1); (Val 1 3); (Val 5 2); (Val 3 0); (Val 1 1)])) = Some (TValues [(Val 1 1); (Val 1 3); (Val 1 1)]) /\
  v_list_all_of 3 (vals (TValues [(Val 1 1); (Val 2 10); (Val 3 1); (Val 1 3); (Val 5 2); (Val 3 0); (Val 1 1)])) = Some (TValues [(Val 3 1); (Val 3 0)]) /\
  v_list_all_of 5 (vals (TValues [(Val 1 1); (Val 2 10); (Val 3 1); (Val 1 3); (Val 5 2); (Val 3 0); (Val 1 1)])) = Some (TValues [(Val 5 2)]) /\
  v_list_all_of 4 (vals (TValues [(Val 1 1); (Val 2 10); (Val 3 1); (Val 1 3); (Val 5 2); (Val 3 0); (Val 1 1)])) = Some (TValues []).
Proof. repeat split; vm_compute; reflexivity. Qed.

(** value_list_tests.cpp:375-439 Concatenate *)
Example values_concatenate :
  concatenate [(TValues [])] = Some (TValues []) /\
  concatenate [(TValues [(Val 2 111)])] = Some (TValues [(Val 2 111)]) /\
  concatenate [(TValues []); (TValues [])] = Some (TValues []) /\
  concatenate [(TValues []); (TValues [(Val 2 111)])] = Some (TValues [(Val 2 111)]) /\
  concatenate [(TValues [(Val 2 111)]); (TValues [(Val 2 222)])] = Some (TValues [(Val 2 111); (Val 2 222)]) /\
  concatenate [(TValues [(Val 2 2); (Val 3 1); (Val 7 3)]); (TValues [(Val 5 1); (Val 1 2); (Val 10 0)])] = Some (TValues [(Val 2 2); (Val 3 1); (Val 7 3); (Val 5 1); (Val 1 2); (Val 10 0)]) /\
  concatenate [(TValues [(Val 2 111); (Val 3 1); (Val 7 3)]); (TValues [(Val 5 1); (Val 1 2); (Val 10 0)]); (TValues [(Val 9 116); (Val 2 333)])] = Some (TValues [(Val 2 111); (Val 3 1); (Val 7 3); (Val 5 1); (Val 1 2); (Val 10 0); (Val 9 116); (Val 2 333)]).
Proof. repeat split; vm_compute; reflexivity. Qed.

(** value_list_tests.cpp:441-496 CartesianProduct *)
Example values_cartesian_product :
  cartesian_product [(TValues [(Val 2 1)]); (TValues [(Val 2 4); (Val 2 5)])] = Some (TTypes [(TValues [(Val 2 1); (Val 2 4)]); (TValues [(Val 2 1); (Val 2 5)])]) /\
  cartesian_product [(TValues [(Val 2 1); (Val 2 2); (Val 2 3)]); (TValues [(Val 2 4); (Val 2 5)])] = Some (TTypes [(TValues [(Val 2 1); (Val 2 4)]); (TValues [(Val 2 1); (Val 2 5)]); (TValues [(Val 2 2); (Val 2 4)]); (TValues [(Val 2 2); (Val 2 5)]); (TValues [(Val 2 3); (Val 2 4)]); (TValues [(Val 2 3); (Val 2 5)])]) /\
  cartesian_product [(TValues [(Val 2 1); (Val 2 2); (Val 2 3)]); (TValues [(Val 2 4); (Val 2 5)]); (TValues [(Val 2 6); (Val 2 7)])] = Some (TTypes [(TValues [(Val 2 1); (Val 2 4); (Val 2 6)]); (TValues [(Val 2 1); (Val 2 4); (Val 2 7)]); (TValues [(Val 2 1); (Val 2 5); (Val 2 6)]); (TValues [(Val 2 1); (Val 2 5); (Val 2 7)]); (TValues [(Val 2 2); (Val 2 4); (Val 2 6)]); (TValues [(Val 2 2); (Val 2 4); (Val 2 7)]); (TValues [(Val 2 2); (Val 2 5); (Val 2 6)]); (TValues [(Val 2 2); (Val 2 5); (Val 2 7)]); (TValues [(Val 2 3); (Val 2 4); (Val 2 6)]); (TValues [(Val 2 3); (Val 2 4); (Val 2 7)]); (TValues [(Val 2 3); (Val 2 5); (Val 2 6)]); (TValues [(Val 2 3); (Val 2 5); (Val 2 7)])]) /\
  cartesian_product [(TValues [(Val 2 1); (Val 2 2); (Val 2 3)]); (TValues [(Val 2 4); (Val 2 5)]); (TValues [(Val 2 6)])] = Some (TTypes [(TValues [(Val 2 1); (Val 2 4); (Val 2 6)]); (TValues [(Val 2 1); (Val 2 5); (Val 2 6)]); (TValues [(Val 2 2); (Val 2 4); (Val 2 6)]); (TValues [(Val 2 2); (Val 2 5); (Val 2 6)]); (TValues [(Val 2 3); (Val 2 4); (Val 2 6)]); (TValues [(Val 2 3); (Val 2 5); (Val 2 6)])]) /\
  cartesian_product [(TValues [(Val 2 111)]); (TValues [(Val 2 222)])] = Some (TTypes [(TValues [(Val 2 111); (Val 2 222)])]).
Proof. repeat split; vm_compute; reflexivity. Qed.
