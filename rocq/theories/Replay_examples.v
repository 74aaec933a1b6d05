(** * Replay_examples: running the programs of examples/ on f32 and f64 values. Tests, not proofs. *)

From Coq Require Import ZArith List Bool.
From Flocq Require Import Core IEEE754.BinarySingleNaN.
From Verif Require Import Base Scalar Vec Mat3 Mat6 Slices MatLoops MatOps InstF Replay Programs.
Import ListNotations.
Open Scope Z_scope.

(** a number as multiple of 1e-6, rounded down *)
Definition micro {prec emax} (x : binary_float prec emax) : option Z :=
  match x with
  | B754_zero _ => Some 0
  | B754_finite s m e _ => Some (let k := (if s then -1 else 1) * Zpos m * 1000000 in if e <? 0 then k / 2 ^ (- e) else k * 2 ^ e)
  | _ => None
  end.
Definition int32 (x : Z) : f32 := lit x 0.
Definition int64 (x : Z) : f64 := lit x 0.

(** examples/eigenvalues.rs, the matrix of [main] *)
Definition eigen_m : M33 f32 := amap (amap int32) [| [| 5; 2; 0 |]; [| 2; 5; 0 |]; [| -3; 4; 6 |] |].
Definition eigen_tol : f32 := Bdiv mode_NE (int32 1) (int32 1000000000).

(** the eigenvalues are 7, 6 and 3 *)
Example test_eigenvalues :
  match eigenvalues eigen_tol 200 eigen_m with
  | Ok (e, counter) => Some (map micro (alist e), counter)
  | Panic => None
  end = Some ([Some 7000123; Some 5999868; Some 3000001], 59%nat).
Proof. vm_compute. reflexivity. Qed.

(** it stops because one entry below the diagonal is small; the entry at (1, 0) is still 1.7e-4 *)
Example test_eigenvalues_lower :
  match eigen_while eigen_tol 200 eigen_m false 0 with
  | Ok (m, _) => match get_lower_triangular 3 m with Ok l => Some (map micro (alist l)) | Panic => None end
  | Panic => None
  end = Some [Some 175; Some 0; Some (-1)].
Proof. vm_compute. reflexivity. Qed.

(** examples/solve_linear_system.rs and examples/inverse.rs *)
Definition system_a : M66 f64 := amap (amap int64)
  [| [| 1; 1; 3; 4; 9; 3 |]; [| 10; 10; 1; 2; 2; 5 |]; [| 2; 9; 6; 10; 10; 9 |];
     [| 10; 9; 9; 7; 3; 6 |]; [| 7; 6; 6; 2; 9; 5 |]; [| 3; 8; 1; 4; 1; 5 |] |].
Definition system_b : V6 f64 := amap int64 [| 0; 1; 3; 0; 1; 2 |].

Definition near (x : f64) (k : Z) : bool :=
  match Bcompare (Babs (Bminus mode_NE x (int64 k))) (Bdiv mode_NE (int64 1) (int64 1000000000000)) with
  | Some Lt => true
  | _ => false
  end.

Example test_solve :
  match solve D6 system_a system_b with
  | Ok (Some (x, check)) => Some (map (fun c => near (fst c) (snd c)) (combine (alist check) [0; 1; 3; 0; 1; 2]))
  | _ => None
  end = Some (repeat true 6).
Proof. vm_compute. reflexivity. Qed.

Example test_inverse :
  match inverse_check D6 system_a with
  | Ok (Some (_, check)) => Some (map (fun i => map (fun j => match mget check i j with Ok x => near x | Panic => fun _ => false end (if Nat.eqb i j then 1 else 0)) (seq 0 6)) (seq 0 6))
  | _ => None
  end = Some (repeat (repeat true 6) 6).
Proof. vm_compute. reflexivity. Qed.
