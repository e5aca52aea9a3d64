(** CPython's hash of ints and of tuples of ints (64 bit builds):
    Objects/longobject.c [long_hash] and Objects/tupleobject.c [tuplehash].
    Not part of tablite. *)
From Verif.Spec Require Export Base.
Local Open Scope Z_scope.

(** [hash(n)] for an int: reduction modulo 2^61 - 1 with the sign kept; the
    value -1 is reserved for errors and becomes -2. *)
Definition int_hash (n : Z) : Z :=
  let h := Z.sgn n * (Z.abs n mod (2 ^ 61 - 1)) in
  if h =? -1 then -2 else h.

Definition u64 (n : Z) : Z := n mod 2 ^ 64.
Definition s64 (n : Z) : Z := let n := u64 n in if n <? 2 ^ 63 then n else n - 2 ^ 64.
Definition rotl31 (x : Z) : Z := Z.lor (u64 (Z.shiftl x 31)) (Z.shiftr x 33).

Definition prime1 : Z := 11400714785074694791.
Definition prime2 : Z := 14029467366897019727.
Definition prime5 : Z := 2870177450012600261.

(** [hash(t)] from the hashes of the tuple's items *)
Definition tuple_hash (lanes : list Z) : Z :=
  let acc := fold_left (λ acc lane, u64 (rotl31 (u64 (acc + u64 lane * prime2)) * prime1)) lanes prime5 in
  let acc := u64 (acc + Z.lxor (Z.of_nat (length lanes)) (Z.lxor prime5 3527539)) in
  if acc =? 2 ^ 64 - 1 then 1546275796 else s64 acc.

(** [hash] of a tuple of ints *)
Definition ints_hash (key : list Z) : Z := tuple_hash (map int_hash key).

(** [hash((1, 2))] in CPython 3.8+ *)
Example tuple_hash_test : ints_hash [1; 2] = -3550055125485641917.
Proof. by vm_compute. Qed.
