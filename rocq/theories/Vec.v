(** Three-component vectors and 3x3 matrices over the reals: the numpy operations
    (+, -, scalar *, np.dot, np.cross, np.linalg.norm, np.linalg.inv) that the models use.
    Nothing here models project code. *)
Require Import Reals.
Require Import Verif.Base.
Local Open Scope R_scope.

Record Vec := mkVec { vx : R; vy : R; vz : R }.

Definition vadd (a b : Vec) : Vec := mkVec (vx a + vx b) (vy a + vy b) (vz a + vz b).
Definition vsub (a b : Vec) : Vec := mkVec (vx a - vx b) (vy a - vy b) (vz a - vz b).
Definition vscale (k : R) (a : Vec) : Vec := mkVec (k * vx a) (k * vy a) (k * vz a).
Definition vdot (a b : Vec) : R := vx a * vx b + vy a * vy b + vz a * vz b.
Definition vcross (a b : Vec) : Vec :=
  mkVec (vy a * vz b - vz a * vy b) (vz a * vx b - vx a * vz b) (vx a * vy b - vy a * vx b).
Definition vnorm (a : Vec) : R := sqrt (vdot a a).
Definition vzero : Vec := mkVec 0 0 0.

(** A matrix is its three rows. *)
Record Mat := mkMat { row1 : Vec; row2 : Vec; row3 : Vec }.

Definition mulv (m : Mat) (v : Vec) : Vec := mkVec (vdot (row1 m) v) (vdot (row2 m) v) (vdot (row3 m) v).
Definition det (m : Mat) : R := vdot (row1 m) (vcross (row2 m) (row3 m)).

(** The adjugate: its columns are the cross products of the rows. *)
Definition adjugate (m : Mat) : Mat :=
  let a := vcross (row2 m) (row3 m) in
  let b := vcross (row3 m) (row1 m) in
  let c := vcross (row1 m) (row2 m) in
  mkMat (mkVec (vx a) (vx b) (vx c)) (mkVec (vy a) (vy b) (vy c)) (mkVec (vz a) (vz b) (vz c)).

(** np.linalg.inv: raises LinAlgError for a singular matrix. *)
Definition mat_inv (m : Mat) : res Mat :=
  if Req_EM_T (det m) 0 then Err LinAlgError
  else let k := / det m in
       let a := adjugate m in
       Ok (mkMat (vscale k (row1 a)) (vscale k (row2 a)) (vscale k (row3 a))).
