(** Rounding errors of polynomial sensor models.
    The other models compute with exact real numbers.  Here formulas are kept as syntax trees, in
    the order in which the code evaluates them, and every operation may err by a factor 1 + d with
    |d| at most the unit roundoff [u].  IEEE binary64 arithmetic, barring overflow and underflow, is
    the case u = 2^-53; a fused multiply-add is the case where the product has d = 0.
    Source: src/aws/osml/photogrammetry/rpc_sensor_model.py, replacement_sensor_model.py and
    gdal_sensor_model.py. *)
Require Import Reals List.
Require Import Verif.Base Verif.Vec Verif.RpcModel Verif.RsmModel.
Import ListNotations.
Local Open Scope R_scope.

(** Formulas; [Num] is a number that is available exactly (an input, a parameter, a constant). *)
Inductive expr :=
| Num (x : R)
| Add (a b : expr)
| Sub (a b : expr)
| Mul (a b : expr)
| Div (a b : expr)
| Pow (a : expr) (n : nat).

(** The value without rounding. *)
Fixpoint exact (e : expr) : R :=
  match e with
  | Num x => x
  | Add a b => exact a + exact b
  | Sub a b => exact a - exact b
  | Mul a b => exact a * exact b
  | Div a b => exact a / exact b
  | Pow a n => exact a ^ n
  end.

(** [computed u e x]: evaluation with unit roundoff [u] can give [x].  The library function pow may
    err twice as much as the basic operations. *)
Inductive computed (u : R) : expr -> R -> Prop :=
| CNum x : computed u (Num x) x
| CAdd a b x y d : computed u a x -> computed u b y -> Rabs d <= u -> computed u (Add a b) ((x + y) * (1 + d))
| CSub a b x y d : computed u a x -> computed u b y -> Rabs d <= u -> computed u (Sub a b) ((x - y) * (1 + d))
| CMul a b x y d : computed u a x -> computed u b y -> Rabs d <= u -> computed u (Mul a b) (x * y * (1 + d))
| CDiv a b x y d : computed u a x -> computed u b y -> y <> 0 -> Rabs d <= u -> computed u (Div a b) (x / y * (1 + d))
| CPow a n x d d' : computed u a x -> Rabs d <= u -> Rabs d' <= u -> computed u (Pow a n) (x ^ n * (1 + d) * (1 + d')).

(** rpc_sensor_model.py:165-167 and replacement_sensor_model.py:640-652: (value - offset) / scale. *)
Definition normalized (value offset scale : R) : expr := Div (Sub (Num value) (Num offset)) (Num scale).
(** rpc_sensor_model.py:175-176 and replacement_sensor_model.py:654-666. *)
Definition denormalized (e : expr) (offset scale : R) : expr := Add (Mul e (Num scale)) (Num offset).

(** rpc_sensor_model.py:27-64 [RPCPolynomial.evaluate]. *)
Definition rpc_terms (l p h : expr) : list (list expr) :=
  [[]; [l]; [p]; [h]; [l; p]; [l; h]; [p; h]; [l; l]; [p; p]; [h; h]; [l; p; h]; [l; l; l]; [l; p; p]; [l; h; h];
   [l; l; p]; [p; p; p]; [p; h; h]; [l; l; h]; [p; p; h]; [h; h; h]].
Definition rpc_formula (c : list R) (l p h : expr) : expr :=
  fold_left (fun result ct => Add result (fold_left Mul (snd ct) (Num (fst ct)))) (combine c (rpc_terms l p h)) (Num 0).

(** rpc_sensor_model.py:151-177 [world_to_image], with the longitude and latitude in degrees; the
    numerator, the denominator and then the pixel coordinate. *)
Definition rpc_normalized (m : RPC) (lon lat height : R) (k : expr -> expr -> expr -> expr) : expr :=
  k (normalized lon (long_off m) (long_scale m)) (normalized lat (lat_off m) (lat_scale m))
    (normalized height (height_off m) (height_scale m)).
Definition rpc_sample (m : RPC) (lon lat height : R) : expr :=
  denormalized (Div (rpc_normalized m lon lat height (rpc_formula (samp_num_poly m)))
                    (rpc_normalized m lon lat height (rpc_formula (samp_den_poly m)))) (samp_off m) (samp_scale m).
Definition rpc_line (m : RPC) (lon lat height : R) : expr :=
  denormalized (Div (rpc_normalized m lon lat height (rpc_formula (line_num_poly m)))
                    (rpc_normalized m lon lat height (rpc_formula (line_den_poly m)))) (line_off m) (line_scale m).

(** replacement_sensor_model.py:295-320 [RSMPolynomial.evaluate]. *)
Definition rsm_term (p : Poly) (x y z : expr) (k j i : nat) (st : expr * nat) : expr * nat :=
  (Add (fst st) (Mul (Mul (Mul (Num (nth (snd st) (coefs p) 0)) (Pow x i)) (Pow y j)) (Pow z k)), (snd st + 1)%nat).
Definition rsm_formula (p : Poly) (x y z : expr) : expr :=
  fst (fold_left (fun st k =>
         fold_left (fun st j =>
           fold_left (fun st i => rsm_term p x y z k j i st) (seq 0 (max_x p + 1)) st)
         (seq 0 (max_y p + 1)) st)
       (seq 0 (max_z p + 1)) (Num 0, 0%nat)).
(** replacement_sensor_model.py:568-584 [ground_domain_to_image]. *)
Definition rsm_normalized (m : RsmPoly) (v : Vec) (k : expr -> expr -> expr -> expr) : expr :=
  k (normalized (vx v) (x_off m) (x_scale m)) (normalized (vy v) (y_off m) (y_scale m)) (normalized (vz v) (z_off m) (z_scale m)).
Definition rsm_column (m : RsmPoly) (v : Vec) : expr :=
  denormalized (Div (rsm_normalized m v (rsm_formula (column_num m))) (rsm_normalized m v (rsm_formula (column_den m)))) (column_off m) (column_scale m).
Definition rsm_row (m : RsmPoly) (v : Vec) : expr :=
  denormalized (Div (rsm_normalized m v (rsm_formula (row_num m))) (rsm_normalized m v (rsm_formula (row_den m)))) (row_off m) (row_scale m).

(** gdal_sensor_model.py:82 and 122: np.matmul of a row with (x, y, 1), summed from the left. *)
Definition affine_formula (row : Vec) (x y : R) : expr :=
  Add (Add (Mul (Num (vx row)) (Num x)) (Mul (Num (vy row)) (Num y))) (Mul (Num (vz row)) (Num 1)).
