(** The pixel grid of a SICD image in binary64 arithmetic, bit by bit.
    Source: src/aws/osml/photogrammetry/sicd_sensor_model.py:152-177, 1043-1050 and 1121-1128.
    Simplification: the sample spacings, the pixel of the scene centre and the first pixel are
    floats (ImageCoordinate holds numpy.float64 values, coordinates.py:305). *)
Require Import ZArith SpecFloat.
Require Import Verif.CoordFloatModel Verif.FloatModel.

(** sicd_sensor_model.py:110-138: the fields of SARImageCoordConverter that are read here. *)
Record FConverter := mkFConverter {
  fc_scp_row : spec_float; fc_scp_column : spec_float;
  fc_row_ss : spec_float; fc_column_ss : spec_float;
  fc_first_row : spec_float; fc_first_column : spec_float }.

(** sicd_sensor_model.py:152-164 [rowcol_to_xrowycol], either axis. *)
Definition f_from_pixel (pixel scp ss : spec_float) : spec_float := f_mul (f_sub pixel scp) ss.
(** sicd_sensor_model.py:166-177 [xrowycol_to_rowcol], either axis. *)
Definition f_from_grid (v scp ss : spec_float) : spec_float := f_add (f_div v ss) scp.

(** sicd_sensor_model.py:1043-1050, from the pixel (x, y) of the image or chip to (xrow, ycol). *)
Definition f_grid_location (c : FConverter) (x y : spec_float) : spec_float * spec_float :=
  (f_from_pixel (f_add y (fc_first_row c)) (fc_scp_row c) (fc_row_ss c),
   f_from_pixel (f_add x (fc_first_column c)) (fc_scp_column c) (fc_column_ss c)).

(** sicd_sensor_model.py:1121-1128, from (xrow, ycol) to the pixel (x, y) of the image or chip. *)
Definition f_to_pixel (c : FConverter) (xrow_ycol : spec_float * spec_float) : spec_float * spec_float :=
  (f_sub (f_from_grid (snd xrow_ycol) (fc_scp_column c) (fc_column_ss c)) (fc_first_column c),
   f_sub (f_from_grid (fst xrow_ycol) (fc_scp_row c) (fc_row_ss c)) (fc_first_row c)).
