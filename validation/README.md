# Running the model on the project's test data

The sensor models can be extracted to OCaml and run on the XML and GCP data of
`/repo/test/data`, with the expectations of the project's own tests. Nothing here is
part of the proofs: real numbers become floats, and WGS84 conversions, least squares
and Nelder-Mead are written out in the driver.

* `extract.v.txt`: the extraction commands (rename to `Extract.v`, compile in an empty
  directory with `coqc -R /verif/rocq/theories Verif Extract.v`).
* `gen.py`: turns the test data into `data.ml`.
* `driver.ml.txt`: the checks (rename to `driver.ml`).
* `order.txt`: the order in which the extracted files are linked.

Remove the generated `.mli` files, make the value that stands for `sig_forall_dec` a
function, and link with `ocamlfind ocamlopt -w -a $(cat order.txt) data.ml driver.ml`.

The run of November 2026 printed `141 checks, 0 failures`. It covers the expectations
of `test_sensor_model_factory.py` (RPC corners, ICHIPB chip, RSM, CSCRNA, ground control
points), `test_sicd_sensor_model.py` (three products, with and without a terrain model,
image corner points and round trips) and `test_sidd_sensor_model.py` (whole and chipped).
The tests of single functions are Coq theorems: `TestVectors.v` and `SensorVectors.v`.
