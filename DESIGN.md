# Formal model of osml-imagery-toolkit: design

This document says what is modelled and how, what is trusted, what was found, and
which theorems establish each property of `properties.jsonl`. Sections 5 to 7 are
tables generated from the Coq files.

## 1. Shape of the development

Each area of the code has up to four kinds of Coq files under `rocq/theories/`:

| suffix      | content |
|-------------|---------|
| `XModel.v`  | Gallina functions mirroring the Python functions branch by branch. Each definition cites the file and lines it models; what it leaves out is said in its comment or in the comment at the head of the file. No proofs. |
| `XSpec.v`   | The vocabulary of the English properties, written without the helpers of the model. |
| `XProofs.v` | Lemmas. |
| `XProps.v`  | The property theorems, named `Cnn_...` after the property, each with `Print Assumptions`, and an example `Cnn_non_vacuous` with concrete inputs that satisfy the hypotheses. |

Small areas have no `XSpec` or `XProofs` file. The areas, in build order:

| files | code |
|---|---|
| `Base`, `BaseFacts`, `Text`, `TextFacts`, `Vec`, `VecFacts` | nothing of the project: exceptions as values, rounding to integers, decimal digits, vectors |
| `Tile*`, `TileFloat*` | Web Mercator tile sets (the arithmetic also in bit-exact binary64) |
| `Coord*`, `CoordFloatModel`, `DmsFloat*` | formatting of coordinates, IGEOLO, names of elevation tiles (the last two and degrees, minutes and seconds also in binary64) |
| `Dem*`, `DemGdal*`, `DemThread*` | elevation models, their cache, tiles read with GDAL, use by several threads |
| `SensorBase`, `RpcModel`, `RsmModel`, `Poly*` | RPC and RSM sensor models |
| `Transform*` | projective transforms; projective, affine, chipped and composite sensor models |
| `Sicd*` | SICD sensor model: grid, range/range rate contours, ground plane, constant height surface, terrain |
| `SarMeta*`, `SicdMeta*` | SICD and SIDD metadata: sensor models built from it, updates for chips |
| `Schema*` | SICD and SIDD documents as the generated dataclasses: parsing and rendering, all classes and enumerations |
| `SarDoc*`, `ExampleDocs` | What the SICD and SIDD builders read of parsed documents and the updaters write to them; the example documents of the test data |
| `SarText*` | The XML elements and attributes that these numbers are the texts of, found by their names |
| `Xsd*` | The XML schemas the dataclasses were generated from, and documents that are valid against them |
| `TileDoc*`, `TileSidd*` | SICD and SIDD documents from the text in an image to the text in its tiles and back |
| `SarChip*` | sensor models of SIDD images that are chips, and of their tiles |
| `Display*`, `DisplayFloat*`, `DisplayHistProofs`, `Hist*` | range adjustment, output types and scales, display of SAR images (range adjustment and displayed pixels also in binary64) |
| `Config*` | temporary GDAL configuration, also in two threads |
| `Tre*` | TRE and DES documents |
| `Builder*` | sensor model builders and their selection, loading of datasets |
| `Ext*` | file name extensions |
| `Encode*`, `EncodeThread*` | encoded tiles, also of several threads |
| `Feature*`, `Geoloc*`, `Index*` | features: image geometries, geolocation, spatial index |
| `Geodesy*` | WGS 84: geodetic and geocentric coordinates, heights |
| `Ortho*` | orthophotos and their registration on the map |
| `Round*` | rounding errors of the RPC, RSM and affine formulas |
| `Float*` | the same formulas, degrees, radians and whole numbers in bit-exact binary64 |
| `RpcFloat*` | the rational polynomial camera in bit-exact binary64, with underflow |
| `RsmFloat*` | the RSM polynomial camera in bit-exact binary64, with any accurate power function |
| `SectionFloat*` | the low order polynomials and the choice of the section of an RSM sectioned polynomial camera in bit-exact binary64 |
| `LongitudeFloat*` | the longitude of an RSM ground domain of 0 to 2 pi in bit-exact binary64, with numpy's remainder |
| `SicdPixelFloat*` | pixels and image grid locations of a SICD image or chip in bit-exact binary64 |
| `GridFloat*` | one axis of the approximation grid of the geolocator, with numpy's linspace, in bit-exact binary64 |
| `Heap*` | coordinates as mutable objects, under all sensor and elevation models |
| `Open*` | from a file to its sensor model: all builders, factory and sensor models put together |

## 2. Modelling decisions

* **Exceptions** are values of the type `res A := Ok a | Err e`. The kind of
  exception is kept, the message is not. Logging is left out everywhere.
* **Mutable objects** are explicit states threaded through step functions.
  Properties about histories are stated over lists of operations of any length;
  properties about threads are stated over every schedule, any number of threads
  and programs of any length.
* **External libraries** (pyproj, GDAL, numpy least squares, scipy optimisers,
  shapely, xsdata, cv2) are arbitrary functions: section variables that are
  universally quantified in every theorem once the section is closed. Whatever is
  assumed of one is an explicit hypothesis of the theorem that needs it. The
  exceptions are small and are modelled: cachetools' LRU cache, scipy's
  `RectBivariateSpline` of degree one (bilinear interpolation clamped to its
  grid), `RegularGridInterpolator`, numpy's `polyval` family, and `re` on the
  few patterns used. pyproj's conversions between geodetic and geocentric
  coordinates are arbitrary functions in the models of the sensors, and `GeodesyModel`
  defines the exact ones of the WGS 84 ellipsoid; the latitude, for which there is no
  formula, is the one whose vertical passes through the point. pyproj computes it
  approximately. C101 to C105 and the theorems named `..._wgs84` are about the exact ones.
* **Floating point.** Formulas are modelled over the real numbers, that is, the
  arithmetic is exact. IEEE rounding is not part of these models, so the theorems
  about them say nothing about the last digits of results, nor about inputs that
  are nan or infinite. Where rounding changes the answer in a way a user can see,
  a bit-exact binary64 model on `Coq.Floats.SpecFloat` is used (`CoordFloatModel`,
  `TileFloatModel`, `DmsFloatModel`, `DisplayFloatModel`).
  For the RPC, RSM and affine formulas `RoundModel` keeps the order of the
  operations and lets each err by a relative 2^-53, the standard model of
  IEEE arithmetic without overflow and underflow. The results are compared with
  those of the exact models. `FloatModel` evaluates the same formulas bit by bit
  with `SpecFloat`, and C89 proves that each such evaluation is one that
  `RoundModel` admits; that Python and numpy compute what `SpecFloat` specifies
  is assumed, and `pow` is taken to be accurate to two roundings.
  `RpcFloatModel` runs the whole RPC projection bit by bit; C108 bounds its error
  from the camera's parameters alone, underflow included.
  `RsmFloatModel` does the same for the RSM polynomials, whose powers come from the C
  library: C109 assumes only that these are accurate to a few units in the last place.
  `SectionFloatModel` chooses the section of a sectioned RSM model bit by bit (C110), and
  `LongitudeFloatModel` reduces a longitude to 0 to 2 pi (C111).
  `SicdPixelFloatModel` converts between pixels and the grid of a SICD image (C112).
  `GridFloatModel` places the points of the geolocator's grid (C113).
  Operations that yield nan in numpy are marked in the models and give `None`.
  The wrap-around of numpy's integers is modelled (`DisplayModel`).
* **Real division** is total in Coq, with an unspecified result for a zero
  divisor. Theorems about quotients carry the hypothesis that the divisor is not
  zero, unless the model itself treats that case.
* **Strings** are Coq `string`s (lists of 8-bit characters); Python strings are
  unicode, but the code modelled treats characters opaquely. Case conversion is
  that of ASCII.
* **XML** documents are element trees; the parsers and writers of XML text are not
  modelled. In the models of the builders and updaters the dataclasses generated from
  the SICD and SIDD schemas are records with the elements that the code reads;
  `SarDocModel` fills these records from parsed documents along the paths of the code.
  `SchemaModel` models what xsdata does with all dataclasses of `formats/`, with its
  default configuration and the version that setup.cfg asks for (24.1 or later):
  binding of trees to objects and back. The tables `SchemaEnums`, `SchemaCommon`,
  `SchemaSicd` and `SchemaSidd` were generated from the Python source by a script that
  reads the metadata of every field. How numbers, dates and times are
  written is left open, but what is written must be read as the same value. The trees in
  `ExampleDocs` and the numbers in `SarVectorProps` were made of the files in test/data by
  two scripts. `XsdTypes`, `XsdCommon`, `XsdSicd` and `XsdSidd` are all types of schemas/sicd
  and schemas/sidd, made by a script that expands extensions, references, groups and
  attribute groups; `XsdPairs` says which dataclass belongs to which type. xsi:type and
  xsi:nil are not modelled, and patterns are arbitrary predicates. In `TileDoc*` reading and
  writing the characters of a document are arbitrary functions, and a file is taken to carry
  the document of a tile if its text is parsed to the object that was written.
* **False claims.** Where documentation, naming or a standard suggest a property
  that the code does not have, the theorem named `..._refuted` proves its negation
  from a concrete or general witness, and a further theorem says exactly what the
  code does instead. The properties were then stated as what holds.

## 3. Trusted base

* Coq's kernel (8.16.1), run by `coqc` and again by `coqchk` on the compiled files.
* The axioms of the standard library that `Print Assumptions` lists, per theorem
  in section 7: `ClassicalDedekindReals.sig_forall_dec`,
  `ClassicalDedekindReals.sig_not_dec`,
  `FunctionalExtensionality.functional_extensionality_dep` (all three come with
  the real numbers) and `Classical_Prop.classic`. There are no axioms of our own,
  and no libraries other than the standard library are used.
* That the models say what the code does. They were written by reading the
  source; nothing connects them mechanically. `TestVectors.v`, `SensorVectors.v`,
  `ImageVectors.v`, `TreVectors.v` and `GeodesyVectors.v` restate the project's own unit tests as theorems about
  the models (T01 to T42; `ExampleTres.v` holds the metadata files of test/data), and
  `validation/` describes a run of the extracted models on the project's test
  images (RPC, RSM, SICD and SIDD products) against the expectations of the
  project's tests: 141 checks, no failure. Section 5 lists for every function
  of the source which file models it, or why none does. The simplifications are
  those of section 2 and of the comment at the head of each model file.
* That the definitions in the theorem statements (the `XSpec` files and the
  models) mean what the English statements say. `seeded/LOG.jsonl` records wrong
  programs against which the statements were tested: edits of the model, and which
  theorems stopped proving. Its `claim_source` tells whether the claim was stated with
  the edit (715 of 912) or named afterwards by the theorems that failed, where none or another
  property had been stated. Theorems have the names they had when the edit was tried.
  A theorem counts as failed when its proof script stops, which alone does not show that
  its statement is false of the edit. Beside these, every model file was edited mechanically
  (3924 mutants, of which 984 do not type-check: changed constants, comparisons, operators, swapped arguments and
  branches, dropped updates); the survivors were read one by one, and those that were
  not equivalent to the original are in the log.

## 4. Findings

Behaviour of the code at the pinned commit that surprised, each proved.

Map tiles
* C04: locations on the western or southern edge of the map get column or row -1.
* C05: rows are counted from the south, the opposite of the OGC tile matrix set
  "WebMercatorQuad" that the class names; at zoom 1 and above no location gets its
  OGC row.
* C92: in binary64 a location on the edge of a tile can be found in a tile whose
  bounds do not contain it (by two nanometres).
* C62: the array of an orthophoto that is not square has rows and columns
  exchanged; tiles one pixel wide or high cannot be made; sources are off by less
  than a pixel of the overview level because the window starts at a whole pixel;
  for tiles that are not square the default elevation is taken at the wrong centre.
* C61: a tile that only touches the image, or overlaps it in less than a pixel,
  gets an empty window instead of None; a tile without extent raises.
* C77: pixels that are not black become transparent when one channel is zero.
* C79: rows of an orthophoto are spaced evenly in latitude instead of Mercator
  northing: at zoom 0 more than eleven degrees off. Neighbouring tiles repeat
  their common row or column.

Coordinates and elevation
* C09: degrees, minutes and seconds can be written with minute 60 or second 60.
* C08, C93: of the 3600 whole seconds of a degree 1580 are not written as such, in
  exact arithmetic and in binary64: the seconds are one too low when they leave
  remainder 3, 4, 7 or 8 by 9, and two minutes are written as 1 minute 60 seconds.
* C11: the decimal degree directives drop the sign, so hemispheres are confused.
* C14: in binary64 the default names of elevation tiles are those of the
  neighbour for cells at 15, 30, 60 and 120 degrees.
* C15: a missing tile stays missing while it is cached, whereas a tile whose
  loading raised is tried again. C80: two threads that need a tile load it twice.
* C17: posts without data are interpolated like elevations, and errors while
  loading a tile are raised, although the documentation says that the elevation
  stays unchanged.
* C78: elevations are displaced by half a post.
* C103: the reported post spacing is taken along the diagonal of the tile; at high
  latitudes it is more than twice the distance of neighbouring posts in a row, so
  the half post of the search for SICD contours on the terrain is more than a post.

Sensor models
* C25: a western longitude comes back from the 0..2pi domain a turn further east.
* C26: unit vectors that do not span space raise LinAlgError, not ValueError.
* C29: with a CRS the third output of the transformer (a height) is used as the
  homogeneous coordinate; pixels are displaced unless it is one.
* C33: nan instead of ValueError for an antenna more than the range below the
  plane, and for the point straight below; a reference point on the ground track
  gives a point at another range.
* C36: terrain without summary raises AttributeError, terrain without
  intersection IndexError; a sample exactly at the threshold makes the
  interpolation leave its interval.
* C37: `world_to_image` of SICD models never converges for a point more than a
  centimetre off the scene's ground plane, and each iteration adds the height once
  more.
* C38: an RGAZIM image of another formation algorithm than PFA or RGAZCOMP gets a
  model that fails on use.
* C42: SIDD chip metadata depends on the chips cut before; a chip one pixel wide
  blocks all later requests. C43: updater and sensor model disagree on chip
  corners by up to a pixel. C100: tiles of an image that is a chip are off already
  in their first pixel, by left / (width - 1) columns. C99: the second tile of a SIDD
  image carries a document saying it was cut out of the first tile.
* C91: SIDD `world_to_image` ignores the height of the point (no layover), so a pixel
  located with an elevation model is found at another pixel.
* C84: with an elevation model SIDD pixels are always located on the left of the
  track.
* C50: a missing RSM section is a KeyError that leaves the builder. C49: a group
  without children is an IndexError.
* C96: SICD documents other than 1.2.1 and 1.3.0 and SIDD documents other than 1.0.0,
  2.0.0 and 3.0.0 cannot be read (the namespace is part of the names), nor can any
  document with one element that its class does not know, nor a SIDD 1.0.0
  document whose classification has a DESVersion other than 4.
* C97: a complete SIDD document whose projection is not planar (geographic,
  cylindrical, polynomial) has no sensor model.
* C51: SIDD models are built whatever is selected, a failed SICD or SIDD builder
  discards the model of the TREs, and a malformed corner TRE is a ValueError. C52:
  every malformed ICHIPB is an AttributeError. C74: a SICD segment before a SIDD
  segment wins. C90: a SICD document in which the letters SIDD occur anywhere (say, in a
  comment field) is handed to the SIDD builder, so that it has no sensor model.
* C98: an attribute that is a list and is empty, such as ownerProducer="" in a valid SIDD
  document, is lost when the document is written again, which makes it invalid; a chip
  position or size beyond xs:int is written to a SICD document without an error.

Pixels and encoding
* C44: a last bucket value of zero counts as not given; a dominant bucket inverts
  the suggested range; an empty histogram raises IndexError.
* C45: min-max never reaches white for a positive minimum; 16-bit tiles overflow
  (and then ask for 256 buckets);
  without adjustment only the low byte is shown; two-band tiles are not bytes.
* C45: without the band's minimum and maximum the bucket width of the dynamic range
  mode is computed in the pixel type too; a 16-bit tile from -30000 to 30000 is white.
* C94: in binary64 min-max shows the brightest pixel as 254 for 32 of the 255 maxima
  of byte bands that start at zero (25, 29, 50, ... 242), and so does dynamic range
  adjustment for a range from 0.2 to 10.
* C63: 16-bit SAR power overflows beyond magnitude 181; a dark image is nan.
* C69: a constant integer band raises IndexError.
* C95: encoded tiles with min-max adjustment scale the brightest pixels beyond the output
  range, a band of two neighbouring values gets an empty source range, and dynamic range
  adjustment can saturate far more than two percent of the pixels at the bright end.
* C53: LZW for a floating point NITF asks for JPEG 2000.
* C54: a failing Translate leaves its temporary file behind; a missing file raises
  instead of giving None.
* C82: a NITF tile of a factory shared by threads can carry the SICD metadata of
  another thread's window.

Configuration, metadata text, features
* C46: two spellings of one option, a re-entered environment object, an option
  added inside and a value from the process environment are not restored. C81: two
  threads with a common option leak and restore wrongly.
* C47: DES header text is right-justified, NITF wants left; long values shift the
  rest.
* C70: an XML prolog on two lines is not removed.
* C55: extensions that contain a known word are taken for that format; an
  extension anywhere in the path counts.
* C56: a scalar `detection` property hides later geometries. C57: an update that
  fails changes some properties; ring properties of geometries other than polygons
  hold no ring.
* C59: corners of an `imageBBox` outside the grid are clamped; no geometry raises.
  C76: interpolation across the antimeridian is wrong.
* C60: an index over map geometries cannot be built.
* C87: converting to a plain geodetic ground domain returns the caller's object; a
  rectangular ground domain follows later changes of the origin object it was given.
* C110: with RSM sections of 500.2 rows, row 1500.6 gets the section after its own; a zero
  section size raises OverflowError or ValueError, not ZeroDivisionError.
* C111: a longitude that is already between 0 and 2 pi is changed in its last bits by the
  reduction of a GEODETIC_2PI ground domain (0.1 becomes 0.09999999999999964).
* C112: a whole pixel of a SICD chip can come back just below itself, as 1310.9999999999982
  for 1311, so that its whole part is the pixel before.
* C113: the margin of ten pixels around the features is lost to rounding for coordinates
  near 2^60, and the grid then has coinciding points, which the spline refuses.
* C64: negative exponents of polynomial terms are accepted as indices from the end.

## 5. What is modelled: every function of the source

Generated from the citations in the models. Generated dataclasses in `src/aws/osml/formats/` are not listed: they hold no code of their own and appear in the models as records. "-" marks functions that are not modelled; the reason is given.

| file | function | modelled in |
|---|---|---|
| features/feature_index.py | Feature2DSpatialIndex.find_intersects (18-24) | - abstract |
| features/feature_index.py | Feature2DSpatialIndex.find_nearest (27-34) | - abstract |
| features/feature_index.py | STRFeature2DSpatialIndex.__init__ (43-56) | IndexModel |
| features/feature_index.py | STRFeature2DSpatialIndex.find_intersects (58-60) | IndexModel |
| features/feature_index.py | STRFeature2DSpatialIndex.find_nearest (62-69) | IndexModel |
| features/geolocation.py | LocationGridInterpolator.__init__ (23-66) | GeolocModel, GridFloatModel |
| features/geolocation.py | LocationGridInterpolator.__call__ (68-85) | HeapModel |
| features/geolocation.py | Geolocator.__init__ (94-114) | - stores its arguments |
| features/geolocation.py | Geolocator.geolocate_features (116-127) | GeolocModel |
| features/geolocation.py | Geolocator._geolocate_features_using_approximation_grid (129-220) | GeolocModel, GridFloatModel |
| features/geolocation.py | Geolocator._geolocate_image_geometry (223-266) | GeolocModel |
| features/geolocation.py | Geolocator.radians_coordinate_to_degrees (269-285) | GeolocModel |
| features/imaged_feature_property_accessor.py | ImagedFeaturePropertyAccessor.__init__ (27-34) | - stores its arguments |
| features/imaged_feature_property_accessor.py | ImagedFeaturePropertyAccessor.find_image_geometry (36-85) | FeatureModel |
| features/imaged_feature_property_accessor.py | ImagedFeaturePropertyAccessor.update_existing_image_geometries (87-117) | FeatureModel |
| features/imaged_feature_property_accessor.py | ImagedFeaturePropertyAccessor.get_image_geometry (120-123) | FeatureModel |
| features/imaged_feature_property_accessor.py | ImagedFeaturePropertyAccessor.get_image_bbox (126-130) | FeatureModel |
| features/imaged_feature_property_accessor.py | ImagedFeaturePropertyAccessor.set_image_geometry (133-141) | FeatureModel |
| features/imaged_feature_property_accessor.py | ImagedFeaturePropertyAccessor.set_image_bbox (144-151) | FeatureModel |
| gdal/dynamic_range_adjustment.py | DRAParameters.__init__ (12-26) | - stores its arguments |
| gdal/dynamic_range_adjustment.py | DRAParameters.from_counts (29-92) | DisplayFloatModel, DisplayModel |
| gdal/dynamic_range_adjustment.py | DRAParameters.__repr__ (94-101) | - text for debugging |
| gdal/gdal_config.py | set_gdal_default_configuration (11-43) | ConfigModel |
| gdal/gdal_config.py | GDALConfigEnv.__init__ (56-61) | ConfigModel |
| gdal/gdal_config.py | GDALConfigEnv.with_aws_credentials (63-79) | ConfigModel |
| gdal/gdal_config.py | GDALConfigEnv.__enter__ (81-84) | ConfigModel |
| gdal/gdal_config.py | GDALConfigEnv.__exit__ (86-88) | ConfigModel |
| gdal/gdal_dem_tile_factory.py | GDALDigitalElevationModelTileFactory.__init__ (24-34) | - stores its arguments |
| gdal/gdal_dem_tile_factory.py | GDALDigitalElevationModelTileFactory.get_tile (36-84) | DemGdalModel, DemModel |
| gdal/gdal_sensor_model_builder.py | GDALAffineSensorModelBuilder.__init__ (18-29) | - stores its arguments |
| gdal/gdal_sensor_model_builder.py | GDALAffineSensorModelBuilder.build (31-39) | BuilderModel |
| gdal/gdal_sensor_model_builder.py | GDALGCPSensorModelBuilder.__init__ (47-56) | - stores its arguments |
| gdal/gdal_sensor_model_builder.py | GDALGCPSensorModelBuilder.build (58-71) | BuilderModel |
| gdal/gdal_utils.py | load_gdal_dataset (19-70) | BuilderModel, OpenModel |
| gdal/gdal_utils.py | get_minmax_for_type (73-112) | DisplayModel |
| gdal/gdal_utils.py | get_type_and_scales (115-179) | DisplayModel |
| gdal/gdal_utils.py | get_image_extension (182-194) | ExtModel |
| gdal/gdal_utils.py | select_extension (197-212) | ExtModel |
| gdal/gdal_utils.py | normalize_extension (215-230) | ExtModel |
| gdal/gdal_utils.py | get_extensions_from_driver (233-244) | ExtModel |
| gdal/gdal_utils.py | get_gdal_driver_extensions (247-261) | ExtModel |
| gdal/nitf_des_accessor.py | NITFDESAccessor.__init__ (21-41) | TreModel |
| gdal/nitf_des_accessor.py | NITFDESAccessor.get_segments_by_name (43-54) | TreModel |
| gdal/nitf_des_accessor.py | NITFDESAccessor.extract_des_header (57-98) | TreModel |
| gdal/nitf_des_accessor.py | NITFDESAccessor.extract_desdata_xml (101-129) | TreModel |
| gdal/nitf_des_accessor.py | NITFDESAccessor.parse_field_value (132-151) | TreModel |
| gdal/projective_sensor_model_builder.py | ProjectiveSensorModelBuilder.__init__ (23-36) | - stores its arguments |
| gdal/projective_sensor_model_builder.py | ProjectiveSensorModelBuilder.build (38-55) | BuilderModel |
| gdal/projective_sensor_model_builder.py | ProjectiveSensorModelBuilder.build_projective_sensor_model (58-87) | BuilderModel |
| gdal/rpc_sensor_model_builder.py | RPCSensorModelBuilder.__init__ (25-34) | - stores its arguments |
| gdal/rpc_sensor_model_builder.py | RPCSensorModelBuilder.build (36-65) | BuilderModel |
| gdal/rpc_sensor_model_builder.py | RPCSensorModelBuilder.build_rpc_sensor_model (68-93) | BuilderModel |
| gdal/rpc_sensor_model_builder.py | RPCSensorModelBuilder.build_rpc_polynomial (96-107) | BuilderModel |
| gdal/rsm_sensor_model_builder.py | RSMSensorModelBuilder.__init__ (48-57) | - stores its arguments |
| gdal/rsm_sensor_model_builder.py | RSMSensorModelBuilder.build (59-117) | BuilderModel |
| gdal/rsm_sensor_model_builder.py | RSMSensorModelBuilder._build_rsm_ground_domain (120-186) | BuilderModel |
| gdal/rsm_sensor_model_builder.py | RSMSensorModelBuilder._build_rsm_image_domain (189-201) | BuilderModel |
| gdal/rsm_sensor_model_builder.py | RSMSensorModelBuilder._build_rsm_context (204-215) | BuilderModel |
| gdal/rsm_sensor_model_builder.py | RSMSensorModelBuilder._build_rsm_polynomial (218-236) | BuilderModel |
| gdal/rsm_sensor_model_builder.py | RSMSensorModelBuilder._build_rsm_polynomial_sensor_model (239-266) | BuilderModel |
| gdal/rsm_sensor_model_builder.py | RSMSensorModelBuilder._build_loworder_rsm_polynomial (269-286) | BuilderModel |
| gdal/rsm_sensor_model_builder.py | RSMSensorModelBuilder._build_rsm_sectioned_polynomial_sensor_model (289-326) | BuilderModel |
| gdal/sensor_model_builder.py | SensorModelBuilder.__init__ (14-20) | - abstract |
| gdal/sensor_model_builder.py | SensorModelBuilder.build (23-29) | - abstract |
| gdal/sensor_model_factory.py | ChippedImageInfoFacade.__init__ (28-53) | BuilderModel |
| gdal/sensor_model_factory.py | SensorModelFactory.__init__ (78-114) | BuilderModel |
| gdal/sensor_model_factory.py | SensorModelFactory.build (116-214) | BuilderModel, OpenModel |
| gdal/sicd_sensor_model_builder.py | xyztype_to_ndarray (30-37) | SarDocModel |
| gdal/sicd_sensor_model_builder.py | poly1d_to_native (40-50) | SarDocModel, SarMetaModel |
| gdal/sicd_sensor_model_builder.py | poly2d_to_native (53-65) | SarDocModel, SarMetaModel |
| gdal/sicd_sensor_model_builder.py | xyzpoly_to_native (68-79) | SarDocModel, SarMetaModel |
| gdal/sicd_sensor_model_builder.py | SICDSensorModelBuilder.__init__ (89-96) | SarDocModel |
| gdal/sicd_sensor_model_builder.py | SICDSensorModelBuilder.build (98-113) | OpenModel, SarDocModel, SarMetaModel, SchemaModel, TileDocModel |
| gdal/sicd_sensor_model_builder.py | SICDSensorModelBuilder.from_dataclass (116-192) | SarDocModel, SarMetaModel |
| gdal/sidd_sensor_model_builder.py | SIDDSensorModelBuilder.__init__ (37-44) | - stores its arguments |
| gdal/sidd_sensor_model_builder.py | SIDDSensorModelBuilder.build (46-61) | OpenModel, SchemaModel, TileDocModel |
| gdal/sidd_sensor_model_builder.py | SIDDSensorModelBuilder.from_dataclass (64-138) | SarDocModel, SarMetaModel |
| gdal/xmltre_utils.py | get_tre_field_value (10-28) | TreModel |
| gdal/xmltre_utils.py | parse_rpc_coefficients (31-67) | TreModel |
| image_processing/gdal_tile_factory.py | GDALTileFactory.__init__ (30-82) | EncodeModel |
| image_processing/gdal_tile_factory.py | GDALTileFactory.create_encoded_tile (84-147) | EncodeModel, EncodeThreadModel |
| image_processing/gdal_tile_factory.py | GDALTileFactory.create_orthophoto_tile (149-326) | OrthoModel |
| image_processing/gdal_tile_factory.py | GDALTileFactory.create_orthophoto_tile.world_to_image_func (188-191) | OrthoModel |
| image_processing/gdal_tile_factory.py | GDALTileFactory.create_orthophoto_tile.find_appropriate_r_level (229-231) | OrthoModel |
| image_processing/gdal_tile_factory.py | GDALTileFactory._read_from_rlevel_as_array (328-371) | OrthoModel |
| image_processing/gdal_tile_factory.py | GDALTileFactory._normalize_image_for_display (373-386) | DisplayModel |
| image_processing/gdal_tile_factory.py | GDALTileFactory._normalize_bands (388-421) | DisplayModel |
| image_processing/gdal_tile_factory.py | GDALTileFactory._normalize_complex_sar (423-443) | DisplayModel |
| image_processing/gdal_tile_factory.py | GDALTileFactory._normalize_band_minmax (446-462) | DisplayFloatModel, DisplayModel |
| image_processing/gdal_tile_factory.py | GDALTileFactory._normalize_band_dra (465-488) | DisplayFloatModel, DisplayModel |
| image_processing/gdal_tile_factory.py | GDALTileFactory._create_new_igeolo (490-515) | CoordModel, DmsFloatModel, EncodeModel |
| image_processing/gdal_tile_factory.py | GDALTileFactory._create_gdal_translate_kwargs (517-581) | EncodeModel |
| image_processing/map_tileset.py | MapTileSet.tile_matrix_set_id (45-50) | - abstract |
| image_processing/map_tileset.py | MapTileSet.get_tile (53-59) | - abstract |
| image_processing/map_tileset.py | MapTileSet.get_tile_for_location (62-69) | - abstract |
| image_processing/map_tileset.py | MapTileSet.get_tile_matrix_limits_for_area (71-87) | TileModel |
| image_processing/map_tileset_factory.py | MapTileSetFactory.get_for_id (27-41) | TileModel |
| image_processing/map_tileset_wmq.py | WebMercatorQuadMapTileSet.__init__ (35-47) | TileFloatModel, TileModel |
| image_processing/map_tileset_wmq.py | WebMercatorQuadMapTileSet.tile_matrix_set_id (50-56) | - returns a stored text |
| image_processing/map_tileset_wmq.py | WebMercatorQuadMapTileSet.get_tile (58-65) | TileModel |
| image_processing/map_tileset_wmq.py | WebMercatorQuadMapTileSet.get_tile_for_location (67-83) | TileFloatModel, TileModel |
| image_processing/map_tileset_wmq.py | WebMercatorQuadMapTileSet._resolution (85-92) | TileFloatModel, TileModel |
| image_processing/map_tileset_wmq.py | WebMercatorQuadMapTileSet._pixels_to_meters (94-108) | TileFloatModel, TileModel |
| image_processing/map_tileset_wmq.py | WebMercatorQuadMapTileSet._meters_to_pixels (110-123) | TileFloatModel, TileModel |
| image_processing/map_tileset_wmq.py | WebMercatorQuadMapTileSet._pixels_to_tile (125-135) | TileFloatModel, TileModel |
| image_processing/map_tileset_wmq.py | WebMercatorQuadMapTileSet._calculate_tile_bounds_meters (137-150) | TileFloatModel, TileModel |
| image_processing/map_tileset_wmq.py | WebMercatorQuadMapTileSet._calculate_tile_bounds_lle (152-162) | TileModel |
| image_processing/sar_complex_imageop.py | image_pixels_to_complex (13-39) | DisplayModel |
| image_processing/sar_complex_imageop.py | complex_to_power_value (42-50) | DisplayModel |
| image_processing/sar_complex_imageop.py | power_value_in_decibels (53-60) | DisplayModel |
| image_processing/sar_complex_imageop.py | get_value_bounds (63-70) | DisplayModel |
| image_processing/sar_complex_imageop.py | linear_mapping (73-84) | DisplayModel |
| image_processing/sar_complex_imageop.py | histogram_stretch_mag_values (87-98) | DisplayModel |
| image_processing/sar_complex_imageop.py | quarter_power_mag_values (101-119) | DisplayModel |
| image_processing/sar_complex_imageop.py | histogram_stretch (122-142) | DisplayModel |
| image_processing/sar_complex_imageop.py | quarter_power_image (145-166) | DisplayModel |
| image_processing/sicd_updater.py | SICDUpdater.__init__ (19-33) | SarDocModel, SarMetaModel, SchemaModel, TileDocModel |
| image_processing/sicd_updater.py | SICDUpdater.update_image_data_for_chip (35-62) | SarDocModel, SarMetaModel, TileDocModel |
| image_processing/sicd_updater.py | SICDUpdater.encode_current_xml (64-72) | SarDocModel, SchemaModel, TileDocModel |
| image_processing/sidd_updater.py | SIDDUpdater.__init__ (18-27) | SarDocModel, SarMetaModel, SchemaModel, TileDocModel |
| image_processing/sidd_updater.py | SIDDUpdater.update_image_data_for_chip (29-135) | SarDocModel, SarMetaModel, TileDocModel |
| image_processing/sidd_updater.py | SIDDUpdater.encode_current_xml (137-145) | SarDocModel, TileDocModel |
| image_processing/sidd_updater.py | SIDDUpdater.chipped_coordinate_to_full (148-193) | SarMetaModel |
| photogrammetry/chipped_image_sensor_model.py | ChippedImageSensorModel.__init__ (20-43) | OpenModel, SarMetaModel, TransformModel |
| photogrammetry/chipped_image_sensor_model.py | ChippedImageSensorModel.image_to_world (45-65) | HeapModel, OpenModel, SarMetaModel, TransformModel |
| photogrammetry/chipped_image_sensor_model.py | ChippedImageSensorModel.world_to_image (67-79) | OpenModel, SarMetaModel, TransformModel |
| photogrammetry/composite_sensor_model.py | CompositeSensorModel.__init__ (17-28) | TransformModel |
| photogrammetry/composite_sensor_model.py | CompositeSensorModel.image_to_world (30-58) | HeapModel, OpenModel, TransformModel |
| photogrammetry/composite_sensor_model.py | CompositeSensorModel.world_to_image (60-69) | OpenModel, TransformModel |
| photogrammetry/coordinates.py | WorldCoordinate.__init__ (16-31) | HeapModel, LongitudeFloatModel |
| photogrammetry/coordinates.py | WorldCoordinate.x (34-35) | HeapModel |
| photogrammetry/coordinates.py | WorldCoordinate.x (38-39) | HeapModel |
| photogrammetry/coordinates.py | WorldCoordinate.y (42-43) | HeapModel |
| photogrammetry/coordinates.py | WorldCoordinate.y (46-47) | HeapModel |
| photogrammetry/coordinates.py | WorldCoordinate.z (50-51) | HeapModel |
| photogrammetry/coordinates.py | WorldCoordinate.z (54-55) | HeapModel |
| photogrammetry/coordinates.py | WorldCoordinate.__repr__ (57-58) | - text for debugging |
| photogrammetry/coordinates.py | GeodeticWorldCoordinate.__init__ (103-113) | - stores its arguments |
| photogrammetry/coordinates.py | GeodeticWorldCoordinate.longitude (116-117) | HeapModel |
| photogrammetry/coordinates.py | GeodeticWorldCoordinate.longitude (120-121) | HeapModel |
| photogrammetry/coordinates.py | GeodeticWorldCoordinate.latitude (124-125) | HeapModel |
| photogrammetry/coordinates.py | GeodeticWorldCoordinate.latitude (128-129) | HeapModel |
| photogrammetry/coordinates.py | GeodeticWorldCoordinate.elevation (132-133) | HeapModel |
| photogrammetry/coordinates.py | GeodeticWorldCoordinate.elevation (136-137) | HeapModel |
| photogrammetry/coordinates.py | GeodeticWorldCoordinate.to_dms_string (139-148) | CoordModel, DmsFloatModel |
| photogrammetry/coordinates.py | GeodeticWorldCoordinate.__repr__ (150-151) | - text for debugging |
| photogrammetry/coordinates.py | GeodeticWorldCoordinate.__format__ (153-226) | CoordFloatModel, CoordModel, DmsFloatModel |
| photogrammetry/coordinates.py | geocentric_to_geodetic (238-255) | GeodesyModel |
| photogrammetry/coordinates.py | geodetic_to_geocentric (258-275) | DemGdalModel, GeodesyModel |
| photogrammetry/coordinates.py | ImageCoordinate.__init__ (290-305) | HeapModel, SectionFloatModel, SensorBase, SicdPixelFloatModel |
| photogrammetry/coordinates.py | ImageCoordinate.c (308-309) | SensorBase |
| photogrammetry/coordinates.py | ImageCoordinate.c (312-313) | SensorBase |
| photogrammetry/coordinates.py | ImageCoordinate.r (316-317) | SensorBase |
| photogrammetry/coordinates.py | ImageCoordinate.r (320-321) | SensorBase |
| photogrammetry/coordinates.py | ImageCoordinate.x (324-325) | SensorBase |
| photogrammetry/coordinates.py | ImageCoordinate.x (328-329) | SensorBase |
| photogrammetry/coordinates.py | ImageCoordinate.y (332-333) | SensorBase |
| photogrammetry/coordinates.py | ImageCoordinate.y (336-337) | SensorBase |
| photogrammetry/coordinates.py | ImageCoordinate.__repr__ (339-340) | SensorBase |
| photogrammetry/digital_elevation_model.py | DigitalElevationModelTileSet.__init__ (30-31) | - abstract |
| photogrammetry/digital_elevation_model.py | DigitalElevationModelTileSet.find_tile_id (34-41) | - abstract |
| photogrammetry/digital_elevation_model.py | DigitalElevationModelTileFactory.__init__ (53-54) | - abstract |
| photogrammetry/digital_elevation_model.py | DigitalElevationModelTileFactory.get_tile (57-66) | DemModel |
| photogrammetry/digital_elevation_model.py | DigitalElevationModel.__init__ (79-100) | DemModel |
| photogrammetry/digital_elevation_model.py | DigitalElevationModel.set_elevation (105-124) | DemModel, DemThreadModel, HeapModel |
| photogrammetry/digital_elevation_model.py | DigitalElevationModel.describe_region (126-139) | DemModel, DemThreadModel |
| photogrammetry/digital_elevation_model.py | DigitalElevationModel.get_interpolation_grid (142-166) | DemModel, DemThreadModel |
| photogrammetry/elevation_model.py | ElevationModel.__init__ (29-30) | SensorBase, SicdModel |
| photogrammetry/elevation_model.py | ElevationModel.set_elevation (33-41) | SensorBase, SicdModel |
| photogrammetry/elevation_model.py | ElevationModel.describe_region (44-50) | SensorBase, SicdModel |
| photogrammetry/elevation_model.py | ConstantElevationModel.__init__ (58-67) | - stores its arguments |
| photogrammetry/elevation_model.py | ConstantElevationModel.set_elevation (69-77) | DemModel, HeapModel, SensorBase |
| photogrammetry/elevation_model.py | ConstantElevationModel.describe_region (79-91) | DemModel |
| photogrammetry/gdal_sensor_model.py | GDALAffineSensorModel.__init__ (30-62) | BuilderModel, TransformModel |
| photogrammetry/gdal_sensor_model.py | GDALAffineSensorModel.image_to_world (64-97) | HeapModel, RoundModel, TransformModel |
| photogrammetry/gdal_sensor_model.py | GDALAffineSensorModel.world_to_image (99-123) | RoundModel, TransformModel |
| photogrammetry/generic_dem_tile_set.py | GenericDEMTileSet.__init__ (15-40) | CoordModel |
| photogrammetry/generic_dem_tile_set.py | GenericDEMTileSet.find_tile_id (42-64) | CoordFloatModel, CoordModel |
| photogrammetry/math_utils.py | equilateral_triangle (7-25) | SensorBase |
| photogrammetry/projective_sensor_model.py | ProjectiveSensorModel.__init__ (19-37) | TransformModel |
| photogrammetry/projective_sensor_model.py | ProjectiveSensorModel.image_to_world (39-59) | HeapModel, TransformModel |
| photogrammetry/projective_sensor_model.py | ProjectiveSensorModel.world_to_image (61-72) | TransformModel |
| photogrammetry/replacement_sensor_model.py | RSMImageDomain.__init__ (36-56) | RsmModel |
| photogrammetry/replacement_sensor_model.py | RSMGroundDomain.__init__ (90-151) | RsmModel |
| photogrammetry/replacement_sensor_model.py | RSMGroundDomain.geodetic_to_ground_domain_coordinate (153-197) | HeapModel, LongitudeFloatModel, RsmModel |
| photogrammetry/replacement_sensor_model.py | RSMGroundDomain.ground_domain_coordinate_to_geodetic (199-230) | HeapModel, RsmModel |
| photogrammetry/replacement_sensor_model.py | RSMContext.__init__ (245-255) | - stores its arguments |
| photogrammetry/replacement_sensor_model.py | RSMPolynomial.__init__ (265-293) | RsmFloatModel, RsmModel |
| photogrammetry/replacement_sensor_model.py | RSMPolynomial.evaluate (295-320) | RoundModel, RsmFloatModel, RsmModel |
| photogrammetry/replacement_sensor_model.py | RSMPolynomial.__call__ (322-331) | RsmModel |
| photogrammetry/replacement_sensor_model.py | RSMLowOrderPolynomial.__init__ (340-352) | RsmModel |
| photogrammetry/replacement_sensor_model.py | RSMLowOrderPolynomial.evaluate (354-374) | RsmModel, SectionFloatModel |
| photogrammetry/replacement_sensor_model.py | RSMLowOrderPolynomial.__call__ (376-385) | RsmModel |
| photogrammetry/replacement_sensor_model.py | RSMSensorModel.__init__ (393-402) | - stores its arguments |
| photogrammetry/replacement_sensor_model.py | RSMPolynomialSensorModel.__init__ (411-470) | RsmFloatModel, RsmModel |
| photogrammetry/replacement_sensor_model.py | RSMPolynomialSensorModel.world_to_image (472-485) | HeapModel, RsmModel |
| photogrammetry/replacement_sensor_model.py | RSMPolynomialSensorModel.image_to_world (487-566) | HeapModel, RsmModel, SensorBase |
| photogrammetry/replacement_sensor_model.py | RSMPolynomialSensorModel.image_to_world.distance_to_target_coordinate (510-518) | HeapModel, RsmModel, SensorBase |
| photogrammetry/replacement_sensor_model.py | RSMPolynomialSensorModel.ground_domain_to_image (568-584) | HeapModel, RoundModel, RsmFloatModel, RsmModel |
| photogrammetry/replacement_sensor_model.py | RSMPolynomialSensorModel.normalize_world_coordinate (586-598) | HeapModel, RsmFloatModel, RsmModel |
| photogrammetry/replacement_sensor_model.py | RSMPolynomialSensorModel.denormalize_world_coordinate (600-612) | RsmFloatModel, RsmModel |
| photogrammetry/replacement_sensor_model.py | RSMPolynomialSensorModel.normalize_image_coordinate (614-624) | RsmFloatModel, RsmModel |
| photogrammetry/replacement_sensor_model.py | RSMPolynomialSensorModel.denormalize_image_coordinate (626-638) | HeapModel, RsmFloatModel, RsmModel |
| photogrammetry/replacement_sensor_model.py | RSMPolynomialSensorModel.normalize (641-652) | RoundModel, RsmFloatModel, RsmModel |
| photogrammetry/replacement_sensor_model.py | RSMPolynomialSensorModel.denormalize (655-666) | RoundModel, RsmFloatModel, RsmModel |
| photogrammetry/replacement_sensor_model.py | RSMSectionedPolynomialSensorModel.__init__ (677-710) | RsmModel, SectionFloatModel |
| photogrammetry/replacement_sensor_model.py | RSMSectionedPolynomialSensorModel.world_to_image (712-734) | HeapModel, RsmModel, SectionFloatModel |
| photogrammetry/replacement_sensor_model.py | RSMSectionedPolynomialSensorModel.image_to_world (736-758) | RsmModel |
| photogrammetry/replacement_sensor_model.py | RSMSectionedPolynomialSensorModel.get_section_index (760-784) | RsmModel, SectionFloatModel |
| photogrammetry/rpc_sensor_model.py | RPCPolynomial.__init__ (15-25) | - stores its arguments |
| photogrammetry/rpc_sensor_model.py | RPCPolynomial.evaluate (27-64) | RoundModel, RpcFloatModel, RpcModel |
| photogrammetry/rpc_sensor_model.py | RPCPolynomial.__call__ (66-75) | RpcModel |
| photogrammetry/rpc_sensor_model.py | RPCSensorModel.__init__ (89-149) | RpcFloatModel, RpcModel |
| photogrammetry/rpc_sensor_model.py | RPCSensorModel.world_to_image (151-177) | HeapModel, RoundModel, RpcFloatModel, RpcModel |
| photogrammetry/rpc_sensor_model.py | RPCSensorModel.image_to_world (179-244) | HeapModel, RpcModel, SensorBase |
| photogrammetry/rpc_sensor_model.py | RPCSensorModel.image_to_world.distance_to_target_coordinate (201-209) | HeapModel, RpcModel, SensorBase |
| photogrammetry/sensor_model.py | SensorModel.__init__ (22-23) | SensorBase |
| photogrammetry/sensor_model.py | SensorModel.image_to_world (26-41) | SensorBase |
| photogrammetry/sensor_model.py | SensorModel.world_to_image (44-52) | SensorBase |
| photogrammetry/sicd_sensor_model.py | Polynomial2D.__init__ (29-41) | SicdModel |
| photogrammetry/sicd_sensor_model.py | Polynomial2D.__call__ (43-51) | SicdModel |
| photogrammetry/sicd_sensor_model.py | PolynomialXYZ.__init__ (60-75) | SicdModel |
| photogrammetry/sicd_sensor_model.py | PolynomialXYZ.__call__ (77-88) | SicdModel |
| photogrammetry/sicd_sensor_model.py | PolynomialXYZ.deriv (90-101) | SicdModel |
| photogrammetry/sicd_sensor_model.py | SARImageCoordConverter.__init__ (110-150) | SicdModel, SicdPixelFloatModel |
| photogrammetry/sicd_sensor_model.py | SARImageCoordConverter.rowcol_to_xrowycol (152-164) | SicdModel, SicdPixelFloatModel |
| photogrammetry/sicd_sensor_model.py | SARImageCoordConverter.xrowycol_to_rowcol (166-177) | SicdModel, SicdPixelFloatModel |
| photogrammetry/sicd_sensor_model.py | SARImageCoordConverter.xrowycol_to_ipp (179-188) | SicdModel |
| photogrammetry/sicd_sensor_model.py | SARImageCoordConverter.ipp_to_xrowycol (190-200) | SicdModel |
| photogrammetry/sicd_sensor_model.py | COAProjectionSet.__init__ (209-233) | SicdModel |
| photogrammetry/sicd_sensor_model.py | COAProjectionSet.precise_rrdot_computation (235-264) | SicdModel |
| photogrammetry/sicd_sensor_model.py | COAProjectionSet._grid_specific_projection (267-281) | - abstract |
| photogrammetry/sicd_sensor_model.py | PFAProjectionSet.__init__ (290-318) | SicdModel |
| photogrammetry/sicd_sensor_model.py | PFAProjectionSet._grid_specific_projection (320-372) | SicdModel |
| photogrammetry/sicd_sensor_model.py | RGAZCOMPProjectionSet.__init__ (376-399) | SicdModel |
| photogrammetry/sicd_sensor_model.py | RGAZCOMPProjectionSet._grid_specific_projection (401-432) | SicdModel |
| photogrammetry/sicd_sensor_model.py | INCAProjectionSet.__init__ (436-462) | SicdModel |
| photogrammetry/sicd_sensor_model.py | INCAProjectionSet._grid_specific_projection (464-501) | SicdModel |
| photogrammetry/sicd_sensor_model.py | PlaneProjectionSet.__init__ (505-531) | SicdModel |
| photogrammetry/sicd_sensor_model.py | PlaneProjectionSet._grid_specific_projection (533-564) | SicdModel |
| photogrammetry/sicd_sensor_model.py | RRDotSurfaceProjection.rrdot_to_ground (574-584) | - abstract |
| photogrammetry/sicd_sensor_model.py | GroundPlaneRRDotSurfaceProjection.__init__ (597-630) | SicdModel |
| photogrammetry/sicd_sensor_model.py | GroundPlaneRRDotSurfaceProjection.rrdot_to_ground (632-679) | SicdModel |
| photogrammetry/sicd_sensor_model.py | HAERRDotSurfaceProjection.__init__ (688-717) | SicdModel |
| photogrammetry/sicd_sensor_model.py | HAERRDotSurfaceProjection.rrdot_to_ground (719-794) | SicdModel |
| photogrammetry/sicd_sensor_model.py | DEMRRDotSurfaceProjection.__init__ (803-843) | SicdModel |
| photogrammetry/sicd_sensor_model.py | DEMRRDotSurfaceProjection.rrdot_to_ground (845-967) | HeapModel, SicdModel |
| photogrammetry/sicd_sensor_model.py | SICDSensorModel.__init__ (976-1000) | SicdModel |
| photogrammetry/sicd_sensor_model.py | SICDSensorModel.compute_u_spn (1003-1017) | SicdModel |
| photogrammetry/sicd_sensor_model.py | SICDSensorModel.compute_u_gpn (1020-1025) | SicdModel |
| photogrammetry/sicd_sensor_model.py | SICDSensorModel.image_to_world (1027-1065) | HeapModel, SicdModel, SicdPixelFloatModel |
| photogrammetry/sicd_sensor_model.py | SICDSensorModel.world_to_image (1067-1128) | HeapModel, SicdModel, SicdPixelFloatModel |
| photogrammetry/srtm_dem_tile_set.py | SRTMTileSet.__init__ (15-29) | CoordModel |
| photogrammetry/srtm_dem_tile_set.py | SRTMTileSet.find_tile_id (31-66) | CoordModel |
| photogrammetry/transforms.py | ProjectiveTransform.__init__ (16-25) | TransformModel |
| photogrammetry/transforms.py | ProjectiveTransform.forward (27-41) | TransformModel |
| photogrammetry/transforms.py | ProjectiveTransform.inverse (43-61) | TransformModel |
| photogrammetry/transforms.py | ProjectiveTransform.estimate (64-100) | TransformModel |

227 of 258 functions are modelled.

## 6. Properties and theorems

Statements in full are in `properties.jsonl`; each theorem is in the file named.

| id | property | status | file | theorems |
|---|---|---|---|---|
| C01 | Tile lookup returns a tile that contains the location | proved | TileProps | tile_contains_projected_location, tile_bounds_contain_location |
| C02 | The tiles of a zoom level partition the plane | proved | TileProps | bounds_are_grid_lines, metric_bounds, tile_unique |
| C03 | Zooming in nests tiles | proved | TileProps | child_tile_in_parent, children_subdivide |
| C04 | Tile indices stay inside the tile matrix | proved | TileProps | index_range_inside, western_edge_column, southern_edge_row, index_range, square_of_latitudes, index_range_refuted |
| C05 | Row numbering direction | proved | TileProps | rows_grow_northwards, row_is_flipped_ogc_row, ogc_row_refuted |
| C06 | Tile matrix limits cover the area's vertices and are tight | proved | TileProps | limits_cover_and_are_tight, limits_exist, limits_order_independent, limits_cover_rectangle, well_known_tile_sets |
| C07 | DMS strings have a fixed width | proved | CoordProps | dms_fixed_width |
| C08 | DMS strings are accurate | proved | CoordProps | dms_accuracy, whole_seconds, whole_seconds_refuted |
| C09 | DMS minutes and seconds range over 0..60 | proved | CoordProps | fields_at_most_60, overflow_characterised, minutes_below_60_refuted, seconds_below_60_refuted |
| C10 | Format directives are independent and literals are preserved | proved | CoordProps | default_format, format_is_tokenwise, literals_preserved |
| C11 | Decimal degree directives are unsigned | proved | CoordProps | decimal_degrees_unsigned, signed_degrees_refuted |
| C12 | IGEOLO is always 60 characters | proved | CoordProps | igeolo |
| C13 | SRTM tile ids identify one-degree cells | proved | CoordProps | srtm_coverage, srtm_ids_are_cells, srtm_name |
| C14 | Generic DEM tile ids | proved | CoordProps | generic_name_exact, generic_outside, generic_ids_are_cells_exact, configured_range, binary64_whole_degrees, binary64_name_correct_iff, binary64_name_refuted |
| C15 | DEM caching is transparent | proved | DemProps | cache_transparent, answers_come_from_a_load, missing_tile_is_remembered, failed_load_is_retried |
| C16 | The DEM cache is bounded and LRU | proved | DemProps | bounded_without_duplicates, holds_most_recently_used, loads_only_when_not_recent |
| C17 | Elevation lookups touch only the elevation and leave it alone without data | proved | DemGdalProps, DemProps | gdal_missing_file_leaves_elevation, loading_error, loading_error_refuted, thin_tile, thick_tile, location_unchanged, no_tile_no_effect, missing_tile_leaves_elevation, no_data_post_refuted, constant_model |
| C18 | DEM interpolation grids read the raster the right way round | proved | DemProps | post_is_returned, between_posts, within_posts |
| C19 | RPC polynomials follow the RPC00B term order | proved | PolyProps | world_to_image, short_polynomial |
| C20 | RPC image_to_world keeps the surface elevation | proved | PolyProps | on_surface, residual_is_objective, search_start, option_names |
| C21 | RSM polynomials sum every term once | proved | PolyProps | every_term_once, coefficient_count |
| C22 | RSM low order polynomials | proved | PolyProps | quadratic, needs_ten_coefficients, special_case_of_general |
| C23 | RSM normalisation is inverted by denormalisation | proved | PolyProps | world_round_trip, image_round_trip, ground_to_image |
| C24 | RSM section selection | proved | PolyProps | image_to_world_section, world_to_image_section, responsible_unique, missing_section |
| C25 | RSM ground domain round trips | proved | GeodesyUseProps, PolyProps | wgs84, rectangular_round_trip, geodetic_identity, two_pi_domain, two_pi_round_trip, two_pi_ground_round_trip, two_pi_identity_refuted |
| C26 | RSM ground domain construction validates its inputs | proved | PolyProps | accepted_inputs, derived_values |
| C27 | Projective transforms invert | proved | TransformProps | inverse_of_forward, forward_of_inverse, forward_takes, sensor_round_trip, world_round_trip |
| C28 | Projective estimation reproduces the correspondences | proved | TransformProps | least_error, exact_fit, recovers_transform, mismatched_lengths, rejected |
| C29 | Affine sensor model round trips | proved | BuilderSensorProps, TransformProps | builder_geographic, builder_projected, builder_errors, geotransform, reprojection, rejects_singular, rejects_short, image_round_trip, world_round_trip, height_unit_refuted, displacement, world_round_trip_reprojected |
| C30 | Chipped sensor models are the full model shifted by the chip transform | proved | TransformProps | window_image_to_world, window_world_to_image, round_trip |
| C31 | Composite sensor models | proved | TransformProps | world_to_image, image_to_world, seeds_rpc_search |
| C32 | SAR image grid conversions round trip | proved | SicdProps | pixel_round_trip, grid_round_trip, spacing, grid_of_plane_point, plane_point_of_grid, on_image_plane |
| C33 | R/Rdot ground plane intersection is exact | proved | SicdMetaProps, SicdProps | normals, exact, unique, error_means_no_solution, finds_every_solution, answer_or_error, nan_iff, reference_below_track, below_plane_refuted, nadir_refuted, reference_below_track_refuted |
| C34 | Projection sets agree with the geometry of the SCP and image plane | proved | SicdProps | polynomials, polynomials_2d, velocity, range_rate_is_derivative, planar, polar_format, closest_approach, compressed, scene_centre, offsets |
| C35 | HAE projection terminates and returns the requested height | proved | SicdSurfaceProps | iteration, height, on_contour, error |
| C36 | DEM intersection finds a surface crossing | proved | GeodesyUseProps, SicdMetaProps, SicdSurfaceProps | wgs84, setup, side, first_returned, on_contour, samples_cover, step, no_step, crossing_found, returned, no_summary, no_intersection, threshold_refuted, threshold_extrapolates |
| C37 | SICD world_to_image terminates and is accurate when it converges | proved | SicdSurfaceProps | terminates, accurate, off_plane_never_converges, projects_along_normal, height_is_multiplied |
| C38 | SICD chips geolocate like the full image | proved | SarMetaProps, SicdSurfaceProps | from_metadata, no_model, unusable_model, missing_block, image_to_world, world_to_image |
| C39 | SICD chip metadata does not depend on previous chips | proved | SarMetaProps | history_independent, chip_metadata, scaling_refused |
| C40 | SICD chips of chips compose | proved | SarMetaProps | chip_of_chip |
| C41 | SIDD chip coordinate mapping | proved | SarMetaProps | affine, corners, lines, window_shift, single_pixel_wide |
| C42 | SIDD chip metadata does not depend on previous chips | proved | SarMetaProps | first_chip, chip_of_chip, window_of_window, history_dependent, history_independent_refuted, thin_chip_blocks |
| C43 | SIDD updater and SIDD sensor model agree on chip corners | proved | GeodesyUseProps, SarMetaProps | pixel_shift_refuted, exact |
| C44 | Dynamic range parameters stay inside the data | proved | DisplayProps | actual_range, suggested_inside_actual, suggested_range, order, constant_image, no_pixels, zero_last_value, zero_last_value_refuted |
| C45 | Display normalisation is bounded and monotone | proved | DisplayProps | minmax, minmax_overflow_refuted, minmax_ends, dra, dra_buckets, dra_buckets_refuted, dra_ends, values, dra_own_range, dra_own_range_refuted, empty, image, channels, no_adjustment, two_bands |
| C46 | GDAL configuration is restored | proved | ConfigProps | restored, outcome, inside, nested, reused, reentered, spelling_refuted, environment_is_pinned, callers_dictionary, credentials, options_added_inside, defaults |
| C47 | DES header layout | proved | TreProps | layout, overflow, missing, left_justified_refuted |
| C48 | TRE field lookup | proved | TreProps | value, error |
| C49 | RPC coefficient lists are read in index order | proved | TreProps | values, any_order, errors |
| C50 | RSM section grids are complete | proved | BuilderProps, BuilderSensorProps | section_fields, sections, cases, missing_section_refuted, errors, ground_domain, image_domain, context |
| C51 | Sensor model selection | proved | BuilderProps | selection, returns, sidd_not_gated, failed_sidd_discards_refuted, corner_error, malformed_corner |
| C52 | Chip metadata | proved | BuilderProps | well_formed, malformed_refuted |
| C53 | Encoding options per format and compression | proved | EncodeProps | table, float_j2k_refuted, new_factory, requests, repeatable, igeolo |
| C54 | Temporary tiles are always removed | proved | EncodeProps | own_name, always_deleted, files, answer, interference, names, translate_failure_refuted, none_refuted |
| C55 | File extension normalisation | proved | ExtProps | normalize, spellings, case, idempotent, other_extensions_refuted, select, select_is_an_extension, select_case, real_extension_refuted, split, strip, driver, image_extension |
| C56 | Image geometry lookup order | proved | FeatureProps | priority, detection, malformed_box, none, reads_only, set_find, scalar_detection_refuted |
| C57 | Updating existing image geometries | proved | FeatureProps | frame, unchangeable_detection, values, find, all_or_nothing_refuted, ring_refuted |
| C58 | Geolocated geometries keep their structure | proved | GeolocProps | structure, total, errors, unusable, feature, untouched, order, frame, call |
| C59 | The interpolation grid covers all features | proved | GeolocProps | extent, no_geometry, small_grid, cells, area, bbox_refuted, bbox_clamped |
| C60 | Spatial index queries | proved | IndexProps | build, intersects, nearest, map_limit, unknown_position, map_geometries_refuted |
| C61 | Orthophoto source window | proved | OrthoProps | none, level, window, window_tight, read, no_bands, degenerate, width, touching_refuted, narrow_refuted, degenerate_refuted |
| C62 | Orthophoto tiles are oriented like the map | proved | OrthoProps | source, square, nonsquare_refuted, one_pixel_refuted, tile, no_tile, registration, registration_refuted, elevation_square, elevation_refuted |
| C63 | SAR pixel operations | proved | DisplayProps | complex, pixel_types, power, power_16bit, decibels, linear_mapping, histogram_stretch, quarter_power, gain, dark_image, image, amplitudes |
| C64 | SICD polynomial metadata | proved | SarMetaProps | placement, sum_of_powers, exponent_beyond_order, sum_of_powers_2d, exponent_beyond_order_2d, position, no_coefficients |
| C65 | Where DEM tiles are looked for | proved | DemProps | s3_root, plain_root |
| C66 | The image_to_world search starts from an equilateral triangle | proved | PolyProps | equilateral |
| C67 | RSM image_to_world stays on the surface and in the ground domain | proved | PolyProps | on_surface, residual_is_objective, inside_ground_domain |
| C68 | SICD slant and ground plane normals | proved | SicdSurfaceProps | slant_plane_normal, ground_plane_normal |
| C69 | Output pixel types and scales | proved | DisplayProps | no_adjustment, integer_ranges, float_ranges, other_types, adjusted, no_statistics, constant_band |
| C70 | DES XML documents | proved | TreProps | prologs, prolog_on_two_lines_refuted, segments, desdata |
| C71 | RPC models from TREs | proved | BuilderProps | model, no_model |
| C72 | Loading a dataset with its sensor model | proved | BuilderProps | cannot_open, loaded |
| C73 | Corner and control point models reproduce their points | proved | BuilderProps | corners, control_points, no_model |
| C74 | SAR metadata of a tile factory | proved | EncodeProps | first_sar_segment, factory, sidd_preferred_refuted |
| C75 | SICD tiles are independent of earlier tiles | proved | EncodeProps | sicd_tiles |
| C76 | Accuracy of interpolated locations | proved | GeolocProps | error_bound, affine_exact, antimeridian_refuted |
| C77 | Orthophoto transparency | proved | OrthoProps | alpha, gray, only_black_refuted |
| C78 | Elevations of GDAL tiles | proved | DemGdalProps | summary, elevation, post_at_corner, centre, centre_refuted |
| C79 | Web Mercator registration of orthophotos | proved | OrthoMapProps | columns_and_edges, rows, northern_rows, whole_world_refuted, shared_edges, tile |
| C80 | Elevation models shared by threads | proved | DemThreadProps | answers, answers_come_from_a_load, finishes, bounded, loads, alone, single_load_refuted |
| C81 | Configuration environments of two threads | proved | ConfigProps | different_options, common_option, restored_refuted |
| C82 | SICD tiles requested by several threads | proved | EncodeThreadProps | some_window, uninterrupted, interrupted, own_window_refuted |
| C83 | SICD models locate pixels by the metadata | proved | SicdMetaProps | ground, ground_found, terrain, usable |
| C84 | SIDD models locate pixels by the metadata | proved | SicdMetaProps | ground, terrain_left |
| C85 | RPC and RSM models locate points by their TREs | proved | BuilderSensorProps | rpc, rsm_one, rsm_sections |
| C86 | A tile carries the geolocation of its own window | proved | EncodeSensorProps | sicd_tiles, corners |
| C87 | Coordinates are changed only by their owner | proved | HeapProps | constructors, default_coordinates, elevation, dem, sensors_harmless, sicd_harmless, grid_harmless, values, sicd_values, grid_values, history, domain_alias, domain_back, domain_copy_refuted, origin_independent_refuted |
| C88 | Rounding errors of polynomial sensor models are bounded | proved | RoundProps | formulas, no_rounding, rpc_polynomial, rpc_pixel, rpc_binary64, rsm_polynomial, rsm_pixel, rsm_binary64, affine |
| C89 | Binary64 arithmetic stays within the error bounds | proved | FloatProps | operations, nearest, nearest_determined, integers, no_overflow, formulas, rpc, rsm, affine, whole_numbers, pi, degrees, radians, whole_degree, tile_name |
| C90 | An opened image locates pixels by its metadata | proved | OpenProps | sicd, sicd_pixels, sidd, sidd_pixels, unusable_document, sicd_with_sidd_refuted, tres, rpc, geotransform, control_points, corners, composite, chipped |
| C91 | Pixels that SAR models find for ground points | proved | GeodesyUseProps, SicdFindProps | sidd_wgs84, sicd_wgs84, sidd, sidd_round_trip, sidd_window, sidd_terrain_refuted, converges, converges_near, sicd |
| C92 | Map tiles in binary64 | proved | TileFloatProps | tile_for_location, away_from_edges, nested, monotone, inside, bounds, shared_sides, contains_refuted |
| C93 | Degrees, minutes and seconds in binary64 | proved | DmsFloatProps | numpy_round, numpy_rounds, exact_rounds, fields, not_finite, text, text_raises, same_fields, whole_seconds, igeolo, fields_below_60_refuted |
| C94 | Displayed pixels in binary64 | proved | DisplayFloatProps | minmax, dra, shows, order, ends, brightest, minmax_white_refuted, dra_white_refuted, dra_whole, buckets, range, range_empty, dra_band, agrees |
| C95 | Adjusted ranges seen from the pixels | proved | HistProps | actual, minmax, one_bucket, dark, bright, dra, bright_refuted |
| C96 | SICD and SIDD documents and their dataclasses | proved | SchemaProps | tables, round_trip, documents, reread, versions, unknown, repeated, attributes, rewritten, fixed |
| C97 | What builders and updaters read of SAR documents | proved | SarDocProps, SarVectorProps | sicd_updates, sicd_refused, sicd_complete, sidd_complete, sidd_chip, sidd_first_chip, sicd_vectors, sidd_vectors |
| C98 | SAR documents stay valid against their schemas | proved | XsdChipProps, XsdProps | sidd_chip, empty_list_refuted, unchecked_refuted, classes_fit, classes_covered, valid_documents, builders, sicd_updates, sicd_range |
| C99 | From the document in an image to the geolocation of its tiles | proved | TileDocProps, TileSiddProps | sicd_tiles, sidd_first_tile, sidd_tiles, sidd_second_tile |
| C100 | Tiles of SIDD images that are chips | proved | SarChipProps, TileSiddProps | chip_model, tile_of_chip, first_pixel_refuted, tiles_of_chips |
| C101 | WGS 84 conversions between geodetic and geocentric coordinates | proved | GeodesyProps, GeodesyTerrainProps | back, forth, determined, surface, nearest, vertical, heights, horizon, directions, convex |
| C102 | Projection to a constant height above the WGS 84 ellipsoid | proved | GeodesyProps | height, never_below, accuracy, default_plane |
| C103 | Post spacing of elevation tiles on the WGS 84 ellipsoid | proved | GeodesyDemProps | distance, post_spacing, at_most, row, coarse_rows, half_post_refuted |
| C104 | SICD pixels on level terrain over the WGS 84 ellipsoid | proved | GeodesyLevelProps | level_terrain, sicd |
| C105 | SICD pixels on terrain over the WGS 84 ellipsoid | proved | GeodesyTerrainProps | spacing, near, found, sicd |
| C106 | Finding the pixels of SICD images in the slant plane and in the ground plane | proved | SicdStareProps | found, round_trip, ground_plane, wgs84 |
| C107 | SAR sensor models are made of the elements that the formats name | proved | SarTextProps | sidd, sicd, sicd_chip, sidd_chip |
| C108 | RPC pixels in binary64 | proved | RpcFloatProps | pixel, given_point, returns |
| C109 | RSM pixels in binary64 | proved | RsmFloatProps | pixel, multiplication, geodetic, any_power |
| C110 | RSM section in binary64 | proved | SectionFloatProps | whole_sections, approximate_location, world_section, any_size, monotone, zero_size, not_finite, fractional_sections_refuted |
| C111 | RSM 0 to 2 pi longitude in binary64 | proved | LongitudeFloatProps | domain, eastern, western, order, any_longitude, not_finite, kept_refuted |
| C112 | SICD pixel grid in binary64 | proved | SicdPixelFloatProps | grid_location, round_trip, chip, scene_centre, order, exact_refuted |
| C113 | Geolocation grid in binary64 | proved | GridFloatProps | points, increasing, covers, short, any_size_refuted |

## 7. Axioms of each theorem

What `Print Assumptions` lists, all from the standard library: S = `ClassicalDedekindReals.sig_forall_dec`, N = `ClassicalDedekindReals.sig_not_dec`, F = `FunctionalExtensionality.functional_extensionality_dep`, C = `Classical_Prop.classic`.

* closed under the global context (120 theorems): C108_flat, C108_returns, C110_zero_size_cases, C111_not_finite, C113_single, C113_three, C113_underflow, C14_binary64_name_correct_iff, C14_binary64_name_refuted, C14_binary64_whole_degrees, C21_coefficient_count, C22_needs_ten_coefficients, C24_missing_section, C31_world_to_image, C39_chip_metadata, C39_history_independent, C39_scaling_refused, C40_chip_of_chip, C46_added_case, C46_callers_dictionary, C46_credentials, C46_credentials_case, C46_defaults, C46_environment_is_pinned, C46_inside, C46_nested, C46_options_added_inside, C46_outcome, C46_reentered, C46_reentered_case, C46_restored, C46_reused, C46_spelling_refuted, C47_layout, C47_left_justified_refuted, C47_missing, C47_overflow, C48_error, C48_value, C50_image_domain, C51_corner_error, C51_failed_sidd_discards_refuted, C51_returns, C51_selection, C51_sidd_not_gated, C52_malformed_refuted, C52_well_formed, C53_float_j2k_refuted, C53_table, C54_names, C55_case, C55_driver, C55_idempotent, C55_image_extension, C55_normalize, C55_other_extensions_refuted, C55_real_extension_refuted, C55_select, C55_select_case, C55_select_is_an_extension, C55_spellings, C55_split, C55_strip, C56_detection, C56_malformed_box, C56_none, C56_priority, C56_reads_only, C56_set_find, C57_find, C57_frame, C57_unchangeable_detection, C57_values, C60_build, C60_intersects, C60_map_geometries_refuted, C60_unknown_position, C61_no_bands, C61_read, C65_plain_root, C65_s3_root, C69_float_ranges, C69_other_types, C70_desdata, C70_prolog_on_two_lines_refuted, C70_prologs, C70_segments, C72_cannot_open, C72_loaded, C74_first_sar_segment, C74_sidd_preferred_refuted, C77_alpha, C77_gray, C77_only_black_refuted, C81_common_option, C81_different_options, C81_restored_refuted, C82_interrupted, C82_some_window, C82_uninterrupted, C87_elevation, C87_history, C93_fields_below_60_refuted, C93_not_finite, C93_text_raises, C94_brightest, C94_range_empty, C96_attributes, C96_documents, C96_fixed, C96_refusal_cases, C96_repeated, C96_reread, C96_rewritten, C96_round_trip, C96_tables, C96_unknown, C96_versions, C98_classes_covered, C98_classes_fit

* S (44 theorems): C107_sicd, C107_sicd_chip, C107_sidd, C107_sidd_chip, C17_constant_model, C19_short_polynomial, C28_mismatched_lengths, C28_rejected, C49_any_order, C49_errors, C49_values, C50_section_fields, C56_detection_cases, C56_malformed_cases, C56_scalar_detection_refuted, C57_all_or_nothing_refuted, C57_find_cases, C57_ring_case, C57_ring_refuted, C60_map_limit, C60_nearest, C64_exponent_beyond_order, C64_exponent_beyond_order_2d, C64_no_coefficients, C64_placement, C71_model, C71_no_model, C87_constructors, C87_default_coordinates, C87_domain_back, C87_grid_harmless, C87_grid_values, C97_sicd_complete, C97_sicd_refused, C97_sicd_updates, C97_sicd_vectors, C97_sidd_chip, C97_sidd_complete, C97_sidd_vectors, C98_builders, C98_sicd_range, C98_sicd_updates, C98_sidd_chip, C98_valid_documents

* S F (217 theorems): C06_limits_cover_and_are_tight, C06_limits_exist, C06_limits_order_independent, C100_first_pixel_refuted, C109_any_power, C109_multiplication, C109_pixel, C110_any_size, C110_approximate_location, C110_fractional_sections_refuted, C110_last_location, C110_monotone, C110_not_finite, C110_whole_sections, C110_world_section, C110_world_section_exact, C110_zero_size, C111_any_longitude, C111_eastern, C111_kept_refuted, C111_order, C112_chip, C112_exact_refuted, C112_grid_location, C112_order, C112_round_trip, C112_scene_centre, C113_any_size_refuted, C113_covers, C113_increasing, C113_met, C113_points, C113_short, C15_answers_come_from_a_load, C15_cache_transparent, C15_failed_load_is_retried, C15_missing_tile_is_remembered, C16_bounded_without_duplicates, C16_holds_most_recently_used, C16_loads_only_when_not_recent, C17_location_unchanged, C17_missing_tile_leaves_elevation, C17_no_data_post_refuted, C17_no_tile_no_effect, C17_thick_tile, C17_thin_tile, C18_between_posts, C18_post_is_returned, C18_within_posts, C21_every_term_once, C22_quadratic, C22_special_case_of_general, C23_ground_to_image, C23_image_round_trip, C23_world_round_trip, C24_image_to_world_section, C24_responsible_unique, C26_accepted_inputs, C26_derived_values, C27_forward_of_inverse, C27_forward_takes, C27_inverse_of_forward, C27_sensor_round_trip, C27_world_round_trip, C28_exact_fit, C28_least_error, C28_recovers_transform, C29_rejects_short, C29_rejects_singular, C30_round_trip, C30_window_image_to_world, C30_window_world_to_image, C32_grid_round_trip, C32_pixel_round_trip, C32_spacing, C34_polynomials, C34_polynomials_2d, C34_velocity, C36_setup, C36_threshold_extrapolates, C36_threshold_refuted, C41_affine, C41_corners, C41_lines, C41_single_pixel_wide, C41_window_shift, C42_chip_of_chip, C42_first_chip, C42_history_dependent, C42_history_independent_refuted, C42_thin_chip_blocks, C42_window_of_window, C44_actual_range, C44_constant_image, C44_no_pixels, C44_order, C44_suggested_inside_actual, C44_suggested_range, C44_zero_last_value, C44_zero_last_value_refuted, C45_dra, C45_dra_buckets, C45_dra_buckets_refuted, C45_dra_ends, C45_dra_own_range, C45_dra_own_range_refuted, C45_minmax, C45_minmax_ends, C45_minmax_overflow_refuted, C45_no_adjustment, C45_values, C50_cases, C50_context, C50_errors, C50_ground_domain, C50_missing_section_refuted, C50_sections, C53_new_factory, C59_bbox_clamped, C59_bbox_refuted, C59_cells, C59_extent, C61_degenerate, C61_degenerate_refuted, C61_level, C61_line_and_read, C61_narrow_refuted, C61_no_tile_cases, C61_none, C61_touching_refuted, C61_width, C61_window, C61_window_tight, C62_elevation_refuted, C62_elevation_square, C62_no_tile, C62_nonsquare_refuted, C62_one_pixel_refuted, C62_registration, C62_registration_refuted, C62_source, C62_square, C62_tile, C62_whole_tile, C63_histogram_stretch, C63_linear_mapping, C63_power, C63_power_16bit, C64_position, C64_sum_of_powers, C64_sum_of_powers_2d, C69_adjusted, C69_constant_band, C69_integer_ranges, C69_no_adjustment, C69_no_statistics, C74_factory, C76_affine_exact, C80_alone, C80_answers, C80_answers_come_from_a_load, C80_bounded, C80_finishes, C80_loads, C80_single_load_refuted, C82_own_window_refuted, C87_dem, C88_affine, C88_formulas, C88_no_rounding, C88_rpc_polynomial, C88_rsm_binary64, C88_rsm_pixel, C88_rsm_polynomial, C89_affine, C89_affine_case, C89_formulas, C89_integers, C89_nearest, C89_nearest_determined, C89_no_overflow, C89_operations, C89_rsm, C89_rsm_case, C89_whole_numbers, C92_contains_refuted, C92_inside, C92_monotone, C92_nested, C92_shared_sides, C93_exact_rounds, C93_fields, C93_numpy_round, C93_numpy_rounds, C94_agrees, C94_buckets, C94_dra, C94_dra_band, C94_dra_band_case, C94_dra_white_refuted, C94_dra_whole, C94_ends, C94_minmax, C94_minmax_white_refuted, C94_order, C94_range, C94_shows, C95_actual, C95_bright, C95_bright_refuted, C95_dark, C95_dra, C95_minmax, C95_one_bucket, C97_sidd_first_chip, C98_empty_list_refuted, C98_unchecked_refuted

* S N F (215 theorems): C01_tile_contains_projected_location, C02_bounds_are_grid_lines, C02_metric_bounds, C02_tile_unique, C03_child_tile_in_parent, C03_children_subdivide, C04_index_range, C04_index_range_inside, C04_southern_edge_row, C04_western_edge_column, C05_ogc_row_refuted, C05_row_is_flipped_ogc_row, C05_rows_grow_northwards, C06_limits_cover_rectangle, C06_well_known_tile_sets, C07_dms_fixed_width, C08_dms_accuracy, C08_whole_seconds, C08_whole_seconds_refuted, C09_fields_at_most_60, C09_minutes_below_60_refuted, C09_overflow_characterised, C09_seconds_below_60_refuted, C100_chip_model, C100_tile_of_chip, C100_tiles_of_chips, C103_distance, C103_post_spacing, C105_spacing, C106_found, C106_ground_plane, C106_round_trip, C109_geodetic, C10_default_format, C10_format_is_tokenwise, C10_literals_preserved, C11_decimal_degrees_unsigned, C11_signed_degrees_refuted, C12_igeolo, C13_srtm_coverage, C13_srtm_ids_are_cells, C13_srtm_name, C14_configured_range, C14_generic_ids_are_cells_exact, C14_generic_name_exact, C14_generic_outside, C17_gdal_missing_file_leaves_elevation, C17_loading_error, C17_loading_error_refuted, C19_world_to_image, C20_on_surface, C20_option_names, C20_residual_is_objective, C20_search_start, C24_world_to_image_section, C25_geodetic_identity, C25_rectangular_round_trip, C25_two_pi_domain, C25_two_pi_ground_round_trip, C25_two_pi_round_trip, C29_builder_errors, C29_builder_geographic, C29_builder_projected, C29_displacement, C29_geotransform, C29_height_unit_refuted, C29_image_round_trip, C29_reprojection, C29_world_round_trip, C29_world_round_trip_reprojected, C31_image_to_world, C31_seeds_rpc_search, C32_grid_of_plane_point, C32_on_image_plane, C32_plane_point_of_grid, C33_answer_or_error, C33_below_plane_refuted, C33_error_means_no_solution, C33_exact, C33_finds_every_solution, C33_nadir_refuted, C33_nan_iff, C33_normals, C33_reference_below_track, C33_reference_below_track_refuted, C33_unique, C34_closest_approach, C34_compressed, C34_offsets, C34_planar, C34_polar_format, C34_range_rate_is_derivative, C34_scene_centre, C35_error, C35_height, C35_iteration, C35_on_contour, C36_crossing_found, C36_first_returned, C36_no_intersection, C36_no_step, C36_no_summary, C36_on_contour, C36_returned, C36_samples_cover, C36_side, C36_step, C37_accurate, C37_height_is_multiplied, C37_off_plane_never_converges, C37_projects_along_normal, C37_terminates, C38_from_metadata, C38_image_to_world, C38_missing_block, C38_no_model, C38_unusable_model, C38_world_to_image, C43_exact, C45_channels, C45_empty, C45_image, C45_two_bands, C51_malformed_corner, C53_igeolo, C53_repeatable, C53_requests, C54_always_deleted, C54_answer, C54_files, C54_interference, C54_none_refuted, C54_own_name, C54_translate_failure_refuted, C58_call, C58_errors, C58_feature, C58_frame, C58_order, C58_structure, C58_total, C58_untouched, C58_unusable, C59_area, C59_no_geometry, C59_small_grid, C63_amplitudes, C63_complex, C63_dark_image, C63_gain, C63_image, C63_pixel_types, C63_quarter_power, C66_equilateral, C67_inside_ground_domain, C67_on_surface, C67_residual_is_objective, C68_ground_plane_normal, C68_slant_plane_normal, C73_control_points, C73_corners, C73_no_model, C75_sicd_tiles, C76_error_bound, C78_centre, C78_centre_refuted, C78_elevation, C78_post_at_corner, C78_summary, C83_ground, C83_ground_found, C83_terrain, C83_usable, C84_ground, C84_terrain_left, C85_rpc, C85_rsm_one, C85_rsm_sections, C86_corners, C86_sicd_tiles, C87_domain_alias, C87_domain_copy_refuted, C87_origin_independent_refuted, C87_sensors_harmless, C87_sicd_harmless, C87_sicd_values, C87_values, C88_rpc_binary64, C88_rpc_pixel, C89_rpc, C89_rpc_case, C90_chipped, C90_composite, C90_control_points, C90_corners, C90_geotransform, C90_rpc, C90_sicd, C90_sicd_pixels, C90_sicd_with_sidd_refuted, C90_sidd, C90_sidd_pixels, C90_tres, C90_unusable_document, C91_converges, C91_converges_near, C91_sicd, C91_sidd, C91_sidd_round_trip, C91_sidd_terrain_refuted, C91_sidd_window, C99_sicd_tiles, C99_sidd_first_tile, C99_sidd_second_tile, C99_sidd_tiles

* S N F C (58 theorems): C01_tile_bounds_contain_location, C04_index_range_refuted, C04_square_of_latitudes, C101_back, C101_convex, C101_determined, C101_directions, C101_forth, C101_heights, C101_horizon, C101_nearest, C101_surface, C101_vertical, C102_accuracy, C102_default_plane, C102_height, C102_never_below, C103_at_most, C103_coarse_rows, C103_half_post_refuted, C103_row, C104_level_terrain, C104_sicd, C105_found, C105_near, C105_sicd, C106_wgs84, C108_given_point, C108_pixel, C111_domain, C111_western, C25_two_pi_identity_refuted, C25_wgs84, C36_wgs84, C43_pixel_shift_refuted, C63_decibels, C76_antimeridian_refuted, C79_columns_and_edges, C79_northern_rows, C79_rows, C79_shared_edges, C79_tile, C79_whole_world_refuted, C89_degrees, C89_pi, C89_radians, C89_tile_name, C89_whole_degree, C91_sicd_wgs84, C91_sidd_wgs84, C92_away_from_edges, C92_bounds, C92_tile_for_location, C93_igeolo, C93_igeolo_case, C93_same_fields, C93_text, C93_whole_seconds
