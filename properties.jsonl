{"id": "C01", "title": "Tile lookup returns a tile that contains the location", "statement": "The tile returned by get_tile_for_location for a location and zoom level has metric bounds that contain the projected location: each coordinate is strictly above the tile's minimum and at most the tile's maximum.", "quantifier": "every projected location, every zoom level >= 0, every tile size >= 1", "why_tests_cant": "the boundary cases are a dense set of real locations at an unbounded number of zoom levels", "anchors": ["src/aws/osml/image_processing/map_tileset_wmq.py:WebMercatorQuadMapTileSet.get_tile_for_location", "src/aws/osml/image_processing/map_tileset_wmq.py:_meters_to_pixels", "src/aws/osml/image_processing/map_tileset_wmq.py:_pixels_to_tile", "src/aws/osml/image_processing/map_tileset_wmq.py:_calculate_tile_bounds_meters"]}
{"id": "C02", "title": "The tiles of a zoom level partition the plane", "statement": "For a zoom level, no location is in the (min, max] bounds of two different tiles, neighbouring tiles share exactly their common edge, and each tile is circumference/2^z on a side whatever the tile size in pixels.", "quantifier": "every location, every pair of tile ids, every zoom level and tile size", "why_tests_cant": "uniqueness quantifies over all pairs of tile ids", "anchors": ["src/aws/osml/image_processing/map_tileset_wmq.py:_calculate_tile_bounds_meters", "src/aws/osml/image_processing/map_tileset_wmq.py:_pixels_to_tile"]}
{"id": "C03", "title": "Zooming in nests tiles", "statement": "The tile found for a location at zoom z+1 is one of the four tiles that subdivide the tile found at zoom z, and the bounds of those four tile the bounds of the parent.", "quantifier": "every location and every zoom level", "why_tests_cant": "quantifies over all zoom levels and real locations", "anchors": ["src/aws/osml/image_processing/map_tileset_wmq.py:get_tile_for_location", "src/aws/osml/image_processing/map_tileset_wmq.py:_resolution"]}
{"id": "C04", "title": "Tile indices stay inside the tile matrix", "statement": "For a location in the closed Web Mercator square the column is between 0 and 2^z - 1 exactly if the location is not on the western edge, and the row exactly if it is not on the southern edge; on those edges it is -1. With the actual projection the square is the band of latitudes up to 2 atan(e^pi) - pi/2.", "quantifier": "every location in the closed world square and every zoom level", "why_tests_cant": "the failing locations are a measure-zero edge that sampled tests miss", "anchors": ["src/aws/osml/image_processing/map_tileset_wmq.py:_pixels_to_tile", "src/aws/osml/image_processing/map_tileset_wmq.py:get_tile_for_location"]}
{"id": "C05", "title": "Row numbering direction", "statement": "Row numbers grow towards the north: of two locations the more northerly one never has the smaller row. The OGC WebMercatorQuad tile set the class claims to implement numbers rows from the north downwards, so the row found agrees with OGC only for rows in the centre of an odd matrix, i.e. never for z >= 1.", "quantifier": "every pair of locations and every zoom level", "why_tests_cant": "relational property over all pairs of locations", "anchors": ["src/aws/osml/image_processing/map_tileset_wmq.py:_meters_to_pixels", "src/aws/osml/image_processing/map_tileset_wmq.py:_pixels_to_tile"]}
{"id": "C06", "title": "Tile matrix limits cover the area's vertices and are tight", "statement": "get_tile_matrix_limits_for_area returns limits such that the tile of each boundary coordinate is inside them, each limit is reached by some coordinate, the result does not depend on the order of the coordinates, and an empty area raises instead of returning limits.", "quantifier": "every finite list of boundary coordinates, every zoom level", "why_tests_cant": "lists are unbounded", "anchors": ["src/aws/osml/image_processing/map_tileset.py:MapTileSet.get_tile_matrix_limits_for_area", "src/aws/osml/image_processing/map_tileset_factory.py:MapTileSetFactory.get_for_id"]}
{"id": "C07", "title": "DMS strings have a fixed width", "statement": "to_dms_string of any coordinate with |latitude| <= 90 and |longitude| <= 180 degrees is exactly 15 characters: 6 digits, N or S, 7 digits, E or W.", "quantifier": "every latitude and longitude in range", "why_tests_cant": "a continuum of inputs whose rounding cases can overflow a field", "anchors": ["src/aws/osml/photogrammetry/coordinates.py:GeodeticWorldCoordinate.to_dms_string", "src/aws/osml/photogrammetry/coordinates.py:GeodeticWorldCoordinate.__format__"]}
{"id": "C08", "title": "DMS strings are accurate", "statement": "Decoding the degrees, minutes and seconds written for a coordinate gives back the unsigned angle to within one and a bit arc-seconds, and the hemisphere letter carries the sign. It is false that an angle of a whole number of seconds is written as such: the seconds are one too low exactly when they leave remainder 3, 4, 7 or 8 when divided by 9, and a whole number of minutes that leaves remainder 2 when divided by 3 is written as one minute less and 60 seconds; all others are written back.", "quantifier": "every latitude and longitude", "why_tests_cant": "worst-case error bound over a continuum", "anchors": ["src/aws/osml/photogrammetry/coordinates.py:GeodeticWorldCoordinate.__format__"]}
{"id": "C09", "title": "DMS minutes and seconds range over 0..60", "statement": "The minutes and seconds fields written for a coordinate are in 0..60. They are 60 exactly when rounding to six decimals pushes the fraction of the degree, or of the minute, up to the next whole number (the window is given exactly); so the claim that they are below 60 is false.", "quantifier": "every latitude and longitude", "why_tests_cant": "the violating windows are 5e-7 degrees wide", "anchors": ["src/aws/osml/photogrammetry/coordinates.py:GeodeticWorldCoordinate.__format__"]}
{"id": "C10", "title": "Format directives are independent and literals are preserved", "statement": "Text without a percent sign is copied unchanged, '%%' yields one percent sign, unknown directives are dropped, and formatting the concatenation of two complete specifications is the concatenation of the two results.", "quantifier": "every format specification string and coordinate", "why_tests_cant": "specification strings are unbounded", "anchors": ["src/aws/osml/photogrammetry/coordinates.py:GeodeticWorldCoordinate.__format__"]}
{"id": "C11", "title": "Decimal degree directives are unsigned", "statement": "Decimal degree output (%l and %o) is the absolute value in degrees: coordinates that are mirror images across the equator or the meridian format identically. The documented signed output is wrong for every southern latitude and every western longitude.", "quantifier": "every coordinate and specification", "why_tests_cant": "needs a relational argument over pairs of coordinates", "anchors": ["src/aws/osml/photogrammetry/coordinates.py:GeodeticWorldCoordinate.__format__"]}
{"id": "C12", "title": "IGEOLO is always 60 characters", "statement": "The IGEOLO value written into a NITF chip is exactly 60 characters and lists upper-left, upper-right, lower-right, lower-left corner of the chip, or is absent when no sensor model is available.", "quantifier": "every chip window and every sensor model whose corner coordinates are in range", "why_tests_cant": "depends on every possible sensor model output", "anchors": ["src/aws/osml/image_processing/gdal_tile_factory.py:GDALTileFactory._create_new_igeolo"]}
{"id": "C13", "title": "SRTM tile ids identify one-degree cells", "statement": "SRTMTileSet.find_tile_id returns None exactly when the floor of the latitude in degrees is outside -56..59; otherwise two locations get the same id exactly when they are in the same one-degree cell, so ids never collide across hemispheres.", "quantifier": "every pair of locations with longitude in (-1000, 1000) degrees", "why_tests_cant": "injectivity over all pairs", "anchors": ["src/aws/osml/photogrammetry/srtm_dem_tile_set.py:SRTMTileSet.find_tile_id"]}
{"id": "C14", "title": "Generic DEM tile ids", "statement": "GenericDEMTileSet.find_tile_id gives an id exactly if the whole degrees of the location are in the configured ranges, and it is the format applied to the south-west corner of the one-degree cell. In exact arithmetic the default format names the cell and two cells never share an id. In the binary64 arithmetic the code uses, the default name is right exactly if neither whole degree of the cell is one of +-15, 30, 60, 120: these do not survive the round trip through radians and are written one lower.", "quantifier": "every location, every configured latitude/longitude range", "why_tests_cant": "only four of 181 magnitudes fail, and only through rounding", "anchors": ["src/aws/osml/photogrammetry/generic_dem_tile_set.py:GenericDEMTileSet.find_tile_id", "src/aws/osml/photogrammetry/coordinates.py:GeodeticWorldCoordinate.__format__"]}
{"id": "C15", "title": "DEM caching is transparent", "statement": "For every history of set_elevation and describe_region calls, each call has the same effect as it would on a fresh, uncached model, as long as the tile factory answers a tile id the same way each time.", "quantifier": "every finite history of calls, every cache size, every tile set and factory", "why_tests_cant": "histories are unbounded and interleave evictions", "anchors": ["src/aws/osml/photogrammetry/digital_elevation_model.py:DigitalElevationModel.set_elevation", "src/aws/osml/photogrammetry/digital_elevation_model.py:DigitalElevationModel.get_interpolation_grid"]}
{"id": "C16", "title": "The DEM cache is bounded and LRU", "statement": "After any history the cache holds at most the configured number of tiles with no tile held twice, a tile that is held is never loaded again, and what is held is exactly the most recently used distinct tiles.", "quantifier": "every finite history, every cache size", "why_tests_cant": "histories are unbounded", "anchors": ["src/aws/osml/photogrammetry/digital_elevation_model.py:DigitalElevationModel.get_interpolation_grid"]}
{"id": "C17", "title": "Elevation lookups touch only the elevation and leave it alone without data", "statement": "set_elevation never changes longitude or latitude. It leaves the elevation unchanged when the tile set has no tile id, the file is not there or it has no geotransform. An error raised while loading (by gdal.Open, or for a geotransform that cannot be inverted) reaches the caller although the documentation promises an unchanged elevation, and posts that hold the no-data value are interpolated as if they were elevations. Constant models assign their constant and report it as their summary.", "quantifier": "every location, tile set, tile factory and cache state", "why_tests_cant": "covers all failure combinations in all cache states", "anchors": ["src/aws/osml/photogrammetry/digital_elevation_model.py:DigitalElevationModel.set_elevation", "src/aws/osml/photogrammetry/digital_elevation_model.py:DigitalElevationModel.describe_region", "src/aws/osml/gdal/gdal_dem_tile_factory.py:GDALDigitalElevationModelTileFactory.get_tile"]}
{"id": "C18", "title": "DEM interpolation grids read the raster the right way round", "statement": "At a whole pixel (x, y) inside a DEM tile the interpolated elevation is the raster value in row y and column x, for rasters of any width and height. Between posts it is the bilinear interpolation of the four posts around, and it is never outside the range of the raster's values.", "quantifier": "every raster and every pixel in it", "why_tests_cant": "transposition bugs survive square or symmetric test rasters", "anchors": ["src/aws/osml/photogrammetry/digital_elevation_model.py:DigitalElevationModel.get_interpolation_grid"]}
{"id": "C19", "title": "RPC polynomials follow the RPC00B term order", "statement": "RPC world_to_image evaluates the ratio of cubic polynomials of the normalised longitude, latitude and height in the RPC00B term order, scales and offsets it, and puts the sample in x and the line in y. A polynomial of fewer than twenty coefficients is an IndexError.", "quantifier": "every coefficient set and every world coordinate at which the scales and denominators are not zero", "why_tests_cant": "polynomial identity in 80 coefficients", "anchors": ["src/aws/osml/photogrammetry/rpc_sensor_model.py:RPCPolynomial.evaluate", "src/aws/osml/photogrammetry/rpc_sensor_model.py:RPCSensorModel.world_to_image"]}
{"id": "C20", "title": "RPC image_to_world keeps the surface elevation", "statement": "The coordinate returned by RPC image_to_world has the elevation the elevation model assigns to its longitude and latitude, or the model's height offset when no elevation model is given, whatever the optimiser returns. If the optimiser reaches a value of its objective, the returned coordinate is so near the requested pixel in the image. The search starts at the offsets of the model or the initial guess of the options, with a triangle of half a degree or the distance of the options; other types of these options are errors.", "quantifier": "every image coordinate, optimiser result and elevation model", "why_tests_cant": "quantifies over every behaviour of the external optimiser", "anchors": ["src/aws/osml/photogrammetry/rpc_sensor_model.py:RPCSensorModel.image_to_world"]}
{"id": "C21", "title": "RSM polynomials sum every term once", "statement": "RSMPolynomial evaluation equals the triple sum of coefficient[i,j,k] x^i y^j z^k with i varying fastest, for every choice of maximum powers, and construction fails exactly when the coefficient count is not (px+1)(py+1)(pz+1).", "quantifier": "every triple of powers, coefficient list and point", "why_tests_cant": "sizes are unbounded", "anchors": ["src/aws/osml/photogrammetry/replacement_sensor_model.py:RSMPolynomial.__init__", "src/aws/osml/photogrammetry/replacement_sensor_model.py:RSMPolynomial.evaluate"]}
{"id": "C22", "title": "RSM low order polynomials", "statement": "The low order polynomial equals the full second-degree polynomial in x, y, z with the RSMPIA coefficient order and is a special case of the general RSM polynomial.", "quantifier": "every coefficient list and point", "why_tests_cant": "polynomial identity", "anchors": ["src/aws/osml/photogrammetry/replacement_sensor_model.py:RSMLowOrderPolynomial.evaluate"]}
{"id": "C23", "title": "RSM normalisation is inverted by denormalisation", "statement": "normalising then denormalising image and ground coordinates is the identity in both directions when the scale factors are non-zero.", "quantifier": "every coordinate, offset and non-zero scale", "why_tests_cant": "real-valued identities", "anchors": ["src/aws/osml/photogrammetry/replacement_sensor_model.py:RSMPolynomialSensorModel.normalize_world_coordinate", "src/aws/osml/photogrammetry/replacement_sensor_model.py:RSMPolynomialSensorModel.denormalize_image_coordinate"]}
{"id": "C24", "title": "RSM section selection", "statement": "Every ground point selects a section that exists; when the low order estimate falls inside the image, the selected section is the one whose row and column range contains it. Outside the image it is the nearest section in each direction; the same holds for image coordinates. Exactly one section is responsible for each, and a section that is missing is an IndexError.", "quantifier": "every ground point, number of sections and section size", "why_tests_cant": "all sizes and all real estimates", "anchors": ["src/aws/osml/photogrammetry/replacement_sensor_model.py:RSMSectionedPolynomialSensorModel.get_section_index", "src/aws/osml/photogrammetry/replacement_sensor_model.py:RSMSectionedPolynomialSensorModel.world_to_image"]}
{"id": "C25", "title": "RSM ground domain round trips", "statement": "Converting a geodetic coordinate into a rectangular or plain geodetic ground domain and back is the identity. For the 0..2pi domain the longitude lands in [0, 2pi) and differs by whole turns: eastern longitudes come back, western ones come back a full turn further east; ground domain coordinates always come back. With the conversions of the WGS 84 ellipsoid rectangular ground domains return every geodetic coordinate down to 6,335.439 kilometres below it, without further assumptions.", "quantifier": "every coordinate, origin and orthonormal frame", "why_tests_cant": "identity over all frames and points", "anchors": ["src/aws/osml/photogrammetry/replacement_sensor_model.py:RSMGroundDomain.geodetic_to_ground_domain_coordinate", "src/aws/osml/photogrammetry/replacement_sensor_model.py:RSMGroundDomain.ground_domain_coordinate_to_geodetic"]}
{"id": "C26", "title": "RSM ground domain construction validates its inputs", "statement": "A ground domain is created exactly when there are 8 vertices and, for the rectangular form, an origin and unit vectors are present; its bounding box contains every vertex and is tight; the default elevation is the reference point's or the mean of the vertices.", "quantifier": "every constructor argument combination", "why_tests_cant": "all vertex lists", "anchors": ["src/aws/osml/photogrammetry/replacement_sensor_model.py:RSMGroundDomain.__init__"]}
{"id": "C27", "title": "Projective transforms invert", "statement": "inverse(forward(p)) = p and forward(inverse(q)) = q for every projective transform and point where both denominators and the determinant are non-zero. The projective sensor model inverts likewise: every such pixel comes back from its ground point with any elevation model, every ground point from its pixel with the elevation zero.", "quantifier": "every 8-parameter transform and point", "why_tests_cant": "rational identity in 10 variables", "anchors": ["src/aws/osml/photogrammetry/projective_sensor_model.py", "src/aws/osml/photogrammetry/transforms.py:ProjectiveTransform.forward", "src/aws/osml/photogrammetry/transforms.py:ProjectiveTransform.inverse"]}
{"id": "C28", "title": "Projective estimation reproduces the correspondences", "statement": "The linear system built by estimate is solved by a parameter vector exactly when the corresponding transform maps each source point to its destination (at points where the denominator is non-zero), so an exact solution reproduces all correspondences. With a solver of least squares no other transform has a smaller total error. Correspondences that some transform meets exactly are reproduced, and four of them in general position determine the transform. Lists of different lengths, except for a single destination, and empty lists are ValueErrors.", "quantifier": "every list of correspondences of any length", "why_tests_cant": "list length unbounded", "anchors": ["src/aws/osml/photogrammetry/transforms.py:ProjectiveTransform.estimate"]}
{"id": "C29", "title": "Affine sensor model round trips", "statement": "For a geotransform with non-zero determinant, world_to_image inverts image_to_world in the dataset's own coordinate system and vice versa; a singular geotransform is rejected with ValueError. A dataset without projection, or with the empty one, is located in degrees directly, any other by the transformer of its projection, whose errors reach the caller. With a coordinate system the code takes the third output of the transformer as homogeneous coordinate: if it is h, the returned pixel is displaced by the pixel offset of (1 - h) times the geotransform's origin, so the round trip holds exactly if h is 1 or the origin is zero.", "quantifier": "every geotransform and coordinate", "why_tests_cant": "real-valued identities", "anchors": ["src/aws/osml/photogrammetry/gdal_sensor_model.py:GDALAffineSensorModel"]}
{"id": "C30", "title": "Chipped sensor models are the full model shifted by the chip transform", "statement": "image_to_world on a chip equals the full model at the chip-to-full location, world_to_image equals the full-to-chip image of the full model's answer, and a full model that round trips gives a chip model that round trips.", "quantifier": "every full sensor model, chip transform and coordinate", "why_tests_cant": "quantifies over arbitrary sensor models", "anchors": ["src/aws/osml/photogrammetry/chipped_image_sensor_model.py:ChippedImageSensorModel"]}
{"id": "C31", "title": "Composite sensor models", "statement": "world_to_image is the precision model's answer; image_to_world is the precision model's answer seeded with the approximate model's answer; the caller's options are not modified and are passed on otherwise unchanged.", "quantifier": "every pair of models, coordinates and options", "why_tests_cant": "quantifies over arbitrary sensor models and options", "anchors": ["src/aws/osml/photogrammetry/composite_sensor_model.py:CompositeSensorModel"]}
{"id": "C32", "title": "SAR image grid conversions round trip", "statement": "pixel grid to SCP-centred coordinates and SCP-centred coordinates to image-plane points are inverted by their counterparts for every non-zero sample spacing and every pair of non-parallel unit row and column vectors, and image-plane points lie on the plane through the SCP normal to the plane normal.", "quantifier": "every grid location and every admissible frame", "why_tests_cant": "identities over all frames", "anchors": ["src/aws/osml/photogrammetry/sicd_sensor_model.py:SARImageCoordConverter"]}
{"id": "C33", "title": "R/Rdot ground plane intersection is exact", "statement": "When the ground plane projection returns a point and the reference point is not below the track, the point lies on the plane on the side of the reference point, its distance to the antenna equals the range and its range rate the requested one, and it is the only such point. A ValueError means that no point of the plane has that range and range rate. The only other result is nan, exactly when the antenna is more than the range below the plane, the range is zero, or the ground range or horizontal velocity vanishes for the matching range rate; with the reference point below the track the answer is a point below the track that can be nearer than the range.", "quantifier": "every range, range rate, antenna position and velocity, and plane with the antenna above it and moving across it", "why_tests_cant": "nonlinear real arithmetic over all geometries", "anchors": ["src/aws/osml/photogrammetry/sicd_sensor_model.py:GroundPlaneRRDotSurfaceProjection.rrdot_to_ground"]}
{"id": "C34", "title": "Projection sets agree with the geometry of the SCP and image plane", "statement": "At the grid origin each projection set gives the true range and range rate of the SCP (closest-approach range for INCA at zero time offset); the planar set gives for every grid location the true range and range rate of its image plane point; adjustable offsets shift position, velocity and range by the stated amounts. The polynomials are sums of powers, and the velocity polynomial is the derivative of the position polynomial. For each of the four grids the range is the formula of the grid, and the range rate its derivative in time where it has one, or, for range azimuth compression, the range rate that differs by the azimuth scale factor in the cosine of the Doppler cone angle.", "quantifier": "every parameter set and grid location", "why_tests_cant": "polynomial parameters of any degree", "anchors": ["src/aws/osml/photogrammetry/sicd_sensor_model.py:PFAProjectionSet._grid_specific_projection", "src/aws/osml/photogrammetry/sicd_sensor_model.py:RGAZCOMPProjectionSet._grid_specific_projection", "src/aws/osml/photogrammetry/sicd_sensor_model.py:INCAProjectionSet._grid_specific_projection", "src/aws/osml/photogrammetry/sicd_sensor_model.py:PlaneProjectionSet._grid_specific_projection", "src/aws/osml/photogrammetry/sicd_sensor_model.py:COAProjectionSet.precise_rrdot_computation"]}
{"id": "C35", "title": "HAE projection terminates and returns the requested height", "statement": "The height-above-ellipsoid projection performs at most the configured number of ground-plane projections (at least one), stops earlier exactly when the height error is within the threshold, and the geodetic height of the result is the requested height.", "quantifier": "every geometry and every iteration limit", "why_tests_cant": "loop behaviour depends on arbitrary real inputs", "anchors": ["src/aws/osml/photogrammetry/sicd_sensor_model.py:HAERRDotSurfaceProjection.rrdot_to_ground"]}
{"id": "C36", "title": "DEM intersection finds a surface crossing", "statement": "Every point of a contour intersected with terrain has the requested range and range rate and is on the declared side of the track. The contour is sampled from the lowest to beyond the highest elevation that the terrain reports at the scene centre, in steps of at most ten metres and half a post. If the contour passes from below the terrain to above it an intersection is found; what is returned is, in order, each sample within a millimetre of the terrain and each crossing interpolated between consecutive samples on opposite sides, and the sensor model answers with the first of them. Without a summary at the scene centre, or without an intersection, an AttributeError or IndexError is raised; a sample exactly at the threshold counts as below. On the WGS 84 ellipsoid the ends of the sampled contour are points whose heights are the lowest and the highest elevation reported.", "quantifier": "every contour sampling, every DEM", "why_tests_cant": "number of contour points is unbounded and the DEM arbitrary", "anchors": ["src/aws/osml/photogrammetry/sicd_sensor_model.py:DEMRRDotSurfaceProjection.rrdot_to_ground"]}
{"id": "C37", "title": "SICD world_to_image terminates and is accurate when it converges", "statement": "The scene-to-image iteration runs between 1 and 10 times; if it stops before the limit then projecting the returned pixel back to the ground plane lands within one centimetre of the scene point. For scene points more than a centimetre off the SCP ground plane it never converges and always runs 10 iterations.", "quantifier": "every scene point and projection geometry", "why_tests_cant": "loop over real-valued state for arbitrary geometry", "anchors": ["src/aws/osml/photogrammetry/sicd_sensor_model.py:SICDSensorModel.world_to_image"]}
{"id": "C38", "title": "SICD chips geolocate like the full image", "statement": "A sensor model built from the metadata of a chip maps chip pixel (x, y) to the same location as the full image's model maps pixel (x + x0, y + y0), and world_to_image differs by the same offset. This is from the metadata written for the chip to the model built from it. Metadata without a model give chips without one; metadata that lack the block of their grid give no model, and formation algorithms without a projection set give a model whose every use is an AttributeError.", "quantifier": "every chip window, pixel and projection geometry with whole-number first row and column", "why_tests_cant": "quantifies over windows and sensor geometry", "anchors": ["src/aws/osml/photogrammetry/sicd_sensor_model.py:SICDSensorModel.image_to_world", "src/aws/osml/image_processing/sicd_updater.py:SICDUpdater.update_image_data_for_chip", "src/aws/osml/gdal/sicd_sensor_model_builder.py"]}
{"id": "C39", "title": "SICD chip metadata does not depend on previous chips", "statement": "After any sequence of chips, the metadata written for a chip equals what a fresh updater would write: first row/column offset by the window, counts equal to the window size; a request for a different output size raises ValueError and leaves the metadata unchanged.", "quantifier": "every history of chip requests", "why_tests_cant": "histories are unbounded", "anchors": ["src/aws/osml/image_processing/sicd_updater.py:SICDUpdater.update_image_data_for_chip"]}
{"id": "C40", "title": "SICD chips of chips compose", "statement": "Chipping window B out of the chip made from window A gives the same first row/column and counts as chipping the combined window from the original.", "quantifier": "every pair of windows", "why_tests_cant": "all window pairs", "anchors": ["src/aws/osml/image_processing/sicd_updater.py:SICDUpdater.update_image_data_for_chip"]}
{"id": "C41", "title": "SIDD chip coordinate mapping", "statement": "chipped_coordinate_to_full maps the four chip corners to the recorded original corners and every chip pixel of a parallelogram chip affinely; for a one-to-one window it is the shift by the window origin.", "quantifier": "every chip size >= 2 and every corner quadrilateral", "why_tests_cant": "bilinear identity over all sizes", "anchors": ["src/aws/osml/image_processing/sidd_updater.py:SIDDUpdater.chipped_coordinate_to_full"]}
{"id": "C42", "title": "SIDD chip metadata does not depend on previous chips", "statement": "The metadata written for a chip should equal what a fresh updater would write. It is false: once a chip has been written the next chip is expressed relative to it. The first chip from an unchipped image is right, and a chip from an image that was itself a chip composes correctly.", "quantifier": "every history of chip requests", "why_tests_cant": "needs a history of at least two requests on one factory", "anchors": ["src/aws/osml/image_processing/sidd_updater.py:SIDDUpdater.update_image_data_for_chip"]}
{"id": "C43", "title": "SIDD updater and SIDD sensor model agree on chip corners", "statement": "The sensor model built from the metadata of a SIDD chip should map chip pixel (x, y) to full image pixel (x + x0, y + y0). It is false beyond the origin corner: the updater records the last pixel (w-1, h-1) while the sensor model takes it as the location of (w, h).", "quantifier": "every chip window", "why_tests_cant": "off by a fraction of a pixel that grows with distance from the corner", "anchors": ["src/aws/osml/image_processing/sidd_updater.py:SIDDUpdater.update_image_data_for_chip", "src/aws/osml/gdal/sidd_sensor_model_builder.py"]}
{"id": "C44", "title": "Dynamic range parameters stay inside the data", "statement": "For a histogram with at least one non-zero bucket the actual minimum and maximum are the edges of the first and last non-empty buckets, and the suggested minimum and maximum lie between them. The suggested minimum is below the suggested maximum exactly when no single bucket dominates the histogram; a constant image gives an inverted suggested range, and a zero last bucket value is ignored.", "quantifier": "every histogram and percentage", "why_tests_cant": "histogram length and counts are unbounded", "anchors": ["src/aws/osml/gdal/dynamic_range_adjustment.py:DRAParameters.from_counts"]}
{"id": "C45", "title": "Display normalisation is bounded and monotone", "statement": "In the min-max and dynamic range modes every output pixel is a byte and a brighter input pixel never becomes darker (as long as the tile type holds the differences: a 16-bit signed tile can wrap, and then also asks for 256 buckets instead of one per value). Output channel k shows input band k by that band's own statistics. Two bands are shown as one image of 255 times amplitude over three times the mean amplitude of the statistics (else of the pixels), at most 255. Min-max does not reach white for a band whose minimum is positive; without adjustment the output is only the low byte of the pixel, which is not monotone. In the dynamic range mode a tile's own range gives the same image as that range given by the band, as long as the differences of its pixels fit the pixel type; otherwise the width of a histogram bucket wraps around, and a signed 16-bit tile from -30000 to 30000 is shown white wherever it is not at its minimum.", "quantifier": "every pixel array and every range parameters", "why_tests_cant": "arrays are unbounded; relational", "anchors": ["src/aws/osml/image_processing/gdal_tile_factory.py:GDALTileFactory._normalize_band_minmax", "src/aws/osml/image_processing/gdal_tile_factory.py:GDALTileFactory._normalize_band_dra"]}
{"id": "C46", "title": "GDAL configuration is restored", "statement": "On leaving the environment, normally or by exception, and after any properly nested sequence of distinct environments, every GDAL option has the value it had on entry, provided the option dictionary names each option once (GDAL ignores case); inside, each requested option has the requested value; the caller's dictionary is not modified. set_gdal_default_configuration sets its twelve options to their values and no other option. It fails for an environment object entered again inside itself, whose outer values are lost, and an option that came from the process environment is pinned on exit.", "quantifier": "every option dictionary, nesting, and body", "why_tests_cant": "unbounded nesting and arbitrary bodies", "anchors": ["src/aws/osml/gdal/gdal_config.py:GDALConfigEnv"]}
{"id": "C47", "title": "DES header layout", "statement": "extract_des_header lays the DES subheader fields that follow DE and DESID out right-justified at the offsets of the NITF DES subheader, with total length 173 plus the user-defined length when each field fits its width; a longer field shifts everything after it; a missing field raises.", "quantifier": "every set of field values", "why_tests_cant": "all field value lengths", "anchors": ["src/aws/osml/gdal/nitf_des_accessor.py:NITFDESAccessor.extract_des_header"]}
{"id": "C48", "title": "TRE field lookup", "statement": "get_tre_field_value returns the converted value of the first field with the requested name; it raises ValueError when there is no such field or it has no value, and otherwise raises exactly what the conversion raises.", "quantifier": "every TRE tree and field name", "why_tests_cant": "trees are unbounded", "anchors": ["src/aws/osml/gdal/xmltre_utils.py:get_tre_field_value"]}
{"id": "C49", "title": "RPC coefficient lists are read in index order", "statement": "parse_rpc_coefficients returns a list as long as the repeated group's number, with each group's value at the position its index names and zero at the positions no group names; a missing repeated group, number, index or value raises ValueError, an index outside the list or a group without a child raises IndexError.", "quantifier": "every TRE tree", "why_tests_cant": "trees are unbounded", "anchors": ["src/aws/osml/gdal/xmltre_utils.py:parse_rpc_coefficients"]}
{"id": "C50", "title": "RSM section grids are complete", "statement": "Every parameter of an RSM polynomial, of the ground domain and of the image domain is the TRE field it stands for. With several RSMPCA TREs and an RSMPIA, the built grid has RNIS rows of CNIS polynomials and entry (row, column) is the last RSMPCA of that section, in any TRE order; with one RSMPCA it is that polynomial; without RSMIDA, RSMPCA or the needed RSMPIA there is no model. A missing section raises KeyError out of the builder instead of giving no model; only KeyError, IndexError (malformed coefficient list) and, before numpy 1.25, LinAlgError can get out.", "quantifier": "every set of RSMPCA TREs", "why_tests_cant": "all subsets and orders of sections", "anchors": ["src/aws/osml/gdal/rsm_sensor_model_builder.py:RSMSensorModelBuilder.build"]}
{"id": "C51", "title": "Sensor model selection", "statement": "Whenever SensorModelFactory.build returns, it returns the composite, the precise, the approximate or no model according to which of the two exist; the approximate model is that of CSCRNA, else of four or more GCPs, else of the geotransform, each only if selected; the precise model is that of the first DES segment mentioning SIDD, or SICD if selected, else RSM if selected, else RPC if selected; TRE models are wrapped when ICHIPB is present. SIDD is used even when nothing is selected, a SIDD/SICD builder that fails discards the RSM/RPC model, and a malformed CSCRNA raises ValueError although a precise model is available.", "quantifier": "every combination of metadata and selected types", "why_tests_cant": "exponentially many combinations with arbitrary builder outcomes", "anchors": ["src/aws/osml/gdal/sensor_model_factory.py:SensorModelFactory.build"]}
{"id": "C52", "title": "Chip metadata", "statement": "A complete ICHIPB yields the four corner correspondences and the full image size. Any missing or malformed field is documented to leave the sensor model unchanged; instead build always fails with AttributeError.", "quantifier": "every malformed ICHIPB", "why_tests_cant": "all ways of being malformed", "anchors": ["src/aws/osml/gdal/sensor_model_factory.py:ChippedImageInfoFacade"]}
{"id": "C53", "title": "Encoding options per format and compression", "statement": "The creation options for a tile are determined by output format, compression and band type. After any history of requests with any outcome, gdal.Translate is called with exactly the factory's own options followed by the corner coordinates (NITF with a sensor model) and the SAR metadata (NITF with SAR metadata) of this request, so options never leak between requests. A NITF of floating point pixels without compression choice is written uncompressed, but one for which LZW was asked is sent to JPEG2000, which the code says cannot write it.", "quantifier": "every history of tile requests", "why_tests_cant": "histories are unbounded", "anchors": ["src/aws/osml/image_processing/gdal_tile_factory.py:GDALTileFactory._create_gdal_translate_kwargs", "src/aws/osml/image_processing/gdal_tile_factory.py:GDALTileFactory.create_encoded_tile"]}
{"id": "C54", "title": "Temporary tiles are always removed", "statement": "A tile request names no file but its own and answers with the whole of what gdal.Translate wrote to it, or with the error of the first call that fails. Once gdal.Translate has returned, the temporary file is closed if it was opened and then deleted as the last call, whatever the other calls do (unless closing raises); when the request returns the file is gone and other files are as they were; requests with different tokens use different names and do not affect each other. When gdal.Translate itself raises, a partially written file stays behind, and when the file does not exist the deletion can raise instead of None being returned.", "quantifier": "every outcome of every GDAL call", "why_tests_cant": "all fault positions", "anchors": ["src/aws/osml/image_processing/gdal_tile_factory.py:GDALTileFactory.create_encoded_tile"]}
{"id": "C55", "title": "File extension normalisation", "statement": "normalize_extension ignores case, is idempotent and maps every spelling of NITF, TIFF and JPEG to one canonical spelling; it also does so for any longer string that contains one of them (MOTIF becomes TIFF), so other extensions are upper-cased only when they contain none. select_extension gives UNKNOWN for no candidates, otherwise the last candidate after the first whose dotted form occurs anywhere in the path, else the first candidate; it is not always the extension the file name ends with. The candidates are those of the last registered driver of the dataset's driver name. get_image_extension is these three steps, UNKNOWN for a driver that has no extensions, and hands on the exception of a file that cannot be opened.", "quantifier": "every string", "why_tests_cant": "strings are unbounded", "anchors": ["src/aws/osml/gdal/gdal_utils.py:normalize_extension", "src/aws/osml/gdal/gdal_utils.py:select_extension", "src/aws/osml/gdal/gdal_utils.py:get_extensions_from_driver", "src/aws/osml/gdal/gdal_utils.py:get_gdal_driver_extensions", "src/aws/osml/gdal/gdal_utils.py:get_image_extension"]}
{"id": "C56", "title": "Image geometry lookup order", "statement": "find_image_geometry returns the geometry of the highest priority property present (imageGeometry, imageBBox, then, when allowed, geom_imcoords, detection with pixelCoordinates, bounds_imcoords), reads no other property, and gives None exactly when none of them is present; a malformed property raises instead of falling through, so a scalar detection property hides bounds_imcoords. Setting a geometry then finding it gives it back and changes no other property.", "quantifier": "every feature property dictionary", "why_tests_cant": "dictionaries are unbounded", "anchors": ["src/aws/osml/features/imaged_feature_property_accessor.py:ImagedFeaturePropertyAccessor.find_image_geometry", "src/aws/osml/features/imaged_feature_property_accessor.py:ImagedFeaturePropertyAccessor.set_image_geometry"]}
{"id": "C57", "title": "Updating existing image geometries", "statement": "update_existing_image_geometries adds and removes no property and changes only geometry properties already present (deprecated ones only when allowed), even when it raises; on success each has exactly the new value, other entries of a detection are unchanged, and the new geometry is what is found afterwards. It is not all-or-nothing: a geometry collection leaves some properties updated and raises.", "quantifier": "every feature property dictionary", "why_tests_cant": "frame condition over all other properties", "anchors": ["src/aws/osml/features/imaged_feature_property_accessor.py:ImagedFeaturePropertyAccessor.update_existing_image_geometries"]}
{"id": "C58", "title": "Geolocated geometries keep their structure", "statement": "A geolocated geometry has the type, the nesting of parts and the vertices in the order of the image geometry (a ring becomes a line), each vertex mapped independently, for collections of any depth; it exists whenever the geometry is supported and its vertices can be located. A located feature has as bbox the least box of its four imageBBox corners, as geometry that of its imageGeometry or deprecated geometry, as centre the location of the centroid or box centre; every other member and property is unchanged, even on failure, features without image geometry are untouched, order is kept and features after a failing one are untouched.", "quantifier": "every geometry, including nested collections", "why_tests_cant": "recursive structures of any depth", "anchors": ["src/aws/osml/features/geolocation.py:Geolocator.geolocate_features", "src/aws/osml/features/geolocation.py:Geolocator._geolocate_image_geometry"]}
{"id": "C59", "title": "The interpolation grid covers all features", "statement": "The interpolation grid spans the least box around all image geometries with a 10 pixel margin, so that every location inside is interpolated from the four corners of a cell containing it and locations outside get the nearest edge value. imageBBox corners need not be inside when the feature also has an imageGeometry. If no feature has a geometry, or the grid has fewer than two points per side, the call raises and changes nothing.", "quantifier": "every feature list", "why_tests_cant": "lists are unbounded", "anchors": ["src/aws/osml/features/geolocation.py:Geolocator.geolocate_features", "src/aws/osml/features/geolocation.py:LocationGridInterpolator"]}
{"id": "C60", "title": "Spatial index queries", "statement": "find_intersects returns exactly the features whose image geometry intersects the query, each once; find_nearest returns exactly the features at the least distance if that is within the limit, 50 pixels by default, and refuses a limit that is not positive; features without image geometry are never returned. Building fails exactly when a geometry lookup fails; an index over map geometries cannot be built for any non-empty collection.", "quantifier": "every feature collection and query", "why_tests_cant": "collections are unbounded", "anchors": ["src/aws/osml/features/feature_index.py:STRFeature2DSpatialIndex"]}
{"id": "C61", "title": "Orthophoto source window", "statement": "An orthophoto request gives None exactly when a tile location cannot be mapped or the pixel box of the nine mapped tile locations lies beyond the image; otherwise the level read is the coarsest existing one that still has tile-size pixels across the smaller side of the box, and the window is the box clipped to the image, at that level, inside it. Every band is read once, in order. A tile touching or barely overlapping the image can get an empty window, and a tile without extent raises. The window is no larger than the mapped locations need: each side passes within a pixel of one of them. A tile width that is zero or negative raises.", "quantifier": "every mapping of the tile grid into the image and every image size", "why_tests_cant": "arbitrary sensor model outputs", "anchors": ["src/aws/osml/image_processing/gdal_tile_factory.py:GDALTileFactory.create_orthophoto_tile", "src/aws/osml/image_processing/gdal_tile_factory.py:GDALTileFactory._read_from_rlevel_as_array"]}
{"id": "C62", "title": "Orthophoto tiles are oriented like the map", "statement": "For square tiles of two or more pixels, row i and column j of an orthophoto are taken from the image location interpolated from the mapped corners of the quarter tile that contains the map location of that row and column (exactly that location for an affine sensor model), off by less than one pixel of the level read. It is false for every tile that is not square, whose array is transposed; one-pixel tiles cannot be made; the offset is zero only if the window starts at a whole pixel of the level; the default elevation is taken at the transposed centre of the image.", "quantifier": "every tile size and mapping", "why_tests_cant": "square test tiles hide the transposition", "anchors": ["src/aws/osml/image_processing/gdal_tile_factory.py:GDALTileFactory.create_orthophoto_tile"]}
{"id": "C63", "title": "SAR pixel operations", "statement": "Amplitude/phase pixels become complex values of that amplitude and phase; power is the squared magnitude (for 16-bit integer components only up to magnitude 181); display mappings return values in 0..255 (0..1 for the linear mapping) and are monotone in magnitude, unless the image is entirely dark, when the result is not a number; unknown pixel types raise ValueError. An amplitude/phase pixel is shown by the square of its amplitude whatever its phase, without overflow in the pixel type; an unknown pixel type is refused even for an image without pixels.", "quantifier": "every pixel array and parameters", "why_tests_cant": "arrays are unbounded; real-valued identities", "anchors": ["src/aws/osml/image_processing/sar_complex_imageop.py:image_pixels_to_complex", "src/aws/osml/image_processing/sar_complex_imageop.py:complex_to_power_value", "src/aws/osml/image_processing/sar_complex_imageop.py:power_value_in_decibels", "src/aws/osml/image_processing/sar_complex_imageop.py:linear_mapping", "src/aws/osml/image_processing/sar_complex_imageop.py:histogram_stretch_mag_values", "src/aws/osml/image_processing/sar_complex_imageop.py:quarter_power_mag_values", "src/aws/osml/image_processing/sar_complex_imageop.py:histogram_stretch", "src/aws/osml/image_processing/sar_complex_imageop.py:quarter_power_image"]}
{"id": "C64", "title": "SICD polynomial metadata", "statement": "Coefficients given in any order with exponents are placed so that evaluation equals the sum of coefficient times powers, and missing exponents count as zero.", "quantifier": "every list of coefficients with exponents in range", "why_tests_cant": "lists are unbounded", "anchors": ["src/aws/osml/gdal/sicd_sensor_model_builder.py:poly1d_to_native", "src/aws/osml/gdal/sicd_sensor_model_builder.py:poly2d_to_native", "src/aws/osml/photogrammetry/sicd_sensor_model.py:Polynomial2D", "src/aws/osml/photogrammetry/sicd_sensor_model.py:PolynomialXYZ"]}
{"id": "C65", "title": "Where DEM tiles are looked for", "statement": "A DEM tile factory rooted at an S3 URL opens the tile under GDAL's /vsis3 file system at the same bucket and key; with any other root it opens the tile path joined to that root, unless the text s3:/ occurs in the path itself.", "quantifier": "every root directory and every tile path", "why_tests_cant": "arbitrary strings", "anchors": ["src/aws/osml/gdal/gdal_dem_tile_factory.py:GDALDigitalElevationModelTileFactory.get_tile"]}
{"id": "C66", "title": "The image_to_world search starts from an equilateral triangle", "statement": "The starting simplex handed to the optimiser is an equilateral triangle with the requested side length, centred on the starting guess.", "quantifier": "every guess and size", "why_tests_cant": "real-valued identity", "anchors": ["src/aws/osml/photogrammetry/math_utils.py:equilateral_triangle"]}
{"id": "C67", "title": "RSM image_to_world stays on the surface and in the ground domain", "statement": "The location returned by RSM image_to_world has the elevation the elevation model gives it (the ground domain's default when there is none), it projects back to within the optimiser's residual of the pixel, and it is inside the ground domain's longitude and latitude range when the optimiser respects its bounds.", "quantifier": "every model, pixel, elevation model, options and optimiser behaviour", "why_tests_cant": "the optimiser and the surface are arbitrary", "anchors": ["src/aws/osml/photogrammetry/replacement_sensor_model.py:RSMPolynomialSensorModel.image_to_world"]}
{"id": "C68", "title": "SICD slant and ground plane normals", "statement": "The slant plane normal is a unit vector perpendicular to the antenna velocity and to the line of sight, and it points upwards whenever the given side of track is the side the scene is on; the ground plane normal is a unit vector perpendicular to both image axes and never points towards the centre of the earth.", "quantifier": "every geometry whose vectors are not parallel", "why_tests_cant": "real-valued vector identities", "anchors": ["src/aws/osml/photogrammetry/sicd_sensor_model.py:SICDSensorModel.compute_u_spn", "src/aws/osml/photogrammetry/sicd_sensor_model.py:SICDSensorModel.compute_u_gpn"]}
{"id": "C69", "title": "Output pixel types and scales", "statement": "get_type_and_scales keeps the source band type and asks for no scaling without adjustment, and otherwise gives one (source range, target range) pair per band whose target is the full range of the output type and whose source range comes from the band's statistics and histogram; a band without statistics fails with their exception, and only when an adjustment is asked for. get_minmax_for_type returns exactly the representable range of each integer type. A constant integer band makes it ask for a histogram of no buckets, which fails with IndexError.", "quantifier": "every dataset description, desired type and adjustment", "why_tests_cant": "ranges and histograms are arbitrary", "anchors": ["src/aws/osml/gdal/gdal_utils.py:get_type_and_scales", "src/aws/osml/gdal/gdal_utils.py:get_minmax_for_type"]}
{"id": "C70", "title": "DES XML documents", "statement": "The DES accessor removes every one-line XML prolog from the DES text and changes nothing else (a prolog that spans lines is left in); get_segments_by_name returns exactly the segments of that name in document order; extract_desdata_xml uses the first DESDATA field only and returns its decoded value attribute when that is not empty, otherwise the first element inside its xml_content, and None when there is neither.", "quantifier": "every document", "why_tests_cant": "strings and trees are unbounded", "anchors": ["src/aws/osml/gdal/nitf_des_accessor.py:NITFDESAccessor.__init__", "src/aws/osml/gdal/nitf_des_accessor.py:NITFDESAccessor.get_segments_by_name", "src/aws/osml/gdal/nitf_des_accessor.py:NITFDESAccessor.extract_desdata_xml"]}
{"id": "C71", "title": "RPC models from TREs", "statement": "The RPC builder returns a model exactly when the first RPC00B TRE reports success 1 and all its fields and coefficient lists can be read, and then every parameter of the model is the field of its name; otherwise it returns no model, except that a malformed coefficient list raises IndexError.", "quantifier": "every TRE tree", "why_tests_cant": "trees are unbounded", "anchors": ["src/aws/osml/gdal/rpc_sensor_model_builder.py:RPCSensorModelBuilder.build", "src/aws/osml/gdal/rpc_sensor_model_builder.py:RPCSensorModelBuilder.build_rpc_sensor_model"]}
{"id": "C72", "title": "Loading a dataset with its sensor model", "statement": "load_gdal_dataset raises ValueError when GDAL cannot open the file, with or without GDAL exceptions; otherwise it returns the dataset with the factory's model for that dataset's size, geotransform, projection, control points, first TRE document and all DES documents, with every sensor model type selected.", "quantifier": "every dataset and every behaviour of GDAL and the XML parser", "why_tests_cant": "arbitrary external behaviour", "anchors": ["src/aws/osml/gdal/gdal_utils.py:load_gdal_dataset"]}
{"id": "C73", "title": "Corner and control point models reproduce their points", "statement": "If some projective transform takes each CSCRNA corner to its image corner (or each of four or more control points to its pixel), the model built from them maps each such location to exactly its pixel and each such pixel back to its location; fewer than four control points give no model.", "quantifier": "every set of corners or control points", "why_tests_cant": "real-valued identities over unbounded point lists", "anchors": ["src/aws/osml/gdal/projective_sensor_model_builder.py:ProjectiveSensorModelBuilder.build", "src/aws/osml/gdal/gdal_sensor_model_builder.py:GDALGCPSensorModelBuilder.build"]}
{"id": "C74", "title": "SAR metadata of a tile factory", "statement": "The tile factory of a NITF dataset uses the first XML_DATA_CONTENT segment whose text mentions SIDD or SICD, as SIDD if it mentions SIDD, together with the header of that same segment; other datasets have no SAR metadata. A SIDD segment after a SICD segment is not used.", "quantifier": "every list of DES segments", "why_tests_cant": "lists and texts are unbounded", "anchors": ["src/aws/osml/image_processing/gdal_tile_factory.py:GDALTileFactory.__init__"]}
{"id": "C75", "title": "SICD tiles are independent of earlier tiles", "statement": "Whatever tiles were requested before, successfully or not, the metadata written to a SICD tile is the original metadata with the tile's own size and offset, preceded by the original header; scaled SICD tiles are never written.", "quantifier": "every history of tile requests", "why_tests_cant": "histories are unbounded", "anchors": ["src/aws/osml/image_processing/gdal_tile_factory.py:GDALTileFactory.create_encoded_tile", "src/aws/osml/image_processing/sicd_updater.py:SICDUpdater.update_image_data_for_chip"]}
{"id": "C76", "title": "Accuracy of interpolated locations", "statement": "An interpolated longitude, latitude or elevation differs from the sensor model's by at most the variation of the sensor model within one grid cell of the location, and not at all where the sensor model is affine. Across the antimeridian this does not hold for longitudes modulo a turn: an interpolated longitude can be half a turn away.", "quantifier": "every sensor model, grid size and feature list", "why_tests_cant": "sensor models are arbitrary functions", "anchors": ["src/aws/osml/features/geolocation.py:LocationGridInterpolator.__init__", "src/aws/osml/features/geolocation.py:LocationGridInterpolator.__call__", "src/aws/osml/features/geolocation.py:Geolocator.geolocate_features"]}
{"id": "C77", "title": "Orthophoto transparency", "statement": "An orthophoto pixel keeps its channels (one grey channel is repeated three times) and gets alpha 255 exactly if no channel is zero, else 0; so pixels that are not black but have one zero channel become transparent.", "quantifier": "every pixel value and channel count", "why_tests_cant": "all combinations of channel values", "anchors": ["src/aws/osml/image_processing/gdal_tile_factory.py:GDALTileFactory.create_orthophoto_tile"]}
{"id": "C78", "title": "Elevations of GDAL tiles", "statement": "The region summary of a GDAL tile is GDAL's minimum, maximum and no-data value and, as post spacing, the distance between the tile's outer corners divided by its pixel diagonal. An elevation is the bilinear blend of the four posts around the pixel coordinates the geotransform gives the location, so the value of a post is returned at the upper left corner of its pixel. At the centre of the pixel, where GDAL puts the post, the result is the mean of four posts: elevations are displaced by half a post.", "quantifier": "every dataset with an invertible geotransform and at least two rows and columns, every location inside, every history of lookups", "why_tests_cant": "rasters, locations and histories are arbitrary", "anchors": ["src/aws/osml/gdal/gdal_dem_tile_factory.py:GDALDigitalElevationModelTileFactory.get_tile"]}
{"id": "C79", "title": "Web Mercator registration of orthophotos", "statement": "An orthophoto made for the bounds and size of a Web Mercator tile has its columns, its first and its last row where the map has them. Its rows are evenly spaced in latitude rather than in projected northing: the latitude a row is taken from differs from the row's place on the map by at most a sixteenth of the square of the tile's equatorial height in radians (a factor four less for every zoom level), always to the south in the northern hemisphere, and by more than eleven degrees on the tile of the whole world. Neighbouring tiles repeat their common row and column.", "quantifier": "every tile, tile size and pixel", "why_tests_cant": "real-valued bounds over all zoom levels, rows and columns", "anchors": ["src/aws/osml/image_processing/gdal_tile_factory.py:GDALTileFactory.create_orthophoto_tile", "src/aws/osml/image_processing/map_tileset_wmq.py:WebMercatorQuadMapTileSet.get_tile"]}
{"id": "C80", "title": "Elevation models shared by threads", "statement": "However threads sharing a digital elevation model take turns between looking up, loading and storing tiles, each answer is the one a model without cache would give, answers come in the order of the thread's calls, three turns per call suffice whatever the others do, at most the configured number of tiles is held and none twice, and there are no more loads than calls. A tile may be loaded by several threads at once.", "quantifier": "every number of threads, programs and schedule", "why_tests_cant": "all interleavings of unbounded programs", "anchors": ["src/aws/osml/photogrammetry/digital_elevation_model.py:DigitalElevationModel.get_interpolation_grid", "src/aws/osml/photogrammetry/digital_elevation_model.py:DigitalElevationModel.set_elevation", "src/aws/osml/photogrammetry/digital_elevation_model.py:DigitalElevationModel.describe_region"]}
{"id": "C81", "title": "Configuration environments of two threads", "statement": "Two configuration environments that overlap without being nested and name different options give each its values and restore all options. If they name a common option, then for any values the second thread continues with the outer value once the first has left, and the first thread's value stays set after both have left.", "quantifier": "every pair of option dictionaries and prior state", "why_tests_cant": "dictionaries and states are unbounded", "anchors": ["src/aws/osml/gdal/gdal_config.py:GDALConfigEnv.__enter__", "src/aws/osml/gdal/gdal_config.py:GDALConfigEnv.__exit__"]}
{"id": "C82", "title": "SICD tiles requested by several threads", "statement": "If no other request runs between updating and rendering the metadata, every SICD tile carries the metadata of its own window. Under any schedule scaled requests fail and the metadata describes a window that some thread asked for; when another request comes between, the tile carries the metadata of the other request's window, for any two requests.", "quantifier": "every list of concurrent requests and schedule", "why_tests_cant": "all interleavings", "anchors": ["src/aws/osml/image_processing/gdal_tile_factory.py:GDALTileFactory.create_encoded_tile", "src/aws/osml/image_processing/sicd_updater.py:SICDUpdater.update_image_data_for_chip"]}
{"id": "C83", "title": "SICD models locate pixels by the metadata", "statement": "For metadata whose polynomials use each exponent within the declared order once, the SICD sensor model built from them, whatever the grid type, locates a pixel at a point with the range and range rate that the metadata declare for it at its centre of aperture time and antenna position and velocity: without an elevation model the point of the ground plane (the focus plane of polar format images, else the plane at right angles to the ellipsoid's normal) through the scene centre, on the scene centre's side of the track, which is found whenever the antenna is above the plane by less than the range; with an elevation model a point on the declared side of the track. A usable model is built exactly when the grid type's parameters are present.", "quantifier": "every document, pixel and elevation model", "why_tests_cant": "documents hold arbitrary polynomials", "anchors": ["src/aws/osml/gdal/sicd_sensor_model_builder.py:SICDSensorModelBuilder.from_dataclass", "src/aws/osml/photogrammetry/sicd_sensor_model.py:SICDSensorModel.image_to_world", "src/aws/osml/photogrammetry/sicd_sensor_model.py:COAProjectionSet.precise_rrdot_computation"]}
{"id": "C84", "title": "SIDD models locate pixels by the metadata", "statement": "The model built from the metadata of an unchipped SIDD image locates a pixel at the reference point plus the pixel's offsets from the reference pixel along the row and column directions, times the sample spacings, provided that point and the reference point are on the same side of the track and the antenna is not below the image plane; if it is, the result is that point or none. With an elevation model the located point has the range and range rate of that point and is always on the left of the track, whatever side the image was taken to.", "quantifier": "every document and pixel", "why_tests_cant": "documents hold arbitrary polynomials", "anchors": ["src/aws/osml/gdal/sidd_sensor_model_builder.py:SIDDSensorModelBuilder.from_dataclass", "src/aws/osml/photogrammetry/sicd_sensor_model.py:SICDSensorModel.image_to_world"]}
{"id": "C85", "title": "RPC and RSM models locate points by their TREs", "statement": "The pixel that the RPC model built from a RPC00B TRE gives a ground point is the one STDI-0002 defines by the fields of the TRE, each coefficient being placed by its index attribute, in whatever order the groups are written. With one RSMPCA TRE the pixel of a ground point is the one its polynomials, offsets and scales give in the RSMIDA ground domain. With several, the low order polynomials of RSMPIA choose the section, counted from MINR and MINC in steps of RSSIZ and CSSIZ, and the last RSMPCA with that section's numbers answers, for ground points and for pixels.", "quantifier": "every TRE tree, ground point and pixel", "why_tests_cant": "trees and coefficients are unbounded", "anchors": ["src/aws/osml/gdal/rpc_sensor_model_builder.py:RPCSensorModelBuilder.build", "src/aws/osml/gdal/rsm_sensor_model_builder.py:RSMSensorModelBuilder.build", "src/aws/osml/photogrammetry/rpc_sensor_model.py:RPCSensorModel.world_to_image", "src/aws/osml/photogrammetry/replacement_sensor_model.py:RSMSectionedPolynomialSensorModel.world_to_image"]}
{"id": "C86", "title": "A tile carries the geolocation of its own window", "statement": "Whatever was requested before, the SICD document written into a NITF tile gives, when read back, a sensor model exactly when the document of the whole image does. That model sends pixel (x, y) of the tile to the world point to which the model of the image sends (x + left, y + top), with any elevation model, and finds the pixel of a world point accordingly. The IGEOLO of a NITF tile encoded with a sensor model has 60 characters, and its four texts give the corners of the window, upper left first and clockwise, to within a little more than one second of arc.", "quantifier": "All factories, histories of requests, windows, SICD documents, elevation models, pixels and world points; all sensor models that put the corners on the globe.", "why_tests_cant": "It relates the text put in the options of a tile to the sensor model a reader of that tile builds, for all images, windows and earlier requests; a test reads back a few tiles of one image.", "anchors": ["src/aws/osml/image_processing/gdal_tile_factory.py:GDALTileFactory.create_encoded_tile", "src/aws/osml/image_processing/gdal_tile_factory.py:GDALTileFactory._create_new_igeolo", "src/aws/osml/image_processing/sicd_updater.py:SICDUpdater.update_image_data_for_chip", "src/aws/osml/gdal/sicd_sensor_model_builder.py:SICDSensorModelBuilder.build"]}
{"id": "C87", "title": "Coordinates are changed only by their owner", "statement": "Coordinates are mutable objects. Constructing one from the array of another copies it. A sensor model (affine, projective, chipped, composite, RPC, RSM, sectioned, SICD) or interpolated location grid never writes to a coordinate that existed before the call, even when it raises, its answers are new objects, and they are those of the models in which coordinates are values; elevation models change only the elevation of the coordinate they are given. So through any history of calls and of assignments by the caller a coordinate changes only by the caller's assignments to it. Two exceptions: converting to a plain geodetic ground domain returns the caller's own object, and a rectangular ground domain keeps the caller's origin object, so that a later assignment to it moves the pixels.", "quantifier": "All sensor models, elevation models, optimisers, heaps of coordinates and histories of calls and assignments.", "why_tests_cant": "Sharing depends on all objects alive and on every earlier call; tests look at the answer, not at every other object.", "anchors": ["src/aws/osml/photogrammetry/coordinates.py:WorldCoordinate.__init__", "src/aws/osml/photogrammetry/coordinates.py:ImageCoordinate.__init__", "src/aws/osml/photogrammetry/digital_elevation_model.py:DigitalElevationModel.set_elevation", "src/aws/osml/photogrammetry/replacement_sensor_model.py:RSMGroundDomain.geodetic_to_ground_domain_coordinate", "src/aws/osml/photogrammetry/sicd_sensor_model.py:SICDSensorModel.world_to_image", "src/aws/osml/photogrammetry/sicd_sensor_model.py:DEMRRDotSurfaceProjection.rrdot_to_ground", "src/aws/osml/features/geolocation.py:LocationGridInterpolator.__call__"]}
{"id": "C88", "title": "Rounding errors of polynomial sensor models are bounded", "statement": "When every arithmetic operation errs by a factor of at most 1 + u, a pixel coordinate computed by an RPC or RSM model differs from the exact one by no more than an explicit bound: the polynomials err by the growth of 22 roundings (RPC) or of one rounding per term plus those of the largest term (RSM) relative to the sum of the absolute terms, and the quotient, the scale and the offset add three more. In binary64, when the terms add up to at most 4, the denominator is at least 1/2 and scale and offset are at most 100000, every pixel coordinate is right to a millionth of a pixel. An affine transform errs by at most three roundings of its absolute terms.", "quantifier": "All unit roundoffs, coefficients, normalisations and ground points, and all ways in which the individual operations may be rounded.", "why_tests_cant": "Rounding errors depend on every bit of every input; tests compare a handful of points with a generous tolerance.", "anchors": ["src/aws/osml/photogrammetry/rpc_sensor_model.py:RPCPolynomial.evaluate", "src/aws/osml/photogrammetry/rpc_sensor_model.py:RPCSensorModel.world_to_image", "src/aws/osml/photogrammetry/replacement_sensor_model.py:RSMPolynomial.evaluate", "src/aws/osml/photogrammetry/replacement_sensor_model.py:RSMPolynomialSensorModel.ground_domain_to_image", "src/aws/osml/photogrammetry/gdal_sensor_model.py:GDALAffineSensorModel.world_to_image"]}
{"id": "C89", "title": "Binary64 arithmetic stays within the error bounds", "statement": "Evaluated bit by bit in IEEE binary64 (round to nearest even), sums and differences that do not overflow and products and quotients that are neither subnormal nor overflow err by a factor of at most 1 + 2^-53, and every finite result is the binary64 number nearest to the exact one, the one with the even last digit if two are as near; so the pixel coordinates that RPC, RSM and affine models compute in Python floats obey the bounds of C88. math.floor and int() of a float are the floor and the truncation of the number it stands for, math.pi is the float nearest to pi, and math.degrees and math.radians err by at most two roundings. The generic tile name computed in floats therefore names the one-degree cell of the coordinate, but for the cells listed in C14 and coordinates within 2^-44 degrees of a cell's edge.", "quantifier": "All binary64 inputs, coefficients and coordinates of evaluations without overflow or subnormal products.", "why_tests_cant": "There are 2^64 floats for each input; tests try a handful.", "anchors": ["src/aws/osml/photogrammetry/rpc_sensor_model.py:RPCPolynomial.evaluate", "src/aws/osml/photogrammetry/rpc_sensor_model.py:RPCSensorModel.world_to_image", "src/aws/osml/photogrammetry/replacement_sensor_model.py:RSMPolynomial.evaluate", "src/aws/osml/photogrammetry/gdal_sensor_model.py:GDALAffineSensorModel.world_to_image", "src/aws/osml/photogrammetry/generic_dem_tile_set.py:GenericDEMTileSet.find_tile_id", "src/aws/osml/photogrammetry/coordinates.py:GeodeticWorldCoordinate.__format__"]}
{"id": "C90", "title": "An opened image locates pixels by its metadata", "statement": "The sensor model that load_gdal_dataset returns answers from the first metadata text that mentions SIDD or SICD, found in a data extension segment: for a SICD document every pixel and world point goes through the model of that document, whatever geotransform, ground control points or TREs the file also has, so that a pixel is located on the ground plane at the declared range and range rate on the scene's side of the track; for a SIDD document likewise, at the pixel's place in the image plane. Without such a text the RSM model, else the RPC model of the TREs answers, moved by ICHIPB when there is one; without RSM and RPC the corner TRE, else four or more control points, else the geotransform place every pixel (the first two by the projective transform that fits them). A document that cannot be used leaves only the approximate models, and none if there is no TRE, geotransform or ground control point; a SICD document in which the letters SIDD occur anywhere is such a document.", "quantifier": "All files, documents, TREs, pixels, world points, elevation models and library behaviours.", "why_tests_cant": "It spans the whole way from the file to the pixel, over all metadata combinations; tests open a handful of files.", "anchors": ["src/aws/osml/gdal/gdal_utils.py:load_gdal_dataset", "src/aws/osml/gdal/sensor_model_factory.py:SensorModelFactory.build", "src/aws/osml/gdal/sicd_sensor_model_builder.py:SICDSensorModelBuilder.build", "src/aws/osml/gdal/sidd_sensor_model_builder.py:SIDDSensorModelBuilder.build", "src/aws/osml/photogrammetry/composite_sensor_model.py:CompositeSensorModel.image_to_world", "src/aws/osml/photogrammetry/chipped_image_sensor_model.py:ChippedImageSensorModel.image_to_world"]}
{"id": "C91", "title": "Pixels that SAR models find for ground points", "statement": "The model of an unchipped SIDD image finds every ground point, at whatever height, at the pixel of the foot of the perpendicular onto the image plane, if the antenna has that pixel in view; so locating a pixel in the image plane and finding the result returns the pixel, and for a window of the image the pixel is shifted and stretched as in C43. A pixel located with an elevation model is therefore found at another pixel, unless its height over the image plane is zero or twice the antenna's. For every usable SICD document the pixel found is the one of a search that the document alone describes: the pixels tried are those whose places in the image plane (scene centre, row and column vectors, spacings) lie along the normal of the slant plane (antenna position and velocity at the scene centre's aperture) from the ground points, up to ten, each moved by what the last location was short of the scene point. The search of the SICD model converges for scene points of the ground plane where locating the pixels under ground points moves these nearly alike (up to a factor L < 1 of their distance): the error shrinks by L with every iteration, the pixel found is located within a centimetre of the scene point unless the limit of ten iterations is reached, and then within L^9 times the error at the start. With the conversions of the WGS 84 ellipsoid this holds without assumptions about them.", "quantifier": "every document, pixel, ground point, height and contraction factor below one", "why_tests_cant": "reals are unbounded; convergence is about a limit", "anchors": ["src/aws/osml/photogrammetry/sicd_sensor_model.py:SICDSensorModel.world_to_image", "src/aws/osml/photogrammetry/sicd_sensor_model.py:SICDSensorModel.image_to_world", "src/aws/osml/gdal/sidd_sensor_model_builder.py:SIDDSensorModelBuilder.from_dataclass", "src/aws/osml/photogrammetry/chipped_image_sensor_model.py:ChippedImageSensorModel.world_to_image", "src/aws/osml/gdal/sicd_sensor_model_builder.py:SICDSensorModelBuilder.from_dataclass"]}
{"id": "C92", "title": "Map tiles in binary64", "statement": "Evaluated bit by bit in IEEE binary64, for tile sizes that are powers of two (256 and 512 are), the tile found for a location in projected metres contains a point within twenty nanometres of it, so it is the tile of exact arithmetic unless the location is that close to an edge. The tile at a zoom level is exactly the one that holds the tile of any deeper zoom level, for every location, and does not depend on the tile size. Further east or north is never found in a tile further west or south. Exactly the locations on the western and southern edge of the square are outside the tile matrix. The bounds of tiles in metres are within twenty nanometres of the grid lines, and neighbours, children and tile sets of other tile sizes share them to the last bit. It is false that the bounds of the tile found contain the location: 10018754.171394622 m east is found in a tile that ends at 10018754.17139462 m.", "quantifier": "All binary64 locations (up to 2^25 metres for the error bounds, 2^100 otherwise), all zoom levels up to 600, all tile sizes 2^p up to 2^100.", "why_tests_cant": "Rounding depends on the last bits of the location; the locations that would expose a wrong column are a few floats in each of 2^60.", "anchors": ["src/aws/osml/image_processing/map_tileset_wmq.py:WebMercatorQuadMapTileSet.__init__", "src/aws/osml/image_processing/map_tileset_wmq.py:WebMercatorQuadMapTileSet.get_tile_for_location", "src/aws/osml/image_processing/map_tileset_wmq.py:WebMercatorQuadMapTileSet._resolution", "src/aws/osml/image_processing/map_tileset_wmq.py:WebMercatorQuadMapTileSet._pixels_to_meters", "src/aws/osml/image_processing/map_tileset_wmq.py:WebMercatorQuadMapTileSet._meters_to_pixels", "src/aws/osml/image_processing/map_tileset_wmq.py:WebMercatorQuadMapTileSet._pixels_to_tile", "src/aws/osml/image_processing/map_tileset_wmq.py:WebMercatorQuadMapTileSet._calculate_tile_bounds_meters"]}
{"id": "C93", "title": "Degrees, minutes and seconds in binary64", "statement": "Evaluated bit by bit in IEEE binary64, whichever of numpy's and CPython's ways round(x, 6) takes, every latitude and longitude is written in 15 characters whose hemisphere letters tell the signs, whose minutes and seconds are at most 60, and whose angle is at most half a millionth of a degree above and less than a second and half a millionth of a degree below the angle itself (up to 10^-10 degrees). NaN raises ValueError and infinity OverflowError, for the latitude first. The corners of a NITF tile have 60 characters, four such texts in order. The fields are those of exact arithmetic unless the angle is next to a whole degree or its fraction next to the middle of two millionths. In particular the fields of an angle of a whole number of seconds are known, and they are others than its own for 1580 of the 3600 seconds of a degree: four seconds are written as three, two minutes as one minute and sixty seconds.", "quantifier": "All binary64 latitudes and longitudes (fields: all angles up to 2^800), all sensor models for the corners, all ways to round to six decimals that give the float nearest to a nearest millionth.", "why_tests_cant": "There are 2^64 floats for each angle; the fields change between neighbouring floats.", "anchors": ["src/aws/osml/photogrammetry/coordinates.py:GeodeticWorldCoordinate.to_dms_string", "src/aws/osml/photogrammetry/coordinates.py:GeodeticWorldCoordinate.__format__", "src/aws/osml/image_processing/gdal_tile_factory.py:GDALTileFactory._create_new_igeolo"]}
{"id": "C94", "title": "Displayed pixels in binary64", "statement": "Evaluated bit by bit in IEEE binary64, the min-max and dynamic range modes turn every pixel into a byte, keep the order of the pixels, show the minimum and below as 0, and give the whole part of the exact shade up to 2^-42 of a level (dynamic range with whole numbers: exactly). The buckets cut off at 2, 97 and 98 percent are never moved by rounding, the suggested range is exact up to 2^-46 of the size of the values, and a band of whole statistics comes from its histogram to its bytes within one level of exact arithmetic. White is 254 or 255: it is false that the brightest pixel is 255, for 32 of the 255 maxima of byte bands starting at zero it is 254.", "quantifier": "every binary64 pixel and statistic up to 2^400, every histogram of less than 2^45 pixels", "why_tests_cant": "there are 2^64 doubles for each number, and histograms are unbounded", "anchors": ["src/aws/osml/image_processing/gdal_tile_factory.py:GDALTileFactory._normalize_band_minmax", "src/aws/osml/image_processing/gdal_tile_factory.py:GDALTileFactory._normalize_band_dra", "src/aws/osml/gdal/dynamic_range_adjustment.py:DRAParameters.from_counts"]}
{"id": "C95", "title": "Adjusted ranges seen from the pixels", "statement": "Let GDAL's histogram count the pixels of a band in equal buckets between its minimum and maximum. The min-max range then starts at the minimum and ends one bucket below the maximum, so that the brightest pixels are scaled beyond the output type's range; a whole-number band of two neighbouring values gets an empty source range with either adjustment. With dynamic range adjustment, when the suggested range is in order, fewer than two percent of the pixels lie below it and fewer than two percent lie more than two buckets above it; without the two buckets that is false, a fifth of the pixels can be above it.", "quantifier": "every list of pixels, number of buckets, percentage and widening factor", "why_tests_cant": "pixel lists and histograms are unbounded", "anchors": ["src/aws/osml/gdal/dynamic_range_adjustment.py:DRAParameters.from_counts", "src/aws/osml/gdal/gdal_utils.py:get_type_and_scales"]}
{"id": "C96", "title": "SICD and SIDD documents and their dataclasses", "statement": "The 546 dataclasses and 117 enumerations of the SICD 1.2.1 and 1.3.0 and the SIDD 1.0.0, 2.0.0 and 3.0.0 formats, taken field by field from the source, are such that any object whose fields hold values of their types is rendered to an element that parses to the same object, whatever the class; documents of the five versions keep their root element and class. Whatever document has been parsed, also with texts where numbers belong, is rendered and parsed again to the same object. No other version of SICD or SIDD is parsed. An element unknown to its parent's class, or a second one where one is allowed, makes the document unreadable, while unknown attributes make no difference. A value of another type than its field's comes back as what its text reads as. A SIDD 1.0.0 classification whose DESVersion is not 4 cannot be read.", "quantifier": "Every class of the formats, every object, every element tree, every way to write and read numbers, dates and times under which values written are read again.", "why_tests_cant": "The documents are trees of unbounded size over 546 classes; tests read a few files.", "anchors": ["src/aws/osml/formats/sicd/models/sicd_v1_2_1.py:SICD", "src/aws/osml/formats/sicd/models/sicd_v1_3_0.py:SICD", "src/aws/osml/formats/sidd/models/sidd_v1_0_0.py:SIDD", "src/aws/osml/formats/sidd/models/sidd_v2_0_0.py:SIDD", "src/aws/osml/formats/sidd/models/sidd_v3_0_0.py:SIDD", "src/aws/osml/formats/sidd/models/sicommon_types.py", "src/aws/osml/formats/sidd/models/sfa.py", "src/aws/osml/gdal/sicd_sensor_model_builder.py:SICDSensorModelBuilder.build", "src/aws/osml/gdal/sidd_sensor_model_builder.py:SIDDSensorModelBuilder.build", "src/aws/osml/image_processing/sicd_updater.py:SICDUpdater.encode_current_xml", "src/aws/osml/image_processing/sidd_updater.py:SIDDUpdater.encode_current_xml"]}
{"id": "C97", "title": "What builders and updaters read of SAR documents", "statement": "The sensor metadata that the SICD and SIDD builders read of a document is defined by the paths they follow through the parsed dataclasses. A typed and complete SICD document of either version has all of it, and the parts for polar format, range azimuth compression and INCA when their elements are there; a typed and complete SIDD document of the three versions has it exactly if it has a plane projection. After any list of chips, the document held by a SICD updater renders with the same root element, parses to the same object, and the builder reads of it what the record model of the updater says; a chip is refused only for a size that is not its own. A chip added to a SIDD document, its corners being integers or floats, is read back from the rendered document with the same numbers, all other metadata being unchanged, also when the document had no reprocessing element. The five example documents of the test data are parsed to typed, complete objects of their class, and what is read of them is what the files say.", "quantifier": "Every element tree of the five formats, every list of chip requests, every chip, every way to write and read numbers and dates under which values written are read again and integers up to 2^53 read as floats are themselves.", "why_tests_cant": "Documents and chip sequences are unbounded; tests update a few documents and compare some attributes.", "anchors": ["src/aws/osml/gdal/sicd_sensor_model_builder.py:SICDSensorModelBuilder.from_dataclass", "src/aws/osml/gdal/sidd_sensor_model_builder.py:SIDDSensorModelBuilder.from_dataclass", "src/aws/osml/image_processing/sicd_updater.py:SICDUpdater.update_image_data_for_chip", "src/aws/osml/image_processing/sidd_updater.py:SIDDUpdater.update_image_data_for_chip", "src/aws/osml/formats/sicd/models/sicd_v1_2_1.py:SICD", "src/aws/osml/formats/sicd/models/sicd_v1_3_0.py:SICD", "src/aws/osml/formats/sidd/models/sidd_v2_0_0.py:SIDD"]}
{"id": "C98", "title": "SAR documents stay valid against their schemas", "statement": "Each of the 546 dataclasses of the formats fits the complex type of the XML schemas in the repository it was generated from, and every complex type has its dataclass. A SICD or SIDD document that is valid against its schema (with no empty list where lists are allowed) is therefore read without error into a typed and complete object, from which a valid document with the same root element is rendered that reads as the same object; the sensor model builders find all they read in it, for SIDD if it has a plane projection. A valid SICD document updated for any sequence of chips with positions and sizes in the range of xs:int is rendered to a valid document with the metadata that the updater says, and a chip beyond that range is written to an invalid one without any error. A valid SIDD document with a chip put into it, whether or not it had one, is rendered to a valid document with that chip. False are: that a valid document with an empty list stays valid, since a required attribute such as ownerProducer='' is dropped when it is written; and that typed and complete objects make valid documents. The five example documents of the test data are valid.", "quantifier": "Every element tree valid against the schemas of the five formats, every list of chip requests, every chip, every interpretation of the patterns of the schemas, every way to write and read numbers and dates that agrees with the values the schemas give their texts.", "why_tests_cant": "Documents and chip sequences are unbounded; tests neither validate documents nor look at more than a few of the classes.", "anchors": ["src/aws/osml/formats/sicd/models/sicd_v1_2_1.py:SICD", "src/aws/osml/formats/sicd/models/sicd_v1_3_0.py:SICD", "src/aws/osml/formats/sidd/models/sidd_v1_0_0.py:SIDD", "src/aws/osml/formats/sidd/models/sidd_v2_0_0.py:SIDD", "src/aws/osml/formats/sidd/models/sidd_v3_0_0.py:SIDD", "src/aws/osml/image_processing/sicd_updater.py:SICDUpdater.update_image_data_for_chip", "src/aws/osml/image_processing/sicd_updater.py:SICDUpdater.encode_current_xml", "src/aws/osml/image_processing/sidd_updater.py:SIDDUpdater.update_image_data_for_chip", "src/aws/osml/image_processing/sidd_updater.py:SIDDUpdater.encode_current_xml", "schemas/sicd/SICD_schema_V1.2.1_2018_12_13.xsd", "schemas/sicd/SICD_schema_V1.3.0_2021_11_30_FINAL.xsd", "schemas/sidd/SIDD_schema_V1.0.0_2011_08_31.xsd", "schemas/sidd/SIDD_schema_V2.0.0_2019_05_31.xsd", "schemas/sidd/SIDD_schema_V3.0.0.xsd"]}
{"id": "C99", "title": "From the document in an image to the geolocation of its tiles", "statement": "An image is opened whose first SAR text is a valid SICD document, and a tile factory is made for it. Whatever was asked of the factory before, each NITF tile that GDAL is told to write has in its options a document with the same root element, and it is valid exactly when the position and size it states are in the range of xs:int. A file that carries this document, opened in turn, has a sensor model if the image does, and this model sends pixel (i, j) of the tile to the ground point to which the model of the image sends (i + left, j + top), and finds ground points accordingly, whatever elevation model and options are passed. For the first tile of an image with a valid SIDD document that is not a chip, the document is valid when the output size is in the range of xs:int, and the model of the tile, if it can be built, agrees with that of the image under the linear map of C43, whose factor is (window size - 1) / output size. For every image with a valid SIDD document, chip or not, and after every history of requests, a tile is written only if the window can be recorded as a chip of what the history has left, and a file that carries its document is read as the document of the image with exactly that chip, corners rounded once when they are computed from an earlier chip. In particular the second tile of an image states that it was cut out of the first tile.", "quantifier": "All images, texts, valid SICD and SIDD documents, histories of requests, windows, pixels, ground points, elevation models; all ways to read and write XML characters that read back what was written.", "why_tests_cant": "It composes opening, parsing, updating, rendering and building for all documents and histories; no test reads the document of a tile back.", "anchors": ["src/aws/osml/image_processing/gdal_tile_factory.py:GDALTileFactory.create_encoded_tile", "src/aws/osml/image_processing/sicd_updater.py:SICDUpdater.update_image_data_for_chip", "src/aws/osml/image_processing/sidd_updater.py:SIDDUpdater.update_image_data_for_chip", "src/aws/osml/gdal/sicd_sensor_model_builder.py:SICDSensorModelBuilder.build", "src/aws/osml/gdal/sidd_sensor_model_builder.py:SIDDSensorModelBuilder.build", "src/aws/osml/gdal/gdal_utils.py:load_gdal_dataset"]}
{"id": "C100", "title": "Tiles of SIDD images that are chips", "statement": "A SIDD image is a chip: in the full image its corner pixels have their centres where an invertible affine map sends them, as the SIDD updater understands chips. The sensor model built for it is that of the full image after this map, except that pixel x of W columns is taken to be at x (W - 1) / W, and likewise for rows. The sensor model of a tile of such an image therefore sends pixel (x, y) where the model of the image sends ((left + x (w - 1) / ow) W / (W - 1), (top + y (h - 1) / oh) H / (H - 1)), and finds ground points accordingly. It is false that the first pixel of a tile is located where the image locates it: it is off by left / (W - 1) columns and top / (H - 1) rows. The same holds from the opened image to the opened tile file, through the documents they carry, for images that are windows of other images.", "quantifier": "All SIDD metadata, chips of any size other than 0 and 1 and any position, scale, rotation and shear, windows, output sizes, pixels, ground points, elevation models, least squares solvers.", "why_tests_cant": "The error grows with the position of the tile in the image and vanishes in the corner that tests look at.", "anchors": ["src/aws/osml/image_processing/sidd_updater.py:SIDDUpdater.update_image_data_for_chip", "src/aws/osml/image_processing/sidd_updater.py:SIDDUpdater.chipped_coordinate_to_full", "src/aws/osml/gdal/sidd_sensor_model_builder.py:SIDDSensorModelBuilder.from_dataclass", "src/aws/osml/photogrammetry/chipped_image_sensor_model.py:ChippedImageSensorModel.image_to_world"]}
{"id": "C101", "title": "WGS 84 conversions between geodetic and geocentric coordinates", "statement": "Every point of space has a geodetic coordinate with longitude in (-pi, pi], latitude in [-pi/2, pi/2] and longitude 0 at the poles, and converting that coordinate gives the point back. Down to 6,335.439 kilometres below the ellipsoid every such coordinate comes back from its point, so different coordinates are different points. The height is negative, zero or positive inside, on or outside the ellipsoid; its absolute value is the distance to the nearest point of the ellipsoid, which has the same longitude and latitude. Moving along the local vertical changes the height only. Heights of two points differ by no more than their distance, and verticals by no more than the distance over the radius. No point of a tangent plane is lower than the point of tangency, and the height grows at most with the square of the distance over twice the radius. Along a straight line the height is nowhere above the straight interpolation between the heights of two of its points.", "quantifier": "Every point of space, every geodetic coordinate.", "why_tests_cant": "Two continuous maps on all of space; tests convert one point.", "anchors": ["src/aws/osml/photogrammetry/coordinates.py:geocentric_to_geodetic", "src/aws/osml/photogrammetry/coordinates.py:geodetic_to_geocentric"]}
{"id": "C102", "title": "Projection to a constant height above the WGS 84 ellipsoid", "statement": "For every requested height above -6,335.439 kilometres the result of the height projection has exactly that height above the WGS 84 ellipsoid. The planes of the iteration never give points below it, so the comparison with the threshold, which disregards the sign, is enough. The last of them has the requested range and range rate and is within the threshold of the height unless the limit of iterations is reached; the result is one step away from it whose length follows from the height that remains, and misses the range by at most the square of that step over twice the range and over twice the radius of the Earth. Pixels located on the default ground plane of a SICD model are never lower than the scene centre.", "quantifier": "Every antenna position and velocity, range and range rate, scene centre, requested height, threshold and limit of iterations.", "why_tests_cant": "The claim is an inequality over all geometries; tests project a few pixels.", "anchors": ["src/aws/osml/photogrammetry/sicd_sensor_model.py:HAERRDotSurfaceProjection.rrdot_to_ground", "src/aws/osml/photogrammetry/sicd_sensor_model.py:HAERRDotSurfaceProjection.__init__", "src/aws/osml/photogrammetry/sicd_sensor_model.py:SICDSensorModel.image_to_world"]}
{"id": "C103", "title": "Post spacing of elevation tiles on the WGS 84 ellipsoid", "statement": "Two places of the WGS 84 ellipsoid are as far apart as on a sphere with a radius between 6,335.439 and 6,399.594 kilometres. The post spacing reported for an elevation tile is, between these radii, the length of the tile's diagonal over its length in pixels; for tiles with the north up it is at most the larger side of a cell at the equator. It is false that it is the distance of neighbouring posts: for square cells and tiles up to two degrees wide it is more than the distance of neighbours in each row from 60 degrees latitude on, and from 75 degrees on half of it is, which the intersection of SICD contours with the terrain uses as half a post.", "quantifier": "Every geotransform and size of a tile, history of the cache, place and row.", "why_tests_cant": "It is an inequality over all pairs of places; tests look at the spacing of one tile.", "anchors": ["src/aws/osml/gdal/gdal_dem_tile_factory.py:GDALDigitalElevationModelTileFactory.get_tile", "src/aws/osml/photogrammetry/sicd_sensor_model.py:DEMRRDotSurfaceProjection.__init__"]}
{"id": "C104", "title": "SICD pixels on level terrain over the WGS 84 ellipsoid", "statement": "The elevation model gives the same elevation everywhere, as a constant one does. If the point that the height projection finds for this elevation misses the range by e1 and, times range over speed, the range rate by e2, is at least b to the side of the plane of the antenna's position and velocity, and e2 + (2 r (e1 + e2) + e1^2 + e2^2) / b is less than a millimetre, then the intersection with the terrain finds a point. It has exactly the range and range rate of the pixel, is within this length of the point of the height projection, and so much at most above or below the terrain; image_to_world of the SICD model returns it.", "quantifier": "Every SICD model, pixel, constant elevation above -6,335.438 kilometres and reported post spacing.", "why_tests_cant": "Every geometry of antenna, range and range rate; tests locate a few pixels and compare digits.", "anchors": ["src/aws/osml/photogrammetry/sicd_sensor_model.py:DEMRRDotSurfaceProjection.rrdot_to_ground", "src/aws/osml/photogrammetry/sicd_sensor_model.py:DEMRRDotSurfaceProjection.__init__", "src/aws/osml/photogrammetry/sicd_sensor_model.py:SICDSensorModel.image_to_world"]}
{"id": "C105", "title": "SICD pixels on terrain over the WGS 84 ellipsoid", "statement": "The elevation model reports a lowest and a highest elevation, and its elevations along the contour of the pixel are between them. If the points that the height projection finds for these two elevations miss the contour by less than a millimetre, in the sense of the property about level terrain, are at least ten metres below the antenna, the upper one no lower than the other, and the vertical at the upper one leans away from the track and not downwards, then the contour is sampled from a point at most a millimetre above the lowest elevation to one at most a millimetre below the highest. Unless a sample is exactly a millimetre above the terrain, an intersection is found. Neighbouring samples are at most ten metres apart, and at most half the post spacing times the range over the depth of the lower point below the antenna. Where the terrain rises by at most s metres in a metre along the contour, every point returned is on the contour, and above or below the terrain by at most a millimetre or (1 + s) times this distance, whichever is more; image_to_world of the SICD model returns such a point.", "quantifier": "Every SICD model, pixel, terrain, slope, lowest and highest elevation above -6,335.438 kilometres and post spacing.", "why_tests_cant": "It is about all terrains and geometries; tests locate a few pixels on one tile and compare digits.", "anchors": ["src/aws/osml/photogrammetry/sicd_sensor_model.py:DEMRRDotSurfaceProjection.rrdot_to_ground", "src/aws/osml/photogrammetry/sicd_sensor_model.py:DEMRRDotSurfaceProjection.__init__", "src/aws/osml/photogrammetry/sicd_sensor_model.py:SICDSensorModel.image_to_world"]}
{"id": "C106", "title": "Finding the pixels of SICD images in the slant plane and in the ground plane", "statement": "An image is planar, in the slant plane, and all of it is measured from one place of the antenna, which is not below the ground plane. A scene point of the ground plane on the scene centre's side of the track, ten times farther to the side of the track than off the slant plane and at most 4,000 kilometres off it, is found: world_to_image returns a pixel that image_to_world locates within a centimetre of it, and within off^2 / aside, so exactly if the point is in the slant plane. A pixel whose place in the slant plane is on the scene centre's side and whose ground point is such a scene point is found again within 12 millimetres in the image plane. An image in the ground plane, whose pixels may be measured at different times, locates each pixel in view at its place in the plane, and world_to_image of that point is exactly the pixel. On the WGS 84 ellipsoid this holds without assumptions about the conversions.", "quantifier": "Every such SICD document, scene point, pixel and trajectory of the antenna.", "why_tests_cant": "The search iterates on computed ground points; that it converges within ten iterations for all geometries cannot be seen from the few pixels that tests compare.", "anchors": ["src/aws/osml/photogrammetry/sicd_sensor_model.py:SICDSensorModel.world_to_image", "src/aws/osml/photogrammetry/sicd_sensor_model.py:SICDSensorModel.image_to_world", "src/aws/osml/photogrammetry/sicd_sensor_model.py:GroundPlaneRRDotSurfaceProjection.rrdot_to_ground"]}
{"id": "C107", "title": "SAR sensor models are made of the elements that the formats name", "statement": "A SICD or SIDD document of any of the five versions is parsed, and the sensor model builder finds what it reads. Then every number it uses is the text of the only element at the path that the format gives it: the scene centre, its pixel, the first row and column, the unit vectors and spacings of rows and columns, every coefficient with its exponents of the time and antenna polynomials, the antenna's position, velocity and side, the grid type and, for range azimuth grids, the algorithm with the block it needs; likewise the reference point, product plane, sample spacing, polynomials and chip of SIDD documents, which have no chip element when the builder sees no chip. In the document that an updater writes for a chip, the elements of the chip contain its first row and column, size and corners.", "quantifier": "Every document, every lexical mapping of numbers, every list of chips.", "why_tests_cant": "A swapped row and column or a wrong element goes unnoticed when the values of a test document happen to be equal, as they are in the test data.", "anchors": ["src/aws/osml/gdal/sicd_sensor_model_builder.py:SICDSensorModelBuilder.from_dataclass", "src/aws/osml/gdal/sidd_sensor_model_builder.py:SIDDSensorModelBuilder.from_dataclass", "src/aws/osml/image_processing/sicd_updater.py:SICDUpdater.update_image_data_for_chip", "src/aws/osml/image_processing/sidd_updater.py:SIDDUpdater.update_image_data_for_chip"]}
{"id": "C108", "title": "RPC pixels in binary64", "statement": "A camera is ordinary when its image offsets and scales are at most 100,000, its longitude and latitude offsets and scales at most 180 degrees and its height offset and scale at most 100,000 metres, its ground scales are at least 1/1000, the absolute numerator coefficients add up to at most 3, and each denominator is 1 plus coefficients that add up to at most 1/4. For such a camera and a point of its normalised cube, all of them binary64 numbers, world_to_image returns two finite binary64 numbers, within a millionth of a pixel of the exact pixel of a point whose longitude and latitude differ from the given ones by at most a relative 2^-51 plus 2^-1074, and within a thousandth of a pixel of the exact pixel of the given point, although products may underflow. It raises exactly if the longitude or latitude scale is zero or a polynomial has fewer than 20 coefficients: a zero height scale or denominator gives infinities or NaN.", "quantifier": "Every ordinary camera, every binary64 point of its cube; for raising, every camera and point.", "why_tests_cant": "Rounding and underflow depend on all the bits of 90 coefficients and three coordinates; tests compare a few points with a tolerance.", "anchors": ["src/aws/osml/photogrammetry/rpc_sensor_model.py:RPCPolynomial.evaluate", "src/aws/osml/photogrammetry/rpc_sensor_model.py:RPCSensorModel.world_to_image"]}
{"id": "C109", "title": "RSM pixels in binary64", "statement": "Call an RSM polynomial camera ordinary when its image offsets and scales are at most 100,000, its ground offsets and scales at most 10,000,000 and its ground scales at least 10^-9, every polynomial has powers up to 5 and the number of coefficients that the constructor requires, the absolute numerator coefficients add up to at most 3, and each denominator is 1 plus coefficients that add up to at most 1/4. For such a camera, a ground domain point of its normalised cube, all of them binary64 numbers, and any power function whose results are within a relative 2^-50 plus 2^-1060 of the exact powers, ground_domain_to_image returns two finite binary64 numbers within a millionth of a pixel of the exact pixel; in the geodetic form of the ground domain, of the pixel that world_to_image gives. Two such power functions give pixels within two millionths of each other. Powers made by repeated multiplication are accurate enough for this.", "quantifier": "Every ordinary camera, every binary64 point of its cube, every power function of the stated accuracy.", "why_tests_cant": "Up to 864 coefficients are summed by rounded operations, and the accuracy of pow depends on the platform; tests compare a few points on one platform with a tolerance.", "anchors": ["src/aws/osml/photogrammetry/replacement_sensor_model.py:RSMPolynomial.evaluate", "src/aws/osml/photogrammetry/replacement_sensor_model.py:RSMPolynomialSensorModel.ground_domain_to_image", "src/aws/osml/photogrammetry/replacement_sensor_model.py:RSMPolynomialSensorModel.normalize", "src/aws/osml/photogrammetry/replacement_sensor_model.py:RSMPolynomialSensorModel.denormalize"]}
{"id": "C110", "title": "RSM section in binary64", "statement": "For image coordinates and section sizes up to 2^40, a first row and column from 0 to 2^40 and at least one section each way, all binary64 numbers, and sections of a whole number of rows and columns, get_section_index gives exactly the section that contains the location, or the closest one outside: the rounding of the difference and of the quotient never moves a location over a boundary. For other section sizes it gives the section of a location within a relative 2^-51 of the distance from the first row or column, and a larger coordinate never gives an earlier section; but row 1500.6 of sections of 500.2 rows, which is before the end of the third, gets the fourth. A zero section size raises, with ValueError on the first row or column and OverflowError elsewhere; nan raises ValueError and an infinity OverflowError. world_to_image takes the section of an approximate location that is within 2^-49 times the sum of the absolute terms, plus 2^-800, of the exact value of the low order polynomials, for coefficients up to 2^40 and ground coordinates up to 2^24.", "quantifier": "Every binary64 location, every whole section size, every number of sections; for other sizes, every binary64 size from 2^-40 to 2^40.", "why_tests_cant": "Only single locations next to a boundary can show a wrong rounding; tests use round numbers inside sections.", "anchors": ["src/aws/osml/photogrammetry/replacement_sensor_model.py:RSMSectionedPolynomialSensorModel.get_section_index", "src/aws/osml/photogrammetry/replacement_sensor_model.py:RSMSectionedPolynomialSensorModel.world_to_image", "src/aws/osml/photogrammetry/replacement_sensor_model.py:RSMLowOrderPolynomial.evaluate"]}
{"id": "C111", "title": "RSM 0 to 2 pi longitude in binary64", "statement": "For a ground domain of the form GEODETIC_2PI, every longitude from -4 to 7 radians gives a binary64 longitude of at least 0 and less than 2 pi that is within 2^-49 radians (about 11 nanometres on the equator) of the longitude, or of the longitude plus or minus one turn. An eastern longitude from 0 to 4 stays within 2^-49 of itself and eastern longitudes keep their order; a western one down to -4 gets one turn added; -1e-17 becomes 0. A longitude that is already in the domain is not kept: 0.1 becomes 0.09999999999999964. Every longitude up to 2^800 radians either way gives a longitude in the domain that differs from it by a whole number of turns, each the binary64 2 pi, up to the rounding of one addition. An infinity or nan gives nan, without an exception.", "quantifier": "Every binary64 longitude up to 2^800 radians, and every infinity and nan.", "why_tests_cant": "A result of exactly 2 pi or below 0 could only come from the rounding of a single longitude near Greenwich; tests try a few longitudes with a tolerance.", "anchors": ["src/aws/osml/photogrammetry/replacement_sensor_model.py:RSMGroundDomain.geodetic_to_ground_domain_coordinate"]}
{"id": "C112", "title": "SICD pixel grid in binary64", "statement": "For pixels, first pixels and scene centres up to 2^24 and sample spacings from 2^-20 to 2^20, all binary64 numbers, the image grid location of a pixel is within 2^-25 sample spacings of the exact one, a larger row or column never gets a smaller location, and the pixel comes back from its own location within 2^-24 of a pixel. The pixel of the scene centre, in whole numbers, has the location (0, 0) and comes back exactly. A pixel of a chip has, bit for bit, the location of the same pixel of the full image. A whole pixel need not come back exactly: with a spacing of 0.3, row 1311 of a chip that starts at row 2421 of an image centred on row 19548 comes back as 1310.9999999999982.", "quantifier": "Every converter and every binary64 pixel within these limits; for the scene centre and for chips, every whole pixel.", "why_tests_cant": "The last bits depend on the spacing, the chip and the pixel together; tests compare a few pixels with a tolerance.", "anchors": ["src/aws/osml/photogrammetry/sicd_sensor_model.py:SARImageCoordConverter.rowcol_to_xrowycol", "src/aws/osml/photogrammetry/sicd_sensor_model.py:SARImageCoordConverter.xrowycol_to_rowcol", "src/aws/osml/photogrammetry/sicd_sensor_model.py:SICDSensorModel.image_to_world", "src/aws/osml/photogrammetry/sicd_sensor_model.py:SICDSensorModel.world_to_image"]}
{"id": "C113", "title": "Geolocation grid in binary64", "statement": "Features lie between two coordinates, binary64 numbers of at most 2^24 in size, and the grid has 2 to 1025 points a side. Along each axis it then has exactly so many points; each is within 2^-24 of a pixel of its place in the evenly spaced grid from ten pixels before the least coordinate to ten after the greatest. The points increase strictly, as the spline over them demands, also when all features are at one place. The first and the last point are more than nine pixels outside the features, so that no vertex is extrapolated. A grid of one point is at the upper left corner; a grid of none is empty. For coordinates of any size this fails: at 2^60 the margin is lost and all points coincide.", "quantifier": "Every least and greatest coordinate and grid size within these limits.", "why_tests_cant": "The step, its multiples and the end are rounded differently for every tile; tests use one grid of a few features.", "anchors": ["src/aws/osml/features/geolocation.py:LocationGridInterpolator.__init__", "src/aws/osml/features/geolocation.py:Geolocator.geolocate_features"]}
