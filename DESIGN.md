# Formal model of fimex: design

Prover: Rocq/Coq 8.16.1, sources in `rocq/theories`, logical prefix `Verif`.
The code modelled is the pinned source in `/repo` (metno/fimex, C++). It is read
as text only; nothing in the model is extracted from or linked to the binary.

## Layout

* `Base.v`         outcome type (`Ok`, `Throw`, `UB`, `Hang`), 64-bit arithmetic, list lemmas
* `IndexSpec.v`    independent specification of row-major index arithmetic
* `StdMap.v`       ordered maps with string keys (std::map)
* `<Area>Model.v`  the code, function by function, each definition citing file and lines
* `<Area>Proofs.v` lemmas
* `<Area>Props.v`  the property theorems (name prefix = property id), `Print Assumptions`, and
                   examples (`…_nonvacuous`) that meet each theorem's hypotheses on a non-trivial case

## Conventions

* `size_t`/`unsigned` quantities are unbounded (`N`/`nat`/`Z`) unless the property
  is about wrap-around; then the reduction `mod 2^64` is written out in the model.
* Exceptions are `Throw`, undefined behaviour (a read or write outside a buffer, a null
  pointer, an out-of-range conversion) is `UB`, a loop that does not end is `Hang`.
  All are different from every normal result, so a theorem that claims a result also
  claims the absence of the others.
* Loops that need not end are modelled with fuel; running out of fuel is a separate
  outcome that positive theorems exclude.
* Floating point: code that only compares and moves values is modelled over an ordered
  type, `Z` or `option Z` (`None` = NaN); arithmetic formulas over `Q`, `Qc` or `R`
  (`option` for NaN). Rounding error is not modelled.
* Heap models (explicit cells) are used where aliasing matters.
* When the natural claim is false of the code, the file proves the exact guarded claim and
  a theorem with a witness for the rest; the statement in `properties.jsonl` is the guarded
  form. See "Findings".
* Properties are stated with definitions that do not use the helpers of the model
  (specification functions beside the theorems).

## How the theorems are tested

`seeded/LOG.jsonl` has one line per wrong program tried: the model is changed in a scratch
copy in one place (an index, a comparison, a forgotten case), the proofs are rebuilt, and the
theorems that fail are noted. A change that no theorem notices is either equivalent (said so in
the line) or leads to a stronger theorem (key `tightened`).

## What is modelled, file by file

The text is the header of each model file. Anything in the cited sources that is not named there or in the comments of the definitions is not modelled.

* `Base.v`: Shared vocabulary: outcomes of C++ code, 64-bit unsigned arithmetic, small list lemmas.
* `IndexSpec.v`: Specification vocabulary for multi-dimensional arrays, first dimension fastest. Nothing here is taken from the code: it is the meaning of "cell at position (j0,j1,...)".
* `StdMap.v`: [std::map<std::string, T>] as a sorted association list; iteration order is key order.
* `SliceModel.v`: Model of array slicing and block writes: include/fimex/RecursiveSliceCopy.h, src/DataImpl.h, and of slice requests: src/SliceBuilder.cc. Element type is arbitrary. [size_t] arithmetic is modulo 2^64. Pointers into the original array are offsets modulo 2^64 from its start; reading a non-empty block outside it is UB.
* `ReaderModel.v`: Model of the default implementations in src/CDMReader.cc and of src/DataIndex.cc, src/IndexedData.cc, createDataSlice in src/Data.cc.
* `ExtractModel.v`: Model of src/CDMExtractor.cc: selection of positions along dimensions.
* `Rounding.v`: Rounding functions of the C library over exact rationals, and integer conversions. Floating-point numbers are modelled as rationals ([Q]); NaN is [None] in [option Q].
* `RegridModel.v`: Cached nearest-neighbour and forward regridding. src/CachedInterpolation.cc, src/CachedForwardInterpolation.cc, src/MathUtils.cc. Positions and field values are exact rationals; [None] is NaN. Rounding of floating-point sums is not modelled. Index arithmetic is unbounded ([N]).
* `SearchModel.v`: Searching in unsorted and sorted coordinate lists. include/fimex/min_max.h, include/fimex/FindNeighborElements.h, src/interpolation.c:109-227. Floating-point numbers are exact rationals; NaN is [None] where it is treated specially.
* `InterpModel.v`: The metadata of a horizontally interpolated file: changeCDM of src/CDMInterpolator.cc:727-937 with getProjectionName (312-324), CDM::generateProjectionCoordinates (src/CDM.cc:660-702) and findBestCoordinateSystemsAndProjectionVars (694-725). Logging is left out, names of axes are not empty.
* `TimeModel.v`: Calendar times: src/FimexTime.cc, include/fimex/FimexTime.h.
* `StringModel.v`: String utilities: src/StringUtils.cc, include/fimex/StringUtils.h, src/XMLUtils.cc:135-181, include/fimex/TokenizeDotted.h. A std::string is the list of its characters.
* `TextModel.v`: Text forms of values: calendar times (src/FimexTime.cc:37-49, 94-142, 205-241), integers and booleans (include/fimex/String2Type.h, src/String2Type.cc).
* `ConvertModel.v`: Data types, their names, conversion between them, packing with scale and offset, missing values, small numeric helpers. src/CDMDataType.cc, src/NcmlUtils.cc, src/io/netcdf/NetCDF_Utils.cc:126-195, include/fimex/MathUtils.h, src/MathUtils.cc, include/fimex/DataUtils.h, src/DataImpl.h:284-331, src/Data.cc:219-241, src/CDMReader.cc:176-216, src/CDMReaderWriter.cc:62-94, src/CDM.cc:460-492, src/Units.cc:73-160, src/interpolation.c:60-108, 1064-1092. Floating-point values are exact rationals, NaN is [None]; infinities and rounding errors are not modelled.
* `CdmModel.v`: The metadata model (CDM): variables, dimensions, attributes and the operations editing them; generated names and shape comparison.
* `FilesModel.v`: Paths, directory scans and glob patterns: src/FileUtils.cc. A directory tree is what directory_contents (98-121) and file_type (123-149) report: the entries of each directory in sorted order. Symbolic links that form a cycle are not modelled (the tree is finite); a directory that cannot be opened has no entries.
* `KeysModel.v`: Grid definitions as keys of a std::map: src/GridDefinition.cc, include/fimex/GridDefinition.h. Doubles are exact rationals; NaN is not modelled.
* `AxesModel.v`: Axes of a coordinate system: src/coordSys/CoordinateSystem.cc, include/fimex/coordSys/CoordinateAxis.h; reading a byte range over HTTP: src/HttpChunkReader.cc.
* `SpecModel.v`: Axis specifications: src/TimeSpec.cc, src/SpatialAxisSpec.cc. Doubles are exact rationals. string2type<double> is the parameter [s2d]; numbers are written by type2string and read back by tokenizeDotted in the code, here they are kept. The units library is the parameter [to_unit]: the value of a text or of the start and end time in a time unit.
* `FillModel.v`: Filling undefined cells: mifi_fill2d_f, mifi_creepfill2d_f, mifi_creepfillval2d_f in src/interpolation.c:548-826. Floats are exact rationals; [None] is an undefined value (NaN, or what a division by zero gives). malloc does not fail.
* `LinearModel.v`: Interpolation between two fields: src/interpolation.c:416-546. Floats are real numbers, [None] is NaN; infinities are not modelled. A field is a list of n values, so memcpy and the loops are over the whole list.
* `PhysModel.v`: Vertical coordinate transformations: src/vertical_coordinate_transformations.c:29-232 and the hypsometric integration of src/coordSys/verticalTransform/PressureIntegrationToAltitudeConverter.cc. Floats are real numbers (no rounding, NaN or infinities). The C functions loop over n values; the loop is the map of the one-value function over the list.
* `RotateModel.v`: Rotation of vectors when a grid is reprojected: src/reproject.cc:240-264, 297-402, 488-530 and src/CachedVectorReprojection.cc:43-53. Floats are real numbers; MIFI_PI is exactly PI. The projection library is a parameter: [fwd] maps a position of the input projection to one of the output projection.
* `AggModel.v`: Aggregation of files: src/AggregationReader.cc. Dimensions, variables with shapes, and the answers of the files' readers are modelled; attributes and data types are not. A file answers a record request (getDataSlice(name, pos)) and a request for a part (getDataSlice(name, SliceBuilder)) with a list of numbers.
* `LoopModel.v`: Loops over groups of arrays: include/fimex/ArrayLoop.h and src/ArrayLoop.cc. Lengths and strides are natural numbers; the positions in the arrays are size_t (reduced modulo 2^64), and the step back at the end of a dimension goes through an int as in the code.
* `BlendModel.v`: Merging of two fields: src/CDMOverlay.cc, src/CDMBorderSmoothing.cc, src/CDMBorderSmoothing_Linear.cc
* `MaskModel.v`: Quality masking: src/CDMQualityExtractor.cc. Values of the status are exact rational numbers, [None] is NaN; infinities are left out.
* `AccumModel.v`: Accumulation along the unlimited dimension: src/CDMProcessor.cc, getDataSlice with the cache of one slice. Arrays live in a heap, since the code shares arrays between the cache, the results and its temporaries. The reader below hands out a new array at each request. Rotation is in RotateModel.v.
* `GribModel.v`: Model of reading and writing GRIB: placement of messages in a slice (src/io/grib/GribCDMReader.cc), the message index of a variable (src/io/grib/GribCDMIndexer.cc), step units (src/io/grib/GribUtils.cc), the step written for a time (src/io/grib/GribApiCDMWriter_ImplAbstract.cc), the time read from a message (src/io/grib/GribFileIndex.cc) and the time encoding used as key (src/FimexTime.cc). Cell values are arbitrary. Decoding a message (ecCodes) is not modelled: a message is the list of the values it decodes to.
* `TimeIntModel.v`: Model of time interpolation: src/CDMTimeInterpolator.cc. Times are integers (seconds); the conversion between FimexTime, the old unit and the new unit is taken to be exact and order preserving (see C15, C69). Only time on the unlimited dimension is modelled, as in the code (line 135). Field values are reals or NaN.
* `FeltModel.v`: Model of the index of a Felt file and of reading slices from it: src/io/felt/Felt_Array2.cc, Felt_File2.cc, FeltCDMReader2.cc. Times are integers in the order of FimexTime; levels, versions, data types and parameter numbers are integers. Not modelled: reading the words of the file, the names given by FeltParameters, scaling of the values (the values of a field are given as they come out of getScaledDataSlice).
* `FillWModel.v`: Model of filling a file from another one: src/FillWriter.cc, constructor. Coordinate values are of any type with an equality test ([eqb] is operator== on doubles, so NaN need not equal itself). Values of variables are of any type and are copied unchanged: the code reads and writes unscaled data (getDataSlice, putDataSlice) of the same name. Not modelled: the parsing of the configuration file, the log, OpenMP (the variables are written one after the other), the conversion of the data type when writing. Dimension names within a file and within a shape are assumed distinct.
* `CrossModel.v`: Interpolation to vertical cross-sections: CDMInterpolator::changeProjectionToCrossSections, src/CDMInterpolator.cc:492-613. Modelled: the choice of the points, the start positions, the names and the bounds arrays. Floats are rationals. The projection is a pair of parameters: [from] maps (lon, lat) to projection coordinates (convertFromLonLat) and [to] back (convertToLonLat), both point by point; failures of the projection library and values that are not finite are not modelled. The axes are given by their first values; the final reprojection (line 612) is not modelled here.
* `MergeModel.v`: Merging an inner and an outer grid: CDMMergerPrivate::extendInnerAxis, src/CDMMerger.cc:244-288 with its caller 200-206, and the compatibility checks of src/CDMMergeUtils.cc:66-112, 158-232 and CDMMergeUtils.h:52-55. Floats are rationals.
* `CloseModel.v`: The coordinate based nearest neighbour search: getGridDistance and fastTranslatePointsToClosestInputCell, src/CDMInterpolator.cc:1030-1202. Floats are real numbers, [None] is NaN. The loops run in parallel over independent points; the order of the samples does not matter since only their minimum is used. deg_to_rad(x) = x * PI / 180.
* `GdistModel.v`: Distances between neighbouring grid points: mifi_griddistance, src/interpolation.c:828-885, with mifi_great_circle_angle, 246-249. Floats are real numbers. The two output arrays are written by the same statements with another neighbour (the point to the right, the point below) and independently of each other, so the loops are modelled for one array. The content of the array before the call is arbitrary. Sizes are natural numbers (no wrapping of nx*ny).
* `VertModel.v`: Vertical wind from horizontal wind on hybrid levels: mifi_compute_vertical_velocity, src/interpolation.c:887-1062. Floats are real numbers. Input arrays are functions of the index; ap and b of the level, ps, zs and the grid distances of the horizontal index i + nx*j, and t, u, v of i + nx*j + nx*ny*k. The temporary arrays (map ratios, dp, dlnp, alfa, z, sum, uu, vv) are written in full before they are read and are modelled as functions of level and horizontal index. The result w is an array whose cells hold [None] until they are written. malloc does not fail.
* `PconvModel.v`: CDMPressureConversions: parsing of the operations, the four converter factories and the converted data. src/CDMPressureConversions.cc. Values are exact reals, [None] is a missing value (NaN).
* `CsbModel.v`: Requests by the type of an axis: src/CoordinateSystemSliceBuilder.cc, on top of the request of SliceModel.v and the axes of AxesModel.v. An axis object has a shape (getShape) and the flag isExplicit (include/fimex/coordSys/CoordinateAxis.h:92), which are given as functions of the object; an explicit axis has a dimension of its own name. Logging is left out.
* `VintModel.v`: Data of a vertical interpolation: CDMVerticalInterpolator::getLevelDataSlice, src/CDMVerticalInterpolator.cc:356-567, with the helpers of src/coordSys/verticalTransform/VerticalTransformationUtils.cc:317-426. The arrays and the loop over them are those of LoopModel.v, the neighbour search is that of SearchModel.v. A variable and a vertical converter are functions from positions to numbers; reading a slice of them gives the numbers of the positions in storage order. Numbers are exact rationals, [None] is the undefined value (NaN) of the data; levels are never NaN here. The interpolation function is a parameter (LinearModel.v has the ones of fimex). Packing of the result (interpolationArray2Data) and logging are left out; the OpenMP loop over the target levels is run in order.
* `VmetaModel.v`: The metadata of vertical interpolation: which variables get the new vertical axis, which axes disappear, and what is rejected (CDMVerticalInterpolator).
* `ShapeModel.v`: Shapes and slice requests of vertical converters (VerticalTransformationUtils).
* `SelectModel.v`: Selecting variables, axis ranges and bounding boxes (CDMExtractor). The reduction of a dimension to given positions is the one of ExtractModel.v.
* `MergedModel.v`: The metadata of two merged files: makeMergedCDM and is_compatible, src/CDMMergeUtils.cc, the place the data of a merged variable are read from, src/CDMOverlay.cc and src/CDMBorderSmoothing.cc, and the choice of the target grid, src/CDMMerger.cc. The metadata are those of CdmModel.v, the closure under auxiliary variables that of SelectModel.v.
* `NcModel.v`: A netCDF file as the netCDF library keeps it, and NetCDF_CDMReader, src/io/netcdf/NetCDF_CDMReader.cc, with ncGetValues and ncPutValues of src/io/netcdf/NetCDF_Utils.cc. The rules of the library itself (what nc_def_dim, nc_def_var, nc_put_att and nc_put_vara accept and do) are taken from its documentation and are not part of the fimex sources.
* `NcwModel.v`: NetCDF_CDMWriter, src/io/netcdf/NetCDF_CDMWriter.cc: editing the metadata as configured, defining dimensions, variables (with chunks and compression) and attributes, converting and writing the data. Left out: MPI, the XML syntax of the configuration (its content is a record), the ncml reader in front. What the netCDF library accepts is taken from its documentation, see NcModel.v.
* `NmlModel.v`: Changing a file by an NcML document: src/NcmlCDMReader.cc, src/NcmlUtils.cc. The XML document is given by its elements below /netcdf, each kind in document order (XPath node sets are in document order). [None] is an absent XML attribute; where the code uses getXmlProp, which gives the empty string for an absent one, [prop] is applied.
* `NmlwModel.v`: Writing metadata and data as an NcML document: src/NcmlCDMWriter.cc. The result is the document as an XML parser delivers it, in the form of NmlModel.
* `CfcsModel.v`: Coordinate systems of files that follow the CF conventions: src/coordSys/CF1_xCoordSysBuilder.cc and findBestHorizontalCoordinateSystems of src/coordSys/CoordinateSystem.cc, on the axes of AxesModel.v. The string value of an attribute is a_text; logging is left out.
* `VecModel.v`: Vectors found by their standard names: enhanceVectorProperties of src/coordSys/CF1_xCoordSysBuilder.cc, src/coordSys/WRFCoordSysBuilder.cc and src/coordSys/CoordinateSystem.cc.
* `BestModel.v`: The coordinate systems that horizontal interpolation works on: findBestHorizontalCoordinateSystems of src/coordSys/CoordinateSystem.cc:362-452. Logging is left out; the maps and the list that are filled are empty at the call, as in src/CDMInterpolator.cc:700-705 and src/CDMProcessor.cc:440-493.
* `ProjModel.v`: Projections: their parameters and PROJ.4 texts. src/coordSys/Projection.cc, src/coordSys/ProjectionImpl.cc and the classes of src/coordSys/*Projection.cc. Doubles are exact rationals or NaN ([None]).
* `IreadModel.v`: Reading data of a horizontally interpolated file: CDMInterpolator::getDataSlice of src/CDMInterpolator.cc:140-278 with getInputDataSlice and getOutputDataSlice of src/CachedInterpolation.cc:91-128. Logging is left out; the loops over levels run in one thread. Rounding to float is not modelled, as everywhere here.
* `BilinModel.v`: Bilinear and bicubic interpolation of one point, and the cached interpolation of a grid with its reduced input domain. src/interpolation.c:267-414, src/CachedInterpolation.cc:165-253. Floating-point numbers are exact rationals ([Q] for positions, [Qc] for weights and field values); NaN is [None]; rounding errors are not modelled.
* `PbufModel.v`: Metadata and the positions of GRIB messages written to an index file and read from it, src/ProtobufCDM.cc, src/io/grib/GribProtobufIndexWriter.cc, src/io/grib/GribProtobufIndexReader.cc. The messages are those of src/protobuf/cdm.proto and src/io/grib/protobuf/grib_index.proto; turning a message into bytes and back is the protobuf library's. A string's number in the table is not cut to 32 bits: a message with so many strings exceeds the 2 GB the library can write.
* `VconvModel.v`: The vertical converters that evaluate a formula in every cell: src/coordSys/verticalTransform/*Converter.cc and AtmosphereHybridHeight.cc, getDataSlice. Variables of the reader are given by their values in the unit of the converter (doubles are any type [V]; real numbers in the instances at the end).
* `IofModel.v`: Which driver reads or writes a file, and what it is asked to open: src/CDMFileReaderFactory.cc, src/IoFactory.cc and the drivers NcmlIoFactory.cc, NullIoFactory.cc, io/netcdf/NetCDFIoFactory.cc, io/grib/GribIoFactory.cc, io/felt/FeltIoFactory.cc. Not modelled: the search for plugin libraries (CDMFileReaderFactory.cc:65-108, IoPlugin.cc; the list of installed drivers is an input), what the readers and writers do afterwards (the result is the constructor call with its arguments), the content of the configuration (only whether there is one), http transfers (the bytes behind a URL are part of the world). starts_with is the plain prefix test (C18 has its limits).
* `GwrModel.v`: Model of writing GRIB files: the loops over coordinate systems, times, variables and levels (src/io/grib/GribApiCDMWriter_ImplAbstract.cc), and the parameter, level and value keys of both editions (src/io/grib/GribApiCDMWriter_Impl1.cc, GribApiCDMWriter_Impl2.cc). The GRIB library (ecCodes) is a store of keys: setting a key replaces its value and nothing else, a message is a copy of the store. Keys the library refuses (GRIB_CHECK ends the program) are not modelled. Doubles are rationals.
* `GgridModel.v`: Model of the description of the grid in GRIB messages: the keys set by setProjection (src/io/grib/GribApiCDMWriter_Impl1.cc:64-349, src/io/grib/GribApiCDMWriter_Impl2.cc:42-53, 86-346) and the grid the reader finds (src/io/grib/GribFileIndex.cc:140-441, 675-687, src/io/grib/GribUtils.cc:51-73) with the axes of the file (src/io/grib/GribCDMIndexer.cc:853-884). Simplifications: doubles are rationals; the GRIB library returns the values that were set (in files angles are rounded to 0.001 or 0.000001 degrees) and fails for keys without value.
* `GindModel.v`: Model of how the messages of GRIB files become variables with dimensions: the configuration element of a message (src/io/grib/GribReaderConfig.cc:66-103, 294-392), loading messages (src/io/grib/GribCDMIndexer.cc:484-600), the level axes (602-636, 264-301), the dimensions and shapes (638-655, 756-763, 819-846, 918-964) and the index of messages (700-754, GribModel). Simplifications: attributes, data types, the variables of projections and axes and the reading of the XML configuration are left out; a grid is compared by a given equality.
* `GlevModel.v`: Model of the values of vertical axes read from GRIB files: src/io/grib/GribCDMIndexer.cc:357-484 (readValuesFromXPath_, initSpecialLevels_). Simplifications: numbers are rational; level numbers are not negative; the conversion of the values to the type of the variable, shapes and values of attributes are left out; the elements of the configuration are given as parsed, a text that is not a number is [None].
* `CliModel.v`: The program [fimex]: how the options of a call become readers, library calls and files (src/binSrc/fimex.cc), and the names of the horizontal interpolation methods (src/interpolation.c:59-107). The options of a call are given as a map from option names to the texts given for them ([None]: the option was not given). Reading the command line and the configuration files into that map is done by a library outside the repository and is not modelled. A reader is the tree of what it was built from. What the library does with a reader is a parameter: [okr] says whether building a reader from its parts passes without an exception; the exceptions of the calls of one processing step are taken together. Numbers, times and truth values are read from texts by parameters too ([None]: an exception).
* `WrfModel.v`: Coordinate systems of files of the WRF model (src/coordSys/WRFCoordSysBuilder.cc): the projection, the axes made from the global attributes and the systems of the variables. Numbers are rationals; the float type of the axes and of the attributes is not modelled. An undefined number (an attribute that is missing) is [None]. The library PROJ (the place of the centre of the grid), the sine and the length of a degree are parameters.
* `CapiModel.v`: The C interface: src/c_fimex.cc, and the reader with C callbacks, src/C_CDMReader.cc, on top of the requests of SliceModel.v, the default reader of ReaderModel.v and the scaling of ConvertModel.v. A C function that lets a C++ exception out has the outcome [Throw]; a function that catches it has a code. A null pointer or a block of memory that is too small is [UB], and so is a failing assertion (which ends the program). Left out: null pointers for readers and names, log messages, the functions that only make a reader (each catches every exception and returns a null pointer, 86-167), and malloc failing.
* `NcaggModel.v`: Aggregations in NcML documents: src/NcmlAggregationReader.cc. The XML document is given by the elements and attributes that are looked up; a missing attribute is an empty text (getXmlProp). Left out: log messages, the check of the root element, exceptions that are no CDMException.
* `NullwModel.v`: The writer that writes nothing: src/Null_CDMWriter.cc. The reader is given by what it returns for a request; data are given by their number of values, [None] is an empty pointer. Left out: log messages, the counters of the constructor that nothing reads; the conversions data->asX() of present values are taken to succeed (C02 says what they give).
* `InstantModel.v`: Instants, seconds since 1970-01-01T00:00:00: src/TimeUtils.cc. The calendar of the library date (date.h, not part of the source) is its algorithm for the number of days of a date; gmtime is the inverse algorithm. Left out: make_time_utc_now (the clock).
* `TmplModel.v`: Templates in the attributes of configuration files, such as %MAX_DATETIME(%Y-%m-%d,86400)%: src/CDM_XMLConfigHelper.cc, src/ReplaceStringTimeObject.cc, include/fimex/ReplaceStringTimeObject.h, include/fimex/ReplaceStringTemplateObject.h. std::regex is modelled by the list of all its matches in the order of ECMAScript (a backtracking search). Left out: readXPathNodeWithCDMAttributes (the XML attributes of a node), the constructor of CDMAttribute.
* `FwordModel.v`: The words of a FELT file, its index and its fields: src/io/felt/FeltFile.cpp, src/io/felt/FeltField.cpp, src/io/felt/FeltField.h, src/io/felt/FeltTime.cpp. The machine stores the low byte of a word first. Simplified: a read beyond the end of the file, which leaves the words as they were before and the stream unusable, is undefined behaviour. Left out: logging, information(), isSane (not used).
* `FgridModel.v`: Grids of FELT files: src/io/felt/FeltGridDefinition.cpp, the axes in src/io/felt/Felt_File2.cc and the check of grids in src/io/felt/Felt_Array2.cc. Numbers are exact; the sine of an angle in degrees and the projection of the library proj are parameters. Left out: logging, the two functions polarStereographicProj and geographicProj (not used), the number format of the projection text.
* `GcutModel.v`: The program fiGribCut: src/binSrc/fiGribCut.cc. Numbers are exact. A message of the library grib_api is a record of the keys in use. Left out: the texts written to the error stream, --debug, the packing of the values.
* `GbmlModel.v`: Index files of GRIB files (grbml): writing and reading of messages (src/io/grib/GribFileIndex.cc:460-480, 690-899, 970-1069, 1117-1310), the program fiGrbmlCat (src/binSrc/fiGrbmlCat.cc) and the options of the program fiIndexGribs (src/binSrc/fiIndexGribs.cc). An XML document is the sequence of nodes which the reader of libxml2 delivers; the reader and the writer of libxml2 are trusted. Left out: the texts of log messages, the index in the format of protobuf, the configuration and the names of members handed to the indexer.
* `FparModel.v`: The parameters of FELT files: src/io/felt/FeltParameters.cc, the identifiers in a configuration (src/io/felt/FeltCDMReader2.cc:245-273), the options of a file and the fields in use (src/io/felt/Felt_File2.cc:102-180). The regular expressions are those of TmplModel. Left out: setup files of diana (FeltParameters::init), the words to the log, getProjString (nothing calls it).
* `XycModel.v`: The program fiXYcontents: src/binSrc/fiXYcontents.cc. What is printed is a list of blocks, one for each variable with slices: its first line and one line per slice. Left out: the options of the command line that fimex has too (input.*, log4cpp, num_threads), texts (formats of printf), rounding: values of the statistics are rational numbers, a value that is not defined is [None].
* `LgrModel.v`: Loggers: src/Logger.cc, include/fimex/Logger.h:43-190, src/Log4cppLogger.cc. Objects have addresses, numbers that are given once; what is deleted is [None], and its use is [UB]. One thread; the mutex is a simple lock, which hangs when the thread that has it asks for it again (include/fimex/MutexLock.h:40-110). Memory suffices. The second mutex, of log4cpp, is held by leaf functions only and is left out, as are layouts and appenders.
* `VselModel.v`: The choice of vertical converters, and columns of levels (VerticalTransformation, ToVLevelConverterAdapter, CoordSysUtils).
* `PieceModel.v`: Reading of files and documents in pieces: FileChunkReader.cc, HttpChunkReader.cc, ChunkReaderXmlInputCtx.cc and the readers which DefaultChunkReaderFactory.cc keeps. Left out: the mutexes, the texts of log messages, directories, which fopen opens, too, the buffer of stdio, which may keep bytes of a file that has changed, and a context without a reader.
* `TctModel.v`: The metadata of a file interpolated to the points of a template: addLonLatWithData and changeCDMToLatLonTemplate, src/CDMInterpolator.cc:1421-1569, with the operations of InterpModel. Logging is left out; the template has data.
* `VrotModel.v`: Rotation of vectors and directions by the processor: rotateAllVectorsToLatLon, rotateVectorToLatLon, rotateDirectionToLatLon and the rotation in getDataSlice, src/CDMProcessor.cc:404-510, 652-711. The reader is given by its records as data2InterpolationArray gives them (missing values are [None]); the systems found by findBestHorizontalCoordinateSystems by the horizontal id of each variable on one (C94); the matrices by what they do to records (C42). Accumulation is in AccumModel.v; logging is left out; floats are real numbers.

## Per property: what is proved and how

### C01 Box slice of an array returns exactly the requested cells

Code: src/DataImpl.h: DataImpl::slice; include/fimex/RecursiveSliceCopy.h: recursiveCopyMultiDimData; include/fimex/Data.h: Data::slice. Files: `SliceModel`, `SliceProofs`, `SliceProps`. Status: proved.

Any rank and shape; rejection proved for sums below 2^64; the wrapped request that is accepted is shown as a finding.

* `C01_slice_returns_box`: C01: a box slice returns exactly the requested cells
* `C01_slice_rejects_out_of_range`
* `C01_slice_rejects_wrong_shape`
* `C01_wrapped_request_accepted_refuted`: Finding: without the no-wrap guard rejection fails. A 4x2 array is asked for columns starting at 2^64-4 of row 1; the request is accepted and row 0 is returned. With a one-dimensional array the same request reads outside of the array.

### C02 A slice request is always inside the variable it was built for

Code: src/SliceBuilder.cc: SliceBuilder::setStartAndSize, setAll, getUnsetDimensionNames; include/fimex/SliceBuilder.h: SliceBuilder. Files: `SliceModel`, `SliceProofs`, `SliceProps`. Status: proved.

Full refinement of any call history to the last acceptable request; guard: start+size does not wrap, necessity shown by the refuted theorem.

* `C02_request_is_last_acceptable`: Complete description of the visible state after any history: the request reported for a dimension is the last acceptable one, the full extent if there is none.
* `C02_request_in_range`
* `C02_unknown_dimension_throws`
* `C02_dimension_names_stable`: The dimension names come back in variable order, whatever was called.
* `C02_request_in_range_refuted`: Finding: a request whose end wraps past 2^64 is accepted.

### C03 Unset-dimension bookkeeping of a slice builder

Code: src/SliceBuilder.cc: SliceBuilder::getUnsetDimensionNames, setStartAndSize, getDimPos. Files: `SliceModel`, `SliceProofs`, `SliceProps`. Status: proved.

Any history; distinct dimension names.

* `C03_unset_dimensions`: C03: bookkeeping of unset dimensions
* `C03_different_dimensions_commute`: Requests on different dimensions commute (as far as any later observation can tell).

### C04 Reading a variable in pieces equals reading it whole

Code: src/CDMReader.cc: CDMReader::getDataSlice(const std::string&, const SliceBuilder&), CDMReader::getData; src/CDMReader.cc: getDataSliceFromMemory. Files: `ReaderModel`, `ReaderProofs`, `ReaderProps`. Status: proved.

Unlimited dimension outermost (as the code requires), any other shape; missing and wrong-length records covered; getData disagreement and the unset record past the end shown as findings.

* `C04_slice_of_records`: [records u] is what the concrete reader returns for record [u]. The complete variable ([whole]) is the concatenation of the records, a missing record standing for fill values. Every in-range slice request returns exactly that box of the complete variable.
* `C04_wrong_record_length_throws`
* `C04_get_data_is_all_records`: Reading the whole variable is reading the records one after the other.
* `C04_full_request_is_get_data`: The request for everything agrees with getData when no record is missing.
* `C04_full_request_is_get_data_refuted`: Finding: with a missing record the two disagree (0 instead of the fill value 99).
* `C04_get_data_wrong_length_accepted_refuted`: Finding: getData does not notice records of the wrong length.
* `C04_slice_from_memory`: Data held in memory: record [i] is block [i].
* `C04_slice_from_memory_past_end_refuted`: Finding: the record just behind the last one is not rejected; its cells are never set.

### C05 Writing a block into an array touches only that block

Code: src/DataImpl.h: DataImpl::setValues, copyData; src/Data.cc: Data::setValues. Files: `SliceModel`, `SliceProofs`, `SliceProps`. Status: proved.

Exact guard startPos <= size; beyond it every non-empty write is shown to leave the array.

* `C05_block_write`: C05: writing a block touches only that block
* `C05_range_write`
* `C05_range_write_rejects`
* `C05_block_write_rejects_bad_source`
* `C05_block_write_inside_refuted`: Finding: a start position beyond the end writes outside the array.
* `C05_start_beyond_end_is_ub`: The write is outside for every start position beyond the end (and a non-empty source).

### C06 Selecting arbitrary indices of a dimension keeps row order

Code: src/CDMExtractor.cc: CDMExtractor::getDataSlice, getDataSlice_; src/CDMExtractor.cc: CDMExtractor::reduceDimension. Files: `ExtractModel`, `ExtractProofs`, `ExtractProps`. Status: proved.

Any rank and selections; order proved under the exact condition the code needs (no split dimension faster than an unreduced dimension of requested size > 1), multiset of cells proved without it; scrambling and the empty request are findings.

* `C06_selected_cells_in_order`: [xs]: per dimension of the variable (fastest first) its original length, the selected positions (None: not reduced) and the requested (start,size) within the reduced dimension. [wanted_of x] are the original positions asked for; [tuples] enumerates the index tuples with the first dimension running fastest.
* `C06_contiguous_selections`: Two simple sufficient conditions: every selection is one contiguous range, ...
* `C06_only_slower_dimensions_split`: ... or every dimension slower than the first split one is reduced, too.
* `C06_selected_cells_up_to_order`: Whatever the selections, exactly the selected cells come back, as often as selected; only the order may differ.
* `C06_order_refuted`: Finding: x = {0,2} of 3 and y unreduced with 2 rows: the order is wrong.
* `C06_empty_request_refuted`: Finding: an empty request along a reduced dimension returns one element.

### C07 Dimension reduction never leaves the original dimension

Code: src/CDMExtractor.cc: CDMExtractor::reduceDimension, reduceDimensionStartEnd. Files: `ExtractModel`, `ExtractProofs`, `ExtractProps`. Status: proved.

Acceptance and rejection for all lengths and positions except the off-by-one and wrap cases, which are proved as findings.

* `C07_index_set`
* `C07_position_beyond_length_throws`
* `C07_unknown_dimension_throws`
* `C07_position_equal_length_accepted_refuted`: Finding: the position equal to the length (one past the end) is accepted.
* `C07_reading_position_equal_length_throws`: ... but reading it fails later.
* `C07_start_and_length`
* `C07_start_and_length_rejects`: Requests ending more than one past the end are refused (one past the end: see above).
* `C07_start_end`: start..end (inclusive) for a positive end; end <= 0 counts from the end of the dimension
* `C07_start_behind_end_wraps_refuted`: Finding: a start behind the end is not refused; the length wraps.
* `C07_start_just_behind_end_empties_refuted`: Finding: a start just behind the end empties the dimension silently.

### C08 Repeated reduction of the same dimension

Code: src/CDMExtractor.cc: CDMExtractor::reduceDimension. Files: `ExtractModel`, `ExtractProofs`, `ExtractProps`. Status: proved.

Any history of reductions; the two mismatches with the reduced length are findings.

* `C08_second_reduction_replaces_first`: The second selection replaces the first one: state as if only the second had been made.
* `C08_length_matches_selection`: The reported length always matches the number of selected positions, for any history of reductions.
* `C08_valid_original_position_refused_refuted`: Finding: positions refer to the original dimension, but are checked against the reduced length: position 5 of 10 is refused after the dimension was reduced to {4,5,6}.
* `C08_not_composition_refuted`: Finding: they are not relative to the reduced dimension either: {4,5,6} then {0} gives original position 0, not 4.
* `C08_prefix_then_any`: The two readings coincide exactly when the first selection fixes the chosen positions; in particular after a reduction to a prefix.

### C09 Nearest-neighbour regridding is independent of domain reduction

Code: src/CachedInterpolation.cc: CachedNNInterpolation::CachedNNInterpolation, interpolateValues, createReducedDomain; src/interpolation.c: mifi_get_values_f. Files: `RegridModel`, `RegridProofs`, `RegridProps`. Status: proved.

Any grid below 2^32 cells, any positions whose rounding fits an int, any levels; includes domain reduction and mifi_get_values_f. Far, undefined positions and the 2^32 marker are findings. CachedInterpolation::createReducedDomain (bilinear/bicubic) is covered under C12.

* `C09_nearest_cell_value`: [data] is the whole nx*ny*nz input field, [field] the part of it the interpolator asks for (offset and size as stored in the interpolator, all levels). Every output cell of every level is the value of the nearest input cell, or undefined when that cell does not exist; [Ok] means that no read leaves [field]. Domain reduction is inside [nn_construct].
* `C09_request_inside_input`: The part asked for lies inside the input grid.
* `C09_rounding_is_nearest`: "Nearest": no integer is nearer to the position than the cell index, and halves go away from zero.
* `C09_single_point_agrees`: The uncached variant agrees.
* `C09_far_position_refuted`: Findings. A position far outside the grid is narrowed to int first and lands on a cell; an undefined position takes whatever lround returns (2^63 as on x86-64: cell 0); the marker for "no cell" is a valid cell number of a grid of 2^32 cells.
* `C09_nan_position_refuted`
* `C09_marker_is_a_cell_refuted`

### C10 Forward regridding treats levels separately

Code: src/CachedForwardInterpolation.cc: CachedForwardInterpolation::interpolateValues, AggSum, AggMean, AggMin, AggMax, AggMedian. Files: `RegridModel`, `RegridProofs`, `RegridProps`. Status: proved.

Any sizes, positions, aggregate and levels; output is the aggregate of level 0 for every level (finding for level >= 1).

* `C10_every_level_is_level_zero`: Output of any number of levels: the same layer repeated, whose cell (ox,oy) is the aggregate of the values *of level 0* of all input cells whose nearest output cell is (ox,oy).
* `C10_single_level`: Hence for one level the output is the aggregate of the input.
* `C10_contributions`: Every input cell contributes to exactly the output cell nearest to its position.
* `C10_second_level_refuted`: Finding: the second level's values are never read.
* `C10_levels_ignored_refuted`

### C11 Aggregates do not depend on the order of input cells

Code: src/CachedForwardInterpolation.cc: AggMin, AggMax, AggMean, AggSum, AggMedian, undef handling. Files: `RegridModel`, `RegridProofs`, `RegridProps`. Status: proved.

Exact arithmetic (rounding of float sums not modelled); undef min/max/median with undefined input are findings.

* `C11_aggregate_is_its_name`: What each aggregate is: undefined when no value is left (the normal variants skip undefined values, the undef variants keep them); the sum, arithmetic mean, minimum, maximum and (upper) median of the values otherwise; undefined for sum and mean when an undefined value is kept.
* `C11_order_independent`: The result does not depend on the order of the values.
* `C11_no_memory_between_cells`: The aggregator object, shared by all cells, is as new after each cell.
* `C11_undef_minmax_first_refuted`: Findings. In the undef min and max a first undefined value makes the result undefined, a later one is ignored, whatever the other values are.
* `C11_undef_minmax_later_refuted`
* `C11_undef_order_dependent_refuted`
* `C11_undef_median_refuted`: Finding: an undefined value in the undef median breaks the precondition of nth_element.

### C12 Bilinear interpolation stays in the field and between the corner values

Code: src/interpolation.c: mifi_get_values_bilinear_f. Files: `BilinModel`, `BilinProofs`, `BilinProps`. Status: proved.

Any field, sizes, levels and finite positions whose integer part fits an int; exact arithmetic (float rounding not modelled); int overflow of the cell number not modelled. The corner strip read and the zero-weight NaN are findings.

* `C12_no_read_outside`: Positions are inside when the nearest cell exists. Every finite position whose integer part fits an int is covered, apart from the corner strip of [C12_corner_strip_refuted]: no read outside the field, one value per level, undefined outside.
* `C12_between_surrounding_cells`: Between the extrema of the cells around the position.
* `C12_grid_points`: Exact at grid points as soon as the cells to the right and above are defined.
* `C12_affine_exact`: Affine fields are reproduced exactly.
* `C12_undefined_outside`: Undefined outside.
* `C12_corner_strip_refuted`: Finding: in the half-cell strip above the last row, when the column is in a border too, the row test admits row ny and the last level is read outside the field.
* `C12_undefined_neighbour_refuted`: Finding: a cell of weight zero still makes the result undefined: (0,0) is exactly on a defined cell.

### C13 Axis position lookup inverts axis evaluation

Code: src/interpolation.c: bsearchDoubleIndex, mifi_points2position. Files: `SearchModel`, `SearchProofs`, `SearchProps`. Status: proved.

Any strictly monotonic axis with at least two values, exact rationals (rounding of doubles not modelled); regular global and regional longitude axes end to end, circular wrap and longitude normalisation in general; the one-element axis and the empty search are findings.

* `C13_binary_search`: Binary search: the index of a value that is present, otherwise -1-(number of elements before the key); no read outside the axis.
* `C13_positions`: Lookup of a list of points on a non-longitude axis of at least two values: every finite point gets its position, a non-finite one -999.
* `C13_axis_values_have_integer_positions`: The i-th axis value has position i, ...
* `C13_positions_strictly_monotone`: ... positions are strictly monotone in the coordinate, hence different coordinates have different positions, ...
* `C13_position_inverts_evaluation`: ... and evaluating the axis at the position returns the coordinate (also outside).
* `C13_circular_longitude`: Circular longitude axes: the position differs from the plain one by 0 or one turn and lies in (-1/2, num-1/2] whenever the plain position is less than one turn outside.
* `C13_longitude_normalisation`
* `C13_global_regular_axis`: A regular longitude axis around the globe (values a0, a0+s, ..., n values with n*s = 360): every longitude gets a position between -1/2 and n-1/2 whose place on the axis is that longitude, up to whole turns.
* `C13_regional_axis`: A longitude axis with a gap clearly larger than its step is not taken as closed: positions are those of the plain axis.
* `C13_one_element_axis_refuted`: Findings: a one-element axis is read outside for every other coordinate; every longitude axis with one element is read outside; on an empty array the search reports index 0 as found.
* `C13_one_element_longitude_refuted`
* `C13_empty_search_refuted`

### C14 Calendar times compare chronologically

Code: include/fimex/FimexTime.h: FimexTime::operator<, operator==; src/FimexTime.cc: FimexTime::toEncoded, fromEncoded. Files: `TimeModel`, `TimeProofs`, `TimeProps`. Status: proved.

All six operators, all field values in the bit ranges; year 4096 and later is a finding.

* `C14_less_is_before`: C14: the operators agree with the chronological order
* `C14_equality`
* `C14_trichotomy`: exactly one of <, ==, > holds; <= and >= are their combinations
* `C14_less_equal`
* `C14_total_order`
* `C14_bounds`: the special times bound every time the class can hold
* `C14_late_year_refuted`: a late year is cut off, so a time in year 4096 compares as earlier than one in year 2000, and as neither earlier nor later than one in year 0 although they differ

### C15 Time packing loses nothing

Code: src/FimexTime.cc: FimexTime::toEncoded, fromEncoded. Files: `TimeModel`, `TimeProofs`, `TimeProps`. Status: proved.

Both directions; minute >= 128 and year >= 4096 are findings.

* `C15_unpack_pack`: C15
* `C15_pack_injective`
* `C15_pack_unpack`: an encoding is a 64-bit number; the minute is in bits 24..31
* `C15_unpack_range`: unpacking an encoding always gives field values in their bit widths
* `C15_unpack_injective`: two different encodings never unpack to the same time
* `C15_large_minute_refuted`: [minute << 24] is an int: a minute of 128 or more sets all higher bits, so the encoding 0x80000000 (year 0, minute 128) does not survive, and two different times pack alike
* `C15_late_year_refuted`: years from 4096 on lose their high bits

### C16 Bracketing neighbours in a coordinate list

Code: include/fimex/FindNeighborElements.h: find_closest_distinct_elements, find_closest_neighbor_distinct_elements. Files: `SearchModel`, `SearchProofs`, `SearchProps`. Status: proved.

Any list of exact values; the two cases in which the same index is returned twice are proved as findings.

* `C16_brackets_inside`: Inside the range (and the first element not equal to x): the largest value <= x and the smallest value > x.
* `C16_closest_two`: Outside: the closest elements. When the first element is not the closest one, the result is the closest value and the closest among the values different from it.
* `C16_outside_uses_closest_two`
* `C16_indices_in_range`: In every case the indices are in range and the first one is a closest element.
* `C16_first_match_refuted`: Findings: an exact match with the first element, and an extrapolation next to the first element, return the same index twice.
* `C16_first_closest_refuted`
* `C16_increasing_extrapolation_refuted`

### C17 Pairwise minimum/maximum search

Code: include/fimex/min_max.h / src/min_max.h: min_max_element. Files: `SearchModel`, `SearchProofs`, `SearchProps`. Status: proved.

Any strict weak order and any range; which of several equal smallest elements is returned is shown as a finding.

* `C17_positions_of_extrema`: C17: pairwise minimum/maximum search
* `C17_first_largest`: The largest element returned is the first of the largest ones.
* `C17_empty_range`
* `C17_first_smallest_refuted`: The smallest element returned is not always the first one (std::minmax_element would return position 1 here).

### C18 Tokenising and joining strings

Code: src/StringUtils.cc: tokenize, split_any; include/fimex/StringUtils.h: join. Files: `StringModel`, `StringProofs`, `StringProps`. Status: proved.

All strings and delimiter sets; tokenize and split_any are characterised by inductive relations that have exactly one solution.

* `C18_tokenize_maximal_runs`: C18. [runs d s ts] and [fields d s fs] (StringProofs.v) describe the maximal runs of non-delimiters of s and the pieces between single delimiters, as inductive relations.
* `C18_tokenize_total`
* `C18_split_fields`
* `C18_split_count`: one field more than delimiters; empty fields are kept
* `C18_join_split`
* `C18_split_join`
* `C18_tokenize_join`
* `C18_tokenize_is_split_nonempty`: tokenize is split_any without the empty fields

### C19 Trimming, prefix, suffix and replacement

Code: src/StringUtils.cc: trim, starts_with, ends_with, replace_all_copy. Files: `StringModel`, `StringProofs`, `StringProps`. Status: proved.

All strings (suffix test: both shorter than 2^31; longer is a finding).

* `C19_trim`: C19. [trimmed ws s r] (StringProofs.v): s = a ++ r ++ b, a and b consist of characters of ws, and r neither starts nor ends with one.
* `C19_trim_total_idempotent`
* `C19_starts_with`
* `C19_ends_with`
* `C19_ends_with_huge_refuted`: the offset is computed from sizes converted to int: with more than 2^31 characters the call throws although the text does end that way
* `C19_replace_all`

### C20 Dotted value lists expand to arithmetic progressions

Code: include/fimex/TokenizeDotted.h: tokenizeDotted. Files: `StringModel`, `StringProofs`, `StringProps`. Status: proved.

Exact arithmetic; integer overflow is not modelled. Trailing dots, equal values and a wrong direction are findings.

* `C20_plain_list`: without dots the values come back one by one
* `C20_dots_expand`: Dots between a, b and z. Any list of values [vs] may come before and any tokens after. The dots are replaced by b + d, ..., b + k*d with d = b - a: all values of the progression that are clearly before z, and z follows.
* `C20_dots_need_two_values`: dots need two values before them, and a number after them
* `C20_bad_token_throws`
* `C20_trailing_dots_refuted`: a list ending in dots: the iterator is incremented past the end
* `C20_equal_values_refuted`: equal values before the dots and a smaller one after them: the loop never ends
* `C20_wrong_direction_refuted`: a value after the dots on the wrong side is appended without expansion

### C21 String table lookups are stable

Code: src/StringUtils.h/.cc: StringListBuilder::add. Files: `StringModel`, `StringProofs`, `StringProps`. Status: proved.

All histories of additions to any builder; empty initial list with reserved index 0 and duplicates in the initial list are findings.

* `C21_index_refers_to_name`: the index handed out for a name refers to that name, then and after any later additions
* `C21_same_name_same_index`: adding the same name again, whatever happened in between, returns the same index and changes nothing; a different name gets a different index
* `C21_list_only_grows`: names already in the list never move
* `C21_initial_names_found`: every name of the initial list is found there (at its last position
* `C21_no_duplicates`: no duplicates appear: starting from an empty builder or a duplicate-free list, every name is held once
* `C21_index_0_reserved`: with the "no index 0" option the index 0 is never handed out, for a new builder and for one made from a non-empty list
* `C21_index_0_refuted`: made from an empty list the reserved index is handed out
* `C21_initial_duplicates_refuted`: a name twice in the initial list stays there twice, and only its last position is used

### C22 XML escaping is lossless and safe

Code: src/XMLUtils.cc: escapeXmlToStream, escapeXmlString. Files: `StringModel`, `StringProofs`, `StringProps`. Status: proved.

All strings; the reader is an inductive relation shown to be single-valued.

* `C22_escape_decodes`: escaped text is read back as the original
* `C22_decoding_unique`: and only as the original
* `C22_escape_injective`
* `C22_no_raw_markup`: no raw <, >, quote or apostrophe is left; & occurs only as the start of an entity
* `C22_plain_unchanged`: text without markup characters is not changed; writing to a stream appends the escaped text
* `C22_stream_appends`

### C23 Data-type names round-trip

Code: src/CDMDataType.cc: string2datatype, datatype2string; src/NcmlUtils.cc: datatype_cdm2ncml, datatype_ncml2cdm; src/NcmlCDMWriter.cc; src/NcmlCDMReader.cc. Files: `ConvertModel`, `ConvertProofs`, `ConvertProps`. Status: proved.

All types and all ASCII strings; unsigned NcML attributes and NcML char are findings.

* `C23_name_round_trip`: C23
* `C23_names_differ`
* `C23_accepted_names`
* `C23_ncml_round_trip`: NcML: name and unsigned flag round-trip for every type
* `C23_ncml_name_round_trip`
* `C23_ncml_unknown`: what reading by name does not know is 'not a type'
* `C23_netcdf_round_trip`: netCDF
* `C23_ncml_char_refuted`: the NcML type char is known by name but has no type
* `C23_ncml_attribute_unsigned_refuted`: attributes are written with the name only: the types that differ in the unsigned flag come back as the signed ones

### C24 Scaling and unscaling are inverse, missing stays missing

Code: include/fimex/DataUtils.h: ScaleValue, ChangeMissingValue; src/CDMReader.cc: scaleDataOf; src/CDMReaderWriter.cc: unscaleDataOf; src/Data.cc: convertDataType. Files: `ConvertModel`, `ConvertProofs`, `ConvertProps`. Status: proved.

Exact rationals; integer packings of up to 32 bits and floating-point packings; 64-bit packings, integer data to be packed and 64-bit default fill values are findings.

* `C24_scaled_data`: reading: missing where the packed value is the fill value, otherwise scale * packed + offset, then converted to the wanted unit
* `C24_unscaled_data`
* `C24_round_trip`: unpacking and packing again, with a unit conversion and its inverse in between, returns the packed numbers
* `C24_quantisation`: packing and unpacking a valid value changes it by at most half a step, unless it is packed into the fill value
* `C24_float_round_trip`: floating-point variables: packing is exact except that a value equal to the fill value becomes missing
* `C24_units_compose`: one combined conversion equals scaling followed by the unit conversion
* `C24_linear_units_agree`: ... and the general converter used on linear units gives the same data as the fast path
* `C24_linear_units_agree_write`: the same for writing
* `C24_units_round_trip`: any conversion and its inverse, linear or not
* `C24_valid_value_lost_refuted`: a valid value that is packed into the fill value is lost
* `C24_int64_refuted`: 64-bit variables do not survive: 2^31 comes back as -2^31
* `C24_unscale_integers_refuted`: writing integer data: the undefined value is converted to the integer type
* `C24_default_fill`: default fill values: kept by the conversion to double for all types but the 64-bit ones, for which no data equals the fill value, or the conversion is undefined
* `C24_default_fill_64_refuted`

### C25 Conversion to integer types rounds to the nearest representable value

Code: include/fimex/MathUtils.h / src/MathUtils.cc: round; src/DataUtils.h: data_caster; src/MathUtils.cc: RoundAndClamp. Files: `ConvertModel`, `ConvertProofs`, `ConvertProps`. Status: proved.

Exact rationals; 64-bit targets beyond 2^31 and far positions are findings.

* `C25_nearest_unique`: the nearest integer is unique
* `C25_rounds_to_nearest`: types of up to 32 bits: the nearest integer, if the type can hold it
* `C25_rounds_to_nearest_64`: 64-bit types: only while the nearest integer fits an int
* `C25_64_bit_refuted`: beyond that the result is never the nearest integer
* `C25_out_of_range_wraps`: what does not fit wraps around, for every type of up to 32 bits
* `C25_integers_kept`: between integer types: unchanged if the target can hold the value
* `C25_to_floating`: to floating point: unchanged (exact arithmetic
* `C25_round_and_clamp`: index from a position: the nearest integer if it is in the interval, otherwise the substitute
* `C25_round_and_clamp_far_refuted`: a position far outside is taken for a valid index: 4294967301 for 5

### C26 Metadata model stays consistent under any editing history

Code: src/CDM.cc: CDM::addVariable, removeVariable, renameVariable, addDimension, renameDimension, removeDimension, addAttribute. Files: `CdmModel`, `CdmProofs`, `CdmProps`. Status: proved.

All histories of the nine public editing functions; changes through references returned by getVariable etc. are not operations of the model.

* `C26_consistent`: every history
* `C26_exception_changes_nothing`: an exception leaves the content unchanged, except when a dimension is renamed to its own name
* `C26_add_variable`: adding: refused exactly if the name exists, otherwise found by its name, all else as before
* `C26_remove_variable`: removing: the variable and its attributes are gone, all else as before
* `C26_add_attribute`: attributes: refused exactly without owner or if the name exists; otherwise last in the list
* `C26_replace_attribute`: replacing: never two of the name
* `C26_remove_attribute`
* `C26_remove_dimension`: a dimension in use is only removed on request
* `C26_rename_removes_refuted`: renaming a variable to its own name, or a missing one onto another, removes a variable although the result says that nothing was done
* `C26_rename_dimension_self_refuted`: renaming an unused dimension to its own name removes it and throws
* `C26_remove_global_refuted`: a variable name equal to the name of the global namespace: its removal takes the global attributes away

### C27 Renaming keeps data reachable

Code: src/CDM.cc: CDM::renameVariable, renameDimension. Files: `CdmModel`, `CdmProofs`, `CdmProps`. Status: proved.

All contents and names; an existing variable of the new name is replaced.

* `C27_rename_variable`: renaming a variable (an existing variable of the new name is replaced
* `C27_rename_variable_order`: the order of the variables is kept
* `C27_rename_back`: back and forth
* `C27_rename_dimension`: dimensions
* `C27_rename_dimension_lengths`: the lengths of all variables not using the new name before are kept
* `C27_counterpart_refuted`: references by name are not followed: the other component of a vector keeps the old name

### C28 Aggregating files along an existing dimension

Code: src/AggregationReader.cc: AggregationReader::getDataSlice, findJoinReader, readerUdimPos_. Files: `AggModel`, `AggProofs`, `AggProps`. Status: proved.

AggModel.v/AggProofs.v/AggProps.v: addFirstReader, addOtherReader, findJoinReader, checkJoin*Dims and both getDataSlice; end-to-end theorems C28_record, C28_fill, C28_parts, C28_coordinates, C28_new_record, C28_union; refutations C28_new_fill_refuted, C28_new_dimension_refuted, C28_coordinates_refuted

* `C28_positions`: a join along an existing dimension: the file that holds a record, for files that have the dimension
* `C28_unique_record`: every record index below the sum of lengths belongs to exactly one record of one file
* `C28_record`: record [l] of file [i] is record (sum of the earlier lengths) + [l]
* `C28_outside`: outside of all files there is no data
* `C28_fill`: a record of a file in which the variable is missing or has another shape is filled; the size is that of one record
* `C28_parts`: a request for a part, with the unlimited dimension last (= slowest
* `C28_coordinates`: with coordinate values for every file the aggregate has one value per record, in the order of the files
* `C28_new_positions`
* `C28_new_record`: record [i] along the new dimension is all of the variable of file [i]
* `C28_new_outside`
* `C28_union`: every variable comes from the first file that has it, with that file's data
* `C28_new_fill_refuted`: a join along a new dimension: a record of a file without the variable is larger than the record by the number of files
* `C28_new_dimension_refuted`: a joined variable first met in a later file: its dimensions are missing in the aggregate
* `C28_coordinates_refuted`: coordinate values for some of the files only: fewer coordinate values than records
* `C28_join_other_length`

### C29 Accumulation is independent of the access order

Code: src/CDMProcessor.cc: CDMProcessor::getDataSlice, accumulate, deAccumulate, sliceCache. Files: `AccumModel`, `AccumProps`. Status: proved.

AccumModel.v/AccumProps.v: heap of arrays with sharing, exact real arithmetic with NaN; C29_reads, C29_history, C29_inverse for every history; refutations both, shared, missing, overwritten, offset

* `C29_reads`: each request of each history gets the expected values, and earlier results are not changed later [functional_extensionality_dep, sig_forall_dec]
* `C29_history` [functional_extensionality_dep, sig_forall_dec]
* `C29_total`: the sum of defined values, and its inverse [functional_extensionality_dep, sig_forall_dec]
* `C29_undefined`: an undefined value in a record after the first makes all later sums undefined [sig_forall_dec]
* `C29_inverse` [functional_extensionality_dep, sig_forall_dec]
* `C29_both_refuted`: a variable in both lists: the second identical request differs from the first [functional_extensionality_dep, sig_forall_dec]
* `C29_shared_refuted`: writing into a result changes later results: the cache is the array that was handed out [functional_extensionality_dep, sig_forall_dec]
* `C29_missing_refuted`: with a missing (empty) record the result depends on the history: undefined values of record 0 are only replaced if the requested record is there [sig_forall_dec]
* `C29_overwritten_refuted`: and an earlier result is overwritten by a later request [functional_extensionality_dep, sig_forall_dec]
* `C29_offset_refuted`: the sum is made of packed values: with an offset it is not the sum of the scaled values [functional_extensionality_dep, sig_forall_dec]

### C30 Quality masking replaces exactly the rejected cells

Code: src/CDMQualityExtractor.cc: CDMQualityExtractor::getDataSlice, findCorrespondingVariables, findDefinedExtreme, getValidValues. Files: `MaskModel`, `MaskProps`. Status: proved.

MaskModel.v/MaskProps.v: exact rational status values with NaN; C30_mask, C30_position, C30_status; refutations for highest/lowest, autoconf, empty status and cyclic configuration

* `C30_mask`: a cell is replaced iff its status is rejected; a smaller status field is repeated
* `C30_position`: the position: the status field has the first dimensions of the data
* `C30_lengths`
* `C30_lengths_accepted`
* `C30_other_size`: a status of a size that does not divide: the data are returned unmasked
* `C30_empty`: no data and no status: a slice of fill values
* `C30_no_status_refuted`: finding: data without status data divides by zero and converts infinity to int
* `C30_unknown_flag`: unknown flags are refused
* `C30_extreme_hangs`: finding: a status with an undefined value (after valid range and fill value) never ends
* `C30_extreme_masks_nothing`: ... and without one nothing is masked
* `C30_highest_refuted`
* `C30_autoconf_refuted`: finding: automatic configuration selects no variable, whatever the file contains
* `C30_unconfigured`: a variable without a rule is returned as read
* `C30_status`: the status of the same file is taken after its own rule, of another file as read, and of the variable itself
* `C30_cycle_refuted`: finding: two variables that are the status of each other

### C31 GRIB messages are placed at their slice position

Code: src/io/grib/GribCDMReader.cc: GribCDMReader::getDataSlice. Files: `GribModel`, `GribProps`. Status: proved.

GribModel.v/GribProps.v: any cell type, all shapes and requests; C31_slice_places_messages, C31_bad_shape; refutations C31_partial_request, C31_misplaced

* `C31_slice_places_messages`: If every dimension before the last one with more than one element is requested completely (ensemble, level, time in this order), each message is at its place, other cells are missing.
* `C31_partial_request_refuted`: Any other request writes behind the end of the result if its last message exists.
* `C31_misplaced_refuted`: A variable with two levels and three times, read at the upper level for all times, the last message absent: the field of the second time is returned as that of the third.
* `C31_bad_shape`: A shape with too many dimensions is refused.

### C32 Forecast step units convert losslessly

Code: src/io/grib/GribUtils.cc: gribStepUnits2seconds, gribSeconds2stepUnits, gribStepUnitsFromText, gribStepUnitsToText. Files: `GribModel`, `GribProps`. Status: proved.

GribModel.v/GribProps.v: C32_table, C32_largest_unit, C32_texts_and_codes_are_inverse, C32_other_text, C32_other_code

* `C32_table`
* `C32_other_text`
* `C32_other_code`
* `C32_texts_and_codes_are_inverse`
* `C32_largest_unit`
* `C32_zero`

### C33 Overlay shows the top where it is defined

Code: src/CDMOverlay.cc: CDMOverlay::getDataSlice. Files: `BlendModel`, `BlendProps`. Status: proved.

BlendModel.v/BlendProps.v: any value type; C33_overlay, C33_scaled, C33_short_top; refutation C33_fill_of_base_refuted

* `C33_overlay`: each cell shows the top value if it is defined, else the base value; missing in both is missing. The second hypothesis leaves out top values that equal the fill value of the base.
* `C33_fill_of_base`: a top value that equals the fill value of the base is shown as missing
* `C33_short_top`: a top slice that is smaller than the base slice is read past its end
* `C33_scaled`: with scaled values (nan is the only missing value
* `C33_fill_of_base_refuted`: the finding: top 7 is defined (fill value -1), the base has fill value 7

### C34 Border smoothing blends between inner and outer

Code: src/CDMBorderSmoothing.cc: CDMBorderSmoothing::getDataSlice; src/CDMBorderSmoothing_Linear.cc: CDMBorderSmoothing_Linear::operator(). Files: `BlendModel`, `BlendProps`. Status: proved.

BlendModel.v/BlendProps.v: exact real arithmetic, size_t arithmetic modulo 2^64; C34_weight, C34_inner, C34_between, C34_left, C34_right, C34_slice; refutations C34_symmetry, corner, negative, no_horizontal, empty

* `C34_weight` [functional_extensionality_dep, sig_forall_dec, sig_not_dec]
* `C34_inner`: inside the transition zones the value is the inner one; everywhere it is between both [functional_extensionality_dep, sig_forall_dec, sig_not_dec]
* `C34_between` [functional_extensionality_dep, sig_forall_dec, sig_not_dec]
* `C34_left`: outside of the corners the weight is linear in the distance; the zones differ: tw/tw .. 1/tw from the left, 0 .. (tw-1)/tw to the right [functional_extensionality_dep, sig_forall_dec, sig_not_dec]
* `C34_right` [functional_extensionality_dep, sig_forall_dec, sig_not_dec]
* `C34_symmetry_refuted`: finding: mirrored positions get different values [functional_extensionality_dep, sig_forall_dec, sig_not_dec]
* `C34_corner_refuted`: finding: in the corner the weight is larger than at the same distance from the nearest edge [functional_extensionality_dep, sig_forall_dec, sig_not_dec]
* `C34_negative_refuted`: finding: negative parameters pass the check (they are converted to unsigned first); with a transition width of -5 every cell is the outer one [functional_extensionality_dep, sig_forall_dec, sig_not_dec]
* `C34_slice`: every cell of the slice is the merged value of the two fields at its position [functional_extensionality_dep, sig_forall_dec, sig_not_dec]
* `C34_no_horizontal_refuted`: finding: a variable with dimensions but without x or y reads dimSizes[-1] [functional_extensionality_dep, sig_forall_dec, sig_not_dec]
* `C34_empty_refuted`: finding: only the first dimension is checked to be not empty
* `C34_scalar`: a scalar is the inner value
* `C34_factory`: the creation accepts every width except 0 (modulo the conversion

### C35 Multi-array loops visit every element exactly once

Code: src/ArrayLoop.h/.cc: ArrayDims, ArrayGroup, Loop::next. Files: `LoopModel`, `LoopProofs`, `LoopProps`. Status: proved.

LoopModel.v/LoopProofs.v/LoopProps.v: ArrayDims, ArrayGroup::add, Loop::next; C35_loop, C35_tuples, C35_accepted for every list of arrays; refutations C35_set_length_refuted, C35_zero_length_refuted

* `C35_make_dims`: a shape built from names and non-zero lengths is well-formed: the stride of every dimension is the product of the lengths before it
* `C35_add_dim`: adding dimensions one by one
* `C35_set_length_last`: the last dimension may be changed afterwards
* `C35_set_not_shared`
* `C35_loop`
* `C35_tuples`: every tuple of the group is visited exactly once, in storage order: turn [k], element [j] is tuple number k * sharedVolume + j
* `C35_accepted`
* `C35_set_length_refuted`: changing the length of a dimension that is not the last leaves the strides as they were: two different tuples get the same position
* `C35_zero_length_refuted`: a last dimension of length 0 is accepted by the constructor, and the loop does not end before the position counter wraps
* `C35_volume`: the volume of a shape is its number of cells; a scalar has one

### C36 Time interpolation brackets each requested time

Code: src/CDMTimeInterpolator.cc: CDMTimeInterpolator::changeTimeAxis, getDataSlice. Files: `TimeIntModel`, `TimeIntProps`. Status: proved.

TimeIntModel.v/TimeIntProps.v: all sorted axes and new times, reals or NaN for values; C36_mapping, C36_single, C36_exact_at_old_times, C36_between; refutations C36_unordered_refuted, C36_read_before_change_refuted

* `C36_mapping`: Every new time of an ordered list is mapped to two neighbouring old times that bracket it, or to the first or last two if it is outside.
* `C36_single`: One old time: always that one.
* `C36_exact_at_old_times`: At an old time the record of that time is returned. [functional_extensionality_dep, sig_forall_dec]
* `C36_between`: Between two old times the values lie between those of the two records (strictly, if these differ). [functional_extensionality_dep, sig_forall_dec]
* `C36_unordered_refuted`: New times that are not ordered: the search for 1 starts behind it.
* `C36_read_before_change_refuted`: Reading before the time axis was changed dereferences the end of a map.
* `C36_missing_record`: A record without values is replaced by the other one; records of different lengths are refused. [functional_extensionality_dep, sig_forall_dec]

### C37 Filling an existing file writes each record to its matching position

Code: src/FillWriter.cc: FillWriter::FillWriter. Files: `FillWModel`, `FillWProps`. Status: proved.

FillWModel.v/FillWProps.v: all dimension lists, coordinates, shapes and single-slice translations; C37_copies, C37_values, C37_exact_values, C37_skipped, C37_unusable, C37_final_exception; findings C37_empty_translation, C37_short_output_shape, C37_longer_output_shape, C37_scaling_ignored

* `C37_copies`: every input cell is copied to the output cell with the same coordinates, and nothing else
* `C37_values`
* `C37_exact_values`
* `C37_skipped`: variables that are not in the output are left out; a variable with an unusable dimension is left out and the exception at the end is thrown exactly if there is such a dimension in both files
* `C37_unusable`
* `C37_final_exception`
* `C37_empty_translation`: Finding: a translation without slice numbers is documented in the code as "do nothing" but throws for every variable with that dimension
* `C37_short_output_shape`: Finding: an output shape shorter than the input shape is read past its end when it is a prefix
* `C37_longer_output_shape`: Finding: an output shape with an additional dimension passes the comparison of shapes; the variable is not left out, instead the write fails for the number of values
* `C37_scaling_ignored`

### C38 Directory scan matches paths relative to the start directory

Code: src/FileUtils.cc: scanFiles, scanFiles_, globFiles. Files: `FilesModel`, `FilesProofs`, `FilesProps`. Status: proved.

All trees, depths and patterns; the guard on siblings is the finding. Trees are finite, symbolic link cycles are not modelled.

* `C38_listing`: the list of files in order of the entries has exactly the files within the depth
* `C38_scan_file_only`: matching the file name only: exactly the matching files, in order
* `C38_scan_path`: matching the path: exactly the files whose path relative to the start directory matches, if no entry follows a sub-directory that is entered
* `C38_scan_flat`: in particular when no sub-directory is entered
* `C38_scan_any_directory`: a pattern that ignores the directory part finds the same files whatever the siblings are
* `C38_siblings_refuted`: with two sub-directories, the files of the second are not found
* `C38_wrong_directory_refuted`: and a file of the start directory is found as if it were in a sub-directory
* `C38_scan_too_deep`: the scan gives up exactly when more than 1000 directories are nested
* `C38_glob_language`: the regular expression made from a glob pattern is always accepted and matches the same names
* `C38_glob_split`: the start directory and the pattern make up the argument: the directory has no wildcard and ends in a separator, and no separator is left before the first wildcard
* `C38_glob_depth`: without "**" a pattern only matches paths of its own depth
* `C38_glob_files`: globFiles: exactly the files below the start directory whose relative path matches, if no entry follows a sub-directory that is entered
* `C38_glob_siblings_refuted`: a pattern for one directory level finds files of the first sub-directory only
* `C38_line_break_refuted`: "**" does not match a line break in a name

### C39 Path splitting and joining

Code: src/FileUtils.cc: extractFilename, removeFilename, replaceFilename, joinFilename, getExtension. Files: `FilesModel`, `FilesProofs`, `FilesProps`. Status: proved.

All strings.

* `C39_split`: directory part and file name make up the path; the name has no separator
* `C39_split_unique`: and that is the only way to split it
* `C39_replace`
* `C39_replace_own`
* `C39_join`: exactly one separator is inserted, and only when needed
* `C39_join_split`
* `C39_extension`: the part behind the last dot, in lower case
* `C39_no_extension`: any other name has none
* `C39_extension_of_name`: it depends on the file name only

### C40 Grid definitions as map keys

Code: src/GridDefinition.cc: GridDefinition::operator<, comparableTo, deltaCompare. Files: `KeysModel`, `KeysProofs`, `KeysProps`. Status: proved.

Strict weak order on sets of clearly different starts; asymmetry, transitivity and transitive incomparability are refuted in general.

* `C40_order_lonlat`: among grids compared by longitude and latitude, with starts equal or further apart than either resolution, the comparison is a strict weak order
* `C40_order_xy`: the same for grids without a resolution, which are compared by their x and y starts
* `C40_equivalence_lonlat`: there, two grids share a map entry exactly when they agree in shape and start
* `C40_irreflexive`: no grid is less than itself, and grids of different shape are ordered by their shape alone
* `C40_shape_decides`
* `C40_asymmetric_refuted`: a grid with and one without a resolution can each be less than the other
* `C40_transitive_refuted`: a cycle: each of three grids is less than the next
* `C40_incomparability_refuted`: two grids equivalent to a third need not be equivalent
* `C40_comparable_reflexive`: comparableTo
* `C40_comparable_exact`: with tolerance 0 it is equality of the sizes, increments and starts
* `C40_comparable_symmetric_refuted`: it is not symmetric: the tolerance is relative to the first grid
* `C40_lon_start`: the constructor folds the start longitude into [0, 360) unless it is below -360
* `C40_lon_start_below_refuted`

### C41 Vertical coordinate transformations are inverse to each other

Code: src/vertical_coordinate_transformations.c. Files: `PhysModel`, `PhysProps`. Status: proved.

Exact real arithmetic.

* `C41_sigma_inverse`: C41 sigma [functional_extensionality_dep, sig_forall_dec]
* `C41_sigma_ends`: sigma 0 is the top, sigma 1 the surface, and in between between them [functional_extensionality_dep, sig_forall_dec]
* `C41_ln_pressure`: C41 log-pressure: the level is recovered as -log(p/p0 [classic, functional_extensionality_dep, sig_forall_dec, sig_not_dec]
* `C41_hybrid_forms`: C41 hybrid levels: the a and the ap form agree for ap = a*p0; pure pressure and pure sigma levels [sig_forall_dec]
* `C41_hybrid_ends` [functional_extensionality_dep, sig_forall_dec]
* `C41_sizes`: one value per level pair [functional_extensionality_dep, sig_forall_dec]
* `C41_barometric_inverse`: C41 barometric [classic, functional_extensionality_dep, sig_forall_dec, sig_not_dec]
* `C41_standard_inverse` [classic, functional_extensionality_dep, sig_forall_dec, sig_not_dec]
* `C41_barometric_monotone`: height 0 is the reference pressure, and pressure falls with height [classic, functional_extensionality_dep, sig_forall_dec, sig_not_dec]
* `C41_thickness`: C41 layer thickness: zero for equal pressures, additive, positive upwards, and the difference of the heights of the two pressures [classic, functional_extensionality_dep, sig_forall_dec, sig_not_dec]
* `C41_omega_inverse` [functional_extensionality_dep, sig_forall_dec]
* `C41_omega_sign`: upward motion is falling pressure [functional_extensionality_dep, sig_forall_dec]
* `C41_relative_range` [functional_extensionality_dep, sig_forall_dec, sig_not_dec]
* `C41_specific_nonnegative` [functional_extensionality_dep, sig_forall_dec, sig_not_dec]
* `C41_humidity_inverse` [functional_extensionality_dep, sig_forall_dec, sig_not_dec]
* `C41_humidity_inverse_back`: and back, up to saturation [functional_extensionality_dep, sig_forall_dec, sig_not_dec]
* `C41_dewpoint` [classic, functional_extensionality_dep, sig_forall_dec, sig_not_dec]
* `C41_dewpoint_monotone` [classic, functional_extensionality_dep, sig_forall_dec, sig_not_dec]
* `C41_virtual_temperature`: virtual temperature: dry air keeps its temperature, moist air is warmer [functional_extensionality_dep, sig_forall_dec]
* `C41_constants`: Z_MOL_WEIGHT_RATIO is 1/MOL_WEIGHT_RATIO - 1 up to its last digit [functional_extensionality_dep, sig_forall_dec]
* `C41_ocean_ends`: C41 ocean coordinates: the surface level is the sea surface, the bottom level the bottom; the two generic forms agree for a vanishing critical depth; increasing stretching gives increasing depth [functional_extensionality_dep, sig_forall_dec]
* `C41_ocean_agree` [functional_extensionality_dep, sig_forall_dec]
* `C41_ocean_monotone` [functional_extensionality_dep, sig_forall_dec]

### C42 Vector rotation keeps length and direction convention

Code: src/reproject.cc: vector_reproject_values_by_matrix_f, vector_reproject_direction_by_matrix_f, get_vector_reproject_matrix_proj. Files: `RotateModel`, `RotateProofs`, `RotateProps`. Status: proved.

Exact real arithmetic; the projection library is a parameter; the sign of zero in atan2 is +0.

* `C42_values`: cell p of layer p / L is rotated with matrix entry p mod L, cells behind the layers are kept, and nothing outside of the arrays is touched [sig_forall_dec]
* `C42_length_kept`: a matrix of rotations keeps the length of every vector [functional_extensionality_dep, sig_forall_dec, sig_not_dec]
* `C42_inverse`: the opposite rotations restore both components [functional_extensionality_dep, sig_forall_dec, sig_not_dec]
* `C42_cached`: the cached form takes as many layers as there are; with an empty matrix it divides by zero [functional_extensionality_dep, sig_forall_dec]
* `C42_directions`: every cell of every layer becomes angle minus rotation, folded [functional_extensionality_dep, sig_forall_dec]
* `C42_direction_agrees`: direction and components agree: a wind towards compass direction a (u = k sin a, v = k cos a) has after the rotation by phi the components of the direction that the direction formula gives [functional_extensionality_dep, sig_forall_dec, sig_not_dec]
* `C42_north_refuted`: 360 is not folded to 0: north is written as 0 or 360, depending on the rotation [functional_extensionality_dep, sig_forall_dec]
* `C42_angle`: steps to the right and upwards: the angle is the rotation of the target [classic, functional_extensionality_dep, sig_forall_dec, sig_not_dec]
* `C42_angle_negative_step`: steps to the left and downwards: the same up to a whole turn, if the target is rotated at all [classic, functional_extensionality_dep, sig_forall_dec, sig_not_dec]
* `C42_mean_of_angles_refuted`: finding: the mean of two angles is taken without looking at whole turns. With negative steps a target that is not rotated at all gets the angle PI, so every vector is reversed; with positive steps a target turned upside down gets the angle 0. [classic, functional_extensionality_dep, sig_forall_dec, sig_not_dec]
* `C42_angle_range`: the angle in degrees is in -360..360 for a target that is not lat-lon (so directions stay in 0..360), and for a lat-lon target [classic, functional_extensionality_dep, sig_forall_dec, sig_not_dec]
* `C42_bearing` [classic, functional_extensionality_dep, sig_forall_dec, sig_not_dec]
* `C42_bearing_north`: due north: no rotation [classic, functional_extensionality_dep, sig_forall_dec, sig_not_dec]
* `C42_step_width`: with at least three columns and rows, or with a single one, all reads are inside and the step is not 0 [functional_extensionality_dep, sig_forall_dec]
* `C42_step_width_refuted`: finding: with two rows, and with two columns and three or four rows, a cell behind the field is read [functional_extensionality_dep, sig_forall_dec]

### C43 Pruned closest-cell search finds the closest cell

Code: src/CDMInterpolator.cc: fastTranslatePointsToClosestInputCell. Files: `CloseModel`, `CloseProps`. Status: proved.

CloseModel.v/CloseProps.v over the real numbers with the actual sine/cosine formula: C43_closest, C43_nan, C43_radius, C43_samples, C43_samples_large; findings C43_single_cell, C43_nothing_sampled

* `C43_closest`: The indices returned for a point are those of a cell of minimal great-circle angle, smaller than the search radius; -1 exactly if no cell is nearer than the radius. For every arrangement of the cells that std::sort may produce. [classic, functional_extensionality_dep, sig_forall_dec, sig_not_dec]
* `C43_nan`: a point or radius that is not a number gives no cell [classic, functional_extensionality_dep, sig_forall_dec, sig_not_dec]
* `C43_radius`: With two valid cells and at least one sampled, the radius is 1.414 times the largest angle from a sampled cell to its nearest other cell, at most PI. [classic, functional_extensionality_dep, sig_forall_dec, sig_not_dec]
* `C43_samples`: up to 1000 cells every cell is a sample
* `C43_samples_large`: beyond, 53 positions inside the grid are taken
* `C43_single_cell`: FINDING: with a single valid cell the radius is not a number and no point is ever assigned to it. [classic, functional_extensionality_dep, sig_forall_dec, sig_not_dec]
* `C43_nothing_sampled`: FINDING: if no sampled cell has a position, the minimum of no samples is read. [classic, functional_extensionality_dep, sig_forall_dec, sig_not_dec]

### C44 Generated names are unique

Code: src/CDMReaderUtils.cc: findUniqueDimVarName, findUniqueVarName, findUniqueDimName. Files: `CdmModel`, `CdmProofs`, `CdmProps`. Status: proved.

All contents and names; termination of the unlimited search included.

* `C44_new_name`: names of dimensions and variables
* `C44_free_base`
* `C44_exhausted`: an exception exactly if the base name and all 99 numbered ones are taken
* `C44_new_variable_name`: names of variables only, and of dimensions only: the search ends within as many steps as there are names
* `C44_new_dimension_name`

### C45 Shape comparison ignores singleton dimensions only

Code: src/CDMReaderUtils.cc: compareCDMVarShapes. Files: `CdmModel`, `CdmProofs`, `CdmProps`. Status: proved.

All shapes.

* `C45_compare`
* `C45_equivalence`: so it is an equivalence
* `C45_elements`: and equal shapes have equally many elements
* `C45_missing`

### C46 Coordinate system axis sets

Code: src/coordSys/CoordinateSystem.cc: CoordinateSystem::setAxis, setAuxiliaryAxis, findAxisOfType. Files: `AxesModel`, `AxesProofs`, `AxesProps`. Status: proved.

All histories.

* `C46_unique_names`: after any history: at most one axis per name, whether main or auxiliary
* `C46_unique_types`: and at most one main axis per type, apart from Undefined
* `C46_find_main_first`: looking up a type: a main axis if there is one, else the first auxiliary one, else nothing
* `C46_find_first`: the first axis of that type in the order of getAxes
* `C46_has_type`
* `C46_find_any`: of several types, the first that is present decides
* `C46_set_axis_throws`: setAxis: throws exactly when a main axis of another name has the type
* `C46_set_axis`: otherwise the axis is a main axis, replaces any axis of its name, and the others are untouched
* `C46_set_axis_rejected`: a rejected axis: the main axis that had its name is gone, nothing else changes
* `C46_rejected_loses_axis_refuted`
* `C46_set_aux`: setAuxiliaryAxis is ignored exactly when the name or the type belongs to a main axis; else the axis is an auxiliary axis and replaces one of its name
* `C46_geo_x`: an axis typed as x coordinate wins over a longitude, even when it is only auxiliary
* `C46_geo_z`: the vertical axis: absent exactly when no axis has a vertical type; the types in order of preference
* `C46_horizontal_id`: the identification of the horizontal axes: names without commas can be read back

### C47 Chunked remote reads stay in the buffer

Code: src/HttpChunkReader.cc: WriteCallback. Files: `AxesModel`, `AxesProofs`, `AxesProps`. Status: proved.

All chunk sequences and buffer sizes whose sums fit into size_t.

* `C47_read`: whatever chunks arrive: only the requested bytes are written, and if all chunks are accepted these hold the chunks in order
* `C47_stays_in_buffer`: memory behind the requested bytes is never changed, and nothing is undefined
* `C47_overlong_chunk`: the first chunk that does not fit ends the transfer without any of it being written
* `C47_complete_body`: a body of exactly the requested length fills the buffer
* `C47_past_end`: requests that end behind the resource are refused
* `C47_short_body_refuted`: a body that is too short is accepted: the buffer keeps what it held before
* `C47_wrapped_range_refuted`: an offset and length whose sum wraps is not refused

### C48 Gap filling keeps defined values

Code: src/interpolation.c: mifi_fill2d_f, mifi_creepfill2d_f, mifi_creepfillval2d_f. Files: `FillModel`, `FillProofs`, `FillProps`. Status: proved.

All sizes, fields, weights, repeats and iteration limits; exact arithmetic.

* `C48_fill2d`: fill2d: for two or more rows it ends normally, whatever the number of rounds and the parameters
* `C48_fill2d_range`: without over-relaxation the new values are within the range of the defined ones
* `C48_fill2d_overshoot_refuted`
* `C48_fill2d_thin`: fields with at most two rows or columns have no inner cells: the test for convergence succeeds at once and every undefined cell keeps the mean, unless maxLoop is 5
* `C48_fill2d_one_row_refuted`: one row and maxLoop = 5: the update of the border reads outside of the field
* `C48_creepfillval`: any number of repeats, any weight that is not negative
* `C48_creepfill`
* `C48_creepfillval_range`: the new values are within the range of the defined ones and the default
* `C48_creepfill_range`
* `C48_creepfill_one_row_refuted`: one row: the update of the border always reads outside of the field
* `C48_creepfill_negative_weight_refuted`: a weight of -1: the sum of weights and the centre is 0, and the division leaves an undefined cell
* `C48_fill2d_border`

### C49 Cross-section bounds partition the point list

Code: src/CDMInterpolator.cc: CDMInterpolator::changeProjectionToCrossSections. Files: `CrossModel`, `CrossProps`. Status: proved.

CrossModel.v/CrossProps.v: all cross-section lists, any point-wise projection, up to 2^31 points (the bounds are int); C49_bounds, C49_points, C49_names, C49_total, finding C49_no_sections

* `C49_bounds`: the bounds of the cross-sections that have coordinates partition the points
* `C49_points`: a single coordinate is taken as it is; otherwise the points are the images of grid points that start and end at the first and last coordinate, pass through every coordinate and lie less than two grid steps apart
* `C49_names`: every name is stored in its own row of equal length, followed by at least one NUL
* `C49_no_sections`: FINDING: without a cross-section that has coordinates the last index wraps around and the call leaves with std::out_of_range (after the dimensions and the name variable were added
* `C49_total`: otherwise the call fails only if an axis has no step or the number of points overflows

### C50 One-dimensional interpolation formulas

Code: src/interpolation.c: mifi_get_values_linear_f, mifi_get_values_linear_weak_extrapol_f, mifi_get_values_linear_no_extrapol_f, mifi_get_values_linear_const_extrapol_f, mifi_get_values_log_f. Files: `LinearModel`, `LinearProps`. Status: proved.

Exact real arithmetic with NaN; the double version has the same formula.

* `C50_size`: all kinds keep the number of cells [functional_extensionality_dep, sig_forall_dec]
* `C50_ends`: at the first coordinate the first field, at the second one the second field, bit for bit, even where the other field is undefined [functional_extensionality_dep, sig_forall_dec]
* `C50_equal_coordinates`: equal coordinates: the first field, whatever the position [functional_extensionality_dep, sig_forall_dec]
* `C50_linear`: the formula, for any position [functional_extensionality_dep, sig_forall_dec]
* `C50_undefined`: undefined where either field is undefined, at all positions other than the ends [functional_extensionality_dep, sig_forall_dec]
* `C50_between`: between the coordinates: between the two values (strictly, if they differ), for increasing and decreasing coordinates [functional_extensionality_dep, sig_forall_dec]
* `C50_monotone`: moving the position towards the second coordinate moves the value towards the second field [functional_extensionality_dep, sig_forall_dec]
* `C50_reproduces_linear`: values that are linear in the coordinate are reproduced, inside and outside [functional_extensionality_dep, sig_forall_dec]
* `C50_variants_inside`: inside the coordinates all variants are the linear one [functional_extensionality_dep, sig_forall_dec]
* `C50_no_extrapolation`: no extrapolation: outside everything is undefined [functional_extensionality_dep, sig_forall_dec]
* `C50_weak_extrapolation`: weak extrapolation: linear up to one distance outside, undefined further away [functional_extensionality_dep, sig_forall_dec]
* `C50_const_extrapolation`: constant extrapolation: the nearer field [functional_extensionality_dep, sig_forall_dec]
* `C50_nan_coordinate`: an undefined coordinate: nothing is defined [functional_extensionality_dep, sig_forall_dec]
* `C50_nearest`
* `C50_log_domain`: positive coordinates are required; else an error and nothing is written [classic, functional_extensionality_dep, sig_forall_dec, sig_not_dec]
* `C50_log_ends`: the ends [classic, functional_extensionality_dep, sig_forall_dec, sig_not_dec]
* `C50_log_between`: between the coordinates: between the values [classic, functional_extensionality_dep, sig_forall_dec, sig_not_dec]
* `C50_reproduces_log`: values m*log(x)+c are reproduced [classic, functional_extensionality_dep, sig_forall_dec, sig_not_dec]

### C51 Missing-value marking round-trips

Code: src/interpolation.c: mifi_bad2nanf, mifi_nanf2bad. Files: `ConvertModel`, `ConvertProofs`, `ConvertProps`. Status: proved.

All fields and fill values.

* `C51_bad2nan`: fill values become undefined, nothing else changes
* `C51_nan2bad`: undefined values become the fill value, nothing else changes
* `C51_round_trip`: round trips
* `C51_round_trip_back`
* `C51_undefined_fill`: an undefined fill value changes nothing, in either direction

### C52 Longitude normalisation and clamping

Code: src/MathUtils.cc: normalizeLongitude180; src/MathUtils.h: clamp. Files: `ConvertModel`, `ConvertProofs`, `ConvertProps`. Status: proved.

Exact rationals; termination included (for doubles it fails beyond 2^61 degrees, not modelled).

* `C52_normalize`: both loops end, and the result is in [-180, 180] and differs by whole turns
* `C52_normalize_fixed`: values already in the interval are kept: so the function is idempotent
* `C52_normalize_fuel`: and more rounds do not change a result
* `C52_clamp_nearest`: the nearest value of the interval; idempotent, monotone
* `C52_clamp_inside`
* `C52_clamp_monotone`

### C53 Merging inner and outer grids keeps the inner axis

Code: src/CDMMergeUtils.cc: extendInnerAxis, checkSingleAxisCompatibility. Files: `MergeModel`, `MergeProps`. Status: proved.

MergeModel.v/MergeProps.v: C53_contains, C53_regular, C53_covers, C53_rejects, C53_terminates; findings C53_zero_step, C53_absolute_tolerance, C53_unit_mixup

* `C53_contains`: The inner axis is contained unchanged and in one piece; the values before and after it continue it with its first step, all inside the range of the outer axis; no further such value fits into the range.
* `C53_regular`: The result is as regular as the inner axis: all steps within 1e-6 of its first step.
* `C53_covers`: With steps of at least 1e-6 the result lies within the outer axis and covers its range up to less than one step on each side.
* `C53_rejects`: The call fails exactly for axes of fewer than two values, of irregular steps, of which only one is unlimited, or of which the inner one reaches beyond the outer one.
* `C53_terminates`: With a step that is not zero the loops end.
* `C53_zero_step`: FINDING: an inner axis of equal values passes the checks and the loop never ends.
* `C53_absolute_tolerance`: FINDING: the tolerance is absolute; an axis that goes forth and back by steps below 1e-6 counts as regular.
* `C53_unit_mixup`: FINDING: an inner axis in km is extended in m, but the result is declared in km: its values are a thousand times those of the inner axis.

### C54 Felt field storage

Code: src/io/felt/Felt_Array2.cc: addField_, addInformationByField, getField, getTimes, getLevelPairs, getEnsembleMembers, hasTime; src/io/felt/FeltCDMReader2.cc: getDataSlice. Files: `FeltModel`, `FeltProps`. Status: proved.

FeltModel.v/FeltProps.v: every history of added fields, rejected ones included; C54_rejected, C54_get_field, C54_timeless, C54_times, C54_levels_and_members, C54_slice, C54_slice_other_time; findings C54_position_past_end, C54_single_member

* `C54_always_built`: constructing an array never fails
* `C54_rejected`: a field is rejected exactly if it is of another parameter or vertical coordinate, or if a field of the same data type is already held at its time and level; the array is then left as it was
* `C54_get_field`: looking up a time and level gives the field held there
* `C54_timeless`: an array counts as timeless exactly if its first field has data type 4 and no field at another time is held; then the requested time does not matter
* `C54_times`: the times are those of the fields held, in increasing order without repetition
* `C54_levels_and_members`: the levels are those of the fields held, sorted and without repetition; for an ensemble the second component is 0 and the members are listed separately
* `C54_slice`: the slice of a variable with a level dimension and, if asked for, an ensemble dimension consists of one block per level and member, members inside levels; each block has the values of the field held at that time, level and member, or fill values
* `C54_slice_other_time`: a time of the file at which the parameter has no field gives an empty slice
* `C54_position_past_end`: Finding: the bounds check of FeltCDMReader2.cc:631 lets the position just after the last time through, and the time there is read anyway
* `C54_single_member`: Finding: an ensemble parameter of which the file has exactly one member gets no ensemble dimension, its levels are listed with second component 0, and unless the member is number 0 every slice consists of fill values although the fields are there
* `C54_other_grid`

### C55 Dimension index arithmetic

Code: src/DataIndex.h: DataIndex::getPos; src/IndexedData.cc: IndexedData::setDims. Files: `ReaderModel`, `ReaderProofs`, `ReaderProps`. Status: proved.

Bijection for all shapes below 2^64 cells; overloads, short and long tuples; shape check of indexed data; rank-0 overload disagreement shown as finding.

* `C55_position_in_range`: Every in-range tuple has a position below the size ...
* `C55_position_injective`: ... different tuples have different positions ...
* `C55_position_surjective`: ... and every position below the size is the position of a tuple.
* `C55_first_dimension_fastest`: The first dimension runs fastest.
* `C55_missing_positions_are_zero`: Missing trailing positions count as 0.
* `C55_positions_beyond_rank`
* `C55_overloads_agree`: The overloads with 1 to 4 numbers agree with the general one (arguments are size_t).
* `C55_overloads_rank0_refuted`: Finding: for rank 0 they do not.
* `C55_indexed_data_shape`: Indexed data can be built exactly if the shape has as many cells as the data has values (or there is no data, then the index has rank 0).

### C56 Relative and absolute time/space axis specifications

Code: src/TimeSpec.cc: TimeSpec; src/SpatialAxisSpec.cc: SpatialAxisSpec. Files: `SpecModel`, `SpecProofs`, `SpecProps`. Status: proved.

All token texts, number readers, starts, ends and steps; the parsing of one decimal number and of ISO times is a parameter.

* `C56_start`: the position 0: the last multiple of the step not above the start, for a start not before 0
* `C56_end`: the position x: the last multiple of the step not above the end, for an end not before 0
* `C56_negative_start`: a start before 0 that is a multiple of the step is kept; any other ends up between one and two steps too late
* `C56_first_above_refuted`: the documented rule (the first multiple not before the start) does not hold
* `C56_equal_values_refuted`: equal first values: division by zero and an undefined conversion
* `C56_plain_value`
* `C56_x`
* `C56_x_plus`: behind the end: both kinds of axes add
* `C56_x_minus`: before the end: the space axis subtracts ...
* `C56_time_x_minus_refuted`: ... but the time axis gives the origin of the unit, whatever the end is
* `C56_time_x_no_sign`: and subtracts when there is no sign
* `C56_fraction_dropped_refuted`: a fraction behind two or more digits is dropped
* `C56_relative_axis`: "a,b,...,x" relative to a start: a and b are counted from the start position, then follow all values with the same step that are before the last grid position, then that position
* `C56_absolute_axis`: an absolute space axis is the dotted list itself
* `C56_relative_needs_range`: start and end are required for a relative axis, and the unit is refused
* `C56_needs_two_values`: fewer than two values
* `C56_absolute_time`: an absolute time axis "steps;unit=u": the calendar times in that unit, with dots expanded
* `C56_default_unit`: without a unit: seconds since 1970
* `C56_relative_time`: a relative time axis "steps;relativeUnit=u": start and end are taken in u, and u is the unit of the result
* `C56_refused_sections`: what is refused: a second list of steps, any other key, a unit on a space axis
* `C56_relative_place`: a relative space axis "steps;relativeStart=v" uses the given start and end; the value v itself is not used

### C57 Bicubic interpolation is cubic convolution on existing cells

Code: src/interpolation.c: mifi_get_values_bicubic_f. Files: `BilinModel`, `BilinProofs`, `BilinProps`. Status: proved.

As C12; weights proved equal to the cubic convolution kernel.

* `C57_cubic_convolution`: The result is the sum over the 4x4 cells around the position, weighted by the cubic convolution kernel (a = -1/2) of the distances; undefined when one of the cells does not exist; no read outside the field.
* `C57_quadratic_exact`: Biquadratic fields are reproduced exactly.
* `C57_grid_points`
* `C57_overshoot_refuted`: Not a convex combination: the result can leave the range of the cells.

### C58 Reading only the needed part of the input does not change an interpolation

Code: src/CachedInterpolation.cc: CachedInterpolation::createReducedDomain, CachedInterpolation::interpolateValues, clamp_ex. Files: `BilinModel`, `BilinProofs`, `BilinProps`. Status: proved.

Any non-empty set of positions; equality with the point function on the whole field for bilinear and bicubic; empty output is a finding.

* `C58_request_inside_input`: The part asked for lies inside the input grid.
* `C58_bilinear_reduction`: Bilinear: interpolating from the requested part [field] gives, for every output cell and level, what the point function gives on the whole field.
* `C58_bicubic_reduction`
* `C58_empty_output_refuted`: Finding: an empty output grid dereferences the end of the position array.

### C59 Text escaped for a regular expression matches itself and nothing else

Code: src/StringUtils.cc: regex_escape. Files: `TextModel`, `TextProofs`, `TextProps`. Status: proved.

All strings; the pattern reader is an inductive relation.

* `C59_matches_itself`: the escaped text is a pattern that matches the text and nothing else
* `C59_matches_only_itself`
* `C59_injective`
* `C59_concatenation`
* `C59_plain_unchanged`

### C60 Lower-casing and parsing of booleans

Code: src/StringUtils.cc: string2lowerCase; src/String2Type.cc: string2type<bool>. Files: `TextModel`, `TextProofs`, `TextProps`. Status: proved.

All ASCII strings; other bytes are a finding.

* `C60_lower_case`: each letter is replaced by its lower case form, every other character kept
* `C60_lower_case_idempotent`
* `C60_non_ascii_refuted`: a byte above 127 reaches tolower as a negative number, which is outside its domain
* `C60_bool_true`: exactly the listed words, in any mixture of cases, are accepted
* `C60_bool_false`
* `C60_bool_throws`

### C61 Calendar times survive being written and read as text

Code: src/FimexTime.cc: operator<<, two_digits, FimexTime::parseISO8601. Files: `TextModel`, `TextProofs`, `TextProps`. Status: proved.

All printable times; the exponent form of fractions is not modelled.

* `C61_decimal_digits`: decimal text of a number: digits only, and with the value of the number
* `C61_print_parse`: reading what was written gives the same time, whatever is in the fields that two (or, for the milliseconds, three) digits can hold
* `C61_print_injective`: so two times with the same text are the same time
* `C61_parse_fields`: texts YYYY-MM-DD hh:mm:ss with digits of any number, T or blank between, up to 16/8 bit wrapping
* `C61_date_only`: a date alone is its midnight
* `C61_no_seconds`: without seconds: they are 0
* `C61_clock_only_refuted`: documented: the time of day alone; it is taken for a date, and refused by an exception instead of the result false
* `C61_only_dot_refuted`: a seconds field of only a dot: the first token is read although there is none
* `C61_rounds_to_1000_refuted`: fractions just below one second are rounded to 1000 milliseconds; so the result differs from the time meant and sorts in the wrong second
* `C61_wraps_refuted`: values too large for the field wrap around silently

### C62 Interpolation method names select the documented methods

Code: src/interpolation.c: mifi_string_to_interpolation_method. Files: `ConvertModel`, `ConvertProofs`, `ConvertProps`. Status: proved.

All strings; forward_undef_min is a finding.

* `C62_known_names`
* `C62_unknown_names`
* `C62_undef_min_refuted`: the name of the minimum that treats undefined cells as undefined selects the other minimum; the method cannot be selected by any name

### C63 Linear unit conversions are recognised with the right slope and offset

Code: src/Units.cc: Ud2UnitsConverter::isLinear, getScaleOffset. Files: `ConvertModel`, `ConvertProofs`, `ConvertProps`. Status: proved.

Exact rationals; small non-linear conversions are a finding.

* `C63_affine_recognised`: an affine conversion is recognised, with its slope and offset
* `C63_accepted_near_line`: what is accepted agrees with the line at the six test points up to 1e-5
* `C63_small_values_refuted`: a conversion with tiny values is taken as linear although it is not: 10^-12 * x^2 is replaced by 10^-12 * x

### C64 Cached coordinate systems are never stale

Code: src/CDM.cc: enhance, coordsInitialized in every editing function. Files: `CdmModel`, `CdmProofs`, `CdmProps`. Status: proved.

All histories; changes through references are a finding.

* `C64_cache_current`: the cached coordinate systems always belong to the present content
* `C64_query`: so a query after any history is answered from the present content
* `C64_reference_refuted`

### C65 Metadata queries answer exactly what the metadata say

Code: src/CDM.cc: findVariables, checkVariableAttribute, getFillValue, getValidMin, getValidMax, getAddOffset, getScaleFactor, getUnits, getUnlimitedDim, hasUnlimitedDim. Files: `CdmModel`, `CdmProofs`, `CdmProps`. Status: proved.

All contents; regular expressions are arbitrary predicates.

* `C65_find_variables`: searching variables: exactly those with all attributes matching and all dimensions, in order
* `C65_find_variables_order`
* `C65_defaults`: the numbers of a variable's packing
* `C65_fill_value`
* `C65_range`
* `C65_packing`
* `C65_empty_attribute_refuted`: an attribute without values is read past its end
* `C65_unlimited`: the unlimited dimension
* `C65_second_unlimited_refuted`: a second unlimited dimension is not seen

### C66 Altitudes by the hypsometric equation do not depend on the requested levels

Code: src/coordSys/verticalTransform/PressureIntegrationToAltitudeConverter.cc: getDataSlice. Files: `PhysModel`, `PhysProps`. Status: proved.

One column; direction from that column.

* `C66_part_of_column`: a request for some levels gives these levels of the altitudes of the whole column, whichever way the levels are sorted, and reads and writes only inside the arrays [classic, functional_extensionality_dep, sig_forall_dec, sig_not_dec]
* `C66_rising`: altitudes rise from level to level if pressure falls and the temperature is positive [classic, functional_extensionality_dep, sig_forall_dec, sig_not_dec]
* `C66_isothermal`: a column of constant temperature: the barometric height formula, added to the height of the ground [classic, functional_extensionality_dep, sig_forall_dec, sig_not_dec]

### C67 Messages of a GRIB variable are indexed by time, level and member

Code: src/io/grib/GribCDMIndexer.cc: loadOneMessage, initCreateVarMessages; src/io/grib/GribCDMReader.cc: getDataSlice. Files: `GribModel`, `GribProps`. Status: proved.

GribModel.v/GribProps.v: C67_index_holds_last_message, C67_complete_read; refutation C67_variable_without_time

* `C67_index_holds_last_message`
* `C67_complete_read`: Reading a complete variable through its index: every cell has the value of the last message of its time, level and member.
* `C67_variable_without_time_refuted`: A message of a variable without time has encoded time 0, which is not among the times: the index cannot be built, whatever else the file contains.

### C68 Forecast times survive writing to GRIB and reading back

Code: src/io/grib/GribApiCDMWriter_ImplAbstract.cc: run, setTime; src/io/grib/GribFileIndex.cc: getValidTime; src/io/grib/GribUtils.cc. Files: `GribModel`, `GribProps`. Status: proved.

GribModel.v/GribProps.v: C68_unit_is_largest_of_first_step, C68_read_back, C68_regular_axis; refutations daily steps, irregular axis, time before reference

* `C68_unit_is_largest_of_first_step`
* `C68_read_back`: Times not before the reference time, written with a unit shorter than a day, are read back rounded down to a multiple of the unit.
* `C68_regular_axis`: In particular times that are multiples of the unit are read back unchanged; and this holds for every axis with constant step that starts at a multiple of the step and is not a whole number of days.
* `C68_daily_steps_refuted`: Steps of whole days (months, years) use a unit whose length the reader does not assign.
* `C68_irregular_axis_refuted`: The unit comes from the first two times only: a later time that is no multiple is moved.
* `C68_time_before_reference_refuted`: A time before the reference time becomes a step of more than 10^15.
* `C68_equal_times_throw`: Equal first two times cannot be written.

### C69 The integer encoding of times keeps value and order

Code: src/FimexTime.cc: toEncoded, fromEncoded; include/fimex/FimexTime.h: operator>. Files: `GribModel`, `GribProps`. Status: proved.

GribModel.v/GribProps.v: C69_decode_encode, C69_order, C69_injective; refutation C69_large_year

* `C69_decode_encode`
* `C69_order`
* `C69_injective`
* `C69_valid_is_not_zero`: No valid time is encoded as 0, the code of "no time".
* `C69_large_year_refuted`: From the year 4096 on the upper bits are lost: different times have equal encodings.

### C70 Merge compatibility of variables

Code: src/CDMMergeUtils.cc: is_compatible, checkAxesCompatibility, checkSingleAxisCompatibility. Files: `MergeModel`, `MergeProps`. Status: proved.

MergeModel.v/MergeProps.v: C70_single_axis, C70_compatible, C70_other_cases; finding C70_extra_dimension

* `C70_single_axis`: One axis: both absent, or of the same length, or one absent and the other of length one.
* `C70_compatible`: Variables with coordinate systems and with equally many dimensions of length other than one are compatible exactly if all axes are and the shapes have the same names, or correspond dimension by dimension apart from those of length one.
* `C70_other_cases`: The remaining cases: a variable missing on one side, or with a coordinate system on one side only, is never compatible; without coordinate systems it always is.
* `C70_extra_dimension`

### C71 Distances between grid neighbours

Code: src/interpolation.c: mifi_griddistance, mifi_great_circle_angle. Files: `GdistModel`, `GdistProps`. Status: proved.

C71_area (all cells), C71_square, C71_deterministic, C71_line, C71_single, C71_empty; finding C71_last_row_wrong.

* `C71_area`: C71. For a grid of at least two rows and columns the call succeeds whatever the arrays held before; the value of each cell that has a neighbour to the right and below is the great-circle distance to that neighbour, the last column repeats the column before it, and a cell of the last row gets the value that lies [ny] places before it. [classic, functional_extensionality_dep, sig_forall_dec, sig_not_dec]
* `C71_square`: A square grid: the last row repeats the row above it. [classic, functional_extensionality_dep, sig_forall_dec, sig_not_dec]
* `C71_deterministic`: The values do not depend on what the arrays held before. [classic, functional_extensionality_dep, sig_forall_dec, sig_not_dec]
* `C71_line`: A single row or column: both arrays hold the distance to the next point, the last value is repeated. [classic, functional_extensionality_dep, sig_forall_dec, sig_not_dec]
* `C71_single`: One point gives zero distances and the error result; no point at all runs out of the arrays. [sig_forall_dec]
* `C71_empty` [classic, functional_extensionality_dep, sig_forall_dec, sig_not_dec]
* `C71_last_row_wrong` [classic, functional_extensionality_dep, sig_forall_dec, sig_not_dec]

### C72 Vertical wind on hybrid levels

Code: src/interpolation.c:887-1062; include/fimex/mifi_constants.h:235-241. Files: `VertModel`, `VertProps`. Status: proved.

VertModel.v is the C function over exact reals with the output as an array of optional values (None = not initialised). VertProps.v abstracts the array to a function of (i, j, k), shows what the three copy loops and the inner loop do to it, and derives the statements; C72_value compares the values inside with formulas written with sums over the layers, for any pressures which meet the conditions of the half levels; C72_top_layer_refuted and C72_calm_refuted follow from it; C72_two_columns, C72_one_column and C72_one_row are the findings for small grids.

* `C72_all_cells`: C72. On a grid of at least three rows and columns every cell of the result is written whatever it held before: the uppermost level is zero, and the cells of the border have the value of their neighbour towards the inside (in the corners of the diagonal neighbour). [classic, functional_extensionality_dep, sig_forall_dec, sig_not_dec]
* `C72_half_levels`: Every full level but the first lies in the middle of its half levels; the half levels begin at zero pressure and end at the surface pressure. [functional_extensionality_dep, sig_forall_dec]
* `C72_value`: The value of every cell inside: the vertical motion needed for the horizontal flow of mass through the layers above, without the uppermost, and half of the layer itself, and the slope of the level. [classic, functional_extensionality_dep, sig_forall_dec, sig_not_dec]
* `C72_thickness`: The pressure thicknesses of all levels add up to the surface pressure. [functional_extensionality_dep, sig_forall_dec]
* `C72_level_in_layer`: The geopotential of a level lies between those of its half levels. [classic, functional_extensionality_dep, sig_forall_dec, sig_not_dec]
* `C72_homogeneous`: An atmosphere that is the same in all columns has no vertical wind, whatever the wind speed. [classic, functional_extensionality_dep, sig_forall_dec, sig_not_dec]
* `C72_two_columns` [classic, functional_extensionality_dep, sig_forall_dec, sig_not_dec]
* `C72_one_column` [classic, functional_extensionality_dep, sig_forall_dec, sig_not_dec]
* `C72_one_row` [classic, functional_extensionality_dep, sig_forall_dec, sig_not_dec]
* `C72_top_layer_refuted`: Finding: the wind of the uppermost layer has no effect: its divergence is left out of the sum, although the layer has a thickness [classic, functional_extensionality_dep, sig_forall_dec, sig_not_dec]
* `C72_calm_refuted`: Finding: air at rest gets a vertical wind wherever the ground is not level: the slope of the levels is added without being multiplied by the wind [classic, functional_extensionality_dep, sig_forall_dec, sig_not_dec]

### C73 Pressure conversion operations

Code: src/CDMPressureConversions.cc:138-198; src/CDMPressureConversions.cc:254-289; src/CDMPressureConversions.cc:348-399; src/CDMPressureConversions.cc:448-487; src/CDMPressureConversions.cc:533-606; src/CDMPressureConversions.cc:630-689. Files: `PconvModel`, `PconvProps`. Status: proved.

PconvModel.v holds the option parser, the four factories over the metadata model of CdmModel.v, and the constructor. PconvProps.v proves the parser for all texts of the form and all texts in general, and the metadata effect of every factory through the predicate replaced. Findings: C73_flag_swallows, C73_humidity_second_temperature, C73_pressure_exception.

* `C73_parse_total`
* `C73_parse`: C73. An operation text [conversion;key=value;...] is read as written: a key without an equals sign, a value without a semicolon, the first value of a repeated key. A semicolon at the end is ignored, and a last option without an equals sign has the empty value.
* `C73_parse_flag`
* `C73_flag_swallows`: Finding: an option without value that is not the last one swallows the key of the next one.
* `C73_unknown`: Unknown conversions are refused.
* `C73_candidates`: The candidates of an operation: the variable named by the option if the input has it, otherwise the variables of the input with the wanted standard name.
* `C73_theta`: Potential temperature: the first candidate having a complete coordinate system is replaced by the temperature, which has its type, shape and attributes except the names; all other candidates stay. Nothing happens without such a candidate or if the temperature exists.
* `C73_theta_nothing`
* `C73_humidity`: Specific humidity: the first candidate having a complete coordinate system gets the relative humidity beside it, packed as short, with its shape and its attributes except those of names, unit, packing and range. The first temperature is used; it must be in the coordinate system of every candidate.
* `C73_humidity_second_temperature`: Finding: if the first temperature is not in the coordinate system of the humidity, the search for another one never ends inside the list, even if the second temperature would fit.
* `C73_omega`: Vertical wind from omega: with exactly one omega and one temperature in its coordinate system, omega is replaced by the wind in m/s on the same shape.
* `C73_pressure`: The pressure uses the first coordinate system with the longest z axis among those that can be used.
* `C73_pressure_none`: Without such a coordinate system the operation is refused (it never succeeds silently).
* `C73_pressure_exception`: Finding: an exception from the vertical transformation is caught, and then the null pointer is used.
* `C73_step`: Each conversion is carried out by its own factory; a converter made earlier for the same name stays.
* `C73_omega_names`: The standard names of omega.

### C74 Pressure conversion data

Code: src/CDMPressureConversions.cc:202-239; src/CDMPressureConversions.cc:293-333; src/CDMPressureConversions.cc:403-433; src/CDMPressureConversions.cc:693-701. Files: `PconvModel`, `PconvProps`. Status: proved.

The converters of PconvModel.v over exact reals; strings kept by reference are addresses into the vectors of the operation, which are gone when the constructor returns. Findings: C74_theta_dangling, C74_theta_missing, the only-if part of C74_theta_value, C74_humidity_overflow, C74_humidity_missing.

* `C74_passed_on`: Variables without a converter are passed on. [classic, functional_extensionality_dep, sig_forall_dec, sig_not_dec]
* `C74_theta_dangling`: Finding: the name of the potential temperature is kept as a reference to a string of the constructor; reading the converted temperature uses it after its end. [classic, functional_extensionality_dep, sig_forall_dec, sig_not_dec]
* `C74_theta_value`: If the name were still there: the unpacked temperature is the potential temperature times (p / 1000 hPa)^(R/cp) exactly when the variable has no offset or no scale factor (or at 1000 hPa). [classic, functional_extensionality_dep, sig_forall_dec, sig_not_dec]
* `C74_theta_missing`: Finding: the marker of missing values is converted like a value. [classic, functional_extensionality_dep, sig_forall_dec, sig_not_dec]
* `C74_humidity_value` [functional_extensionality_dep, sig_forall_dec, sig_not_dec]
* `C74_humidity_overflow`: Findings: values above saturation are not limited to one although the library function limits to 100 %, and beyond 131 % the number does not fit; a missing value is not defined either. [functional_extensionality_dep, sig_forall_dec, sig_not_dec]
* `C74_humidity_missing`
* `C74_omega_slice`: Vertical wind: with omega in hPa/s and pressure in hPa, w = - omega R T / (g M p); rising air has negative omega; a missing input gives a missing result; the number of values is kept. [classic, functional_extensionality_dep, sig_forall_dec, sig_not_dec]
* `C74_theta_no_pressure`: Without pressure the temperature is zero; for a negative pressure there is none. [classic, functional_extensionality_dep, sig_forall_dec, sig_not_dec]
* `C74_humidity_slice`: A slice of relative humidity: cell by cell from specific humidity, temperature and pressure of the cell. [classic, functional_extensionality_dep, sig_forall_dec, sig_not_dec]

### C75 A request made by axis type reaches exactly the dimensions of that axis

Code: src/CoordinateSystemSliceBuilder.cc:42-155; src/SliceBuilder.cc:53-167; include/fimex/coordSys/CoordinateAxis.h:92. Files: `CsbModel`, `CsbProps`. Status: proved.

for any history of calls, on the request builder model of C09; findings: a reference time axis with another name than its dimension is never reduced and makes every setTimeStartAndSize throw (C75_renamed_reference_refuted), getAxisTypes throws for a dimension without axis (C75_axis_types_refuted), setAxisStartAndSize may throw half-way (C75_half_done_refuted)

* `C75_new`: The constructor uses the first variable of the coordinate system. The request is the full extent of every dimension, but the first position only of an explicit reference time.
* `C75_new_throws`: Without such a variable, or if one of its dimensions is missing, the constructor throws.
* `C75_reference_time`: setReferenceTimePos sets an explicit reference time to one position, or throws and changes nothing; otherwise it does nothing.
* `C75_time`: setTimeStartAndSize sets the dimension of the time axis, or throws; without time axis it does nothing.
* `C75_axis`: setAxisStartAndSize for another type sets every explicit axis of the type, main or auxiliary. It throws exactly if one of them does not accept the request; requests for axes of other types never change.
* `C75_axis_times`: the two times by their type
* `C75_reference_time_stays_single`: An explicit reference time always has exactly one position requested, unless it is set by the name of its dimension.
* `C75_time_variable_builder`: getTimeVariableSliceBuilder: a request for the time variable that agrees with this one on every dimension of the time variable.
* `C75_axis_types`: getAxisTypes: the type of the axis with the name of the dimension, for every dimension in order; it throws if a dimension has no axis of its name.
* `C75_renamed_reference_refuted`: Finding: the reference time is recognised by the name of its axis only. If the reference time axis has another name than its dimension, the constructor leaves all reference times requested, setReferenceTimePos does nothing, and every setTimeStartAndSize throws.
* `C75_axis_types_refuted`: Finding: getAxisTypes throws if a dimension has no axis of its own name, as the offset of a two-dimensional time that is not an axis.
* `C75_half_done_refuted`: Finding: setAxisStartAndSize throws in the middle: the first axis of the type is changed, the second is not.

### C76 Vertical interpolation works column by column

Code: src/CDMVerticalInterpolator.cc:356-567; src/coordSys/verticalTransform/VerticalTransformationUtils.cc:317-426; include/fimex/FindNeighborElements.h:46-125; src/ArrayLoop.cc. Files: `VintModel`, `VintProofs`, `VintProps`. Status: proved.

VintModel.v follows getLevelDataSlice on top of LoopModel.v and SearchModel.v; variables and converters are functions of the position. C76_column gives every cell by its point (a coordinate for each dimension name), C76_every_cell says that these are all cells, C76_between what the neighbour search means for it. Findings: C76_first_level_refuted, C76_beyond_first_refuted, C76_limits_record_refuted (the limits in C76_column are those of record 0).

* `C76_column`
* `C76_every_cell`: every cell of the result belongs to a point and a target level
* `C76_between`: a level between the levels of the column: the value is interpolated between the largest level below and the smallest level above
* `C76_outside_limits`: outside the limits the value is undefined
* `C76_no_record`: a record that does not exist
* `C76_unknown_dimension`: A dimension the metadata do not know counts as one position.
* `C76_limits_used`: The limits used: those of the new levels if they have any, else those of the old levels; a limit to be ignored is none.
* `C76_valid_range`: Values outside the valid range of the variable are set to its ends, all others and missing ones stay.
* `C76_first_level_refuted`: Finding: a target level that is equal to the first level of the column is never interpolated: the value is undefined although the level is in the data
* `C76_beyond_first_refuted`: Finding: a level outside of the column that is closest to its first level is not extrapolated, whereas one that is closest to its last level is
* `C76_limits_record_refuted`: Finding: the limits are read for all records but always used at record 0: the level 12 is above the limit 0 of record 1, but the limit 14 of record 0 makes the value undefined

### C77 Vertical interpolation exchanges the vertical axis of exactly the variables on an exchangeable axis

Code: src/CDMVerticalInterpolator.cc:62-119; src/CDMVerticalInterpolator.cc:152-193; src/CDMVerticalInterpolator.cc:209-354; src/StringUtils.cc:86-106. Files: `VmetaModel`, `VmetaProofs`, `VmetaProps`. Status: proved.

The metadata is the CDM model of C44; a coordinate system is reduced to its axes, the set of variables it is complete for and whether it has a vertical transformation. The loop over coordinate systems and variables is proved by an invariant that describes every variable and its attributes; the regular expression is modelled by its word boundaries and proved against a text split into words.

* `C77_fixed`: Interpolation to fixed levels: with the name [v] found for the axis (C44 tells when there is one), the result has one more dimension and one more variable [v] holding the levels, with the units and direction of the vertical type; every variable complete in a system with an exchangeable vertical axis gets [v] in the place of the old dimension; the old vertical axes are gone; all other variables, dimensions and attributes stay. Data slices are interpolated for exactly those coordinate systems ([i_changed]).
* `C77_axis`: Interpolation to the vertical axis [v] of the file: the variables on another exchangeable axis get [v], those axes disappear, nothing is added.
* `C77_template`: Interpolation to the levels of a template variable: the variables on another exchangeable axis get the dimension of the template's axis; no variable disappears.
* `C77_accepted`: The constructor accepts exactly four types and seven methods.
* `C77_rejected`: The empty name is no axis; a template variable needs a coordinate system with an exchangeable vertical axis and a vertical transformation.
* `C77_description`: The names select the four types of vertical axes; the new axis of fixed levels is described by its type.
* `C77_fixed_once`: Once the new axis is there, a second call finds the same name again and throws.
* `C77_words`: When the name consists of word characters, exactly the words equal to it disappear from the text; what is between the words stays.
* `C77_unknown_axis_refuted`: Finding: interpolateToAxis accepts any name. Variables then have a dimension that does not exist.
* `C77_parts_of_names_refuted`: Finding: names may contain characters such as "-" and "."; then parts of the names of other coordinates are removed: removing "lev" from "lev.1 lev-b lon" leaves ".1 -b lon".
* `C77_special_name_stays_refuted`: Finding: a name that ends with such a character is not found between blanks: "lev+" stays.
* `C77_other_users_refuted`: Finding: other variables on the vertical dimension keep it, but its coordinate variable is gone.

### C78 The shape of a vertical converter holds every dimension once, and requests follow the dimension names

Code: src/coordSys/verticalTransform/VerticalTransformationUtils.cc:68-347; include/fimex/coordSys/verticalTransform/VerticalTransformationUtils.h:66-106; src/SliceBuilder.cc:47-118. Files: `ShapeModel`, `ShapeProps`. Status: proved.

ShapeModel.v follows the placement rules of merge; the order is proved by cases on the place of insertion from sortedness of the parts before and after it. adaptSliceBuilder is reduced to a history of setStartAndSize calls on the builder model of C02.

* `C78_merged`: Merging the shapes of the variables a converter needs gives every dimension once: exactly those of the shapes, except the dimensions of length 1 where these are to be skipped; in the order x, y, z, others, time, if the axes have different dimensions.
* `C78_keeps`: Merging keeps the order of what is there.
* `C78_unknown_throws`: A dimension not known throws where dimensions of length 1 are skipped.
* `C78_length1`
* `C78_adapted`: Adapting a request to another variable or converter: the dimensions both have get the request, the others their whole extent; if a request does not fit an exception is thrown.
* `C78_record`: The builder for a converter: every dimension whole (length 1 if it is not known); with the position in the unlimited dimension chosen, one record of it, an exception beyond its end.
* `C78_curvilinear_refuted`: Finding: with two-dimensional longitudes and latitudes both axes start with the same dimension; the second horizontal dimension is then treated as "other" and comes after the levels.
* `C78_scalar_axis_refuted`: Finding: an axis without dimension (a scalar time or level) is read past its end.

### C79 Selecting variables keeps exactly what was asked for and what it needs

Code: src/CDMExtractor.cc:228-257; src/CDMMergeUtils.cc:121-156. Files: `SelectModel`, `SelectProps`. Status: proved.

The metadata is the CDM model of C44, a coordinate system its complete-for set and its dependencies. Closure is the inductive relation `reach`; fuel is any number above the count of names that can occur. Finding: C79_removed_variable_refuted.

* `C79_auxiliary`: The set of selected names after adding the auxiliary variables: it is reached after a bounded number of rounds and holds exactly the names asked for and what they need.
* `C79_selected`: The variables kept: exactly the selected ones, unchanged; all others are gone with their attributes; dimensions stay. Names that do not exist are ignored.
* `C79_complete`: A kept variable keeps its dimension variables and the axes of its coordinate system.
* `C79_removed_variable_refuted`: Finding: a variable removed before is not there, but its axes are kept if it is asked for again: the coordinate systems are those of the data reader.

### C80 Reducing an axis by values keeps exactly the positions in the range

Code: src/CDMExtractor.cc:303-406; src/TimeUnit.cc. Files: `SelectModel`, `SelectProps`. Status: proved.

Exact rationals; the two binary searches are proved from the partition of the values. Unit conversion is a given slope and offset. Findings: C80_second_range_ignored_refuted, C80_above_all_refuted, C80_negative_slope_refuted, C80_not_monotone_refuted.

* `C80_axis`: One axis.
* `C80_member`: A position is kept exactly if its value is in the widened range.
* `C80_contains`: All positions in the range asked for are kept.
* `C80_empty_range`: A range without values leaves a dimension of length 0.
* `C80_time`: Open ends of a time range do not limit anything (all values being in the range of double seconds).
* `C80_time_range`: The time range is one on the time axis in seconds since 1970: an invalid or open lower end is the lowest number, an invalid or open upper end the highest one.
* `C80_axes`: All axes of the types asked for, in units that can be converted: every dimension is reduced once, by the first one-dimensional axis on it, unless it was reduced before.
* `C80_safe`: Whatever the order of the data: the positions kept are positions of the axis.
* `C80_second_range_ignored_refuted`: Finding: a second reduction of the same dimension is ignored: asking for 0..3 and then for 1..2 keeps the positions 0..3.
* `C80_above_all_refuted`: Finding: a range that is above all values empties the dimension; with debug messages switched on the element behind the last one is read.
* `C80_negative_slope_refuted`: Finding: units pointing the other way (negative slope) exchange the ends of the range: nothing is kept.
* `C80_not_monotone_refuted`: Finding: on an axis that is not monotone, values in the range are left out and values outside are kept.

### C81 A latitude/longitude bounding box keeps exactly the rows and columns with points in it

Code: src/CDMExtractor.cc:408-488. Files: `SelectModel`, `SelectProps`. Status: proved.

The projection is a given function from the axes to longitude and latitude. Findings: C81_longitudes_to_360_refuted, C81_shared_axis_refuted, C81_empty_refuted.

* `C81_box`: A coordinate system that shares no axis with an earlier one: a column of the grid is kept exactly if one of its points is in the box, a row likewise.
* `C81_untouched`: Dimensions that are no horizontal axis of a coordinate system are left alone.
* `C81_accepted`: The box is accepted exactly in this range (if the data can be read and the axes are dimensions of the extractor, not reduced before).
* `C81_longitudes_to_360_refuted`: Finding: longitudes are compared as numbers. On a grid with longitudes from 0 to 360 the part west of Greenwich is lost: 350 degrees is 10 degrees west and in the box from 20 west to 20 east.
* `C81_shared_axis_refuted`: Finding: a coordinate system that shares one axis with an earlier one (a staggered grid) keeps its other axis whole.
* `C81_empty_refuted`: Finding: a box without points empties the dimensions.

### C82 Merged files show the compatible inner variables, what they need, and the outer variables asked for

Code: src/CDMMergeUtils.cc:49-119; src/CDMMergeUtils.cc:164-321; src/CDMOverlay.cc:91-114; src/CDMBorderSmoothing.cc:98-105; src/CDMMerger.cc:150-209. Files: `MergedModel`, `MergedProps`. Status: proved.

Metadata as in C44, closure as in C79; the interpolated outer file is any metadata with coordinate systems. is_compatible is modelled with exceptions and null pointers, unlike in C70. Findings: C82_y_unit_refuted, C82_keep_outer_refuted, C82_auxiliary_unreadable_refuted, C82_scalar_axis_refuted, C82_two_unlimited_refuted, C82_no_horizontal_refuted.

* `C82_compatible`: A variable with a coordinate system in both files, all axes and dimensions known: it is compatible exactly if the axes of every type agree and the shapes are the same or correspond.
* `C82_compatible_other`: Without coordinate system in both files it is compatible; missing in one file, or with a coordinate system in only one of them, it is not.
* `C82_merged`: Every variable of the merged file: a variable of the inner file is kept unchanged if it is compatible or needed by a kept one, and is absent otherwise; the other variables are those of the interpolated outer file if these were asked for. Dimensions of the inner file go before those of the outer.
* `C82_defined`: Merging succeeds as soon as an inner variable gives a grid, its axes can be read, the outer file can be interpolated and the comparison of no variable throws; it throws if no variable gives a grid.
* `C82_grid`: The grid is that of the first inner variable that is also in the outer file and has a complete coordinate system with projection and simple horizontal axes; with its projection and the values of its axes in the unit of the file.
* `C82_axis_rejected`: An unlimited or unknown horizontal axis is rejected.
* `C82_smoothing_source`: Border smoothing: every variable of the merged metadata can be read; coordinate variables and variables the outer file does not have are those of the inner file.
* `C82_overlay_source`: Overlay: dimension variables come from the top file, variables missing there from the base file, all others from both; reading throws exactly for a variable of the top file that is no dimension and not in the base file.
* `C82_target`: setTargetGridFromInner: the first inner variable that is in both files, is no dimension and has in both a complete coordinate system with simple axes and projections both in degrees or both not.
* `C82_target_variable`
* `C82_y_unit_refuted`: Finding: both units handed to the interpolation of the outer file are the unit of the x axis; with degrees_east and degrees_north, or km and m, the y axis has the wrong one.
* `C82_keep_outer_refuted`: Finding: with all outer variables asked for, a variable that is in both files but not compatible is missing, and a variable taken from the outer file gets dimensions of the length of the inner file: w has 5 levels, k has 3.
* `C82_auxiliary_unreadable_refuted`: Finding: the grid mapping and other auxiliary variables are kept from the top file, but reading them throws if the base file does not have them.
* `C82_scalar_axis_refuted`
* `C82_two_unlimited_refuted`: Finding: dimensions added from the outer file may give the result a second unlimited dimension.
* `C82_no_horizontal_refuted`: Finding: shapes that differ and a coordinate system without x or y axis: a null pointer is followed.

### C83 A netCDF file written has the metadata asked for and they are read back

Code: src/io/netcdf/NetCDF_CDMWriter.cc:150-345; src/io/netcdf/NetCDF_CDMWriter.cc:347-400; src/io/netcdf/NetCDF_CDMWriter.cc:466-544; src/io/netcdf/NetCDF_CDMReader.cc:46-130; src/io/netcdf/NetCDF_Utils.cc:200-272. Files: `NcwConfProps`, `NcwModel`, `NcwProps`. Status: proved.

Metadata as in C44; a netCDF file is a list of dimensions, variables and attributes with the rules of the library for definitions. The configuration is a record, its XML syntax is not modelled. Findings: C83_reference_refuted, C83_retype_fill_refuted, C83_zero_length_refuted, C83_length_refuted, C83_unknown_dimension_refuted, C83_strings_refuted, C83_nul_refuted.

* `C83_classic`: A file that is not netCDF-4 has only the six classic types: if the metadata is defined, every variable has one of them. No variable has an unknown type.
* `C83_roundtrip`: A file written and read again has the dimensions, variables, types, shapes and attributes of the writer, under the new names; in the same order. The unlimited dimension has the length of what was written; of several unlimited dimensions only the first is reported as such; a dimension of length 0 has length 1.
* `C83_defined`: Metadata that fit the format are always written: lengths below 2^31, distinct names, one unlimited dimension outside netCDF-4, in the classic formats always the slowest one of a variable, types and attributes of the format, compression levels 0 to 9 and 11 to 19.
* `C83_removed`: What is removed: the variables named, their attributes and the attributes named; a dimension named, or any one if unused dimensions are to be removed, unless a remaining variable has it.
* `C83_default`: Without a configuration nothing is renamed or retyped, and only unused dimensions are left out.
* `C83_renamed`: The new names: for a variable the one given for it (the last), else the first one given for the dimension of its name; for a dimension the last one given.
* `C83_attribute`: An attribute edited keeps or gets its content under the (new) name, as the last one of the variable; all others stay. It is an error if the variable or (without a content) the attribute does not exist, or the new name is taken.
* `C83_retyped`: The variables and dimensions written are those left, in their order, the variables with the type given.
* `C83_reference_refuted`: Finding: attributes that refer to a variable by name (coordinates, grid_mapping, bounds) keep the old name when the variable is renamed.
* `C83_retype_fill_refuted`: Finding: changing the type of a variable with a fill value is an error unless the fill value is changed too.
* `C83_zero_length_refuted`: Finding: a dimension of length 0 is written with length 1.
* `C83_length_refuted`: Finding: lengths are reduced to 32 bits, so a length of 2^32 + 5 is written as 5.
* `C83_unknown_dimension_refuted`: Finding: a variable with a dimension that is not in the metadata is undefined behaviour, since the iterator of the failed search is used.
* `C83_strings_refuted`: Finding: without netCDF-4 an attribute of type strings comes back as a string, and a trailing NUL character is lost in every format.
* `C83_nul_refuted`

### C84 The data written to a netCDF file are those of the reader, in any order of the threads

Code: src/io/netcdf/NetCDF_CDMWriter.cc:97-103; src/io/netcdf/NetCDF_CDMWriter.cc:546-739; src/io/netcdf/NetCDF_Utils.cc:358-441. Files: `NcdProps`, `NcwConfProps`. Status: proved.

The loop is a fold over any permutation of the pairs of position and variable, on a file of C83 with cells. Conversions as in C24 and C25; packing attributes that are NaN are not modelled. Findings: C84_renamed_unlimited_refuted, C84_no_conversion_refuted, C84_wrong_size_refuted, C84_second_unlimited_refuted, C84_untyped_scalar_refuted.

* `C84_wrong_size_refuted`: Finding: data of another size than the slice are dropped with a message only; the writer goes on and succeeds.
* `C84_written`: In whatever order the threads take the jobs, the writer succeeds, every slice holds the data delivered for it, nothing else is changed, and the unlimited dimension has the largest record written.
* `C84_read_back`: Read with the reader, every slice gives the data delivered, if the unlimited dimension is the slowest one.
* `C84_renamed_unlimited_refuted`: Finding: if the unlimited dimension is renamed, the writer looks for its old name in the file and fails after the definitions.
* `C84_same_packing`: Same units, fill value and packing: the data go through.
* `C84_new_packing`: Other units or packing, into a floating point type: missing values become the new fill value, and the value meant by every other number is the one meant before, in the new units.
* `C84_no_conversion_refuted`: Finding: if the old units cannot be converted to the configured ones, the data are written unconverted under the new units.
* `C84_types`: In a configured writer the type given for a variable is its type.
* `C84_second_unlimited_refuted`: Finding: data on a second unlimited dimension are lost, since its length is 0 while they are written.
* `C84_untyped_scalar_refuted`: Finding: a scalar without a type is defined as an int, but its data are never written.
* `C84_exception`: If the reader cannot deliver one of the values needed, writing throws.

### C85 Chunks of compressed netCDF variables are accepted by the library

Code: src/io/netcdf/NetCDF_CDMWriter.cc:401-466; include/fimex/MathUtils.h:53-61. Files: `NcwConfProps`, `NcwModel`, `NcwProps`. Status: proved.

Lengths as unsigned int, the running product as size_t, exactly as in the code. Findings: C85_chunk_length_refuted, C85_product_wraps_refuted.

* `C85_configuration`: The level of compression of a variable: the last one configured for it, otherwise the default one; the length of a chunk for a dimension: the last one configured.
* `C85_accepted`: The chunk lengths are accepted by the library whatever the lengths of the dimensions and the configured chunk sizes: none is 0 or larger than its dimension.
* `C85_compress`: Whether a variable is compressed: not in the classic formats, not with level 0, not a scalar; otherwise always, with levels 1 to 9 and, for 11 to 19, with shuffling.
* `C85_small`: A small variable (less than 2^21 values per record) without configured chunk sizes is one chunk per record.
* `C85_configured`: A configured chunk size is used for its dimension, at most the length of the dimension.
* `C85_chunk_length_refuted`: Finding: the number meant to bring a large chunk to about 2^17 values is the number of such chunks, not the length: a vector of 2^22 values gets chunks of 32 values, and 100000 x 1000 values get chunks of 76 million.
* `C85_product_wraps_refuted`: Finding: the product of the lengths may wrap to 0, then no chunks are set although the variable is compressed.

### C86 Slices of a netCDF file opened for reading and writing

Code: src/io/netcdf/NetCDF_CDMReader.cc:134-276; src/io/netcdf/NetCDF_Utils.cc:276-441. Files: `NcModel`, `NcProps`. Status: proved.

The rules of nc_put_vara and nc_get_vara are part of the model. Findings: C86_unlimited_not_first_refuted, C86_second_unlimited_refuted.

* `C86_request_put_get`: Data written with a request are read back by the same request.
* `C86_request_frame`: Data outside the request stay as they are: another variable, or a request without a common position.
* `C86_request_refused`: A request that exceeds a fixed dimension, or with another number of values, throws.
* `C86_slice_put_get`: A record written with putDataSlice is read back by getDataSlice, whatever the metadata of the reader say about unlimited dimensions.
* `C86_slice_other_record`: Another record of the same variable stays as it is.
* `C86_slice_other_variable`: Other variables stay as they are, unless their slices run over an unlimited dimension that grows.
* `C86_append`: Writing the record after the last one appends: the unlimited dimension becomes one longer, a record further out leaves a gap.
* `C86_unlimited_not_first_refuted`: Finding: the unlimited dimension is taken to be the slowest one. In netCDF-4 it need not be; then the record read is a slice of another dimension: asked for time 1 of w(x, time), the answer is x = 1 at all times.
* `C86_second_unlimited_refuted`: Finding: only the first unlimited dimension of a netCDF-4 file is reported as unlimited.

### C87 An NcML document changes exactly the metadata it names

Code: src/NcmlCDMReader.cc:57-94; src/NcmlCDMReader.cc:131-529; src/NcmlUtils.cc:1-60. Files: `NcmlValuesProps`, `NmlModel`, `NmlProofs`, `NmlProps`. Status: proved.

A document is given by its elements; libxml2 and XPath are not modelled. Parsing of numbers (initDataByArray, string2type) is a parameter. Findings: C87_unsigned_refuted, C87_char_refuted, C87_rename_attribute_refuted, C87_rename_self_refuted, C87_negative_length_refuted, C87_no_values_refuted, C87_unlimited_refuted, C87_data_in_memory_refuted.

* `C87_progression`: A start and an increment: the variable gets as many values as its dimensions make, the i-th of them start + i * increment, converted to the type of the variable.
* `C87_values`: Values given one by one: there must be as many as the dimensions make (one at most for a scalar).
* `C87_separator`: The separator of an attribute that is not a string separates its values; a string is not separated.
* `C87_untouched`: a variable no element of the document mentions: only its dimensions get their new names
* `C87_edited`: a variable with one <variable> element, under its old name or with orgName
* `C87_added`: a <variable> element with a type for a name not in the file
* `C87_removed`: a removed variable is gone with its attributes
* `C87_dimension`: a dimension of the file with one <dimension> element, under its old name or with orgName
* `C87_dimension_kept`: a dimension without element keeps its length; one with a length and a new name is added
* `C87_dimension_added`
* `C87_dimension_in_use`: a dimension in use cannot be removed; one removed is gone
* `C87_dimension_removed`
* `C87_globals`: global attributes
* `C87_identity`: a document without elements changes nothing
* `C87_unsigned_refuted`: Finding: the attribute _Unsigned of a variable is looked up at the root of the document and never found; an unsigned type is read as the signed one.
* `C87_char_refuted`: Finding: giving a variable of the file the type "char" is refused whatever else the document says.
* `C87_rename_attribute_refuted`: Finding: renaming an attribute to the name of one before it renames another attribute (or reads past the end): here "long" is to be called "units", but "scale_factor" is.
* `C87_rename_self_refuted`: Finding: naming a variable's own name as orgName removes the variable; for a dimension it is refused.
* `C87_negative_length_refuted`: Finding: a negative length is taken for a huge one.
* `C87_no_values_refuted`: Finding: start and increment for a variable with a dimension of length 0 write out of bounds.
* `C87_unlimited_refuted`: Finding: making a renamed dimension unlimited gives the variable of its new name the data of the variable of its old name.
* `C87_data_in_memory_refuted`: Finding: the data a variable holds in memory are not converted when its type is changed.

### C88 Data read through an NcML document are those of the original variable

Code: src/NcmlCDMReader.cc:542-602. Files: `NmlModel`, `NmlProofs`, `NmlProps`. Status: proved.

The wrapped reader is any function from requests to data. Findings: C88_chain_refuted, C88_shape_refuted.

* `C88_untouched`: data of a variable whose type is not changed: those of the original variable, at the same positions
* `C88_edited`
* `C88_beyond`: asking beyond the end of a dimension of the original file gives no data at all
* `C88_physical`: a change to a floating-point type keeps the physical values: fill values stay fill values, and scale and offset of old and new variable are taken into account
* `C88_chain_refuted`: Finding: when variables are renamed in a chain, the second gets the description of the first and reads the data of the one that was overwritten.
* `C88_shape_refuted`: Finding: a changed shape changes the description only: with the dimensions exchanged, the data come in the old order; with a dimension added, there are too few of them.

### C89 Metadata and data written as NcML are read back

Code: src/NcmlCDMWriter.cc:41-225; src/XMLUtils.cc:153-181; src/NcmlCDMReader.cc:57-94; src/NcmlCDMReader.cc:131-529. Files: `NcmlValuesProps`, `NmlwModel`, `NmlwProps`. Status: proved.

The document is taken as an XML parser delivers it, with attribute values normalised. Printing and parsing of numbers are parameters, so loss of digits is a hypothesis; string variables are not modelled. Findings: C89_line_end_refuted, C89_empty_refuted, C89_unsigned_refuted, C89_no_records_refuted, C89_long_refuted, C89_counterpart_refuted, C89_shape_refuted, C89_comma_refuted, C89_marker_refuted.

* `C89_records`
* `C89_escaped`
* `C89_with_data`: Metadata and data: the dimensions are read back unchanged, the variables with their names, shapes and values and the attributes in their order, with the types that the document's names of types have.
* `C89_without_data`: Metadata alone, whatever the reader answers: the same, and the variables have no values.
* `C89_unchanged`: Without unsigned types and with numbers that are read as they were: nothing changes.
* `C89_separator`: A list of strings is written with a separator that occurs in none of them; without one the writer throws.
* `C89_strings`: Read back: with a separator of its own the list is the same, if no string holds a dash when the separator is the long one; without, if the strings are words.
* `C89_line_end_refuted`: Finding: line ends and tabs in attributes are written as they are, so that a parser delivers spaces.
* `C89_empty_refuted`: Finding: an attribute with an empty text is written and ignored by the reader.
* `C89_unsigned_refuted`: Finding: the types without sign are read as those with sign; the mark that is written is kept as an attribute and not acted upon.
* `C89_no_records_refuted`: Finding: with its data, a file whose unlimited dimension is empty is written as a document that the reader refuses.
* `C89_long_refuted`: Finding: so is a file with a dimension of 2^31 positions, even without data.
* `C89_counterpart_refuted`: Finding: the name of a vector's other component is not written.
* `C89_shape_refuted`: Finding: a dimension whose name holds a space is read as two dimensions in the shapes.
* `C89_comma_refuted`: Finding: strings without spaces are written with spaces between them and no separator named; the reader also splits them at commas, and drops empty strings.
* `C89_marker_refuted`: Finding: a separator that no string holds can still begin inside a string.

### C90 Coordinate systems of CF files are those of the data variables

Code: src/coordSys/CF1_xCoordSysBuilder.cc:108-136; src/coordSys/CF1_xCoordSysBuilder.cc:245-553; src/coordSys/CoordinateSystem.cc:100-330. Files: `CfcsModel`, `CfcsProofs`, `CfcsProps`. Status: proved.

Logging is left out; an attribute is its text. Units are recognised by parameters, projections made by a parameter. Findings: C90_two_times_refuted, C90_alphabet_refuted, C90_line_end_refuted, C90_shared_refuted, C90_comma_refuted.

* `C90_axes`: the axes of a file are its dimensions and the names in the attributes "coordinates"
* `C90_from_variable`: every listed system is that of a data variable: the dimensions are axes, the coordinates auxiliary axes, but for coordinates with the type of a dimension that is before them in the alphabet; it is the first variable with the same names of axes
* `C90_throws`: listing throws when some data variable has two dimensions of one type, and otherwise only when the projection cannot be made
* `C90_succeeds`
* `C90_flags`: isComplete and isCSFor compare the names of the axes
* `C90_own`: a data variable with known axes of different types has a system with exactly its axes, and that is what findCompleteCoordinateSystemFor finds; there is no other
* `C90_order`: the systems are in the order of their identifiers, no two have the same names of axes
* `C90_simple`
* `C90_projection`
* `C90_bounds`: the variables with the bounds of the axes belong to the system
* `C90_dependencies_exist`: every dependency exists
* `C90_two_times_refuted`
* `C90_alphabet_refuted`
* `C90_line_end_refuted`
* `C90_shared_refuted`
* `C90_comma_refuted`: Finding: a comma in a name

### C91 Types of the axes of CF files follow the CF attributes

Code: src/coordSys/CF1_xCoordSysBuilder.cc:138-243; src/StringUtils.cc:51-58. Files: `CfvertProps`. Status: proved.

Recognition of time units and conversion of units are parameters. Findings: C91_positive_case_refuted, C91_bytes_refuted.

* `C91_standard_name`: a known standard name decides, in upper or lower case
* `C91_units`: otherwise degrees, a time unit, a unit of pressure or a name of a level
* `C91_positive`: otherwise the attribute positive: a vertical axis, of height or depth with a unit of length
* `C91_axis`: otherwise the attribute axis, in upper or lower case
* `C91_undefined`
* `C91_ascii`
* `C91_positive_case_refuted`: Finding: positive is compared in lower case only; a height with positive "UP" is taken for a depth
* `C91_bytes_refuted`: Finding: a standard name or a unit with a byte above 127, as the degree sign, is undefined behaviour

### C92 Vertical transformations of CF files have the variables of their formula terms

Code: src/coordSys/CF1_xCoordSysBuilder.cc:60-72; src/coordSys/CF1_xCoordSysBuilder.cc:255-281; src/coordSys/CF1_xCoordSysBuilder.cc:440-530. Files: `CfvertProps`. Status: proved.

The regular expression for terms is a scanner; texts in which a term or a name holds a colon are modelled but not specified. C92_listed links the transformation to the listed systems. Findings: C92_unchecked_b_refuted, C92_case_refuted.

* `C92_formula_terms`: terms and names are read as they are written
* `C92_pressure`
* `C92_depth`
* `C92_height`
* `C92_formula`
* `C92_unknown`: any other standard name, or none, gives no transformation
* `C92_none`: no vertical axis, or one without variable
* `C92_listed`: it is what the listed systems have
* `C92_unchecked_b_refuted`: Finding: the term b of hybrid levels may be on a dimension that is not of the system
* `C92_case_refuted`: Finding: the standard name is compared with its case, although the axis was found without it

### C93 Vectors found by standard names are symmetric pairs of one shape

Code: src/coordSys/CF1_xCoordSysBuilder.cc:82-99; src/coordSys/CF1_xCoordSysBuilder.cc:555-662; src/coordSys/WRFCoordSysBuilder.cc:63-94; src/coordSys/CoordinateSystem.cc:113-120; src/coordSys/CoordinateSystem.cc:459-529. Files: `VecModel`, `VecProps`. Status: proved.

Logging is left out; the vectors are a map from names to counterpart and direction, and the metadata is otherwise unchanged. Coordinate systems of WRF files are a parameter. Findings: C93_heights_refuted, C93_prefix_refuted, C93_shapes_refuted.

* `C93_kept`: vectors that are known already are kept
* `C93_pairs`: a new vector has a counterpart that has it as its counterpart; the two have the same shape and their standard names begin with those of a row of the table, which gives the directions
* `C93_others`: all others are as before
* `C93_all`: no two variables that could be a pair are left
* `C93_again`: finding vectors again changes nothing
* `C93_only`: two variables of a row are a pair when no other variable with a standard name of the table has their shape
* `C93_order`: the variables of a row that wait with the same shape are paired in the order of the file
* `C93_wrf`
* `C93_convention`
* `C93_systems`: the same for the coordinate systems, but those for CF files are also listed when nothing is found
* `C93_heights_refuted`: Finding: wind at two heights is paired by the order of the variables
* `C93_prefix_refuted`: Finding: the beginning of the standard name decides, so the shear of the wind is a vector with the wind
* `C93_shapes_refuted`: Finding: U and V of WRF files are on different dimensions
* `C93_table`
* `C93_no_counterpart`: A variable with an empty counterpart is no vector yet.

### C94 Horizontal interpolation is offered the last usable system of each pair of horizontal axes

Code: src/coordSys/CoordinateSystem.cc:166-179; src/coordSys/CoordinateSystem.cc:362-452. Files: `BestModel`, `BestProps`. Status: proved.

Systems are those of C90 and are assumed well-formed (C94_listed proves it for CF files without an axis called _GLOBAL). The output containers are empty at the call. Findings: C94_coordinates_refuted, C94_projection_refuted, C94_axes_refuted.

* `C94_found`: the property
* `C94_listed`: the systems listed for a CF file are well-formed
* `C94_cf`
* `C94_coordinates_refuted`: Finding: of the systems with the same horizontal axes the last one counts; when one variable does not name its longitudes and latitudes these become incompatible variables
* `C94_projection_refuted`: Finding: variables with another grid mapping on the same axes get the projection of the last system
* `C94_axes_refuted`: Finding: when some variable has the horizontal axes only and does not name its longitudes and latitudes, these are taken for data of the system they belong to

### C95 A projection has one attribute of each name and one description of the earth

Code: src/coordSys/Projection.cc:107-156; src/coordSys/ProjectionImpl.cc:47-122. Files: `ProjModel`, `ProjProps`. Status: proved.

Attributes as in C43. toString and sameProjection are not modelled.

* `C95_parameters`: A projection created from attributes has each parameter once. Apart from the figure of the earth it is the last one given; the figure is either a radius, the last one given or the default one, or the axes and the flattening given after the last radius.
* `C95_created`: Creation fails exactly if the projection is not known or two names of it differ.

### C96 A projection written as a PROJ.4 text is read back with the same numbers and earth

Code: src/coordSys/ProjectionImpl.cc:124-330; src/coordSys/Projection.cc:76-105; src/coordSys/Projection.cc:158-205; src/coordSys/StereographicProjection.cc:40-100; src/coordSys/PolarStereographicProjection.cc:40-76; src/coordSys/RotatedLatitudeLongitudeProjection.cc:50-120; src/coordSys/TransverseMercatorProjection.cc:40-125; src/coordSys/LambertConformalConicProjection.cc:40-105; src/coordSys/AlbersConicalEqualAreaProjection.cc:40-105. Files: `ProjConicProps`, `ProjEarthProps`, `ProjKindProps`, `ProjNormProps`, `ProjTripProofs`, `ProjTripProps`. Status: proved.

The functions that print and parse doubles are parameters; the theorems assume that they are inverse on the values used, that printed numbers have no blank, = or _, and that numbers are not NaN. Regular expressions are modelled by what they match. Projecting itself (proj library) is not modelled. Findings: C96_second_parallel_refuted, C96_grid_longitude_refuted, C96_scale_refuted, C96_sweep_refuted, C96_flattening_refuted, C96_utm_refuted, C96_polar_longitude_refuted, C96_lonlat_refuted, C96_no_text_refuted.

* `C96_conic`: A conic projection gets back the first standard parallel twice unless it has three or more.
* `C96_second_parallel_refuted`: Finding: of two standard parallels the second is not written (`size() > 2`): another cone.
* `C96_rotated`: A rotated pole keeps its longitude between -180 and 180 and its latitude; the longitude of the pole in the grid only if it is positive.
* `C96_grid_longitude_refuted`: Finding: a negative longitude of the pole in the grid is lost.
* `C96_scale_refuted`: Finding: the scale factor of mercator, oblique and transverse mercator projections is written as +k_0 and read as +k.
* `C96_sweep_refuted`: Finding: the sweep axis of a geostationary projection is read as "sweep_axis" but written from "sweep_angle_axis".
* `C96_flattening_refuted`: Finding: a flattening is written but not read: the ellipsoid becomes a sphere.
* `C96_utm_refuted`: Finding: of the longitude in the text of a UTM projection only the digits before the point count, and a negative one is ignored.
* `C96_unknown`: A text of a projection that is not known is kept as it is.
* `C96_polar_longitude_refuted`: Finding: a polar stereographic text without +lon_0 is accepted and then fails.
* `C96_lonlat_refuted`: Finding: the text of a projection and that of the longitudes and latitudes on its earth always differ (+no_defs), so that the shortcut of convertToLonLat and convertFromLonLat for longitudes and latitudes is never taken.
* `C96_no_text_refuted`: Finding: a projection unknown_to_fgdc without a proj4 text has none.
* `C96_kind`
* `C96_no_kind`: without +proj= the text is refused
* `C96_pole_longitude`: The pole of a rotated grid lies at lon_0 + 180, brought into -180..180 by whole turns.
* `C96_no_rotation`
* `C96_round_trip`: If the text can be read by createByProj4, the projection read has the same class, the same numbers and the same earth.

### C97 Replacing the figure of the earth changes no other word of a PROJ.4 text

Code: src/coordSys/Projection.cc:207-224. Files: `ProjEarthProps`. Status: proved.

Words as in C96. Finding: C97_flattening_refuted.

* `C97_words`: The words of the figure are dropped and the new figure is put behind the others, which keep their order.
* `C97_values`: So the keys of the figure have their values from the new figure only, and a word that is in the text before and does not belong to the figure keeps its value.
* `C97_empty`: No figure, no change.
* `C97_flattening_refuted`: Finding: a flattening or a shift of the datum given before stays with the new figure.

### C98 The earth, the shift of the datum and the UTM zone are read from PROJ.4 texts as described

Code: src/coordSys/ProjectionImpl.cc:223-317; src/coordSys/TransverseMercatorProjection.cc:51-105; src/coordSys/Projection.cc:158-205. Files: `ProjReadProps`. Status: proved.

As C96: the functions that read numbers and take the square root are parameters; regular expressions are modelled by what they match. Findings: C98_unknown_ellipsoid_refuted, C98_bessel_refuted, C98_zone_refuted.

* `C98_ellipsoid`: A known ellipsoid is the figure, whatever else is given.
* `C98_bessel`: Bessel's ellipsoid has an axis and a flattening; a short axis is there only if it is given as well.
* `C98_axes`: Without a known ellipsoid the figure is given by the axes, and there is no flattening.
* `C98_shift`
* `C98_utm`: UTM: the zone gives the central meridian unless digits follow +lon_0=; the false easting is 500 km and the false northing 0 or 10000 km unless they are given.
* `C98_unknown_ellipsoid_refuted`: Finding: an ellipsoid that is not in the list (as clrk66) becomes a sphere without a word.
* `C98_bessel_refuted`: Finding: Bessel's ellipsoid with a short axis given as well has three numbers for two axes.
* `C98_zone_refuted`: Finding: a zone of more than 60 is taken as 60.

### C99 The metadata after a change of the projection

Code: src/CDMInterpolator.cc:694-937; src/CDM.cc:660-702. Files: `InterpCaseProps`, `InterpModel`, `InterpProofs`, `InterpProps`. Status: proved.

C99_geographic and C99_projected say what is in the result in terms of lookup by name; C99_shapes that its shapes are well-formed. The systems and data variables are those of C94. The functions that read and write PROJ.4 texts and compute longitudes and latitudes are parameters. Findings: C99_rotated_refuted, C99_staggered_refuted, C99_shared_axis_refuted, C99_coordinates_refuted, C99_same_names_refuted.

* `C99_rotated_refuted`: Finding: a rotated pole is described as rotated_latitude_longitude, but its axes are not called grid_longitude and grid_latitude: the test is for a name the variable never has
* `C99_staggered_refuted`: Finding: wind components on staggered grids share one axis with the other variables; such files cannot be interpolated, as the shared dimension is removed although it is used
* `C99_shared_axis_refuted`: Finding: with the same x axis but another y axis the attributes of the x axis and the old dimension of y differ from the case of separate axes: the x axis is removed and made anew, the dimension is kept
* `C99_coordinates_refuted`: Finding: other coordinates of a variable, like a height, are no longer named; the bounds of an axis are, although they belong to the old values
* `C99_same_names_refuted`: Finding: the names for longitudes and latitudes are chosen before the first one is used, so that they may be the same
* `C99_geographic`
* `C99_projected`
* `C99_shapes`
* `C99_axis_values`: the values of a new axis: those of the target, converted to its type
* `C99_systems`: a file without a system that can be interpolated is refused; otherwise the variables that depend on horizontal axes without belonging to a system are left out, and the rest changed as described above

### C100 Parts of interpolated variables are parts of the whole

Code: src/CDMInterpolator.cc:140-278; src/CachedInterpolation.cc:89-128; src/CachedInterpolation.cc:317-337. Files: `IreadCaseProps`, `IreadFindProps`, `IreadModel`, `IreadProofs`, `IreadProps`. Status: proved.

C100_pieces, C100_record and C100_vector for any interpolation that treats layers separately; C100_nearest_layers shows it for nearest neighbours and C100_nearest combines it with C09. The reader serves data from memory (C01). Rounding to float is not modelled; no dimension is unlimited for the range check of SliceBuilder. Findings: C100_second_grid_refuted, C100_order_refuted, C100_packed_refuted, C100_other_axes_refuted, C100_other_levels_refuted.

* `C100_nearest_layers`: The nearest-neighbour interpolation treats layers separately, so that [by_layers] is met by it.
* `C100_nearest`: Nearest-neighbour interpolation of floats, from the reader to the reader of the interpolated file: whatever box is asked for, each value is that of the input cell closest to the point, on the same levels and times, and the fill value where there is no such cell.
* `C100_vector`: Both components of a vector are read with the same turning of the same two interpolated fields: the x component is its first, the y component its second result. Without the turning the two fields themselves are read.
* `C100_record`: A record of an interpolated variable is the part of the whole at that position of the unlimited dimension.
* `C100_second_grid_refuted`: Finding: a variable of a second grid has other names of its horizontal dimensions than the axes it is interpolated from (C99). All of it can be read, but a part of its rows or columns can not.
* `C100_order_refuted`: Finding: the two fastest dimensions are taken for x and y whatever they are. A variable whose rows are fastest is interpolated from wrong cells: at the point (2, 0) it has the value 20, but 10 is read.
* `C100_packed_refuted`: Finding: vectors are turned as they are stored. With an offset o the value meant by a stored n is n + o; the quarter turn of (u, v) has the first component - v, but with an offset of 10 another one is read.
* `C100_other_axes_refuted`: Finding: the components of a vector on different axes are not turned at all, without an error.
* `C100_other_levels_refuted`: Finding: if the other component has a dimension this one has not, neither can be read.
* `C100_pieces`: A part of an interpolated variable is that part of the whole of it: whatever box is asked for, the values are those the whole variable has there.
* `C100_partner`: the other component of a vector: the counterpart named by the variable, on the same grid, if that grid is turned; the variable itself is the x component if its direction says so

### C101 An index keeps the metadata

Code: src/ProtobufCDM.cc:55-302; src/StringUtils.cc:134-161; src/protobuf/cdm.proto:21-54. Files: `PbufModel`, `PbufProofs`, `PbufProps`. Status: proved.

C101_round_trip, C101_again and C101_no_data. The messages are modelled field by field; numbers of strings are not cut to 32 bits (such a message is larger than protobuf can write); data whose type differs from the variable cannot exist (setData refuses). Findings: C101_vector_refuted, C101_strings_refuted, C101_empty_refuted, C101_length_refuted, C101_global_refuted.

* `C101_round_trip`: the metadata are read back: the dimensions, the variables (but not that they belong to a vector), the global attributes and those of every variable, in their order
* `C101_again`: an index of what was read from an index is the same index
* `C101_no_data`: a variable of any type (also of several texts or of no type) without data is read as such
* `C101_vector_refuted`: Finding: that a variable is a component of a vector is not kept: no data read by way of an index are rotated to another projection.
* `C101_strings_refuted`: Finding: several texts are read from the start of the table instead of their place in it; where the table is too short, past its end.
* `C101_empty_refuted`: Finding: an attribute of no numbers comes back without data; asking for its type then follows a null pointer, and so does writing it again.
* `C101_length_refuted`: Finding: a length of more than 32 bits is cut.
* `C101_global_refuted`: Finding: with a variable named _GLOBAL the index of a file with global attributes cannot be read.

### C102 A GRIB index keeps the place of every message

Code: src/io/grib/GribProtobufIndexWriter.cc:48-86; src/io/grib/GribProtobufIndexReader.cc:45-109; src/io/grib/GribCDMReader.cc:125-141; src/io/grib/GribCDMReader.cc:240-260; src/FileUtils.cc:241-274. Files: `PbufFileProps`. Status: proved.

C102_round_trip (for any serialisation that can be parsed back; that protobuf is one is trusted, and holds for texts in UTF-8 only), C102_join, C102_place, C102_missing, C102_magic. The configured root_path replaces the directory of the index and is not modelled. Findings: C102_directories_refuted, C102_version_refuted, C102_size_refuted.

* `C102_round_trip`: the index file of metadata and messages: the metadata are read as C101 says, the messages of every variable and their scaling as they were, and of the files the names without directories; [ser] and [par] are the protobuf library's writing and reading
* `C102_join`: the directory and the name of a file together are the file
* `C102_place`: a message of a file beside the index is read from that file
* `C102_missing`: a missing message is missing after reading the index too, and no other message is
* `C102_magic`: a file is taken for an index exactly if its first seven bytes are FMXIDX and a zero, the ninth a G and the tenth a zero
* `C102_directories_refuted`: Finding: files of the same name in two directories become one: every message is read from the file in the directory of the index.
* `C102_version_refuted`: Finding: the bytes that tell the kind of index (P for protobuf) and the last two of the three numbers of the version of the GRIB part are not compared: strncmp ends at the zero before them.
* `C102_size_refuted`: Finding: the size of a message of 4 GB or more is cut.

### C103 Vertical converters evaluate their formula in every cell of the request

Code: src/coordSys/verticalTransform/SigmaToPressureConverter.cc:50-72; src/coordSys/verticalTransform/HybridSigmaApToPressureConverter.cc:71-101; src/coordSys/verticalTransform/HybridSigmaToPressureConverter.cc:65-91; src/coordSys/verticalTransform/HybridSigmaPressure2.cc:33-36; src/coordSys/verticalTransform/AtmosphereSigma.cc:34-37; src/coordSys/verticalTransform/LnPressureToPressureConverter.cc:51-72; src/coordSys/verticalTransform/AtmosphereHybridHeight.cc:66-88; src/coordSys/verticalTransform/OceanSCoordinateGToDepthConverter.cc:64-107; src/coordSys/verticalTransform/AltitudeHeightConverter.cc:83-130; src/coordSys/verticalTransform/VerticalTransformationUtils.cc:246-288; src/coordSys/verticalTransform/VerticalTransformationUtils.cc:447-483; src/coordSys/CF1_xCoordSysBuilder.cc:488-520. Files: `VconvModel`, `VconvProofs`, `VconvProps`. Status: proved.

VconvModel.v models the body that the getDataSlice methods share (reading the parts of the terms, group, loop, formula, uninitialised output) and its instances, with the constructors between the formula terms and the converters; values are real numbers in the unit of the converter (unit conversion is C40, the shape of the request C78). LoopInv.v repeats C35 for groups with lowered shared dimensions. The general theorem convert_ok in VconvProofs.v needs only the request inside of the dimensions and complete data. Findings: HybridSigmaPressure2 exchanges ps and p0 (C103_exchanged_refuted: the surface level gets p0 instead of ps); AtmosphereSigma exchanges twice; p0 always from record 0; terms handed over as one value are wrong if all terms share the fastest dimension; b of the hybrid height and eta without data dereference null.

* `C103_sigma`: the transformations set up from the formula terms of a file [sig_forall_dec]
* `C103_hybrid_ap` [sig_forall_dec]
* `C103_ln` [functional_extensionality_dep, sig_forall_dec, sig_not_dec]
* `C103_hybrid_height` [sig_forall_dec]
* `C103_ocean` [functional_extensionality_dep, sig_forall_dec]
* `C103_height`: altitude from height and height from altitude: no condition on the dimensions [functional_extensionality_dep, sig_forall_dec]
* `C103_hybrid`: the hybrid coordinate with a and p0: the converter alone, created with surface pressure and reference pressure in the order of its declaration [sig_forall_dec]
* `C103_hybrid_exchanged`: the transformation of a file exchanges them: a times the first surface pressure of the file plus b times the reference pressure [sig_forall_dec]
* `C103_parts`
* `C103_missing`
* `C103_exchanged_refuted`: Finding: a file with the hybrid coordinate p(n,k,j,i) = a(k)*p0 + b(k)*ps(n,j,i) (HybridSigmaPressure2) gets the pressures with surface and reference pressure exchanged: with p0 = 1000, ps = 900 and 800 and a level with a = 0, b = 1 (the surface) both points get 1000. [functional_extensionality_dep, sig_forall_dec]
* `C103_sigma_order_refuted`: Finding: an AtmosphereSigma made in the order of its constructor (sigma, ps, ptop) gives the pressure with ps and ptop exchanged; only the exchanged call of the CF builder makes it right. [sig_forall_dec]
* `C103_record_refuted`: Finding: a reference pressure that changes with time is taken from the first record for all times. [sig_forall_dec]
* `C103_shared_refuted`: Finding: if all terms and the output share the fastest dimension, terms that are handed over as one value are taken from the first position only: here the second point gets the surface pressure of the first. [sig_forall_dec]
* `C103_null_refuted`: Finding: the hybrid height converter does not check its term b, without data it dereferences a null pointer; the same for eta of the ocean coordinates. [functional_extensionality_dep, sig_forall_dec]

### C104 The driver of a file follows from type name, first bytes or file name, in this order

Code: src/CDMFileReaderFactory.cc:110-227; src/IoFactory.cc:31-51; src/DefaultChunkReaderFactory.cc:41-51; src/FileChunkReader.cc:67-82; src/io/netcdf/NetCDFIoFactory.cc:52-223; src/io/grib/GribIoFactory.cc:54-184; src/io/felt/FeltIoFactory.cc:46-71; src/NcmlIoFactory.cc:42-55; src/NullIoFactory.cc:40-60; include/fimex/min_max.h:87-96. Files: `IofModel`, `IofProps`. Status: proved.

IofModel.v models the search and the match and create functions of the five drivers; a driver is a record of functions, so that C104_choice holds for any drivers; the result of the create functions is the constructor call. The theorems split the search into its three rules (by_type/untyped, by_magic/no_magic, by_name as equivalence) for every set of installed plugins; regular expressions are modelled by the texts they match. Findings: CDF with 64-bit offsets is not known by its bytes; unknown type names are ignored; nc3, cdf, netcdf are no extensions; nc3+rw writes version 5; type grib1 with extension grib2 writes edition 2; +rw keeps the prefix file:; a colon cuts memberRegex; matchMagic of netcdf reads seven bytes of a buffer of four.

* `C104_choice`: the driver with the highest mark above 0, the first of them in the order of the names
* `C104_by_type`: a type name of an installed driver decides, whatever the name and the content of the file
* `C104_untyped`: any other type name is as good as none
* `C104_by_magic`: for reading without a type name: the first bytes decide, whatever the name of the file
* `C104_no_magic`: a file that cannot be opened, that is too short or that starts with no known bytes is chosen by its name, as for writing
* `C104_write_blind`: the content of the files is not looked at for writing
* `C104_by_name`: no type name and no known bytes: URLs and the extensions nc and nc4 are netcdf, else the extension is taken as type name (but for the netcdf types and null), else the names of zarr files are netcdf
* `C104_total`: nothing goes wrong in the search: a driver or none
* `C104_create`: without a driver: an exception; otherwise the driver is asked
* `C104_netcdf_open`: reading netcdf: which file is opened
* `C104_netcdf_rw`: a type with +rw opens for writing, without a configuration
* `C104_reader_writer`
* `C104_netcdf_version`: the format of written netcdf files
* `C104_grib_edition`
* `C104_grib_args`
* `C104_grib_args_all`
* `C104_grib_files`
* `C104_grib_open`: the reader: index files by their type or extension, else all files of the name and of the arguments; a configuration is needed but for grbfp
* `C104_others`: the other drivers: felt reads with the configuration or a default one and does not write, ncml reads and writes, null only writes
* `C104_offset64_refuted`: Finding: only the first version of the classic netcdf format is known by its first bytes; a file with 64-bit offsets (CDF and 2) whose name has no extension nc cannot be read without a type name.
* `C104_unknown_type_refuted`: Finding: a type name that no driver knows is not refused but ignored; nc5 for the contents of a GRIB file named .nc opens the GRIB reader.
* `C104_nc3_name_refuted`: Finding: nc3, cdf and netcdf are type names but no extensions, so out.nc3 cannot be written without a type name.
* `C104_rw_version_refuted`: Finding: with +rw the format of the type name is lost; nc3+rw writes netcdf 4.
* `C104_grib1_refuted`: Finding: the extension overrides the type name: a file with type grib1 and extension grib2 is written as edition 2.
* `C104_rw_file_refuted`: Finding: opened for reading and writing, the prefix file: stays in the name.
* `C104_colon_refuted`: Finding: a regular expression with a colon is cut there, and what follows becomes the name of the member.
* `C104_magic_refuted`: Finding: matchMagic of the netcdf driver compares seven bytes when it is given four or more; the search of findFactory always has seven.

### C105 A written GRIB file has one message for each configured variable, time and level with valid values

Code: src/io/grib/GribApiCDMWriter_ImplAbstract.cc:44-493; src/io/grib/GribApiCDMWriter_Impl1.cc:44-62; src/io/grib/GribApiCDMWriter_Impl1.cc:351-425; src/io/grib/GribApiCDMWriter_Impl2.cc:62-84; src/io/grib/GribApiCDMWriter_Impl2.cc:348-480; src/io/grib/GribCDMIndexer.cc:394-417. Files: `GwrModel`, `GwrProofs`, `GwrProps`. Status: proved.

GwrModel.v models the writer as actions on a GRIB handle (a map of keys) and a list of written messages, with exceptions; parsing of the XML configuration, the keys of the grid (setProjection) and the GRIB library are inputs. C105_messages proves the list of messages against the declarative plan and describes; C105_slots, C105_levels, C105_default_level, C105_hybrid describe the slots. Findings: with several reference times only the first field of the first one is written, once for each; additional attributes and hybrid coefficients stay in the messages of later variables; a variable with two elements for different levels (as in the shipped configuration) is never written; an element for level 0 fits no level; surface-first hybrid levels are read behind their end; levels lose their fraction; an unknown vertical unit or a missing table number ends the writer; without an element for variables without vertical axis nothing of them is written.

* `C105_messages`: The theorem: the file holds, in the order of the coordinate systems, reference times, times, variables and levels, exactly one message for each slot that can be written; if the writer ends by an exception, the file holds those of the first slots.
* `C105_slots`: a coordinate system with a time axis and one reference time: there is a slot for each time, each variable with an entry and each level, at the positions of the time and level
* `C105_slots_no_time`: a coordinate system without time: one slot for each variable and level, with the reference time of the file as time
* `C105_no_slots`: no messages: projection not supported, no horizontal grid, or no configured variable
* `C105_levels`: the values of the levels: those of the axis in the units of the configuration, less the configured offset, divided by the configured factor
* `C105_default_level`: variables without vertical axis get the configured level
* `C105_no_default_refuted`: Finding: without an element for variables without vertical axis nothing of them is written, and nothing is reported but a warning
* `C105_references_refuted`: Finding: with several reference times only the first time of the first reference time is written, once for each reference time
* `C105_split_refuted`: Finding: a variable with two elements for different levels is never written
* `C105_level_zero_refuted`: Finding: an element for level 0, or for a negative level, matches no level
* `C105_hybrid`: the coefficients written for an axis from top to surface are read back unchanged
* `C105_hybrid_total`: and always given when b increases from the first to the last level
* `C105_surface_first_refuted`: Finding: an axis from surface to top, or with one level only, makes the writer read behind the end of ap and b
* `C105_sticky_refuted`: Finding: an additional attribute of a parameter stays in the messages of all later variables: the temperature of the second time is written as an accumulated value
* `C105_sticky_pv_refuted`
* `C105_fraction_refuted`
* `C105_vertical_unit_refuted`
* `C105_table_refuted`
* `C105_references_example_refuted`
* `C105_rounding`: whole levels are written: the value without its fraction

### C106 The grid read from a written GRIB message is the grid of the variable

Code: src/io/grib/GribApiCDMWriter_Impl1.cc:64-349; src/io/grib/GribApiCDMWriter_Impl2.cc:42-53; src/io/grib/GribApiCDMWriter_Impl2.cc:86-346; src/io/grib/GribFileIndex.cc:140-441; src/io/grib/GribFileIndex.cc:675-687; src/io/grib/GribUtils.cc:51-73; src/io/grib/GribCDMIndexer.cc:845-884. Files: `GgridModel`, `GgridProofs`, `GgridProps`. Status: proved.

GgridModel.v models setProjection of both editions as actions on the handle of GwrModel.v, and the functions getGridDef... of the reader with the axes built from the grid; doubles are rationals, the conversion of numbers to text and the projection are parameters, keys that the GRIB library knows under several names are one key. C106_regular, C106_rotated, C106_lambert, C106_stereographic prove that reading what was written gives the grid back; C106_unsupported, C106_single, C106_silent what is refused. Findings: the figure of the earth, the pole at the centre and (stereographic) the directions are never written; in edition 2 polar_stereographic loses its orientation by a misspelt name; in edition 1 the standard parallel is ignored and steps are cut off to metres; poles lose their fraction; conic grids with rows from north to south are read in the other direction; oblate figures in kilometres are read as metres and scale factors with the wrong sign; a rotated grid without given increments is divided by the number of points.

* `C106_regular`
* `C106_rotated`
* `C106_lambert`
* `C106_stereographic`
* `C106_silent`: no message is written while the grid is described
* `C106_unsupported`: grids without one of the five projections are refused
* `C106_single`: axes with less than two values are refused
* `C106_figure_refuted`: Finding: the figure of the earth of the projection is not written: the message keeps the one it had
* `C106_centre_refuted`: Finding: nor is the pole at the centre of the projection; a grid around the south pole is written as one around the north pole
* `C106_directions_refuted`: Finding: the directions of a stereographic grid are not written: the flags of the message before (the same handle is used for all messages, C105) remain
* `C106_polar_refuted`: Finding: in edition 2 the orientation of a polar_stereographic grid is not written: the name is misspelt in the test, and the attribute of stereographic grids is looked for
* `C106_parallel_refuted`: Finding: in edition 1 the standard parallel of a polar_stereographic grid is ignored (all grids are written, and read, as true at 60 degrees); so is, for conic grids, the latitude of origin
* `C106_rows_refuted`: Finding: a conic grid with rows from north to south is read with the rows from south to north
* `C106_oblate_refuted`: Finding: the axes of an oblate earth given in kilometres are read as metres; a decimal scale factor, which says that the value is to be divided, is used to multiply it
* `C106_pole_refuted`: Finding: an angle of the pole with a fraction is cut off, also in edition 2
* `C106_metres_refuted`: Finding: in edition 1 a step of a stereographic grid is cut off to whole metres
* `C106_steps_refuted`: Finding: a rotated grid whose increments are not given has its extent divided by the number of points, not by the number of steps

### C107 GRIB messages become variables, dimensions and an index that refers to each message

Code: src/io/grib/GribReaderConfig.cc:66-103; src/io/grib/GribReaderConfig.cc:294-410; src/io/grib/GribCDMIndexer.cc:264-301; src/io/grib/GribCDMIndexer.cc:484-655; src/io/grib/GribCDMIndexer.cc:700-763; src/io/grib/GribCDMIndexer.cc:808-964. Files: `GindModel`, `GindProofs`, `GindProps`. Status: proved.

GindModel.v models the choice of the configuration, loading of messages, level axes, dimensions, shapes and (with GribModel.v) the index; attributes, data types, variables of axes and projections and the reading of the XML configuration are left out. C107_config, C107_refused, C107_file. Findings: variables configured as vector components are never marked as such (inverted condition); one message without time makes a file unreadable (see C67); variables that share level numbers share the vertical coefficients of the first of them by name; conditions on further keys are not checked for messages without the key.

* `C107_config`: The configuration of a message is that of the first element with its parameter number that allows it.
* `C107_refused`
* `C107_file`
* `C107_vector_refuted`: Finding: a variable whose configuration names its counterpart in a vector is not marked as part of a vector: the condition of line 944 is inverted.
* `C107_time`: the time of a message is its own, except of a variable configured with constantTime: none
* `C107_constant_refuted`: Finding: one message without time (or of a variable configured with constantTime) makes the whole file unreadable.
* `C107_level_name`: the only axis of a configured level type has the configured name, unless a dimension has it already
* `C107_coefficients_refuted`: Finding: variables with the same type and numbers of levels share one axis, with the vertical coefficients of the first of them by name; the others' are lost.
* `C107_extra_refuted`: Finding: a condition on a further key is not checked for messages without the key.

### C108 Vertical axes read from GRIB files have the values described in the configuration

Code: src/io/grib/GribCDMIndexer.cc:357-484; share/etc/cdmGribReaderConfig.xml:173-199. Files: `GlevModel`, `GlevProps`. Status: proved.

GlevModel.v models readValuesFromXPath_ and initSpecialLevels_ with rational numbers; types and shapes of the variables are left out. C108_half, C108_half_written (link to C105), C108_full, C108_scaled, C108_inline, C108_hybrid, C108_increasing, C108_numbers, C108_kept. Findings: values of an axis without further variables are ignored; the last full level is refused for b; a level beyond the last mixes a and b; level 0 gets the last a as b; a scale multiplies values of earlier elements again; when coefficients are missing the file is refused, since the attributes of the variable that could not be read are added all the same.

* `C108_half`: Half levels: with coefficients a of the n half levels followed by b, a level k from 1 to n - 1 gets the mean of half levels k and k + 1.
* `C108_half_written`: the same values as in C105, for the coefficients that the writer makes
* `C108_full`: Full levels: a level k gets coefficient k of the first half, and, but for the last, of the second half.
* `C108_scaled`: A scale multiplies the values of its element.
* `C108_inline`
* `C108_hybrid`
* `C108_increasing`: A hybrid coordinate that increases from half level to half level increases from level to level.
* `C108_numbers`: Without further variables the values are the level numbers; an axis whose values cannot be calculated keeps them.
* `C108_several`: Several elements without scale give their values one after the other.
* `C108_kept`
* `C108_ignored_refuted`: Finding: values configured for an axis without further variables are ignored.
* `C108_last_refuted`: Finding: the last full level is refused for the second half of the coefficients.
* `C108_beyond_refuted`: Finding: with half levels, level n (there are n - 1) gets the mean of the last a and the first b.
* `C108_zero_refuted`: Finding: level 0 gets the last a as its b.
* `C108_level_zero`: level 0 of full levels has the first coefficient; half levels have no level 0; pressure and coefficients must be there
* `C108_attribute_twice`: an attribute which the variable has already is refused
* `C108_scales_refuted`: Finding: a scale also applies to the values of the elements before it.
* `C108_missing_refuted`: Finding: without enough coefficients the hybrid axis is not read with level numbers as the handling of the error intends, but the file is refused: the attributes of the missing variable are added nevertheless.

### C109 The fimex program makes the processing steps asked for, in the documented order, and writes their result

Code: src/binSrc/fimex.cc:257-420; src/binSrc/fimex.cc:424-579; src/binSrc/fimex.cc:581-796; src/binSrc/fimex.cc:798-899; src/binSrc/fimex.cc:1043-1103; src/interpolation.c:62-107. Files: `CliModel`, `CliProps`. Status: proved.

CliModel.v, CliProps.v: the program as a function from option values to the tree of readers built, the things printed and the files written, in a small monad with exit and exceptions; reading the command line and configuration files (a library outside the repository), the texts of numbers and what the library does with a reader are parameters. C109_steps, _process, _extract, _dimensions, _unpaired, _positions, _picked, _box, _ranges, _target, _sections, _levels, _merge, _output, _failed, _help, _printed, _print_steps, _methods; findings time_end, autoconf, process_print, no_method, half_points, merge_ignored, endless, added_anyway, undef_min, negative.

* `C109_steps`: the steps of a call that goes through are those asked for, in the documented order: processing, quality, extraction, time, horizontal, vertical interpolation, merging, second quality, NcML
* `C109_process`
* `C109_extract`: what the calls of an extraction are: the dimensions, then the picked positions, then the time span, the vertical range, the box, the selected variables and last the removed ones
* `C109_dimensions`: the i-th dimension is cut to the i-th start and end; 0 and 0 stands for the first element
* `C109_unpaired`: fewer starts or ends than names end the program
* `C109_positions`
* `C109_picked`
* `C109_box`: the box is asked for with all four sides or the program ends; the sides are not mixed up
* `C109_ranges`: the vertical range has both ends, and the time span ends where it is not bounded
* `C109_target`: a projection is preferred to a template, a template to cross sections, these to points
* `C109_sections`
* `C109_levels`: a given axis is preferred to a template variable, that to levels; without any of them the program ends
* `C109_merge`: the inner file is the one named; with a configuration it goes through all steps asked for there
* `C109_output`: a run that goes through has read the input named and made just the steps asked for, and the result is what is filled in and written; nothing else is written
* `C109_failed`: when the program ends with an error, no complete file was written
* `C109_help`: asking for help or the version opens nothing
* `C109_printed`: Descriptions printed
* `C109_print_steps`: the extraction, the interpolations, the merger and the NcML configuration print after their step, and the output after all steps
* `C109_arguments`: Arguments of the simple steps, and what is printed behind the others
* `C109_print_after`
* `C109_time_end_refuted`: Finding: an end of the time span without a start is ignored (fimex.cc:482 tests the start twice); the whole time axis is written
* `C109_autoconf_refuted`: Finding: a configuration of the quality by the status flags of the file is ignored: the program looks for autoConfigString, its option is called autoConfString
* `C109_process_print_refuted`: Finding: what process.printNcML, process.printCS and process.printSize ask for is never printed
* `C109_no_method_refuted`: Finding: levels without a method (or without a type) are ignored; the data keep their levels
* `C109_half_points_refuted`: Finding: longitudes without latitudes are ignored; latitudes without longitudes end the program
* `C109_merge_ignored_refuted`: Finding: merge.projString, merge.keepOuterVariables and merge.inner.cfg alone do nothing
* `C109_endless_refuted`: Finding: a configuration for the inner file that asks for merging with itself never ends
* `C109_added_anyway_refuted`: Finding: asking with the text "false" for the vertical velocity still adds it
* `C109_methods`: the documented names stand for their methods, every other text for the nearest neighbour; without a method it is the nearest neighbour too
* `C109_undef_min_refuted`: Finding: forward_undef_min stands for forward_min: undefined values are skipped
* `C109_negative_refuted`: Finding: a negative position becomes a very large one

### C110 The coordinate systems of a WRF file have axes centred on the grid, cover every gridded variable once, and can be listed again

Code: src/coordSys/WRFCoordSysBuilder.cc:63; src/coordSys/WRFCoordSysBuilder.cc:105; src/coordSys/WRFCoordSysBuilder.cc:334; src/coordSys/CoordinateSystem.cc:305. Files: `WrfModel`, `WrfProps`. Status: proved.

Model: WrfModel.v (attributes, axes, times, systems as functions on the metadata; PROJ, the sine and float rounding are parameters or left out). Proved by an invariant over the variables (sys_inv) and a relation "extended" that every step keeps; the second listing by showing that everything it would add is already there.

* `C110_even`: neighbours are one step apart, and first and last value lie the same way from the centre
* `C110_staggered`: a staggered axis, which has one value more, lies half a step before and after the values of the axis without staggering
* `C110_kept`: dimensions, attributes and the variables of the file stay as they are; the new ones are made for dimensions without a variable and for the reference time, and no name is there twice
* `C110_axes`: the axes: DX and DY are the steps, in metres or in degrees, and the centre of the grid is in the middle of every axis, staggered or not
* `C110_systems`: every variable with a west-east and a south-north dimension has one system, that of its list of dimensions, with one axis for each of them; the other variables have none
* `C110_again`: building the systems a second time finds the same systems and changes nothing
* `C110_kinds`: the types of the axes, and which variables get a system
* `C110_gridded`
* `C110_one_axis`: a system can be made exactly if the dimensions are of different types, or of no type
* `C110_all_axes`: afterwards every dimension of a gridded variable has a variable
* `C110_projection`: The projection
* `C110_others`: a file of another kind, or with another projection, gets no system and stays as it is
* `C110_times_refuted`: Finding: the times are counted from START_DATE in steps of TIME_STEP_MN minutes, and in steps of three hours if that attribute is missing, which no WRF file has; what the variable Times holds is never read
* `C110_times`: the values and the units of the times, and those of the reference time
* `C110_levels`: the vertical axes count the levels from nought
* `C110_reftime_refuted`: Finding: a file with a variable Time gets no reference time
* `C110_no_time_refuted`: Finding: a file without the dimension and the variable Time makes the listing fail
* `C110_units`: the units of a time: the text before and after the underscore
* `C110_two_axes_refuted`: Finding: one variable with a staggered and a plain vertical dimension makes the listing of all systems fail
* `C110_vectors`: U and V, and UAH and VAH, are made vectors if both are there and neither is one already; other vectors are kept

### C111 The C interface copies texts within the given capacity, keeps requests to what fits, runs callbacks on every record read, and reports failures by codes

Code: src/c_fimex.cc:65; src/c_fimex.cc:169; src/c_fimex.cc:353; src/c_fimex.cc:372; src/c_fimex.cc:424; src/c_fimex.cc:477; src/c_fimex.cc:503; src/C_CDMReader.cc:50; src/C_CDMReader.cc:69; include/fimex/c_fimex.h. Files: `CapiModel`, `CapiProps`. Status: proved.

Model: CapiModel.v (blocks of memory as lists, a store outside of the block is UB; the handle of a request over SliceModel, reading over ReaderModel and ConvertModel; unit conversion a parameter). Copying by cases; requests by the frame of SliceBuilderProofs; callbacks by showing that the reader with callbacks has the callback results as records and then C04.

* `C111_copy`: a text is copied with a NUL and the rest of the n characters is NUL; if it does not fit, all n characters are NUL and the code is 0; nothing behind the n characters is written
* `C111_copy_text`: what a C program sees in the block
* `C111_negative_refuted`: Finding: with a negative capacity memory is overwritten
* `C111_no_longitude_refuted`: Finding: without longitudes the code is 1 and not -1, and the text is empty and not a null pointer
* `C111_longitude`: longitude and latitude are not mixed up
* `C111_dimensions`: the names of the dimensions by position
* `C111_dimname_refuted`: Finding: for a position outside of the dimensions a C++ exception leaves the C function, where an empty text is promised
* `C111_set`: a part of a dimension can be set if it lies in the dimension, or if the dimension is unlimited; the request then has this part and is otherwise as before. Since start and size have 32 bits the sum never wraps (as it does in C02
* `C111_set_refuted`: Finding: a part outside of the dimension, or an unknown dimension, lets a C++ exception out of the C function, where a negative code is promised
* `C111_long_dimension_refuted`: Finding: a dimension of 2^32 or more is shown with its size modulo 2^32
* `C111_null`: codes for a null pointer, and without a coordinate system
* `C111_untouched`: variables without a callback are read as from the source
* `C111_callback`: a record of a variable with a callback is what the callback makes of the scaled values of the source; a code other than 0 is reported as failure
* `C111_callback_all`: reading the whole variable calls the callback for every record in turn
* `C111_callback_part`: a request is cut out of the records as the callback left them, and put at the beginning of the block
* `C111_memory_refuted`: Finding: for a variable whose data are in memory the callback is not called when the variable is read: the values come out unscaled. Reading one record ends the program (assertion
* `C111_set_callback`: setting a callback: the variable is of type double from then on, the other variables stay as they are; an unknown variable is reported
* `C111_other_reader_refuted`: Finding: with a reader that takes no callbacks a null pointer is used, where the code -2 is meant
* `C111_fill`: the values go to the beginning of the block; a failure is reported and the block is not written
* `C111_units`: the units: those of the variable for "", otherwise converted
* `C111_axis_types`: the types of the axes go to the beginning of the array
* `C111_part`: a request of a variable in memory, or without the unlimited dimension, is cut out of its values, which are unpacked afterwards
* `C111_fill_refuted`: Finding: the size of the block is not known to the function; more values than it can hold are written behind its end
* `C111_write`: writing: the codes, and what is written
* `C111_write_units_refuted`: Finding: units "" are said to mean no conversion, also for writing; but they are converted, which fails for every variable whose unit is not a number
* `C111_lists`: the lists of variables and dimensions
* `C111_name_refuted`: Finding: behind the end of the list the name is a null pointer, where an empty text is promised

### C112 An NcML document aggregates its files in the order of its elements: first those given, then those found by scanning

Code: src/NcmlAggregationReader.cc:61; src/NcmlAggregationReader.cc:69; src/NcmlAggregationReader.cc:112; src/NcmlAggregationReader.cc:138; src/NcmlAggregationReader.cc:160; src/AggregationReader.cc:91. Files: `NcaggModel`, `NcaggProps`. Status: proved.

Model: NcaggModel.v over AggModel.v (C28), FilesModel.v (C38, C59) and StringModel.v (C18): the document is given by its elements and attributes, the reader factory and std::regex of a given expression are parameters; suffixes are matched by the model of expressions of FilesModel. The construction is shown to be the aggregation of the members, for which C28 holds.

* `C112_location`: a location holds the file, then the type (netcdf if missing) and the configuration
* `C112_single`: without an aggregation the file of the location is opened; without a location there is nothing but what the document itself holds
* `C112_several_refuted`: Finding: with several aggregations none is read, though the message says the first
* `C112_suffix`: a suffix stands for itself: a name is taken if it ends in the suffix (and has no line break before
* `C112_scan`: a <scan> element with a suffix finds the files of the directory that end in it, with the sub-directories unless they are switched off
* `C112_members`: the aggregation is that of the members in this order (C28 says what its records and variables are
* `C112_no_members`
* `C112_new_records`: joined along a new dimension: record i of a joined variable is that of member i
* `C112_unreadable`: an element that cannot be read ends it, unlike a scanned file
* `C112_kinds`: the kinds of aggregations
* `C112_made_up`: made-up coordinate values of different elements differ
* `C112_coordinates_refuted`: Finding: all files of one <scan> get the same coordinate value, that of the element
* `C112_half_added_refuted`: Finding: a scanned file with a dimension of the name of the new one is reported as not readable and stays in the list without a position: the only record is looked up in it, and the values of the second file are found nowhere

### C113 Writing to the null format reads all data exactly once

Code: src/Null_CDMWriter.cc:46; src/Null_CDMWriter.cc:73; src/Null_CDMWriter.cc:119; src/Null_CDMWriter.cc:123. Files: `NullwModel`, `NullwProps`. Status: proved.

Model: NullwModel.v (the constructor with the trace of requests; the reader is a parameter; MPI by size and rank; the OpenMP loop by an arbitrary order of the positions, exceptions that leave a thread are exceptions here). The trace is shown to be the list of requests of the own positions.

* `C113_everything_once`: one process: whatever the order of the records, everything is asked for, and nothing twice
* `C113_success_means_readable`: it ends normally only if everything could be read
* `C113_processes`: several processes: a record is asked for by exactly the process of its number modulo their number
* `C113_fixed_variables_refuted`: Finding: with two or more processes the variables without the unlimited dimension are asked for by none, since -1 % size is -1
* `C113_single_process`: one process under MPI is like none
* `C113_texts_refuted`: Finding: a variable or attribute of several texts (CDM_STRINGS), as the coordinate of an aggregation along a new dimension, cannot be taken

### C114 Instants count the seconds of the Gregorian calendar, and times, instants and extended texts convert into each other without loss

Code: src/TimeUtils.cc:45; src/TimeUtils.cc:51; src/TimeUtils.cc:61; src/TimeUtils.cc:76; src/TimeUtils.cc:112; src/TimeUtils.cc:122; src/TimeUtils.cc:132. Files: `InstantModel`, `InstantProps`. Status: proved.

Model: InstantModel.v over TimeModel.v (C14) and TextModel.v (C61): the day count of the library date and gmtime (neither is part of the source) by the published algorithms, the implicit conversion to the nanoseconds of system_clock with overflow as undefined behaviour. The calendar is proved by arithmetic over years and months with small tables for 400 years and 366 days.

* `C114_calendar`: days are counted from 1970-01-01, one for every date of the calendar
* `C114_instant`: the instant of a time: the days of its date and the seconds of its day. The month has to exist; days, hours, minutes and seconds up to 127 are carried over
* `C114_time_to_instant_and_back`: the time of its instant is the time itself, without the fraction of the second
* `C114_instant_to_time_and_back`
* `C114_order`
* `C114_text_and_back`: the extended text of an instant is read as that instant
* `C114_invalid`: What is no time
* `C114_valid`: times of the calendar have another instant
* `C114_timet`
* `C114_clock_refuted`: Finding: instants before 1677 or after 2262 overflow in the conversion to nanoseconds, though seconds can hold them: no time, no text
* `C114_year_1_refuted`
* `C114_late_year_refuted`: Finding: years from 32768 on are taken as years before 0
* `C114_compact_text_refuted`: Finding: the compact text is not read back
* `C114_no_such_day_refuted`: Finding: a day that is not in the calendar is taken as another one

### C115 Templates in configured attributes are replaced by the times and texts of the file in the given format, moved by the given offset

Code: src/CDM_XMLConfigHelper.cc:42; src/CDM_XMLConfigHelper.cc:73; src/ReplaceStringTimeObject.cc:34; src/ReplaceStringTimeObject.cc:49; src/io/grib/GribCDMIndexer.cc:224; src/io/grib/GribCDMIndexer.cc:242. Files: `TmplModel`, `TmplProps`. Status: proved.

Model: TmplModel.v: the regular expression by the list of its matches in the order of a backtracking search, strftime for %Y %m %d %H %M %S %% (other conversions are a parameter), the calendar of InstantModel.v (C114). The proofs find the first match of the expression: the format ends at the first comma, the options at the last )%.

* `C115_unchanged`: a text without template of the name stays as it is
* `C115_bare_text`: a template without brackets: the text, for a time the empty text
* `C115_format`: a format in brackets: the time in this format, moved by the offset set before
* `C115_format_offset`: a format and an offset in seconds
* `C115_bare_time`: Finding: a time without brackets gives the empty text; its default format is never used
* `C115_bad_offset`: an offset that is no number is refused
* `C115_in_order`: several names: one after the other in the order of the map, each on the text left by the one before
* `C115_ends`
* `C115_format_forgotten`: the text does not depend on the formats used before
* `C115_offset_stays`: a value without comma leaves times and offsets as they were
* `C115_attributes`
* `C115_attributes_independent`
* `C115_no_commas`: texts without comma, and the digits of a time, bring no comma
* `C115_update`: attributes of a variable: texts are replaced, others stay
* `C115_min_max`
* `C115_merged_refuted`: Finding: two formats in one value are taken as one, up to the last ")%"
* `C115_other_name_refuted`: Finding: also with a template of another name behind
* `C115_offset_kept_refuted`
* `C115_plus_refuted`: Finding: the offset +5000 given in the description of the options is refused
* `C115_long_refuted`: Finding: a text of 80 characters does not fit and the buffer is written out all the same
* `C115_strftime`: the parts of a format
* `C115_limits`: options do not go over the end of a line; offsets have 64 bits

### C116 A FELT file gives the same words in either byte order, its fields are the valid entries of its index in order, and header, data and additional words of a field are adjacent

Code: src/io/felt/FeltFile.cpp:43; src/io/felt/FeltFile.cpp:181; src/io/felt/FeltFile.cpp:194; src/io/felt/FeltField.cpp:40; src/io/felt/FeltField.cpp:67; src/io/felt/FeltField.cpp:187; src/io/felt/FeltField.cpp:214; src/io/felt/FeltField.cpp:239; src/io/felt/FeltTime.cpp:40; src/io/felt/FeltTime.cpp:59. Files: `FwordModel`, `FwordProps`. Status: proved.

Model: FwordModel.v: bytes, words of 16 bits, blocks of 1024 words, sizes modulo 2^64, dates by InstantModel.v (C114) where hours are added. The loop over the index has fuel (the words left), proved never to run out.

* `C116_byte_order`: a file gives the same words and fields in both byte orders
* `C116_entry`: entry number i: the 16 words from 2048 + 16 i, once its block is in the file
* `C116_fields`
* `C116_ends`
* `C116_incomplete`: a file that is being updated is refused
* `C116_layout`: header, grid and additional words of a field are the words of the field, one behind the other
* `C116_ensemble`: Parameter, levels and versions
* `C116_no_ensemble`
* `C116_no_block`: a field without a first block starts in the first block of the file
* `C116_valid_time`: the valid time is the reference time and the hours behind it, in the calendar
* `C116_short_field_refuted`: Finding: a field with less than 20 words counts as valid, with a size near 2^64, and is never read
* `C116_short_index_refuted`: Finding: with fewer valid entries than the first block says the search for them leaves the index and then the file

### C117 Grids of FELT files have the parameters their words say, in every encoding, and axes that begin and step as in the file

Code: src/io/felt/FeltGridDefinition.cpp:100; src/io/felt/FeltGridDefinition.cpp:113; src/io/felt/FeltGridDefinition.cpp:140; src/io/felt/FeltGridDefinition.cpp:157; src/io/felt/FeltGridDefinition.cpp:195; src/io/felt/FeltGridDefinition.cpp:228; src/io/felt/FeltGridDefinition.cpp:251; src/io/felt/FeltGridDefinition.cpp:278; src/io/felt/FeltGridDefinition.cpp:299; src/io/felt/FeltGridDefinition.cpp:331; src/io/felt/FeltGridDefinition.cpp:343; src/io/felt/Felt_File2.cc:336; src/io/felt/Felt_File2.cc:365; src/io/felt/Felt_Array2.cc:245. Files: `FgridModel`, `FgridProps`. Status: proved.

Model: FgridModel.v over FwordModel.v (C116): numbers are exact rationals instead of float and double, the sine and the projection library are parameters, the projection text is a list of texts and numbers. The expected values in the theorems are written out for each type.

* `C117_first_method`: the first method: numbers in two words and a common factor
* `C117_second_method`: the second method: every number has its own power of ten
* `C117_methods_agree`: the same words in both methods
* `C117_wrong_number`
* `C117_wrong_front`
* `C117_words_replaced`: with additional words the four words of the header are not used
* `C117_geographic`
* `C117_mercator`
* `C117_lambert`: Finding: a Lambert grid needs additional words, its angle is 0 without them
* `C117_polar`: the distance of a stereographic grid: so many of 79 * 150 cells between equator and pole
* `C117_polar_old`
* `C117_types`
* `C117_accepted`
* `C117_geographic_axes`
* `C117_rows_refuted`: Finding: a field that is read with another number of rows than its header says gets other rows
* `C117_polar_axes`: a stereographic grid: equal steps, and the pole at the point (0, 0
* `C117_pole`
* `C117_projected`: Mercator and Lambert: the corner is projected, steps are in kilometres
* `C117_check`
* `C117_common_type`
* `C117_class`: types with a number of additional words and without are the same
* `C117_geographic_words`
* `C117_mercator_words`
* `C117_lambert_words`
* `C117_polar_words`
* `C117_field`: The grid of a field in a file: words 10 and 14 to 17 of what lies before its data, and the words after
* `C117_projection`: The projection of each type, on a sphere

### C118 fiGribCut writes the selected messages in order, keeps the columns of the box with their longitudes, and counts what it cannot cut

Code: src/binSrc/fiGribCut.cc:62; src/binSrc/fiGribCut.cc:84; src/binSrc/fiGribCut.cc:117; src/binSrc/fiGribCut.cc:214; src/binSrc/fiGribCut.cc:232; src/binSrc/fiGribCut.cc:271. Files: `GcutModel`, `GcutProps`. Status: proved.

Model: GcutModel.v over SliceModel.v (C01): exact numbers instead of double, messages as records of the keys in use, a file as the list of what grib_handle_new_from_file gives. That increments in GRIB are positive and the scanning mode says their direction is taken from the reader (GgridModel.v, C105).

* `C118_ascending`: an ascending axis: every point from first to last is in the range, and the end of the range only if it is the end of the axis; the range is not larger than needed
* `C118_descending`: a descending axis
* `C118_inverse`: a range in the wrong direction throws
* `C118_rows_refuted`: Finding: cutting leaves the first row only, which is not in the box
* `C118_columns`: the columns: each column of the result is a column of the message with its longitude and its values; all columns from west to east are there except the last of the message
* `C118_rectangle`: any box: the result is a rectangle of the message, each value with its latitude and its longitude; the header says one row more than there is
* `C118_last_point_refuted`: Finding: the header says one column more than there is
* `C118_whole_refuted`: Finding: the last column is never kept, not even for the whole grid
* `C118_refused`: other grids, other scanning modes, other numbers of values: refused
* `C118_no_box`
* `C118_files`: all messages of all files in order: each is skipped, written or counted as an error
* `C118_selection`: without box: exactly the selected messages, unchanged, and no error
* `C118_missing_file_refuted`: Finding: a file that cannot be opened crashes the program
* `C118_box`
* `C118_no_number`
* `C118_short_box`
* `C118_main`: a call with input, output, numbers as parameters and a good box or none: the files are cut, and the exit code is the number of errors, in eight bits
* `C118_usage`
* `C118_exit_code_refuted`: Finding: 256 damaged messages are a success

### C119 An index of GRIB files read back gives the messages that were written, fiGrbmlCat joins the messages of its files, and appending replaces those of the same file

Code: src/io/grib/GribFileIndex.cc:462; src/io/grib/GribFileIndex.cc:690; src/io/grib/GribFileIndex.cc:970; src/io/grib/GribFileIndex.cc:1136; src/io/grib/GribFileIndex.cc:1167; src/io/grib/GribFileIndex.cc:1229; src/binSrc/fiGrbmlCat.cc:48; src/binSrc/fiGrbmlCat.cc:85; src/binSrc/fiIndexGribs.cc:93; src/binSrc/fiIndexGribs.cc:203. Files: `GbmlModel`, `GbmlProps`. Status: proved.

Model: GbmlModel.v: an XML document is the sequence of nodes the reader of libxml2 delivers; attributes written by the writer of libxml2 are read back as they are, those written by operator<< are read back through the rules for entities (a quotation mark and character references always are errors). Doubles are an arbitrary type with a text, reading and fmod(x + 360, 360). What the decoder makes of the bytes of a message is arbitrary. The order of extra keys in the map and white space before numbers are not modelled; neither is the index in the format of protobuf.

* `C119_message`
* `C119_index`
* `C119_cat`
* `C119_append`
* `C119_append_damaged_refuted`: Finding: an index which is damaged, or missing, is not noticed when it is appended to; the program writes the new index over it, and the messages after the damage are lost.
* `C119_damaged`: a document with an error before the end of the index is refused
* `C119_truncated`: a document that ends inside of a message is refused, whatever comes before and whatever the message holds
* `C119_tail`: what follows the end of the index is not read: the index is good even if the rest is damaged; without the end, the text itself has to be good
* `C119_closed`: the texts of indexes end with the end of the index, exactly once
* `C119_keys`: a local key given again has its last value; the others keep theirs
* `C119_no_corner`: a grid without its first longitude or latitude has no resolution, in every edition
* `C119_sizes`: sizes are stored without a sign
* `C119_empty_head`: a message without the text of its url, position or size ends the reading, and the index is refused
* `C119_scan`
* `C119_scan_ends`: the scan ends, unless a message of length 0 is accepted by the decoder; the length of a message which is neither of edition 1 nor of edition 2 is undefined
* `C119_edition_refuted`: Finding: the length of such a message is computed from variables without a value.
* `C119_digits_refuted`: Finding: 16 digits do not tell two neighbouring doubles apart: the start or the step of a grid may change when the index is written and read.
* `C119_options`
* `C119_input_type_refuted`: Finding: --input.type=grib is refused for an index of the type grbml with the words that only GRIB input is supported, while --input.type=grbml is accepted and the file is read as GRIB messages; without a name of the output, the type of the output is ignored.
* `C119_scheme`: the address of an index has a scheme
* `C119_scheme_file`: a path without a scheme becomes the address of that file
* `C119_finishes`
* `C119_cat_nothing`: fiGrbmlCat writes nothing if no file can be opened or none holds an index
* `C119_escape_refuted`: Finding: the address in the head of an index is written without escapes: with an ampersand, the index cannot be read. The messages of an index are written with escapes, but fiGrbmlCat writes them without.
* `C119_missing_refuted`: Finding: an element which a message lacks is not noticed: the members keep values that were never set.
* `C119_empty_refuted`: Finding: a message written as an empty element takes the contents of the next one, which is lost.
* `C119_units`: the units of steps and their texts

### C120 The parameters of a FELT configuration keep the words, type and fill value written for them, and fields go to the first name that agrees

Code: src/io/felt/FeltParameters.cc; src/io/felt/FeltCDMReader2.cc; src/io/felt/Felt_File2.cc. Files: `FparModel`, `FparProps`. Status: proved.

Model: FparModel.v (diana2feltparameters, the constructor of FeltParameters with a list, initGetKnownFeltIdsFromXML, getParameterName, getParameterDatatype, getParameterFillValue, the grouping of fields by name, gridParameterDelta; the regular expressions are those of TmplModel.v). Proofs: FparProps.v: C120_restriction and C120_words for the words of an id, C120_config for configurations (by induction over the list with the invariant that the three maps have only the ids as keys), C120_name and C120_precise_refuted for the choice of a name, C120_fields, C120_read_type, C120_deltas; witnesses for the findings are the theorems ending in _refuted. Setup files of diana are not modelled.

* `C120_restriction`: a restriction sets its word; other restrictions and texts without an equal sign have no effect
* `C120_words`: the words of an identifier: parameter, vertical coordinate and level in front, then restrictions; the last one counts
* `C120_config`: a configuration: every parameter has its words, type and fill value under its own id, whatever the restrictions for all parameters, which count for the words only
* `C120_name`: a field has the first name, in the order of texts, whose words agree with its header; a field without such a name is left out
* `C120_precise_refuted`: Finding: a parameter which is more precise than one whose id is a prefix of its own never gets a field
* `C120_fields`: every array of the file has the fields of its name in the order of the file
* `C120_read_type`: values are read as short, float or double
* `C120_kept`: a further parameter changes no fill value which is already there to none; words of unknown names are any
* `C120_deltas`: Deltas of the grid
* `C120_wrap_refuted`: Finding: a number which is no short is another number; 32769 is any value
* `C120_type_refuted`: Finding: an unknown type is accepted (the exception is made, but not thrown); reading the values fails later
* `C120_capital_refuted`: Finding: what is no small letter in a type stays in the name: the parameter has no entry under its id
* `C120_fill_refuted`: Finding: a fill value of digits is taken for a restriction, too: a large one is undefined behaviour
* `C120_inner_refuted`: Finding: restrictions for all parameters are removed from the middle of an id, too

### C121 fiXYcontents prints one line for each slice in the horizontal plane that is asked for, with the positions, values and statistics of this slice

Code: src/binSrc/fiXYcontents.cc:110; src/binSrc/fiXYcontents.cc:117; src/binSrc/fiXYcontents.cc:158; src/binSrc/fiXYcontents.cc:211; src/binSrc/fiXYcontents.cc:291; src/binSrc/fiXYcontents.cc:363. Files: `XycModel`, `XycProps`. Status: proved.

Model: XycModel.v on top of the requests of CsbModel.v and SliceModel.v: quantile, calcStats, the lines shown and runStats; values of axes are an arbitrary type with their products with 60 and 10 as long, values of the statistics are rational numbers (no rounding), what is read from the file are functions which may fail. Proofs: XycProps.v: C121_lines (all combinations, by the requests each slice has made; the spec is the list of combinations and what each line shows), C121_statistics (median by a sorted permutation), C121_shown, C121_no_values, C121_names, C121_blocks, C121_no_system; findings C121_layer_refuted and C121_no_time_refuted (for all files), C121_reference_refuted, C121_order_refuted, C121_statistics_refuted. Not modelled: options of the command line shared with fimex, formats of numbers.

* `C121_statistics`: the statistics of a slice in which a value is defined
* `C121_shown`: what is shown for a name: of a slice without values only that it has none
* `C121_no_values`: a slice without values
* `C121_lines`: A variable in a simple grid: one line for each combination of the wanted times, the wanted levels and the positions of all other dimensions, in this order, every position once; the values shown belong to the position and the statistics to the slice.
* `C121_names`: the names of the variables: those asked for by name or by standard name, all of them if nothing is asked for; once, in order
* `C121_blocks`: the blocks of the variables follow each other; a failure ends the program
* `C121_no_system`: nothing is printed for a name without complete coordinate system, e.g. that of no variable
* `C121_not_simple`: nothing is printed for a variable whose grid is not simple
* `C121_layer_name`: a name given as layer has to be part of the standard name of the x axis
* `C121_layer_refuted`: Finding: the option verticalLayer looks at the x axis: with [no] nothing is printed for a grid with more than one column, with units nothing unless they are convertible to those of the x axis.
* `C121_no_time_refuted`: Finding: nothing is printed for a variable without time axis, whatever its levels.
* `C121_reference_refuted`: Finding: a file with an axis of reference times is a null pointer.
* `C121_order_refuted`: Finding: the request is that of the first variable of the coordinate system: a variable with its dimensions in another order gets the positions of the wrong dimensions.
* `C121_statistics_refuted`: Finding: of two values the median is the greater one; the standard deviation of one value is not a number; the number of undefined values is not shown if there are no others.
* `C121_all`: the statistics without a list, or with "all"
* `C121_layer_values`: with a unit as layer, the values of the vertical axis are those in this unit

### C122 Loggers and logger classes: no use of a deleted object, no deadlock, no leak, and answers that depend only on the class and level chosen last

Code: src/Logger.cc:52; src/Logger.cc:100; src/Logger.cc:111; src/Logger.cc:123; src/Logger.cc:155; src/Logger.cc:179; src/Logger.cc:194; src/Log4cppLogger.cc:40; src/Log4cppLogger.cc:89; include/fimex/Logger.h:170; src/c_fimex.cc:535. Files: `LgrModel`, `LgrProps`. Status: proved.

Model: LgrModel.v: loggers, classes and objects at addresses in a heap; deleted cells are UB, a lock asked for twice is Hang; setClass within the deletion of a class by fuel 2 (shown to suffice). log4cpp is not part of the code: its priorities, chained priority and isPriorityEnabled are modelled from its documentation, with the priority of the root as parameter. Not modelled: several threads, appenders and layouts, exceptions of new, Python (its class is an arbitrary further class that remembers its loggers). Proofs: LgrProps.v: an invariant of all calls and a second one for the time a class is being deleted; every run is that of a specification without objects (step_ok); C122_safe, C122_enabled, C122_stderr, C122_log4cpp, C122_shutdown. Findings: C122_null_refuted, C122_log4cpp_level_refuted, C122_off_refuted. Case: C122_nonvacuous.

* `C122_safe`: no use of a deleted object, no deadlock; one class at most; each object of a class belongs to one logger: nothing is leaked
* `C122_enabled`: the answer of a logger depends on the class chosen last, its name and the levels; asking does not change it
* `C122_stderr`: with the class for stderr, LOG4FIMEX writes a message iff its level is at least the level set last
* `C122_log4cpp`: log4cpp: a level that is none of the five is never enabled; the answers depend on the name only by the part fimex
* `C122_shutdown`: the end: with all loggers deleted, setClass(0) deletes the class, and nothing is left
* `C122_null_refuted`: Finding: with a logger in use, setClass(0) leaves a class behind: the default class, made while the old class is deleted, because the logger that is reset asks for the class to be removed from
* `C122_log4cpp_level_refuted`: Finding: with log4cpp, whose root has the priority INFO, no level above INFO is kept: neither WARN, the default, nor OFF; and a level once lowered is not raised again. A level set after the class is ignored.
* `C122_off_refuted`: Finding: with stderr, messages of level OFF are always written

### C123 Vertical transformations: which converter is chosen, and the columns of levels read through it

Code: src/coordSys/verticalTransform/VerticalTransformation.cc:67; src/coordSys/verticalTransform/VerticalTransformation.cc:79; src/coordSys/verticalTransform/VerticalTransformation.cc:115; src/coordSys/verticalTransform/PressureIntegrationToAltitudeConverter.cc:50; src/coordSys/verticalTransform/AltitudeHeightConverter.cc:51; src/coordSys/verticalTransform/Height.cc:72; src/coordSys/verticalTransform/OceanSG1.cc:40; src/coordSys/verticalTransform/ToVLevelConverterAdapter.cc:48; src/coordSys/verticalTransform/ToVLevelConverterAdapter.cc:100; src/coordSys/CoordSysUtils.cc:42. Files: `VselModel`, `VselProps`. Status: proved.

Model: VselModel.v: variables with standard name, shape and whether the coordinate system is complete for them; axes with name and shape; converters as terms with their shapes (by the ShapeMerger of C78); the adapter on the slice builder of C02. Simplified: regular expressions of standard names are lists of names, the shape of an axis is that of its variable; the search for coordinate systems is a parameter (its results for each variable); values of converters are those of C66 and C103. Proofs: VselProps.v: C123_pressure, C123_integration, C123_altitude, C123_topography, C123_height, C123_depth, C123_preferred, C123_request, C123_levels, C123_column, C123_axes. Findings: C123_axis_name_refuted (the vertical axis is removed from dimensions by its own name: if its dimension has another, altitudes silently are those of the standard atmosphere), C123_other_grid_refuted (with pressure levels a temperature of another grid is used), C123_null_refuted (a converter without data is used as a null pointer), C123_members_refuted (with members, columns have the levels of all members), C123_curvilinear_refuted (with two-dimensional longitudes and latitudes x is ignored); the exchanged surface and reference pressures of HybridSigmaPressure2 (C103) show in C123_pressure.

* `C123_pressure`: A pressure of the file on the coordinate system is used, the first one, whatever the transformation; else the transformation's own formula, if it has one.
* `C123_integration`: The hypsometric equation is used exactly if there is a temperature with the dimensions of the pressure, a surface pressure and a surface geopotential; and then with the first of each.
* `C123_altitude`: A geopotential height on the coordinate system comes first, then the hypsometric equation, then the standard atmosphere.
* `C123_topography`: Heights are altitudes minus the topography, altitudes of heights are heights plus the topography; there is no converter if no topography is found or a horizontal axis is missing.
* `C123_height`
* `C123_depth`: Depths only of depths and ocean levels, which have no altitudes and heights; other types are refused
* `C123_preferred`: the preferred type of a transformation always has a converter
* `C123_request`: The request of a column: one position along the horizontal axes and the time, if the converter has their dimensions, and everything along the others; an exception if a position is beyond the end.
* `C123_levels`: The column has as many values as there are levels if the converter has no other dimension.
* `C123_column`: The column is what the converter gives for the request; a value is valid unless it is above the upper or below the lower limit, where there are limits.
* `C123_axes`
* `C123_axis_name_refuted`: Finding: the vertical axis is removed from the dimensions of the temperature by its own name, not that of its dimension. If they differ, no surface pressure can be found, and altitudes are those of the standard atmosphere though the file has all that is needed.
* `C123_other_grid_refuted`: Finding: with pressure levels the pressure has the vertical dimension only, and the first temperature with this dimension is used, even if it is on another grid: the altitudes then have no column for a position (x, y).
* `C123_null_refuted`: Finding: a converter which has no data, e.g. because a variable of its formula is missing, gives a null pointer, which is used.
* `C123_members_refuted`: Finding: with members in the pressures, the column of a position has the levels of all members.
* `C123_curvilinear_refuted`: Finding: if longitudes and latitudes have two dimensions, both axes begin with the same one: x is ignored, and the other dimension is read whole.
* `C123_hybrid_height`: hybrid heights: altitudes from the two variables of coefficients and the topography, in this order; heights above the ground from these altitudes; no depths
* `C123_no_vertical_axis`: the function may only be used for systems with a vertical axis, as its assert says: without one, a null pointer is used

### C124 Documents are read completely in pieces, and a reader is kept until another file is asked for

Code: src/ChunkReaderXmlInputCtx.cc:34; src/FileChunkReader.cc:53; src/FileChunkReader.cc:67; src/HttpChunkReader.cc:74; src/HttpChunkReader.cc:109; src/DefaultChunkReaderFactory.cc:41. Files: `PieceModel`, `PieceProps`. Status: proved.

Model: PieceModel.v: files as names of inodes with bytes (an open file keeps its inode), servers as the length they name and the chunks they send, with http_read of C47 for the callbacks of curl; the offset as size_t and lengths as int. Requests and changes of files are a sequence of operations. Simplified: after an exception in read() the buffer is as before; a missing reader, mutexes, directories, the buffer of stdio and errors of the disk are left out. Proof: one step of the parser as a minimum (xml_step), induction over the buffers; an invariant of the readers kept over all operations.

* `C124_document`
* `C124_file`: the document is a file, which may have grown since it was opened
* `C124_http`: the document is at a server which sends what is asked for, in chunks of any lengths
* `C124_shortened`: a file which has become shorter: the parser gets an error, after bytes of the file
* `C124_negative`: a negative length is refused, and nothing is read
* `C124_names`: each text is one or the other, and names one file
* `C124_reader`: a reader is one of what was asked for
* `C124_kept`: the reader asked for is kept until another file is asked for
* `C124_kept_url`
* `C124_opened`: a file asked for after another one is opened again, with the size it has then; one which does not exist is an exception
* `C124_first`: the first request of a file opens it
* `C124_failed`: a request which fails changes nothing
* `C124_open_file`: a file once opened stays readable as it is, whatever becomes of the names
* `C124_old_file_refuted`: Finding: the reader which is kept is that of the file which had the name; a file which has got longer is read only as far as it was before, and one which has got shorter gives an error
* `C124_server_refuted`: Finding: a server which names no length, or sends less than was asked for, gives bytes which were in the buffer before, and no error

### C125 Interpolation to the points of a template gives the file the axes x and y and the longitudes and latitudes of the template

Code: src/CDMInterpolator.cc:1422; src/CDMInterpolator.cc:1439; src/CDMInterpolator.cc:1452; src/CDMInterpolator.cc:1519; src/CDMInterpolator.cc:1548; src/CDMInterpolator.cc:1561. Files: `TctModel`, `TctProps`. Status: proved.

Model: TctModel.v, with the operations on the metadata and the systems of C99 (InterpModel.v). Simplified: logging is left out; the template has data for longitude and latitude; one system (the loop is modelled for all of them; the theorem is for one). Proof: the effect of each operation as functions from names to variables, dimensions and attributes (sem, inv of InterpProofs.v), then reading off the final functions.

* `C125_moved`
* `C125_projection`: the text has to ask for longitudes and latitudes
* `C125_dimension_refuted`: Finding, for all files: if the file stands on dimensions x and y (its axes are called so, or its longitudes are given on them) and there is no variable x, or it is removed as it is the longitude, an exception is thrown
* `C125_dimensions_refuted`: Finding: longitudes and latitudes given on dimensions x and y that have no variables of their own (in either order), and axes of longitude and latitude that are called x and y: the interpolation fails with an exception
* `C125_axis_stays_refuted`: Finding: if only one of the old axes is called like the new one, the other one stays in the file, with its dimension, although nothing uses it

### C126 Rotated vectors are made of both components of the reader, once per request

Code: src/CDMProcessor.cc:404; src/CDMProcessor.cc:432; src/CDMProcessor.cc:475; src/CDMProcessor.cc:485; src/CDMProcessor.cc:652; src/CDMProcessor.cc:694. Files: `VrotModel`, `VrotProps`. Status: proved.

Model: VrotModel.v: the state of the requests and the rotation in getDataSlice. Parameters: the records of the reader, the system of each variable (C94), what the matrices do (C42), packing and the conversion to the type of the variable. Simplified: logging and accumulation (C29) are left out; enhanceVectorProperties at the start of rotateAllVectorsToLatLon is in VecModel.v: the marks here are those after it. Proof: induction over the pairs with the maps as functions, and an invariant over requests that every variable to be rotated has a matrix.

* `C126_accepted`: the request succeeds if and only if all pairs are on a system each
* `C126_vectors`: a request of pairs of different variables: names, marks and what is rotated
* `C126_data`: the data after the first request: both components of a pair from both components of the reader [functional_extensionality_dep, sig_forall_dec]
* `C126_data_later`: the data after any request, whatever was asked for before: the direction is the one of the first request for the system [functional_extensionality_dep, sig_forall_dec]
* `C126_component_and_direction`: a variable rotated both as a component of a vector and as a direction: the direction is rotated last, from the component [functional_extensionality_dep, sig_forall_dec]
* `C126_directions`: directions: turned as angles, with scale factor and offset [functional_extensionality_dep, sig_forall_dec]
* `C126_no_null`: no null pointer is used [functional_extensionality_dep, sig_forall_dec]
* `C126_first_direction_refuted`: Finding: the matrix of a system stays the one of the first request, also for requests of the other direction
* `C126_packing_refuted`: Finding: scale factors and offsets have no effect on vectors: packed values are turned [functional_extensionality_dep, sig_forall_dec]
* `C126_all`: all vectors of a file whose vectors are pairs: every one is renamed, marked and rotated, nothing else is changed
* `C126_all_twice`: all vectors: rotating twice to longitude and latitude is rotating once
* `C126_back_refuted`: Finding: vectors rotated to longitude and latitude and then back to the grid are described as vectors of the grid, but hold the components along longitude and latitude: the first rotation is made, the second is not [functional_extensionality_dep, sig_forall_dec]
* `C126_offset_refuted`: Finding: a vector whose x component has an offset of 10: (11, 0) becomes (10, 1) by a quarter turn instead of (0, 11 [functional_extensionality_dep, sig_forall_dec]
* `C126_exception_refuted`: Finding: two variables on different systems are refused, but their standard names and marks as a vector have been changed

## Findings

Theorems that show, with a concrete or general witness, where the code departs from what its interface or documentation suggests. Their negation is not claimed anywhere; the guarded property statements exclude these cases.

* `C01_wrapped_request_accepted_refuted` without the no-wrap guard rejection fails. A 4x2 array is asked for columns starting at 2^64-4 of row 1; the request is accepted and row 0 is returned. With a one-dimensional array the same request reads outside of the array.
* `C02_request_in_range_refuted` a request whose end wraps past 2^64 is accepted.
* `C04_full_request_is_get_data_refuted` with a missing record the two disagree (0 instead of the fill value 99).
* `C04_get_data_wrong_length_accepted_refuted` getData does not notice records of the wrong length.
* `C04_slice_from_memory_past_end_refuted` the record just behind the last one is not rejected; its cells are never set.
* `C05_block_write_inside_refuted` a start position beyond the end writes outside the array.
* `C06_order_refuted` x = {0,2} of 3 and y unreduced with 2 rows: the order is wrong.
* `C06_empty_request_refuted` an empty request along a reduced dimension returns one element.
* `C07_position_equal_length_accepted_refuted` the position equal to the length (one past the end) is accepted.
* `C07_start_behind_end_wraps_refuted` a start behind the end is not refused; the length wraps.
* `C07_start_just_behind_end_empties_refuted` a start just behind the end empties the dimension silently.
* `C08_valid_original_position_refused_refuted` positions refer to the original dimension, but are checked against the reduced length: position 5 of 10 is refused after the dimension was reduced to {4,5,6}.
* `C08_not_composition_refuted` they are not relative to the reduced dimension either: {4,5,6} then {0} gives original position 0, not 4.
* `C09_far_position_refuted` A position far outside the grid is narrowed to int first and lands on a cell; an undefined position takes whatever lround returns (2^63 as on x86-64: cell 0); the marker for "no cell" is a valid cell number of a grid of 2^32 cells.
* `C09_nan_position_refuted` 
* `C09_marker_is_a_cell_refuted` 
* `C10_second_level_refuted` the second level's values are never read.
* `C10_levels_ignored_refuted` 
* `C11_undef_minmax_first_refuted` In the undef min and max a first undefined value makes the result undefined, a later one is ignored, whatever the other values are.
* `C11_undef_minmax_later_refuted` 
* `C11_undef_order_dependent_refuted` 
* `C11_undef_median_refuted` an undefined value in the undef median breaks the precondition of nth_element.
* `C12_corner_strip_refuted` in the half-cell strip above the last row, when the column is in a border too, the row test admits row ny and the last level is read outside the field.
* `C12_undefined_neighbour_refuted` a cell of weight zero still makes the result undefined: (0,0) is exactly on a defined cell.
* `C13_one_element_axis_refuted` a one-element axis is read outside for every other coordinate; every longitude axis with one element is read outside; on an empty array the search reports index 0 as found.
* `C13_one_element_longitude_refuted` 
* `C13_empty_search_refuted` 
* `C14_late_year_refuted` a late year is cut off, so a time in year 4096 compares as earlier than one in year 2000, and as neither earlier nor later than one in year 0 although they differ
* `C15_large_minute_refuted` [minute << 24] is an int: a minute of 128 or more sets all higher bits, so the encoding 0x80000000 (year 0, minute 128) does not survive, and two different times pack alike
* `C15_late_year_refuted` years from 4096 on lose their high bits
* `C16_first_match_refuted` an exact match with the first element, and an extrapolation next to the first element, return the same index twice.
* `C16_first_closest_refuted` 
* `C16_increasing_extrapolation_refuted` 
* `C17_first_smallest_refuted` The smallest element returned is not always the first one (std::minmax_element would return position 1 here).
* `C19_ends_with_huge_refuted` the offset is computed from sizes converted to int: with more than 2^31 characters the call throws although the text does end that way
* `C20_trailing_dots_refuted` a list ending in dots: the iterator is incremented past the end
* `C20_equal_values_refuted` equal values before the dots and a smaller one after them: the loop never ends
* `C20_wrong_direction_refuted` a value after the dots on the wrong side is appended without expansion
* `C21_index_0_refuted` made from an empty list the reserved index is handed out
* `C21_initial_duplicates_refuted` a name twice in the initial list stays there twice, and only its last position is used
* `C23_ncml_char_refuted` the NcML type char is known by name but has no type
* `C23_ncml_attribute_unsigned_refuted` attributes are written with the name only: the types that differ in the unsigned flag come back as the signed ones
* `C24_valid_value_lost_refuted` a valid value that is packed into the fill value is lost
* `C24_int64_refuted` 64-bit variables do not survive: 2^31 comes back as -2^31
* `C24_unscale_integers_refuted` writing integer data: the undefined value is converted to the integer type
* `C24_default_fill_64_refuted` 
* `C25_64_bit_refuted` beyond that the result is never the nearest integer
* `C25_round_and_clamp_far_refuted` a position far outside is taken for a valid index: 4294967301 for 5
* `C26_rename_removes_refuted` renaming a variable to its own name, or a missing one onto another, removes a variable although the result says that nothing was done
* `C26_rename_dimension_self_refuted` renaming an unused dimension to its own name removes it and throws
* `C26_remove_global_refuted` a variable name equal to the name of the global namespace: its removal takes the global attributes away
* `C27_counterpart_refuted` references by name are not followed: the other component of a vector keeps the old name
* `C28_new_fill_refuted` a join along a new dimension: a record of a file without the variable is larger than the record by the number of files
* `C28_new_dimension_refuted` a joined variable first met in a later file: its dimensions are missing in the aggregate
* `C28_coordinates_refuted` coordinate values for some of the files only: fewer coordinate values than records
* `C29_both_refuted` a variable in both lists: the second identical request differs from the first
* `C29_shared_refuted` writing into a result changes later results: the cache is the array that was handed out
* `C29_missing_refuted` with a missing (empty) record the result depends on the history: undefined values of record 0 are only replaced if the requested record is there
* `C29_overwritten_refuted` and an earlier result is overwritten by a later request
* `C29_offset_refuted` the sum is made of packed values: with an offset it is not the sum of the scaled values
* `C30_no_status_refuted` data without status data divides by zero and converts infinity to int
* `C30_extreme_hangs` a status with an undefined value (after valid range and fill value) never ends
* `C30_highest_refuted` 
* `C30_autoconf_refuted` automatic configuration selects no variable, whatever the file contains
* `C30_cycle_refuted` two variables that are the status of each other
* `C31_partial_request_refuted` Any other request writes behind the end of the result if its last message exists.
* `C31_misplaced_refuted` A variable with two levels and three times, read at the upper level for all times, the last message absent: the field of the second time is returned as that of the third.
* `C33_fill_of_base_refuted` the finding: top 7 is defined (fill value -1), the base has fill value 7
* `C34_symmetry_refuted` mirrored positions get different values
* `C34_corner_refuted` in the corner the weight is larger than at the same distance from the nearest edge
* `C34_negative_refuted` negative parameters pass the check (they are converted to unsigned first); with a transition width of -5 every cell is the outer one
* `C34_no_horizontal_refuted` a variable with dimensions but without x or y reads dimSizes[-1]
* `C34_empty_refuted` only the first dimension is checked to be not empty
* `C35_set_length_refuted` changing the length of a dimension that is not the last leaves the strides as they were: two different tuples get the same position
* `C35_zero_length_refuted` a last dimension of length 0 is accepted by the constructor, and the loop does not end before the position counter wraps
* `C36_unordered_refuted` New times that are not ordered: the search for 1 starts behind it.
* `C36_read_before_change_refuted` Reading before the time axis was changed dereferences the end of a map.
* `C37_empty_translation` a translation without slice numbers is documented in the code as "do nothing" but throws for every variable with that dimension
* `C37_short_output_shape` an output shape shorter than the input shape is read past its end when it is a prefix
* `C37_longer_output_shape` an output shape with an additional dimension passes the comparison of shapes; the variable is not left out, instead the write fails for the number of values
* `C38_siblings_refuted` with two sub-directories, the files of the second are not found
* `C38_wrong_directory_refuted` and a file of the start directory is found as if it were in a sub-directory
* `C38_glob_siblings_refuted` a pattern for one directory level finds files of the first sub-directory only
* `C38_line_break_refuted` "**" does not match a line break in a name
* `C40_asymmetric_refuted` a grid with and one without a resolution can each be less than the other
* `C40_transitive_refuted` a cycle: each of three grids is less than the next
* `C40_incomparability_refuted` two grids equivalent to a third need not be equivalent
* `C40_comparable_symmetric_refuted` it is not symmetric: the tolerance is relative to the first grid
* `C40_lon_start_below_refuted` 
* `C42_north_refuted` 360 is not folded to 0: north is written as 0 or 360, depending on the rotation
* `C42_mean_of_angles_refuted` the mean of two angles is taken without looking at whole turns. With negative steps a target that is not rotated at all gets the angle PI, so every vector is reversed; with positive steps a target turned upside down gets the angle 0.
* `C42_step_width_refuted` with two rows, and with two columns and three or four rows, a cell behind the field is read
* `C43_single_cell` with a single valid cell the radius is not a number and no point is ever assigned to it.
* `C43_nothing_sampled` if no sampled cell has a position, the minimum of no samples is read.
* `C46_rejected_loses_axis_refuted` 
* `C47_short_body_refuted` a body that is too short is accepted: the buffer keeps what it held before
* `C47_wrapped_range_refuted` an offset and length whose sum wraps is not refused
* `C48_fill2d_overshoot_refuted` 
* `C48_fill2d_one_row_refuted` one row and maxLoop = 5: the update of the border reads outside of the field
* `C48_creepfill_one_row_refuted` one row: the update of the border always reads outside of the field
* `C48_creepfill_negative_weight_refuted` a weight of -1: the sum of weights and the centre is 0, and the division leaves an undefined cell
* `C49_no_sections` without a cross-section that has coordinates the last index wraps around and the call leaves with std::out_of_range (after the dimensions and the name variable were added
* `C53_zero_step` an inner axis of equal values passes the checks and the loop never ends.
* `C53_absolute_tolerance` the tolerance is absolute; an axis that goes forth and back by steps below 1e-6 counts as regular.
* `C53_unit_mixup` an inner axis in km is extended in m, but the result is declared in km: its values are a thousand times those of the inner axis.
* `C54_position_past_end` the bounds check of FeltCDMReader2.cc:631 lets the position just after the last time through, and the time there is read anyway
* `C54_single_member` an ensemble parameter of which the file has exactly one member gets no ensemble dimension, its levels are listed with second component 0, and unless the member is number 0 every slice consists of fill values although the fields are there
* `C55_overloads_rank0_refuted` for rank 0 they do not.
* `C56_first_above_refuted` the documented rule (the first multiple not before the start) does not hold
* `C56_equal_values_refuted` equal first values: division by zero and an undefined conversion
* `C56_time_x_minus_refuted` ... but the time axis gives the origin of the unit, whatever the end is
* `C56_fraction_dropped_refuted` a fraction behind two or more digits is dropped
* `C57_overshoot_refuted` Not a convex combination: the result can leave the range of the cells.
* `C58_empty_output_refuted` an empty output grid dereferences the end of the position array.
* `C60_non_ascii_refuted` a byte above 127 reaches tolower as a negative number, which is outside its domain
* `C61_clock_only_refuted` documented: the time of day alone; it is taken for a date, and refused by an exception instead of the result false
* `C61_only_dot_refuted` a seconds field of only a dot: the first token is read although there is none
* `C61_rounds_to_1000_refuted` fractions just below one second are rounded to 1000 milliseconds; so the result differs from the time meant and sorts in the wrong second
* `C61_wraps_refuted` values too large for the field wrap around silently
* `C62_undef_min_refuted` the name of the minimum that treats undefined cells as undefined selects the other minimum; the method cannot be selected by any name
* `C63_small_values_refuted` a conversion with tiny values is taken as linear although it is not: 10^-12 * x^2 is replaced by 10^-12 * x
* `C64_reference_refuted` 
* `C65_empty_attribute_refuted` an attribute without values is read past its end
* `C65_second_unlimited_refuted` a second unlimited dimension is not seen
* `C67_variable_without_time_refuted` A message of a variable without time has encoded time 0, which is not among the times: the index cannot be built, whatever else the file contains.
* `C68_daily_steps_refuted` Steps of whole days (months, years) use a unit whose length the reader does not assign.
* `C68_irregular_axis_refuted` The unit comes from the first two times only: a later time that is no multiple is moved.
* `C68_time_before_reference_refuted` A time before the reference time becomes a step of more than 10^15.
* `C69_large_year_refuted` From the year 4096 on the upper bits are lost: different times have equal encodings.
* `C72_top_layer_refuted` the wind of the uppermost layer has no effect: its divergence is left out of the sum, although the layer has a thickness
* `C72_calm_refuted` air at rest gets a vertical wind wherever the ground is not level: the slope of the levels is added without being multiplied by the wind
* `C73_flag_swallows` an option without value that is not the last one swallows the key of the next one.
* `C73_humidity_second_temperature` if the first temperature is not in the coordinate system of the humidity, the search for another one never ends inside the list, even if the second temperature would fit.
* `C73_pressure_exception` an exception from the vertical transformation is caught, and then the null pointer is used.
* `C74_theta_dangling` the name of the potential temperature is kept as a reference to a string of the constructor; reading the converted temperature uses it after its end.
* `C74_theta_missing` the marker of missing values is converted like a value.
* `C74_humidity_overflow` values above saturation are not limited to one although the library function limits to 100 %, and beyond 131 % the number does not fit; a missing value is not defined either.
* `C75_renamed_reference_refuted` the reference time is recognised by the name of its axis only. If the reference time axis has another name than its dimension, the constructor leaves all reference times requested, setReferenceTimePos does nothing, and every setTimeStartAndSize throws.
* `C75_axis_types_refuted` getAxisTypes throws if a dimension has no axis of its own name, as the offset of a two-dimensional time that is not an axis.
* `C75_half_done_refuted` setAxisStartAndSize throws in the middle: the first axis of the type is changed, the second is not.
* `C76_first_level_refuted` a target level that is equal to the first level of the column is never interpolated: the value is undefined although the level is in the data
* `C76_beyond_first_refuted` a level outside of the column that is closest to its first level is not extrapolated, whereas one that is closest to its last level is
* `C76_limits_record_refuted` the limits are read for all records but always used at record 0: the level 12 is above the limit 0 of record 1, but the limit 14 of record 0 makes the value undefined
* `C77_unknown_axis_refuted` interpolateToAxis accepts any name. Variables then have a dimension that does not exist.
* `C77_parts_of_names_refuted` names may contain characters such as "-" and "."; then parts of the names of other coordinates are removed: removing "lev" from "lev.1 lev-b lon" leaves ".1 -b lon".
* `C77_special_name_stays_refuted` a name that ends with such a character is not found between blanks: "lev+" stays.
* `C77_other_users_refuted` other variables on the vertical dimension keep it, but its coordinate variable is gone.
* `C78_curvilinear_refuted` with two-dimensional longitudes and latitudes both axes start with the same dimension; the second horizontal dimension is then treated as "other" and comes after the levels.
* `C78_scalar_axis_refuted` an axis without dimension (a scalar time or level) is read past its end.
* `C79_removed_variable_refuted` a variable removed before is not there, but its axes are kept if it is asked for again: the coordinate systems are those of the data reader.
* `C80_second_range_ignored_refuted` a second reduction of the same dimension is ignored: asking for 0..3 and then for 1..2 keeps the positions 0..3.
* `C80_above_all_refuted` a range that is above all values empties the dimension; with debug messages switched on the element behind the last one is read.
* `C80_negative_slope_refuted` units pointing the other way (negative slope) exchange the ends of the range: nothing is kept.
* `C80_not_monotone_refuted` on an axis that is not monotone, values in the range are left out and values outside are kept.
* `C81_longitudes_to_360_refuted` longitudes are compared as numbers. On a grid with longitudes from 0 to 360 the part west of Greenwich is lost: 350 degrees is 10 degrees west and in the box from 20 west to 20 east.
* `C81_shared_axis_refuted` a coordinate system that shares one axis with an earlier one (a staggered grid) keeps its other axis whole.
* `C81_empty_refuted` a box without points empties the dimensions.
* `C82_y_unit_refuted` both units handed to the interpolation of the outer file are the unit of the x axis; with degrees_east and degrees_north, or km and m, the y axis has the wrong one.
* `C82_keep_outer_refuted` with all outer variables asked for, a variable that is in both files but not compatible is missing, and a variable taken from the outer file gets dimensions of the length of the inner file: w has 5 levels, k has 3.
* `C82_auxiliary_unreadable_refuted` the grid mapping and other auxiliary variables are kept from the top file, but reading them throws if the base file does not have them.
* `C82_scalar_axis_refuted` 
* `C82_two_unlimited_refuted` dimensions added from the outer file may give the result a second unlimited dimension.
* `C82_no_horizontal_refuted` shapes that differ and a coordinate system without x or y axis: a null pointer is followed.
* `C83_reference_refuted` attributes that refer to a variable by name (coordinates, grid_mapping, bounds) keep the old name when the variable is renamed.
* `C83_retype_fill_refuted` changing the type of a variable with a fill value is an error unless the fill value is changed too.
* `C83_zero_length_refuted` a dimension of length 0 is written with length 1.
* `C83_length_refuted` lengths are reduced to 32 bits, so a length of 2^32 + 5 is written as 5.
* `C83_unknown_dimension_refuted` a variable with a dimension that is not in the metadata is undefined behaviour, since the iterator of the failed search is used.
* `C83_strings_refuted` without netCDF-4 an attribute of type strings comes back as a string, and a trailing NUL character is lost in every format.
* `C83_nul_refuted` 
* `C84_wrong_size_refuted` data of another size than the slice are dropped with a message only; the writer goes on and succeeds.
* `C84_renamed_unlimited_refuted` if the unlimited dimension is renamed, the writer looks for its old name in the file and fails after the definitions.
* `C84_no_conversion_refuted` if the old units cannot be converted to the configured ones, the data are written unconverted under the new units.
* `C84_second_unlimited_refuted` data on a second unlimited dimension are lost, since its length is 0 while they are written.
* `C84_untyped_scalar_refuted` a scalar without a type is defined as an int, but its data are never written.
* `C85_chunk_length_refuted` the number meant to bring a large chunk to about 2^17 values is the number of such chunks, not the length: a vector of 2^22 values gets chunks of 32 values, and 100000 x 1000 values get chunks of 76 million.
* `C85_product_wraps_refuted` the product of the lengths may wrap to 0, then no chunks are set although the variable is compressed.
* `C86_unlimited_not_first_refuted` the unlimited dimension is taken to be the slowest one. In netCDF-4 it need not be; then the record read is a slice of another dimension: asked for time 1 of w(x, time), the answer is x = 1 at all times.
* `C86_second_unlimited_refuted` only the first unlimited dimension of a netCDF-4 file is reported as unlimited.
* `C87_unsigned_refuted` the attribute _Unsigned of a variable is looked up at the root of the document and never found; an unsigned type is read as the signed one.
* `C87_char_refuted` giving a variable of the file the type "char" is refused whatever else the document says.
* `C87_rename_attribute_refuted` renaming an attribute to the name of one before it renames another attribute (or reads past the end): here "long" is to be called "units", but "scale_factor" is.
* `C87_rename_self_refuted` naming a variable's own name as orgName removes the variable; for a dimension it is refused.
* `C87_negative_length_refuted` a negative length is taken for a huge one.
* `C87_no_values_refuted` start and increment for a variable with a dimension of length 0 write out of bounds.
* `C87_unlimited_refuted` making a renamed dimension unlimited gives the variable of its new name the data of the variable of its old name.
* `C87_data_in_memory_refuted` the data a variable holds in memory are not converted when its type is changed.
* `C88_chain_refuted` when variables are renamed in a chain, the second gets the description of the first and reads the data of the one that was overwritten.
* `C88_shape_refuted` a changed shape changes the description only: with the dimensions exchanged, the data come in the old order; with a dimension added, there are too few of them.
* `C89_line_end_refuted` line ends and tabs in attributes are written as they are, so that a parser delivers spaces.
* `C89_empty_refuted` an attribute with an empty text is written and ignored by the reader.
* `C89_unsigned_refuted` the types without sign are read as those with sign; the mark that is written is kept as an attribute and not acted upon.
* `C89_no_records_refuted` with its data, a file whose unlimited dimension is empty is written as a document that the reader refuses.
* `C89_long_refuted` so is a file with a dimension of 2^31 positions, even without data.
* `C89_counterpart_refuted` the name of a vector's other component is not written.
* `C89_shape_refuted` a dimension whose name holds a space is read as two dimensions in the shapes.
* `C89_comma_refuted` strings without spaces are written with spaces between them and no separator named; the reader also splits them at commas, and drops empty strings.
* `C89_marker_refuted` a separator that no string holds can still begin inside a string.
* `C90_two_times_refuted` 
* `C90_alphabet_refuted` 
* `C90_line_end_refuted` 
* `C90_shared_refuted` 
* `C90_comma_refuted` a comma in a name
* `C91_positive_case_refuted` positive is compared in lower case only; a height with positive "UP" is taken for a depth
* `C91_bytes_refuted` a standard name or a unit with a byte above 127, as the degree sign, is undefined behaviour
* `C92_unchecked_b_refuted` the term b of hybrid levels may be on a dimension that is not of the system
* `C92_case_refuted` the standard name is compared with its case, although the axis was found without it
* `C93_again` vectors again changes nothing
* `C93_heights_refuted` wind at two heights is paired by the order of the variables
* `C93_prefix_refuted` the beginning of the standard name decides, so the shear of the wind is a vector with the wind
* `C93_shapes_refuted` U and V of WRF files are on different dimensions
* `C94_coordinates_refuted` of the systems with the same horizontal axes the last one counts; when one variable does not name its longitudes and latitudes these become incompatible variables
* `C94_projection_refuted` variables with another grid mapping on the same axes get the projection of the last system
* `C94_axes_refuted` when some variable has the horizontal axes only and does not name its longitudes and latitudes, these are taken for data of the system they belong to
* `C96_second_parallel_refuted` of two standard parallels the second is not written (`size() > 2`): another cone.
* `C96_grid_longitude_refuted` a negative longitude of the pole in the grid is lost.
* `C96_scale_refuted` the scale factor of mercator, oblique and transverse mercator projections is written as +k_0 and read as +k.
* `C96_sweep_refuted` the sweep axis of a geostationary projection is read as "sweep_axis" but written from "sweep_angle_axis".
* `C96_flattening_refuted` a flattening is written but not read: the ellipsoid becomes a sphere.
* `C96_utm_refuted` of the longitude in the text of a UTM projection only the digits before the point count, and a negative one is ignored.
* `C96_polar_longitude_refuted` a polar stereographic text without +lon_0 is accepted and then fails.
* `C96_lonlat_refuted` the text of a projection and that of the longitudes and latitudes on its earth always differ (+no_defs), so that the shortcut of convertToLonLat and convertFromLonLat for longitudes and latitudes is never taken.
* `C96_no_text_refuted` a projection unknown_to_fgdc without a proj4 text has none.
* `C97_flattening_refuted` a flattening or a shift of the datum given before stays with the new figure.
* `C98_unknown_ellipsoid_refuted` an ellipsoid that is not in the list (as clrk66) becomes a sphere without a word.
* `C98_bessel_refuted` Bessel's ellipsoid with a short axis given as well has three numbers for two axes.
* `C98_zone_refuted` a zone of more than 60 is taken as 60.
* `C99_rotated_refuted` a rotated pole is described as rotated_latitude_longitude, but its axes are not called grid_longitude and grid_latitude: the test is for a name the variable never has
* `C99_staggered_refuted` wind components on staggered grids share one axis with the other variables; such files cannot be interpolated, as the shared dimension is removed although it is used
* `C99_shared_axis_refuted` with the same x axis but another y axis the attributes of the x axis and the old dimension of y differ from the case of separate axes: the x axis is removed and made anew, the dimension is kept
* `C99_coordinates_refuted` other coordinates of a variable, like a height, are no longer named; the bounds of an axis are, although they belong to the old values
* `C99_same_names_refuted` the names for longitudes and latitudes are chosen before the first one is used, so that they may be the same
* `C100_second_grid_refuted` a variable of a second grid has other names of its horizontal dimensions than the axes it is interpolated from (C99). All of it can be read, but a part of its rows or columns can not.
* `C100_order_refuted` the two fastest dimensions are taken for x and y whatever they are. A variable whose rows are fastest is interpolated from wrong cells: at the point (2, 0) it has the value 20, but 10 is read.
* `C100_packed_refuted` vectors are turned as they are stored. With an offset o the value meant by a stored n is n + o; the quarter turn of (u, v) has the first component - v, but with an offset of 10 another one is read.
* `C100_other_axes_refuted` the components of a vector on different axes are not turned at all, without an error.
* `C100_other_levels_refuted` if the other component has a dimension this one has not, neither can be read.
* `C101_vector_refuted` that a variable is a component of a vector is not kept: no data read by way of an index are rotated to another projection.
* `C101_strings_refuted` several texts are read from the start of the table instead of their place in it; where the table is too short, past its end.
* `C101_empty_refuted` an attribute of no numbers comes back without data; asking for its type then follows a null pointer, and so does writing it again.
* `C101_length_refuted` a length of more than 32 bits is cut.
* `C101_global_refuted` with a variable named _GLOBAL the index of a file with global attributes cannot be read.
* `C102_directories_refuted` files of the same name in two directories become one: every message is read from the file in the directory of the index.
* `C102_version_refuted` the bytes that tell the kind of index (P for protobuf) and the last two of the three numbers of the version of the GRIB part are not compared: strncmp ends at the zero before them.
* `C102_size_refuted` the size of a message of 4 GB or more is cut.
* `C103_exchanged_refuted` a file with the hybrid coordinate p(n,k,j,i) = a(k)*p0 + b(k)*ps(n,j,i) (HybridSigmaPressure2) gets the pressures with surface and reference pressure exchanged: with p0 = 1000, ps = 900 and 800 and a level with a = 0, b = 1 (the surface) both points get 1000.
* `C103_sigma_order_refuted` an AtmosphereSigma made in the order of its constructor (sigma, ps, ptop) gives the pressure with ps and ptop exchanged; only the exchanged call of the CF builder makes it right.
* `C103_record_refuted` a reference pressure that changes with time is taken from the first record for all times.
* `C103_shared_refuted` if all terms and the output share the fastest dimension, terms that are handed over as one value are taken from the first position only: here the second point gets the surface pressure of the first.
* `C103_null_refuted` the hybrid height converter does not check its term b, without data it dereferences a null pointer; the same for eta of the ocean coordinates.
* `C104_offset64_refuted` only the first version of the classic netcdf format is known by its first bytes; a file with 64-bit offsets (CDF and 2) whose name has no extension nc cannot be read without a type name.
* `C104_unknown_type_refuted` a type name that no driver knows is not refused but ignored; nc5 for the contents of a GRIB file named .nc opens the GRIB reader.
* `C104_nc3_name_refuted` nc3, cdf and netcdf are type names but no extensions, so out.nc3 cannot be written without a type name.
* `C104_rw_version_refuted` with +rw the format of the type name is lost; nc3+rw writes netcdf 4.
* `C104_grib1_refuted` the extension overrides the type name: a file with type grib1 and extension grib2 is written as edition 2.
* `C104_rw_file_refuted` opened for reading and writing, the prefix file: stays in the name.
* `C104_colon_refuted` a regular expression with a colon is cut there, and what follows becomes the name of the member.
* `C104_magic_refuted` matchMagic of the netcdf driver compares seven bytes when it is given four or more; the search of findFactory always has seven.
* `C105_no_default_refuted` without an element for variables without vertical axis nothing of them is written, and nothing is reported but a warning
* `C105_references_refuted` with several reference times only the first time of the first reference time is written, once for each reference time
* `C105_split_refuted` a variable with two elements for different levels is never written
* `C105_level_zero_refuted` an element for level 0, or for a negative level, matches no level
* `C105_surface_first_refuted` an axis from surface to top, or with one level only, makes the writer read behind the end of ap and b
* `C105_sticky_refuted` an additional attribute of a parameter stays in the messages of all later variables: the temperature of the second time is written as an accumulated value
* `C105_sticky_pv_refuted` 
* `C105_fraction_refuted` 
* `C105_vertical_unit_refuted` 
* `C105_table_refuted` 
* `C105_references_example_refuted` 
* `C106_figure_refuted` the figure of the earth of the projection is not written: the message keeps the one it had
* `C106_centre_refuted` nor is the pole at the centre of the projection; a grid around the south pole is written as one around the north pole
* `C106_directions_refuted` the directions of a stereographic grid are not written: the flags of the message before (the same handle is used for all messages, C105) remain
* `C106_polar_refuted` in edition 2 the orientation of a polar_stereographic grid is not written: the name is misspelt in the test, and the attribute of stereographic grids is looked for
* `C106_parallel_refuted` in edition 1 the standard parallel of a polar_stereographic grid is ignored (all grids are written, and read, as true at 60 degrees); so is, for conic grids, the latitude of origin
* `C106_rows_refuted` a conic grid with rows from north to south is read with the rows from south to north
* `C106_oblate_refuted` the axes of an oblate earth given in kilometres are read as metres; a decimal scale factor, which says that the value is to be divided, is used to multiply it
* `C106_pole_refuted` an angle of the pole with a fraction is cut off, also in edition 2
* `C106_metres_refuted` in edition 1 a step of a stereographic grid is cut off to whole metres
* `C106_steps_refuted` a rotated grid whose increments are not given has its extent divided by the number of points, not by the number of steps
* `C107_vector_refuted` a variable whose configuration names its counterpart in a vector is not marked as part of a vector: the condition of line 944 is inverted.
* `C107_constant_refuted` one message without time (or of a variable configured with constantTime) makes the whole file unreadable.
* `C107_coefficients_refuted` variables with the same type and numbers of levels share one axis, with the vertical coefficients of the first of them by name; the others' are lost.
* `C107_extra_refuted` a condition on a further key is not checked for messages without the key.
* `C108_ignored_refuted` values configured for an axis without further variables are ignored.
* `C108_last_refuted` the last full level is refused for the second half of the coefficients.
* `C108_beyond_refuted` with half levels, level n (there are n - 1) gets the mean of the last a and the first b.
* `C108_zero_refuted` level 0 gets the last a as its b.
* `C108_scales_refuted` a scale also applies to the values of the elements before it.
* `C108_missing_refuted` without enough coefficients the hybrid axis is not read with level numbers as the handling of the error intends, but the file is refused: the attributes of the missing variable are added nevertheless.
* `C109_time_end_refuted` an end of the time span without a start is ignored (fimex.cc:482 tests the start twice); the whole time axis is written
* `C109_autoconf_refuted` a configuration of the quality by the status flags of the file is ignored: the program looks for autoConfigString, its option is called autoConfString
* `C109_process_print_refuted` what process.printNcML, process.printCS and process.printSize ask for is never printed
* `C109_no_method_refuted` levels without a method (or without a type) are ignored; the data keep their levels
* `C109_half_points_refuted` longitudes without latitudes are ignored; latitudes without longitudes end the program
* `C109_merge_ignored_refuted` merge.projString, merge.keepOuterVariables and merge.inner.cfg alone do nothing
* `C109_endless_refuted` a configuration for the inner file that asks for merging with itself never ends
* `C109_added_anyway_refuted` asking with the text "false" for the vertical velocity still adds it
* `C109_undef_min_refuted` forward_undef_min stands for forward_min: undefined values are skipped
* `C109_negative_refuted` a negative position becomes a very large one
* `C110_times_refuted` the times are counted from START_DATE in steps of TIME_STEP_MN minutes, and in steps of three hours if that attribute is missing, which no WRF file has; what the variable Times holds is never read
* `C110_reftime_refuted` a file with a variable Time gets no reference time
* `C110_no_time_refuted` a file without the dimension and the variable Time makes the listing fail
* `C110_two_axes_refuted` one variable with a staggered and a plain vertical dimension makes the listing of all systems fail
* `C111_negative_refuted` with a negative capacity memory is overwritten
* `C111_no_longitude_refuted` without longitudes the code is 1 and not -1, and the text is empty and not a null pointer
* `C111_dimname_refuted` for a position outside of the dimensions a C++ exception leaves the C function, where an empty text is promised
* `C111_set_refuted` a part outside of the dimension, or an unknown dimension, lets a C++ exception out of the C function, where a negative code is promised
* `C111_long_dimension_refuted` a dimension of 2^32 or more is shown with its size modulo 2^32
* `C111_memory_refuted` for a variable whose data are in memory the callback is not called when the variable is read: the values come out unscaled. Reading one record ends the program (assertion
* `C111_other_reader_refuted` with a reader that takes no callbacks a null pointer is used, where the code -2 is meant
* `C111_fill_refuted` the size of the block is not known to the function; more values than it can hold are written behind its end
* `C111_write_units_refuted` units "" are said to mean no conversion, also for writing; but they are converted, which fails for every variable whose unit is not a number
* `C111_name_refuted` behind the end of the list the name is a null pointer, where an empty text is promised
* `C112_several_refuted` with several aggregations none is read, though the message says the first
* `C112_coordinates_refuted` all files of one <scan> get the same coordinate value, that of the element
* `C112_half_added_refuted` a scanned file with a dimension of the name of the new one is reported as not readable and stays in the list without a position: the only record is looked up in it, and the values of the second file are found nowhere
* `C113_fixed_variables_refuted` with two or more processes the variables without the unlimited dimension are asked for by none, since -1 % size is -1
* `C113_texts_refuted` a variable or attribute of several texts (CDM_STRINGS), as the coordinate of an aggregation along a new dimension, cannot be taken
* `C114_clock_refuted` instants before 1677 or after 2262 overflow in the conversion to nanoseconds, though seconds can hold them: no time, no text
* `C114_year_1_refuted` 
* `C114_late_year_refuted` years from 32768 on are taken as years before 0
* `C114_compact_text_refuted` the compact text is not read back
* `C114_no_such_day_refuted` a day that is not in the calendar is taken as another one
* `C115_bare_time` a time without brackets gives the empty text; its default format is never used
* `C115_merged_refuted` two formats in one value are taken as one, up to the last ")%"
* `C115_other_name_refuted` also with a template of another name behind
* `C115_offset_kept_refuted` 
* `C115_plus_refuted` the offset +5000 given in the description of the options is refused
* `C115_long_refuted` a text of 80 characters does not fit and the buffer is written out all the same
* `C116_short_field_refuted` a field with less than 20 words counts as valid, with a size near 2^64, and is never read
* `C116_short_index_refuted` with fewer valid entries than the first block says the search for them leaves the index and then the file
* `C117_lambert` a Lambert grid needs additional words, its angle is 0 without them
* `C117_rows_refuted` a field that is read with another number of rows than its header says gets other rows
* `C118_rows_refuted` cutting leaves the first row only, which is not in the box
* `C118_last_point_refuted` the header says one column more than there is
* `C118_whole_refuted` the last column is never kept, not even for the whole grid
* `C118_missing_file_refuted` a file that cannot be opened crashes the program
* `C118_exit_code_refuted` 256 damaged messages are a success
* `C119_append_damaged_refuted` an index which is damaged, or missing, is not noticed when it is appended to; the program writes the new index over it, and the messages after the damage are lost.
* `C119_edition_refuted` the length of such a message is computed from variables without a value.
* `C119_digits_refuted` 16 digits do not tell two neighbouring doubles apart: the start or the step of a grid may change when the index is written and read.
* `C119_input_type_refuted` --input.type=grib is refused for an index of the type grbml with the words that only GRIB input is supported, while --input.type=grbml is accepted and the file is read as GRIB messages; without a name of the output, the type of the output is ignored.
* `C119_escape_refuted` the address in the head of an index is written without escapes: with an ampersand, the index cannot be read. The messages of an index are written with escapes, but fiGrbmlCat writes them without.
* `C119_missing_refuted` an element which a message lacks is not noticed: the members keep values that were never set.
* `C119_empty_refuted` a message written as an empty element takes the contents of the next one, which is lost.
* `C120_precise_refuted` a parameter which is more precise than one whose id is a prefix of its own never gets a field
* `C120_wrap_refuted` a number which is no short is another number; 32769 is any value
* `C120_type_refuted` an unknown type is accepted (the exception is made, but not thrown); reading the values fails later
* `C120_capital_refuted` what is no small letter in a type stays in the name: the parameter has no entry under its id
* `C120_fill_refuted` a fill value of digits is taken for a restriction, too: a large one is undefined behaviour
* `C120_inner_refuted` restrictions for all parameters are removed from the middle of an id, too
* `C121_layer_refuted` the option verticalLayer looks at the x axis: with [no] nothing is printed for a grid with more than one column, with units nothing unless they are convertible to those of the x axis.
* `C121_no_time_refuted` nothing is printed for a variable without time axis, whatever its levels.
* `C121_reference_refuted` a file with an axis of reference times is a null pointer.
* `C121_order_refuted` the request is that of the first variable of the coordinate system: a variable with its dimensions in another order gets the positions of the wrong dimensions.
* `C121_statistics_refuted` of two values the median is the greater one; the standard deviation of one value is not a number; the number of undefined values is not shown if there are no others.
* `C122_null_refuted` with a logger in use, setClass(0) leaves a class behind: the default class, made while the old class is deleted, because the logger that is reset asks for the class to be removed from
* `C122_log4cpp_level_refuted` with log4cpp, whose root has the priority INFO, no level above INFO is kept: neither WARN, the default, nor OFF; and a level once lowered is not raised again. A level set after the class is ignored.
* `C122_off_refuted` with stderr, messages of level OFF are always written
* `C123_axis_name_refuted` the vertical axis is removed from the dimensions of the temperature by its own name, not that of its dimension. If they differ, no surface pressure can be found, and altitudes are those of the standard atmosphere though the file has all that is needed.
* `C123_other_grid_refuted` with pressure levels the pressure has the vertical dimension only, and the first temperature with this dimension is used, even if it is on another grid: the altitudes then have no column for a position (x, y).
* `C123_null_refuted` a converter which has no data, e.g. because a variable of its formula is missing, gives a null pointer, which is used.
* `C123_members_refuted` with members in the pressures, the column of a position has the levels of all members.
* `C123_curvilinear_refuted` if longitudes and latitudes have two dimensions, both axes begin with the same one: x is ignored, and the other dimension is read whole.
* `C124_old_file_refuted` the reader which is kept is that of the file which had the name; a file which has got longer is read only as far as it was before, and one which has got shorter gives an error
* `C124_server_refuted` a server which names no length, or sends less than was asked for, gives bytes which were in the buffer before, and no error
* `C125_dimension_refuted` , for all files: if the file stands on dimensions x and y (its axes are called so, or its longitudes are given on them) and there is no variable x, or it is removed as it is the longitude, an exception is thrown
* `C125_dimensions_refuted` longitudes and latitudes given on dimensions x and y that have no variables of their own (in either order), and axes of longitude and latitude that are called x and y: the interpolation fails with an exception
* `C125_axis_stays_refuted` if only one of the old axes is called like the new one, the other one stays in the file, with its dimension, although nothing uses it
* `C126_first_direction_refuted` the matrix of a system stays the one of the first request, also for requests of the other direction
* `C126_packing_refuted` scale factors and offsets have no effect on vectors: packed values are turned
* `C126_back_refuted` vectors rotated to longitude and latitude and then back to the grid are described as vectors of the grid, but hold the components along longitude and latitude: the first rotation is made, the second is not
* `C126_offset_refuted` a vector whose x component has an offset of 10: (11, 0) becomes (10, 1) by a quarter turn instead of (0, 11
* `C126_exception_refuted` two variables on different systems are refused, but their standard names and marks as a vector have been changed

## Trusted base

* The Coq kernel (checked again by `coqchk`).
* The standard library axioms listed below, per theorem in brackets above. The classical real
  numbers bring `ClassicalDedekindReals.sig_forall_dec`, `ClassicalDedekindReals.sig_not_dec` and
  `FunctionalExtensionality.functional_extensionality_dep`; `Classical_Prop.classic` is used through
  the real analysis lemmas. There are no axioms of this project.
* Modules of the standard library that are loaded contain signature constants, which a listing of
  all assumptions of the environment shows as axioms of a library although no theorem depends on
  them as such: `Coq.ssr.ssrunder.Under_rel.*` (`Under_rel`, `Under_relE`, `Under_rel_from_rel`,
  `Over_rel`, `over_rel`, `over_rel_done`, `under_rel_done`),
  `Coq.Reals.Rdefinitions.RbaseSymbolsImpl.*` (`R`, `R0`, `R1`, `Rplus`, `Rmult`, `Ropp`, `Rlt`,
  `Rabst`, `Rrepr`, `Rquot1`, `Rquot2`, and the `_def` equations) and
  `Coq.Reals.Rdefinitions.RinvImpl.Rinv`, `Rinv_def`.
* The correspondence between the C++ text and the Gallina definitions, which is by reading; every
  definition cites file and lines, and simplifications are said there.
* Not modelled at all: the file formats themselves (NetCDF, GRIB, HDF5, protobuf and XML libraries),
  PROJ, udunits and boost (answers of these libraries are parameters of the models), threads and
  OpenMP (loops are sequential), memory exhaustion, rounding of floating point numbers, logging,
  the command line programs, and the language bindings.


Axioms printed by `Print Assumptions` over all 1311 theorems (1177 are closed under the global context):

* `ClassicalDedekindReals.sig_forall_dec`: 134 theorems (C103, C126, C29, C34, C36, C41, C42, C43, C50, C66, C71, C72, C74)
* `ClassicalDedekindReals.sig_not_dec`: 67 theorems (C103, C34, C41, C42, C43, C50, C66, C71, C72, C74)
* `Classical_Prop.classic`: 47 theorems (C41, C42, C43, C50, C66, C71, C72, C74)
* `FunctionalExtensionality.functional_extensionality_dep`: 121 theorems (C103, C126, C29, C34, C36, C41, C42, C43, C50, C66, C71, C72, C74)
