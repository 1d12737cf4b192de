{"id": "C01", "title": "Box slice of an array returns exactly the requested cells", "statement": "Slicing a data array of shape (d0 fastest, d1, ...) with start/size vectors returns an array of length size0*size1*... whose cell at relative position (j0,j1,...) is the input cell at absolute position (start0+j0, start1+j1, ...), for every request whose start+size stays inside each dimension; a request outside the array (with sums below 2^64) or an original shape whose product differs from the array length raises an exception instead of returning data. The bounds test is done in size_t, so a start+size that wraps past 2^64 is accepted (finding).", "quantifier": "every element type, every array, every number of dimensions, every shape and every start/size vector", "why_tests_cant": "The number of shapes, ranks and offsets is unbounded; a test fixes a few small ones and cannot see an index error that needs a particular rank or a wrap of size_t.", "anchors": ["src/DataImpl.h: DataImpl::slice", "include/fimex/RecursiveSliceCopy.h: recursiveCopyMultiDimData", "include/fimex/Data.h: Data::slice"]}
{"id": "C02", "title": "A slice request is always inside the variable it was built for", "statement": "After any sequence of setStartAndSize / setAll calls on a slice builder (rejected calls included), every limited dimension satisfies start+size <= maximum, every dimension not named by an accepted call still covers its full extent, and an accepted call changes only the named dimension and makes its start and size exactly what was asked for. Calls with an unknown dimension or leaving the range throw and leave the builder unchanged. Holds for requests with start+size < 2^64; a larger sum wraps and is accepted although it lies outside (finding).", "quantifier": "every variable shape and every finite history of calls with arbitrary 64-bit arguments", "why_tests_cant": "Histories of calls are unbounded and the failing arguments lie at the 2^64 boundary.", "anchors": ["src/SliceBuilder.cc: SliceBuilder::setStartAndSize, setAll, getUnsetDimensionNames", "include/fimex/SliceBuilder.h: SliceBuilder"]}
{"id": "C03", "title": "Unset-dimension bookkeeping of a slice builder", "statement": "A slice builder reports as unset exactly the dimensions that no accepted setStartAndSize/setAll call has named, each once; setting a dimension twice keeps the last request; requests on different dimensions commute.", "quantifier": "every shape with distinct dimension names, every history of calls", "why_tests_cant": "A history property: tests exercise single calls, not arbitrary interleavings.", "anchors": ["src/SliceBuilder.cc: SliceBuilder::getUnsetDimensionNames, setStartAndSize, getDimPos"]}
{"id": "C04", "title": "Reading a variable in pieces equals reading it whole", "statement": "For a variable with an unlimited dimension, a reader's default getDataSlice(variable, slice request) returns the same cells that slicing the full variable would return, where the full variable is the concatenation of the per-record slices, and a missing (empty) record contributes only fill values; a record of the wrong length raises an exception. Reading the complete variable with getData agrees with the full slice request whenever no record is missing (with a missing record getData leaves zeros while the slice request leaves fill values: finding).", "quantifier": "every shape, every number of records, every pattern of missing records and every in-range request", "why_tests_cant": "Requires all shapes, all records and all missing patterns; existing tests read a handful of complete files.", "anchors": ["src/CDMReader.cc: CDMReader::getDataSlice(const std::string&, const SliceBuilder&), CDMReader::getData", "src/CDMReader.cc: getDataSliceFromMemory"]}
{"id": "C05", "title": "Writing a block into an array touches only that block", "statement": "Copying values into an array at a start position stores them in order at start, start+1, ... and leaves every other cell as it was, and never writes outside the array, for every start position not beyond the end; the number of copied values is cut at the end of the array. A start position beyond the end makes the remaining-length computation wrap and writes outside (finding).", "quantifier": "every array, every start position, every source block", "why_tests_cant": "Overwrites outside the block appear only for particular position/length pairs and may be silent.", "anchors": ["src/DataImpl.h: DataImpl::setValues, copyData", "src/Data.cc: Data::setValues"]}
{"id": "C06", "title": "Selecting arbitrary indices of a dimension keeps row order", "statement": "When indices of one or more dimensions are selected (extractor), the returned slice equals the original array restricted to the selected index tuples in lexicographic (fastest dimension first) order. This holds when each selected index set is one contiguous range, or when only slower dimensions are split; when a faster dimension is split into two or more separate ranges and a slower unreduced dimension has more than one element the result has the right length but scrambled order (finding).", "quantifier": "every shape, every selection of index sets, every slice request", "why_tests_cant": "The failure requires a specific combination of gaps and dimension order; a test with one reduced dimension passes.", "anchors": ["src/CDMExtractor.cc: CDMExtractor::getDataSlice, getDataSlice_", "src/CDMExtractor.cc: CDMExtractor::reduceDimension"]}
{"id": "C07", "title": "Dimension reduction never leaves the original dimension", "statement": "Reducing a dimension to an explicit index set or to start+length succeeds only if all positions exist in the original dimension, otherwise throws; after success the dimension's length equals the number of selected positions. The index-set check compares against the length with the wrong strictness, so the one-past-the-end index is accepted (finding); reduceDimensionStartEnd with start beyond end computes a wrapped length (finding).", "quantifier": "every dimension length and every index set, start, end", "why_tests_cant": "Off-by-one and wrap conditions at the boundary of an unbounded domain.", "anchors": ["src/CDMExtractor.cc: CDMExtractor::reduceDimension, reduceDimensionStartEnd"]}
{"id": "C08", "title": "Repeated reduction of the same dimension", "statement": "Selections refer to positions of the original dimension (as documented), so after reducing an already reduced dimension again the state is the one the second selection alone would give, and the reported dimension length equals the number of selected positions after any history of reductions. The bound check uses the already reduced length, so a valid original position may be refused after a first reduction (finding); the second selection is not relative to the first one unless that was a prefix (finding).", "quantifier": "every pair of successive reductions on a dimension", "why_tests_cant": "A history property over two calls; single-call tests pass.", "anchors": ["src/CDMExtractor.cc: CDMExtractor::reduceDimension"]}
{"id": "C09", "title": "Nearest-neighbour regridding is independent of domain reduction", "statement": "Nearest-neighbour regridding with a cached index map returns for every output point and every level the value of the input cell nearest to the point's fractional position, or undefined when that cell lies outside the input grid; shrinking the input domain to the bounding rectangle of used cells does not change any output value, and no input read is outside the supplied field.", "quantifier": "every input grid size, every list of output positions, every number of levels", "why_tests_cant": "Needs every position (including outside ones) and the algebra of index remapping for all sizes.", "anchors": ["src/CachedInterpolation.cc: CachedNNInterpolation::CachedNNInterpolation, interpolateValues, createReducedDomain", "src/interpolation.c: mifi_get_values_f"]}
{"id": "C10", "title": "Forward regridding treats levels separately", "statement": "Forward (aggregating) regridding should produce for each level the aggregate of that level's input values. The implementation reads the first level for all levels: its output for level z equals the output for level 0 whatever the input of level z is (finding); for single-level input the output cell is exactly the chosen aggregate of all input cells that map to it.", "quantifier": "every input field, number of levels, mapping from input cells to output cells and aggregate", "why_tests_cant": "Tests use one-level fields; the claim quantifies over all level contents and all mappings.", "anchors": ["src/CachedForwardInterpolation.cc: CachedForwardInterpolation::interpolateValues, AggSum, AggMean, AggMin, AggMax, AggMedian"]}
{"id": "C11", "title": "Aggregates do not depend on the order of input cells", "statement": "The sum, mean, min, max and median aggregates of a cell give the same result for every ordering of the contributing values; undefined inputs are skipped by the normal variants and make the result undefined in the undef variants. For the undef min/max variants this fails: whether an undefined value is honoured depends on whether it comes first (finding).", "quantifier": "every finite multiset of values including undefined ones, every permutation", "why_tests_cant": "All permutations of all inputs; a test fixes one order.", "anchors": ["src/CachedForwardInterpolation.cc: AggMin, AggMax, AggMean, AggSum, AggMedian, undef handling"]}
{"id": "C12", "title": "Bilinear interpolation stays in the field and between the corner values", "statement": "Bilinear interpolation at a position inside the grid reads only existing cells and returns a value between the minimum and maximum of the (up to four) surrounding cells, equals the cell value at grid points whose right and upper neighbours are defined and is undefined outside; for every field whose values are an affine function of the position the interpolation is exact. On the upper border the test on the row index admits one row too many, so an out-of-range read occurs (finding). A defined grid point next to an undefined cell comes out undefined, because a zero weight times NaN is NaN (finding).", "quantifier": "every field, grid size, level count and position", "why_tests_cant": "Continuum of positions and all sizes; the out-of-range read happens only in a half-cell strip.", "anchors": ["src/interpolation.c: mifi_get_values_bilinear_f"]}
{"id": "C13", "title": "Axis position lookup inverts axis evaluation", "statement": "Mapping coordinates to fractional axis positions on a strictly monotonic axis (increasing or decreasing, at least two values) gives i for the i-th axis value, is strictly monotone between axis values, extrapolates linearly outside, and never reads outside the axis; binary search returns the index of a present value and the insertion point encoding otherwise. For a one-element axis the code reads outside the axis (finding).", "quantifier": "every strictly monotonic axis of any length and every coordinate value", "why_tests_cant": "Binary search correctness quantifies over all arrays and keys.", "anchors": ["src/interpolation.c: bsearchDoubleIndex, mifi_points2position"]}
{"id": "C14", "title": "Calendar times compare chronologically", "statement": "Comparing two calendar times with <, <=, ==, !=, >, >= agrees with the lexicographic order on (year, month, day, hour, minute, second, millisecond); the comparison is a total order, equality holds only for equal fields, and min/max times bound all others. Holds for all field values with year 0..4095, month 0..15 and minute 0..127, hence for all calendar times up to year 4095; later years are truncated so ordering fails (finding).", "quantifier": "every pair of times with arbitrary field values", "why_tests_cant": "Six comparison operators over an encoding of seven packed fields: overlaps only appear for particular values.", "anchors": ["include/fimex/FimexTime.h: FimexTime::operator<, operator==", "src/FimexTime.cc: FimexTime::toEncoded, fromEncoded"]}
{"id": "C15", "title": "Time packing loses nothing", "statement": "Packing a calendar time into the 64-bit encoding and unpacking returns the same time for all fields in range (years 0..4095, minutes 0..127), different times have different encodings, different encodings unpack to different times, and unpacking then packing an encoding whose minute field is at most 127 returns it. A minute of 128 or more is sign-extended into all higher bits, and years from 4096 lose their high bits (findings).", "quantifier": "every field tuple and every 64-bit encoding", "why_tests_cant": "2^64 encodings cannot be enumerated.", "anchors": ["src/FimexTime.cc: FimexTime::toEncoded, fromEncoded"]}
{"id": "C16", "title": "Bracketing neighbours in a coordinate list", "statement": "Searching a list of coordinates for the neighbours of x returns two indices in range such that the values bracket x (first <= x < second, in either direction order) when x lies inside the range, and the closest two distinct elements otherwise; the two indices are different for every list of at least two distinct values. This fails when the first element is the (closest) match: the same index is returned twice (finding).", "quantifier": "every list of values and every search value", "why_tests_cant": "Depends on position of the match in an arbitrary unsorted list.", "anchors": ["include/fimex/FindNeighborElements.h: find_closest_distinct_elements, find_closest_neighbor_distinct_elements"]}
{"id": "C17", "title": "Pairwise minimum/maximum search", "statement": "min_max_element returns positions of a smallest and of a largest element of the range for every non-empty range, using the given comparison; the position of the largest element is the first such position; for an empty range both are the end. Among equal smallest elements the returned one is not always the first (finding, unlike std::minmax_element).", "quantifier": "every finite range, every strict weak order", "why_tests_cant": "Pairwise processing has even/odd tail cases and ties for every length.", "anchors": ["include/fimex/min_max.h / src/min_max.h: min_max_element"]}
{"id": "C18", "title": "Tokenising and joining strings", "statement": "tokenize(s, delims) returns exactly the maximal non-empty runs of non-delimiter characters in order; split_any keeps empty fields and its result joined with the delimiter reproduces the input; tokenize of the join of non-empty delimiter-free tokens returns the tokens.", "quantifier": "every string, delimiter set and token list", "why_tests_cant": "All strings; empty, leading, trailing and repeated delimiter cases combine freely.", "anchors": ["src/StringUtils.cc: tokenize, split_any", "include/fimex/StringUtils.h: join"]}
{"id": "C19", "title": "Trimming, prefix, suffix and replacement", "statement": "trim removes exactly the leading and trailing blanks (result has no blank at either end and is the input without the removed ends) and is idempotent; starts_with/ends_with hold iff the text can be written with that prefix/suffix (for texts below 2^31 characters); replace_all_copy replaces every occurrence of the character and nothing else.", "quantifier": "every string", "why_tests_cant": "All strings and positions.", "anchors": ["src/StringUtils.cc: trim, starts_with, ends_with, replace_all_copy"]}
{"id": "C20", "title": "Dotted value lists expand to arithmetic progressions", "statement": "A list 'a,b,...,z' with different a and b expands to a, b, b+(b-a), ..., z: between b and z come exactly those members of the arithmetic progression with step b-a that lie before z by more than 1e-5 of the step; lists without dots are returned value by value; dots with fewer than two values before them and unreadable tokens throw. A list ending in dots increments an iterator past the end, equal a and b with a smaller end never terminate, and an end on the wrong side of b is appended without complaint (findings).", "quantifier": "every token list", "why_tests_cant": "Non-termination and past-the-end reads cannot be established by finitely many runs.", "anchors": ["include/fimex/TokenizeDotted.h: tokenizeDotted"]}
{"id": "C21", "title": "String table lookups are stable", "statement": "Adding names to a string list builder returns for equal names the same index and for different names different indices, indices already handed out stay valid and refer to the same name whatever is added later, and the list holds each name once. With the 'no index 0' option index 0 is never returned, except by a builder made from an empty list (finding); a name that is twice in the initial list stays there twice (finding).", "quantifier": "every initial list and every history of additions", "why_tests_cant": "History property.", "anchors": ["src/StringUtils.h/.cc: StringListBuilder::add"]}
{"id": "C22", "title": "XML escaping is lossless and safe", "statement": "Escaped text contains none of the raw characters < > & \" ' outside of entities, unescaping restores the original text, and different texts escape to different texts.", "quantifier": "every character string", "why_tests_cant": "All strings.", "anchors": ["src/XMLUtils.cc: escapeXmlToStream, escapeXmlString"]}
{"id": "C23", "title": "Data-type names round-trip", "statement": "Converting a data type to its name and back yields the same type for all types; different types have different names; unknown names yield 'not a type'. The name is accepted in any mixture of cases, and nothing else is accepted. The NcML name together with the unsigned flag, and the netCDF type, round-trip for every type. NcML attributes are written with the name only, so exactly the unsigned types come back as signed ones, and the NcML type char is read as no type (findings).", "quantifier": "every data type and every string", "why_tests_cant": "Unknown names are arbitrary strings; exceptions only show when checking all types in both directions.", "anchors": ["src/CDMDataType.cc: string2datatype, datatype2string", "src/NcmlUtils.cc: datatype_cdm2ncml, datatype_ncml2cdm; src/NcmlCDMWriter.cc; src/NcmlCDMReader.cc"]}
{"id": "C24", "title": "Scaling and unscaling are inverse, missing stays missing", "statement": "Unpacking data with scale, offset and fill value and packing them again with the same parameters returns the original integers (scale not 0, values in range of the packed type), a fill value maps to the undefined value and back, and a valid value never becomes missing unless its packed value equals the fill value; combining scale/offset with a unit conversion equals applying them one after the other.", "quantifier": "every packed value, scale, offset, fill value, unit conversion", "why_tests_cant": "Continuum of parameters.", "anchors": ["include/fimex/DataUtils.h: ScaleValue, ChangeMissingValue", "src/CDMReader.cc: scaleDataOf", "src/CDMReaderWriter.cc: unscaleDataOf", "src/Data.cc: convertDataType"]}
{"id": "C25", "title": "Conversion to integer types rounds to the nearest representable value", "statement": "Converting a floating value to an integer type gives the nearest integer (ties away from zero) when it is in the range of the target type. Rounding passes through a 32-bit int, hence conversions to 64-bit types are wrong for every value whose nearest integer is 2^31 or more (finding), while unsigned 32-bit values are right because the wrapped int wraps back. Values that do not fit a type of up to 32 bits wrap around. Conversion between integer types keeps every value both can hold. Turning a position into an index gives the nearest index or the substitute for positions within the int range; far positions are taken for valid indices (finding).", "quantifier": "every value and every target type", "why_tests_cant": "Continuum of values.", "anchors": ["include/fimex/MathUtils.h / src/MathUtils.cc: round", "src/DataUtils.h: data_caster", "src/MathUtils.cc: RoundAndClamp"]}
{"id": "C26", "title": "Metadata model stays consistent under any editing history", "statement": "After any sequence of add/remove/rename operations on variables, dimensions and attributes (including failing ones), variable names and dimension names are unique, every attribute belongs to an existing variable or to the global namespace, attribute names are unique per variable, and an exception leaves the model unchanged (except when a dimension is renamed to its own name; finding). Each single operation has exactly its documented effect and touches nothing else. Renaming a variable to its own name, or renaming a missing variable onto an existing one, deletes a variable although the result is false; removing a variable called _GLOBAL removes the global attributes (findings).", "quantifier": "every finite history of editing operations", "why_tests_cant": "Unbounded histories.", "anchors": ["src/CDM.cc: CDM::addVariable, removeVariable, renameVariable, addDimension, renameDimension, removeDimension, addAttribute"]}
{"id": "C27", "title": "Renaming keeps data reachable", "statement": "Renaming variable a to a new unused name b makes b carry everything a had (type, shape, attributes) and a disappear, and changes nothing else; renaming a dimension changes the name in the dimension list and in the shape of every variable using it, and nothing else. Renaming forth and back restores the model; the lengths of all variables are kept. References by name are not followed: the counterpart name of a vector component keeps the old name (finding).", "quantifier": "every metadata model and every pair of names", "why_tests_cant": "All models and name coincidences.", "anchors": ["src/CDM.cc: CDM::renameVariable, renameDimension"]}
{"id": "C28", "title": "Aggregating files along an existing dimension", "statement": "Joining files along an existing unlimited dimension of one name: record u of the aggregate is record u - (sum of the earlier lengths) of the unique file whose range contains u; every record of every file is reachable exactly once and files contributing no records are skipped; a file without the variable in this shape gives a record of fill values of the size of a record; an index behind all files gives no data; a request for a part is the concatenation of the parts of those records. With coordinate values for every file there is one per record, in file order. Along a new dimension record i is the whole variable of file i. A union of compatible files returns each variable from the first file that has it. Findings: a fill record along a new dimension is too large by the number of files; dimensions of a joined variable first met in a later file are not added; coordinate values given for some files only are fewer than the records.", "quantifier": "every list of files with arbitrary lengths (also zero) and every record index", "why_tests_cant": "All lists of lengths and indices.", "anchors": ["src/AggregationReader.cc: AggregationReader::getDataSlice, findJoinReader, readerUdimPos_"]}
{"id": "C29", "title": "Accumulation is independent of the access order", "statement": "For variables whose records all have the same non-zero size and that are registered for accumulation or de-accumulation but not both: whatever records of whatever variables were read before, record u > 0 of an accumulated variable is the sum of the stored records 0..u (undefined counts as zero in record 0 only; record 0 itself is returned as stored), record u > 0 of a de-accumulated variable is the difference of the records u and u-1, and results already returned are not changed by later reads. De-accumulation of accumulated records gives the original records back. Findings: a variable registered for both gives history-dependent results; writing into a returned slice changes later results, since the cache shares it; with an empty record the result depends on the history and a result already returned is overwritten; packed values are summed, so an add_offset is counted once instead of u+1 times.", "quantifier": "every history of read requests and every input", "why_tests_cant": "A cache of one entry: only particular interleavings expose stale results.", "anchors": ["src/CDMProcessor.cc: CDMProcessor::getDataSlice, accumulate, deAccumulate, sliceCache"]}
{"id": "C30", "title": "Quality masking replaces exactly the rejected cells", "statement": "With a status field and a rule (a list of allowed values; or a flag all, max:x, min:x on top of the status variable's valid_min, valid_max, valid_range and fill value), a data cell is replaced by the fill value iff its status cell is rejected (NaN or excluded by the rule), and all other cells are returned unchanged; a status field smaller than the data by an integral factor is repeated, which pairs the cells of the common first dimensions. Without data and status the slice is all fill values; a size that does not divide leaves the data unmasked; unknown flags are refused. Findings: highest and lowest never terminate when the status contains an undefined value and mask nothing otherwise; automatic configuration never selects a variable; data with an empty status converts infinity to int; two variables that are the status of each other recurse without end.", "quantifier": "every data field, status field and rule", "why_tests_cant": "All fields and rules.", "anchors": ["src/CDMQualityExtractor.cc: CDMQualityExtractor::getDataSlice, findCorrespondingVariables, findDefinedExtreme, getValidValues"]}
{"id": "C31", "title": "GRIB messages are placed at their slice position", "statement": "Reading a slice of a gridded variable puts each message's field, restricted to the requested part of the grid, at the position of its member, level and time in the slice, and fill values where there is no message or one of another size, if every dimension (member, level, time) before the last one with several requested elements is requested completely. Positions are computed with the full lengths of the member and level dimensions, so every other request writes behind the end of the result when its last message exists, and otherwise returns fields at wrong positions (finding).", "quantifier": "every dimension length, slice request and set of available messages", "why_tests_cant": "All requests; complete reads pass.", "anchors": ["src/io/grib/GribCDMReader.cc: GribCDMReader::getDataSlice"]}
{"id": "C32", "title": "Forecast step units convert losslessly", "statement": "Converting a positive number of seconds to a step unit gives the largest listed unit dividing it, with a whole number of these units giving back the same seconds; texts and codes of units are inverse to each other and unknown ones, and zero seconds, are refused.", "quantifier": "every number of seconds and every unit code", "why_tests_cant": "All integers.", "anchors": ["src/io/grib/GribUtils.cc: gribStepUnits2seconds, gribSeconds2stepUnits, gribStepUnitsFromText, gribStepUnitsToText"]}
{"id": "C33", "title": "Overlay shows the top where it is defined", "statement": "Overlaying a top field on a base field (top slice not shorter) returns at each cell the top value when it is defined (neither NaN nor the top's fill value) and differs from the base's fill value, otherwise the base value when that is defined; cells undefined in both are the top's fill value; with scaled values the top value unless it is NaN, then the base value. A valid top value that equals the base fill value is turned into missing (finding); a top slice shorter than the base slice is read past its end (finding).", "quantifier": "every pair of fields and fill values", "why_tests_cant": "Coincidence of a valid value and the other file's fill value.", "anchors": ["src/CDMOverlay.cc: CDMOverlay::getDataSlice"]}
{"id": "C34", "title": "Border smoothing blends between inner and outer", "statement": "With border width b >= 0 and transition width t > 0 (b + t and the sizes below 2^64), each cell of a slice with positive sizes is the outer value when it is closer than b to an edge, the inner value when it is at least b + t from all edges, and otherwise inner + w (outer - inner) with w = min(1, sqrt(dx^2+dy^2)/t), where d is b + t - x in the left zone and x - (size - b - t) in the right zone; the value lies between both. The wrap of unsigned differences for small fields never shows. A missing outer value gives the inner one, a missing inner value gives the outer one or missing as configured. Findings: the left and right zones are not mirror images; corners have a larger weight than the distance to the nearest edge alone gives; negative widths are accepted; a variable without a horizontal dimension reads dimSizes[-1]; a zero length other than in the first dimension reads outside of the arrays.", "quantifier": "every field size, transition width, border width and values", "why_tests_cant": "All sizes; wrap only for small fields.", "anchors": ["src/CDMBorderSmoothing.cc: CDMBorderSmoothing::getDataSlice", "src/CDMBorderSmoothing_Linear.cc: CDMBorderSmoothing_Linear::operator()"]}
{"id": "C35", "title": "Multi-array loops visit every element exactly once", "statement": "Looping over an array group visits every index tuple of the group's shape exactly once in storage order: turn k, element j < sharedVolume is tuple number k*sharedVolume+j, and at each turn the position reported for each array plus j is that array's own linear index of the tuple (dimensions that the array does not have contribute nothing, dimensions that are not shared are at 0); the loop ends after volume/sharedVolume turns. A group is refused exactly if two arrays share a dimension name with different lengths. Findings: changing the length of a dimension other than the last leaves the strides stale; the constructor accepts a last length of 0 and the loop then does not end.", "quantifier": "every shape, every set of arrays with arbitrary missing dimensions", "why_tests_cant": "All ranks and shapes; odometer carries.", "anchors": ["src/ArrayLoop.h/.cc: ArrayDims, ArrayGroup, Loop::next"]}
{"id": "C36", "title": "Time interpolation brackets each requested time", "statement": "For a sorted original time axis and increasing new times, changeTimeAxis maps every new time to two neighbouring original records: the two that bracket it, or the first two or last two when it lies outside; with a single record always that one. A slice at an original time equals the original record, and a slice between two records lies between their values point by point. Findings: if the new times are not increasing the forward-only search maps later ones to neighbours that do not bracket them, and getDataSlice before any changeTimeAxis dereferences the end iterator of the mapping.", "quantifier": "every original axis of length at least two and every list of new times", "why_tests_cant": "All axes and lists; the search resumes from the previous position so correctness is inductive.", "anchors": ["src/CDMTimeInterpolator.cc: CDMTimeInterpolator::changeTimeAxis, getDataSlice"]}
{"id": "C37", "title": "Filling an existing file writes each record to its matching position", "statement": "For a variable of the same shape in both files (apart from translated dimensions, each reduced to one given slice) the FillWriter copies every input cell to the output cell whose coordinate in each dimension is the first equal one, or, for an unlimited dimension, the next new position at the end in input order; dimensions without coordinate variable are kept, or appended if unlimited. No other output cell changes; with distinct input coordinates every target gets exactly the value of its source. Variables missing in the output or with an unusable dimension are left out, and the constructor ends with an exception exactly if some dimension common to both files is unusable. Findings: a translation without slice numbers throws although commented as doing nothing; a shorter output shape that is a prefix is read past its end; a longer one passes the comparison and the write then throws; values are copied raw, so different scale_factor/add_offset change the physical values.", "quantifier": "every pair of coordinate lists", "why_tests_cant": "All coordinate lists.", "anchors": ["src/FillWriter.cc: FillWriter::FillWriter"]}
{"id": "C38", "title": "Directory scan matches paths relative to the start directory", "statement": "Scanning a directory tree with a pattern yields exactly the files within the depth whose name matches, or (when paths are matched) whose path relative to the start directory matches, provided no entry follows a sub-directory that is entered; it throws exactly when more than 1000 directories are nested. The relative directory is accumulated over siblings, so files behind a sub-directory are matched against a wrong path (finding). Every glob pattern translates to a valid regular expression in which '?' matches one non-slash, '*' any run of non-slashes, '**' any run without line breaks, and anything else itself.", "quantifier": "every directory tree, depth and pattern", "why_tests_cant": "All trees; a test with a single sub-directory passes.", "anchors": ["src/FileUtils.cc: scanFiles, scanFiles_, globFiles"]}
{"id": "C39", "title": "Path splitting and joining", "statement": "The file-name part contains no separator, directory part followed by file-name part is the input, replacing the file name keeps the directory, joining a directory and a name inserts exactly one separator when needed, and the extension is the part after the last dot of the file name.", "quantifier": "every path string", "why_tests_cant": "All strings.", "anchors": ["src/FileUtils.cc: extractFilename, removeFilename, replaceFilename, joinFilename, getExtension"]}
{"id": "C40", "title": "Grid definitions as map keys", "statement": "Grid definitions used as map keys must be ordered by a strict weak order (irreflexive, asymmetric, transitive, transitive incomparability), otherwise lookup may miss stored grids. The tolerance-based comparison violates asymmetry/transitive incomparability (finding); it is a strict weak order on definitions that differ either by nothing or by more than the tolerance.", "quantifier": "every triple of grid definitions", "why_tests_cant": "Relations over all triples.", "anchors": ["src/GridDefinition.cc: GridDefinition::operator<, comparableTo, deltaCompare"]}
{"id": "C41", "title": "Vertical coordinate transformations are inverse to each other", "statement": "Sigma to pressure and pressure to sigma are inverse (surface pressure different from top pressure); a log-pressure level is minus the logarithm of its pressure over the reference; the two hybrid forms agree; barometric pressure and height are inverse, also for the standard atmosphere; layer thicknesses are additive and are height differences; omega to vertical wind and back returns the input with opposite signs for positive pressure and temperature; relative humidity is always in 0..100 and the relative/specific conversions are inverse inside that range; a dew point gives a relative humidity in (0,100] that is 100 exactly if it is not below the temperature; the ocean s-coordinates give the sea surface and the bottom at their end levels and are monotone.", "quantifier": "every real-valued input in the physical domain", "why_tests_cant": "Continuum of values.", "anchors": ["src/vertical_coordinate_transformations.c"]}
{"id": "C42", "title": "Vector rotation keeps length and direction convention", "statement": "Reprojecting vector components with a matrix of rotations keeps the vector's length at every cell and level, rotating by the opposite angles restores the components, layers do not influence each other, and a reprojected direction stays in 0..360 degrees and agrees with the rotated components. For a target that is locally rotated by t the cell's angle is t if the step is positive (t not 180 degrees), and t up to a whole turn if the step is negative and t is not 0; for a lat-lon target the bearing turns north towards the stepped position. Otherwise the mean of two angles half a turn apart reverses all vectors (finding). The value 360 itself is not folded to 0 (finding), and choosing the step width probes a cell outside the field for grids with two rows, or two columns and three or four rows (finding).", "quantifier": "every field, rotation matrix and number of levels", "why_tests_cant": "Continuum of values and all sizes.", "anchors": ["src/reproject.cc: vector_reproject_values_by_matrix_f, vector_reproject_direction_by_matrix_f, get_vector_reproject_matrix_proj"]}
{"id": "C43", "title": "Pruned closest-cell search finds the closest cell", "statement": "For every point on the globe and every arrangement the sort may produce, the coordinate based nearest neighbour search (sorted by latitude, stopping when the latitude difference alone exceeds the best distance) returns a cell of minimal great-circle angle among the cells with a position, nearer than the search radius, and -1 exactly if there is none. The radius is 1.414 times the largest angle from a sampled cell (all cells up to 1000, else 53) to its nearest other cell, at most PI. Findings: with a single valid cell the radius is not a number and no point is assigned; if no sampled cell has a position the minimum of an empty list is read.", "quantifier": "every list of cells and every query, for every distance that is at least the latitude difference", "why_tests_cant": "All point sets; pruning errors are data dependent.", "anchors": ["src/CDMInterpolator.cc: fastTranslatePointsToClosestInputCell"]}
{"id": "C44", "title": "Generated names are unique", "statement": "A generated unique name differs from every existing variable and dimension name, starts with the wanted base name, equals the base name when that is free, and an exception is raised only if the base and all 99 numbered variants are taken.", "quantifier": "every set of existing names and every base name", "why_tests_cant": "All name sets.", "anchors": ["src/CDMReaderUtils.cc: findUniqueDimVarName, findUniqueVarName, findUniqueDimName"]}
{"id": "C45", "title": "Shape comparison ignores singleton dimensions only", "statement": "Two variables have equal shapes iff their sequences of dimension lengths agree after dropping dimensions of length 1; the relation is an equivalence; equal shapes imply equal number of elements.", "quantifier": "every pair of shapes", "why_tests_cant": "All shapes.", "anchors": ["src/CDMReaderUtils.cc: compareCDMVarShapes"]}
{"id": "C46", "title": "Coordinate system axis sets", "statement": "A coordinate system holds at most one main axis per typed axis and at most one axis per name after any sequence of setAxis/setAuxiliaryAxis; setAxis throws exactly when a main axis of another name has the type and otherwise replaces the axis of that name; looking up an axis type returns a main axis in preference to an auxiliary one. A rejected setAxis may already have removed an axis (finding).", "quantifier": "every history of axis insertions", "why_tests_cant": "History property.", "anchors": ["src/coordSys/CoordinateSystem.cc: CoordinateSystem::setAxis, setAuxiliaryAxis, findAxisOfType"]}
{"id": "C47", "title": "Chunked remote reads stay in the buffer", "statement": "The body callback of the HTTP reader never writes outside the requested buffer whatever chunk sizes the server sends, and if it accepts all chunks the buffer holds their concatenation; it signals an error as soon as the body is longer than requested. A short body is not detected, and an offset and length whose sum wraps is not refused (findings).", "quantifier": "every sequence of chunk sizes and every buffer size", "why_tests_cant": "Schedules of chunk arrivals are unbounded and controlled by the peer.", "anchors": ["src/HttpChunkReader.cc: WriteCallback"]}
{"id": "C48", "title": "Gap filling keeps defined values", "statement": "For a field with at least two rows, creep-fill (weight not negative) and 2-d fill end normally, keep the size, leave defined cells unchanged, leave no undefined cell if at least one cell is defined, change nothing if none is, and report the number of undefined cells; new values stay within the range of the defined values and the default (2-d fill: for a correction factor in 0..1). Findings: with a single row creep-fill reads outside the field, and 2-d fill does so exactly when the iteration limit is 5; fields with at most two rows or columns get the mean only (other iteration limits); over-relaxation leaves the range; a negative weight can leave undefined cells.", "quantifier": "every field, size and iteration limit", "why_tests_cant": "All patterns of undefined cells.", "anchors": ["src/interpolation.c: mifi_fill2d_f, mifi_creepfill2d_f, mifi_creepfillval2d_f"]}
{"id": "C49", "title": "Cross-section bounds partition the point list", "statement": "Interpolation to cross-sections emits for each cross-section with coordinates one non-empty range of point indices; the ranges are ordered, contiguous, disjoint and cover all points. The points of a range start and end at the first and last coordinate of the cross-section, pass through every coordinate and are less than two grid steps apart; a single coordinate is kept as it is. Names are stored in rows of equal length without overlap and NUL-terminated. Finding: without any coordinates the last index wraps and the call leaves with out_of_range after the CDM was changed.", "quantifier": "every list of cross-sections", "why_tests_cant": "All lists.", "anchors": ["src/CDMInterpolator.cc: CDMInterpolator::changeProjectionToCrossSections"]}
{"id": "C50", "title": "One-dimensional interpolation formulas", "statement": "Linear (and logarithmic, log-log) interpolation between two fields returns the first field at the first coordinate and the second at the second one even where the other field is undefined, the first field for equal coordinates, lies between the two for coordinates in between, reproduces values that are linear (in the coordinate or its logarithm), and is undefined if either is undefined or a coordinate is; the no-extrapolation variant returns undefined outside, the weak-extrapolation variant extrapolates up to one distance outside and is undefined beyond, the constant variant the end value; the logarithmic forms fail exactly for coordinates that are not positive.", "quantifier": "every pair of fields and coordinates", "why_tests_cant": "Continuum of values.", "anchors": ["src/interpolation.c: mifi_get_values_linear_f, mifi_get_values_linear_weak_extrapol_f, mifi_get_values_linear_no_extrapol_f, mifi_get_values_linear_const_extrapol_f, mifi_get_values_log_f"]}
{"id": "C51", "title": "Missing-value marking round-trips", "statement": "Replacing a field's fill value by undefined and back restores the field when it contained no undefined value other than the fill, and touches only cells that equal the fill value / are undefined.", "quantifier": "every field and fill value", "why_tests_cant": "All fields.", "anchors": ["src/interpolation.c: mifi_bad2nanf, mifi_nanf2bad"]}
{"id": "C52", "title": "Longitude normalisation and clamping", "statement": "Normalising a longitude returns a value in [-180,180] that differs from the input by a multiple of 360; clamping returns the nearest value in the interval and is idempotent and monotone.", "quantifier": "every value and interval", "why_tests_cant": "Continuum.", "anchors": ["src/MathUtils.cc: normalizeLongitude180", "src/MathUtils.h: clamp"]}
{"id": "C53", "title": "Merging inner and outer grids keeps the inner axis", "statement": "Extending an inner axis over an outer axis yields an axis that contains the inner axis contiguously and unchanged, continues it with its first step, stays in the range of the outer axis and covers it up to less than one step on each side (steps of at least 1e-6); all steps are within 1e-6 of the first. It fails exactly for axes of fewer than two values, irregular steps, one-sided unlimited dimension, or an inner axis beyond the outer one, and terminates for steps other than zero. Findings: equal inner values never terminate; the 1e-6 is absolute; values are extended in m or degree but declared in the unit of the inner file (km axes come out 1000 times too large).", "quantifier": "every pair of axes", "why_tests_cant": "All axes.", "anchors": ["src/CDMMergeUtils.cc: extendInnerAxis, checkSingleAxisCompatibility"]}
{"id": "C54", "title": "Felt field storage", "statement": "A Felt array holds at most one field per (time, level): the first that fits, replaced only by later ones of another data type; a field of another parameter or vertical coordinate, or a second one of the same data type, is rejected and nothing changes. getField returns the held field; getTimes, getLevelPairs and getEnsembleMembers list exactly the times, levels and members held, sorted and without repetition; the array is timeless exactly when its first field has data type 4 and there is one time. FeltCDMReader2::getDataSlice returns one block per level and member, the held field's values or fill values, and an empty slice for a time the parameter does not have. Findings: the slice position equal to the number of times passes the bounds check and reads past the end of the time vector; an ensemble parameter with exactly one member, numbered other than 0, gets no ensemble dimension and all its slices are fill values.", "quantifier": "every insertion history", "why_tests_cant": "History property.", "anchors": ["src/io/felt/Felt_Array2.cc: addField_, addInformationByField, getField, getTimes, getLevelPairs, getEnsembleMembers, hasTime", "src/io/felt/FeltCDMReader2.cc: getDataSlice"]}
{"id": "C55", "title": "Dimension index arithmetic", "statement": "The linear index computed from per-dimension positions is a bijection between in-range index tuples and 0..size-1; constructing indexed data fails unless the product of the dimensions equals the size.", "quantifier": "every shape and index tuple", "why_tests_cant": "All shapes.", "anchors": ["src/DataIndex.h: DataIndex::getPos", "src/IndexedData.cc: IndexedData::setDims"]}
{"id": "C56", "title": "Relative and absolute time/space axis specifications", "statement": "An axis specification a,b,...,x relative to a start: with the step d=b-a>0 and start and end not before 0, position 0 is the last multiple of d not above the start, position x the last multiple not above the end, and the result is a, b counted from position 0, then all further values with step d that lie clearly before x, then x. x+n is n behind x on both kinds of axes, and x-n is n before x on space axes. An absolute space axis is the dotted list itself. Relative axes need a start and an end and at least two values. Findings: on time axes x-n is the origin of the unit and x n without a sign is n before x; a fraction behind two or more digits of n is dropped; the start is rounded down although the documentation says up, and for a start before 0 it ends up one to two steps late; equal first values divide by zero and convert the result to int (undefined).", "quantifier": "every specification string form and every reference axis", "why_tests_cant": "All offsets and starts.", "anchors": ["src/TimeSpec.cc: TimeSpec", "src/SpatialAxisSpec.cc: SpatialAxisSpec"]}
{"id": "C57", "title": "Bicubic interpolation is cubic convolution on existing cells", "statement": "Bicubic interpolation returns the sum over the 4x4 cells around the position weighted with the cubic convolution kernel (a = -1/2) of the distances, reads only existing cells, is undefined as soon as one of the 16 cells does not exist, equals the cell value at grid points with defined neighbours and is exact for every biquadratic field. It is no convex combination: results can leave the range of the cells.", "quantifier": "every field, grid size, level count and position", "why_tests_cant": "Continuum of positions; the weights are a matrix product whose index order a test at symmetric positions cannot distinguish.", "anchors": ["src/interpolation.c: mifi_get_values_bicubic_f"]}
{"id": "C58", "title": "Reading only the needed part of the input does not change an interpolation", "statement": "The cached bilinear and bicubic interpolators shift the positions and ask for a sub-rectangle of the input grid. The sub-rectangle lies inside the grid, and interpolating from it gives for every output cell and level the same value as interpolating from the whole field (outside the corner strip where bilinear reads outside). For an empty output grid the position array is read at its end (finding).", "quantifier": "every input and output grid size, every set of positions, every level count", "why_tests_cant": "Depends on the extreme positions relative to every border of the input grid.", "anchors": ["src/CachedInterpolation.cc: CachedInterpolation::createReducedDomain, CachedInterpolation::interpolateValues, clamp_ex"]}
{"id": "C59", "title": "Text escaped for a regular expression matches itself and nothing else", "statement": "regex_escape puts a backslash before every character with a meaning in regular expressions and keeps all others; read as a pattern of literals and escaped characters the result matches exactly the original text. Escaping is therefore injective, distributes over concatenation and does not change text without such characters.", "quantifier": "every string", "why_tests_cant": "All strings, including those that contain backslashes and brackets themselves.", "anchors": ["src/StringUtils.cc: regex_escape"]}
{"id": "C60", "title": "Lower-casing and parsing of booleans", "statement": "string2lowerCase replaces each ASCII capital by its small letter, keeps all other characters and the length, and is idempotent; a byte above 127 is passed to tolower as a negative number, which is undefined (finding). string2type<bool> accepts exactly 1/on/true and 0/off/false in any mixture of cases and throws otherwise.", "quantifier": "every string", "why_tests_cant": "All strings and all mixtures of cases.", "anchors": ["src/StringUtils.cc: string2lowerCase", "src/String2Type.cc: string2type<bool>"]}
{"id": "C61", "title": "Calendar times survive being written and read as text", "statement": "Writing a calendar time to a stream and parsing the text with parseISO8601 gives the same time, milliseconds included, for every year below 65536 and every field that fits its number of digits; different times have different texts. A blank instead of T, digits of any number, and a date alone (midnight) are accepted. The documented form HH:MM:SS throws, a seconds field of a single dot reads a missing token, a fraction of .9995 or more becomes 1000 milliseconds, and too large numbers wrap around (findings).", "quantifier": "every time with printable fields; every text made of such numbers", "why_tests_cant": "The product of all field values.", "anchors": ["src/FimexTime.cc: operator<<, two_digits, FimexTime::parseISO8601"]}
{"id": "C62", "title": "Interpolation method names select the documented methods", "statement": "Each documented method name selects the method of that name, and every other string selects none. The one exception is forward_undef_min, which selects the minimum that ignores undefined cells; the minimum that propagates them cannot be selected by any name (finding).", "quantifier": "every string", "why_tests_cant": "All strings; the wrong name is one of many.", "anchors": ["src/interpolation.c: mifi_string_to_interpolation_method"]}
{"id": "C63", "title": "Linear unit conversions are recognised with the right slope and offset", "statement": "Every affine unit conversion is recognised as linear and its slope and offset are returned exactly (up to rounding of floating point). Every conversion accepted as linear is within 1e-5 of the line through 0 and 1 at 10, 100, 1000 and -1000; as that tolerance is absolute, a non-linear conversion with small values is accepted and then replaced by a line (finding).", "quantifier": "every conversion function", "why_tests_cant": "A continuum of conversions; the test is made at six points only.", "anchors": ["src/Units.cc: Ud2UnitsConverter::isLinear, getScaleOffset"]}
{"id": "C64", "title": "Cached coordinate systems are never stale", "statement": "After any history of editing operations and coordinate-system queries, a query is answered from coordinate systems computed from the present content: every operation that changes the content drops the cached ones. Changes made through the reference returned by getVariable are not noticed (finding).", "quantifier": "every finite history of editing operations and queries", "why_tests_cant": "Unbounded histories; a single forgotten invalidation only shows for particular sequences.", "anchors": ["src/CDM.cc: enhance, coordsInitialized in every editing function"]}
{"id": "C65", "title": "Metadata queries answer exactly what the metadata say", "statement": "Searching variables by attributes and dimensions returns exactly the matching variables in order; fill value, scale, offset, valid range and units come from their attributes, _FillValue before missing_value and valid_min/valid_max before valid_range, with the documented defaults when absent and an exception when the fill value has another type; a variable has the unlimited dimension iff it is in its shape. A numeric attribute without values is read past its end, and a second unlimited dimension is not seen (findings).", "quantifier": "every metadata content, query and variable name", "why_tests_cant": "All combinations of attributes.", "anchors": ["src/CDM.cc: findVariables, checkVariableAttribute, getFillValue, getValidMin, getValidMax, getAddOffset, getScaleFactor, getUnits, getUnlimitedDim, hasUnlimitedDim"]}
{"id": "C66", "title": "Altitudes by the hypsometric equation do not depend on the requested levels", "statement": "Altitudes of some levels of a column, computed by integrating layer thicknesses from the surface, are these levels of the altitudes of the whole column, for levels sorted up or down, and all array accesses are inside; altitudes rise with falling pressure and positive temperature, and with constant temperature they are the barometric heights above the ground.", "quantifier": "every column, surface values, and range of levels", "why_tests_cant": "Off-by-one positions in the reversed direction only show for partial requests.", "anchors": ["src/coordSys/verticalTransform/PressureIntegrationToAltitudeConverter.cc: getDataSlice"]}
{"id": "C67", "title": "Messages of a GRIB variable are indexed by time, level and member", "statement": "For all messages whose time, level and member are listed, the index holds for each (member, level, time) the last message found with these and nothing elsewhere, so a complete read returns in each cell the value of that message or the fill value. A variable configured with constant time is given the encoded time 0, which is never listed, so the index cannot be built (finding).", "quantifier": "every list of messages, times and levels", "why_tests_cant": "All message lists; files used in tests have no variables with constant time.", "anchors": ["src/io/grib/GribCDMIndexer.cc: loadOneMessage, initCreateVarMessages", "src/io/grib/GribCDMReader.cc: getDataSlice"]}
{"id": "C68", "title": "Forecast times survive writing to GRIB and reading back", "statement": "The step unit is the largest one dividing the first time step. Times not before the reference time are read back as the largest multiple of the unit not after them, hence unchanged for a regular axis with steps that are not whole days. Later times that are no multiple are moved, steps of whole days, months or years are read with an uninitialised offset, times before the reference time become huge steps, and two equal first times are refused (findings).", "quantifier": "every list of times relative to the reference time", "why_tests_cant": "All time axes.", "anchors": ["src/io/grib/GribApiCDMWriter_ImplAbstract.cc: run, setTime", "src/io/grib/GribFileIndex.cc: getValidTime", "src/io/grib/GribUtils.cc"]}
{"id": "C69", "title": "The integer encoding of times keeps value and order", "statement": "For times with a year below 4096 decoding an encoded time returns it, different times have different codes, the order of codes is the order of times, and no valid time is encoded as 0. Later years lose their upper bits (finding).", "quantifier": "every time", "why_tests_cant": "All field combinations; comparison operators are defined by the code.", "anchors": ["src/FimexTime.cc: toEncoded, fromEncoded", "include/fimex/FimexTime.h: operator>"]}
{"id": "C70", "title": "Merge compatibility of variables", "statement": "When two files are merged, a variable with coordinate systems on both sides and equally many dimensions of length other than one is taken as compatible exactly if each kind of extra axis (vertical, time, reference time) is absent on both sides, equally long, or absent against length one, and the shapes have the same names or correspond dimension by dimension (same horizontal role, same length otherwise) after dropping dimensions of length one. Missing variables or one-sided coordinate systems are never compatible, variables without coordinate system always. Finding: an additional dimension of any length after the end of the other shape is not noticed.", "quantifier": "every pair of shapes and axis lengths", "why_tests_cant": "All shapes; the missed case only shows for trailing dimensions.", "anchors": ["src/CDMMergeUtils.cc: is_compatible, checkAxesCompatibility, checkSingleAxisCompatibility"]}
{"id": "C71", "title": "Distances between grid neighbours", "statement": "For a grid of at least two rows and two columns the call succeeds and its result does not depend on what the output arrays held: each cell with a neighbour to the right and below gets the great-circle distances to them, the last column repeats the column before it, and in a square grid the last row repeats the row above. A single row or column gets the distance to the next point in both arrays, a single point gives zeros and the error code. Findings: in a grid that is not square the last row takes the values lying ny places earlier, which belong to other columns; without any point the loops leave the arrays.", "quantifier": "every grid size, every list of points, every prior content of the arrays", "why_tests_cant": "All sizes; the wrong last row only shows in grids that are not square, and only in the last row.", "anchors": ["src/interpolation.c: mifi_griddistance, mifi_great_circle_angle"]}
{"id": "C72", "title": "Vertical wind on hybrid levels", "statement": "mifi_compute_vertical_velocity on a grid of at least 3 x 3 columns writes every cell of the result whatever it held before: the uppermost level is zero, and each border cell gets the value of its neighbour towards the inside (corners: the diagonal neighbour). Each cell inside gets, with p the pressures of the half levels (p = ps at the ground, and each full level but the first in the middle of its half levels), (R T (ln(p'/p) S + a D) / dp + slope) / g: D is the divergence of the mass of the layer (centred differences with the map factors), S the sum of the divergences of the layers above except the uppermost, a = 1 - p ln(p'/p) / dp, and slope the centred differences of the geopotential, which is the hydrostatic sum from the ground. The half levels run from zero pressure to the surface pressure so that the layer thicknesses add up to it, and the height of each level lies within its layer. An atmosphere that is the same in all columns gets no vertical wind, whatever its wind and temperature profile. Findings: the wind of the uppermost layer has no effect on the result, as its divergence is not in the sum; the slope is not multiplied by the wind, so that air at rest over sloping ground gets the slope (m/m) as its vertical wind; grids of two columns or rows leave the result uninitialised and grids of one column or row read outside the array.", "quantifier": "all grid sizes, level coefficients, surface pressures, heights, winds and temperatures (exact real arithmetic)", "why_tests_cant": "Tests compare one stored field with a tolerance; borders, corners, small grids and the balance of the layers for all level sets are not looked at.", "anchors": ["src/interpolation.c:887-1062", "include/fimex/mifi_constants.h:235-241"]}
{"id": "C73", "title": "Pressure conversion operations", "statement": "Every operation text given to CDMPressureConversions is read without exception or read outside it: conversion;key=value;... gives exactly these options (first value of a repeated key, trailing semicolon ignored, a last option without '=' is empty); an unknown conversion is refused. Each known operation changes the metadata only as announced: theta2T replaces the first potential temperature with a complete coordinate system by a temperature of the same type, shape and attributes, specific2relative adds a packed relative humidity beside the first specific humidity, omega2vwind replaces the single omega by a wind in m/s, add4Dpressure adds a pressure on the first usable coordinate system with the longest z axis and is refused without one; all other variables and attributes stay, and nothing happens if the new name exists. (specific2relative runs out of the list if the first temperature does not fit; add4Dpressure uses a null pointer if the vertical transformation throws; an inner option without '=' swallows the next key.)", "quantifier": "all operation texts, metadata, option values and lists of coordinate systems", "why_tests_cant": "Tests use one operation on one file each; option syntax, several candidates, existing names and failing coordinate systems are not covered.", "anchors": ["src/CDMPressureConversions.cc:138-198", "src/CDMPressureConversions.cc:254-289", "src/CDMPressureConversions.cc:348-399", "src/CDMPressureConversions.cc:448-487", "src/CDMPressureConversions.cc:533-606", "src/CDMPressureConversions.cc:630-689"]}
{"id": "C74", "title": "Pressure conversion data", "statement": "Reading through CDMPressureConversions passes variables without a converter on unchanged. The vertical wind is -omega R T / (g M p) cell by cell with missing input giving missing output. The packed relative humidity times its scale factor is the saturation ratio up to half a packing unit for ratios up to 1.3. The formula of theta2T gives theta (p/1000 hPa)^(R/cp) exactly when the variable has no offset or no scale factor. (Reading a converted temperature uses the name of the potential temperature after its end; its missing values are converted like numbers; the humidity is not limited to 1, does not fit above 1.3107 and is undefined for missing input.)", "quantifier": "all pressures, temperatures, humidities, packings and converters (exact real arithmetic)", "why_tests_cant": "Tests compare a few values with a tolerance; lifetime of the names, missing values, packing and supersaturation are not exercised.", "anchors": ["src/CDMPressureConversions.cc:202-239", "src/CDMPressureConversions.cc:293-333", "src/CDMPressureConversions.cc:403-433", "src/CDMPressureConversions.cc:693-701"]}
{"id": "C75", "title": "A request made by axis type reaches exactly the dimensions of that axis", "statement": "CoordinateSystemSliceBuilder takes the first variable of the coordinate system and requests the full extent of each of its dimensions, but only the first position of an explicit reference time. setReferenceTimePos sets an explicit reference time to one position; setTimeStartAndSize sets the time axis, or for a time variable of several dimensions the only one that is not called like the reference time axis; setAxisStartAndSize sets every explicit axis of the type. Each of them changes no other dimension and throws exactly if the request does not fit or the dimension of the time is not determined. So whatever is called, an explicit reference time keeps exactly one position unless it is set by name. getTimeVariableSliceBuilder agrees with the request on every dimension of the time variable, and getAxisTypes names the types in the order of the dimensions if each dimension has an axis of its name.", "quantifier": "all coordinate systems, dimension lengths, variables and histories of calls (including throwing ones) with start + size below 2^64", "why_tests_cant": "the tests use one file with one-dimensional times and check a few requests; they do not mix calls by type and by name, nor let calls throw", "anchors": ["src/CoordinateSystemSliceBuilder.cc:42-155", "src/SliceBuilder.cc:53-167", "include/fimex/coordSys/CoordinateAxis.h:92"]}
{"id": "C76", "title": "Vertical interpolation works column by column", "statement": "Reading a variable through CDMVerticalInterpolator gives, for every position of the record and every target level, the interpolation function applied to the values of this position at two levels of its own column: for a target between the levels of the column the largest level below and the smallest level above, with their values. Dimensions may come in any order and the levels and limits may lack dimensions of the variable. Targets outside the limits of the converter are undefined, results beyond valid_min and valid_max are moved to them, a record that does not exist throws, and no read or write leaves an array. (A target equal to the first level of the column, or beyond it, is undefined although the last level is extrapolated; the limits of record 0 are used for all records.)", "quantifier": "all shapes, dimension lengths, levels, limits, values, records, target levels (fixed or by converter) and interpolation functions, with the unlimited dimension last, dimensions of the levels among those of the variable, and arrays below 2^64 cells", "why_tests_cant": "Tests compare a few values of one file per converter; other orders of dimensions, columns that differ, later records with own limits and exact hits of the first level are not covered.", "anchors": ["src/CDMVerticalInterpolator.cc:356-567", "src/coordSys/verticalTransform/VerticalTransformationUtils.cc:317-426", "include/fimex/FindNeighborElements.h:46-125", "src/ArrayLoop.cc"]}
{"id": "C77", "title": "Vertical interpolation exchanges the vertical axis of exactly the variables on an exchangeable axis", "statement": "The constructor of CDMVerticalInterpolator accepts the types pressure, height, altitude, depth and the methods linear, linear_weak_extra, linear_no_extra, linear_const_extra, log, loglog, nearestneighbor and throws for all other names. Call a vertical axis exchangeable if its coordinate system also has x and y axes, it is explicit and it has one dimension, which exists and is longer than 1. For a reader whose axes are variables with existing dimensions, where no variable is complete in two coordinate systems with an exchangeable axis and every complete variable has the dimension of its axis: (a) interpolateToFixed(levels) adds a dimension and a double variable under the name found by findUniqueDimVarName (pressure, height, height_above_msl, depth) holding the levels, with the units and direction of the type, replaces the vertical dimension at its place in the shape of every variable complete in such a system, removes the old axis variables, and changes no other variable, dimension or attribute except that the name of the old axis disappears from the coordinates attribute of the variables changed; (b) interpolateToAxis(v) does the same with the dimension v for the axes not named v, and adds nothing; (c) interpolateByTemplateVariable(t) does it with the dimension of t's axis for the axes other than that one, and removes nothing. Data slices are interpolated for exactly the coordinate systems changed. An empty axis name, a template variable without coordinate system, exchangeable axis or vertical transformation, and a second interpolateToFixed on the same object throw. When the name consists of letters, digits and underscores, exactly the words equal to it disappear from the coordinates attribute.", "quantifier": "all metadata, coordinate systems, levels, names and attribute texts", "why_tests_cant": "The effect depends on which of many variables belong to which of several coordinate systems; tests use single files with one vertical axis. Findings shown on the model: interpolateToAxis accepts a name that is no dimension, giving variables a dimension that does not exist; with names containing '-' or '.' parts of other coordinates are removed from the attribute (removing lev from 'lev.1 lon' leaves '.1 lon'), and a name ending in such a character stays; other variables on the old vertical dimension keep it without its coordinate variable.", "anchors": ["src/CDMVerticalInterpolator.cc:62-119", "src/CDMVerticalInterpolator.cc:152-193", "src/CDMVerticalInterpolator.cc:209-354", "src/StringUtils.cc:86-106"]}
{"id": "C78", "title": "The shape of a vertical converter holds every dimension once, and requests follow the dimension names", "statement": "ShapeMerger::merge over any sequence of shapes (with or without skipping dimensions of length 1) gives a shape with exactly the dimensions of these shapes, without those of length 1 where they are to be skipped, each once; dimensions already there keep their order, and merging known dimensions changes nothing. If the axes present have dimensions and these differ, the result is in the order x, y, z, others, time whatever the order of the input. With skipping, an unknown dimension throws. removeDimsWithLength1 keeps exactly the known dimensions whose length is not 1. adaptSliceBuilder gives the dimensions shared by name the request of the given builder and every other dimension its whole extent, keeping the dimension order of the variable or converter, and throws exactly if a shared request does not fit. createSliceBuilder with setUnLimDimPos asks for one record of the unlimited dimension (throwing beyond its end) and the whole of all others, dimensions the file does not have counting as length 1.", "quantifier": "all shapes, axes, dimension lengths, sequences of merges and slice requests with start + size below 2^64", "why_tests_cant": "Converters are tested with a few files whose dimensions are already in the usual order. Findings shown on the model: with two-dimensional longitude and latitude both axes start with the same dimension, so the second horizontal dimension is placed after the levels; an axis without dimensions is read past its end (undefined behaviour).", "anchors": ["src/coordSys/verticalTransform/VerticalTransformationUtils.cc:68-347", "include/fimex/coordSys/verticalTransform/VerticalTransformationUtils.h:66-106", "src/SliceBuilder.cc:47-118"]}
{"id": "C79", "title": "Selecting variables keeps exactly what was asked for and what it needs", "statement": "CDMExtractor::selectVariables(names, false) leaves a variable as it was if its name was given and removes every other variable, with its attributes. selectVariables(names, true) leaves exactly the given names and everything reached from them by these steps: to a dimension of a variable that is itself a variable, and to a dependency of the first coordinate system that is complete for and holds the variable. The search for these always ends, each name is found once, and the result does not depend on the order of the given set. So a variable left over has all its coordinate variables and dependencies left over that the file has.", "quantifier": "all metadata, coordinate systems and sets of names", "why_tests_cant": "Tests select one or two variables of files where one round of dependencies suffices; the closure over several rounds and cyclic dependencies are not reached. Finding shown on the model: if a variable removed before is asked for again, it stays removed but its axes are kept, since the coordinate systems are those of the data reader.", "anchors": ["src/CDMExtractor.cc:228-257", "src/CDMMergeUtils.cc:121-156"]}
{"id": "C80", "title": "Reducing an axis by values keeps exactly the positions in the range", "statement": "CDMExtractor::reduceAxes with a range in a unit reduces, for every axis of the type whose unit can be converted, its dimension to exactly the positions whose value lies in the converted range widened by a hundredth of the first spacing at both ends, provided the axis is monotone (ascending or descending), the dimension was not reduced before, and it is the first axis on this dimension. All other dimensions are untouched; a range without positions gives length 0. reduceTime does the same with the given moments, and with an open or invalid moment as no limit on that side. In a build without debug logging no axis, monotone or not, makes it read outside the data or keep positions outside the dimension.", "quantifier": "all axes, values (exact rationals), ranges, units with linear conversion, and debug logging off", "why_tests_cant": "Tests reduce one file by one range in the unit of the file. Findings shown on the model: the second range on the same dimension is ignored without a message; with debug logging a range above all values reads one past the end of the data (undefined behaviour); a unit conversion with negative slope yields an empty axis; on an axis that is not monotone values in the range are dropped.", "anchors": ["src/CDMExtractor.cc:303-406", "src/TimeUnit.cc"]}
{"id": "C81", "title": "A latitude/longitude bounding box keeps exactly the rows and columns with points in it", "statement": "CDMExtractor::reduceLatLonBoundingBox throws unless south, north, west, east are within -90..90 and -180..180 and south does not exceed north. Otherwise, for a coordinate system with simple horizontal axes that shares no axis with an earlier one, the x dimension is reduced to exactly the columns and the y dimension to exactly the rows holding at least one grid point with latitude in south..north and longitude in west..east, or, if west exceeds east, longitude from west on or up to east. The positions are ascending and each once; longitudes are compared as the numbers that the projection gives. Dimensions that are no such axes are untouched.", "quantifier": "all coordinate systems, grids and boxes, with exact rationals and any projection as a function", "why_tests_cant": "Tests use one regular grid within -180..180. Findings shown on the model: on an axis from 0 to 360 the western hemisphere is not found; a coordinate system sharing one axis with an earlier one is skipped although its other axis has to be reduced; a box without points gives dimensions of length 0 instead of an error.", "anchors": ["src/CDMExtractor.cc:408-488"]}
{"id": "C82", "title": "Merged files show the compatible inner variables, what they need, and the outer variables asked for", "statement": "Overlay and border smoothing (makeMergedCDM) throw if no inner variable that the outer file has too lies on a complete coordinate system with projection and simple horizontal axes; otherwise the outer file is interpolated to the grid of the first such variable. An inner variable is in the merged metadata, unchanged with its attributes, exactly if it is compatible or needed, directly or by way of others, by a compatible one. Variables the inner file does not have are those of the interpolated outer file if all outer variables were asked for, and none otherwise; the dimensions are those of the inner file and, if asked for, those of the outer file with other names; global attributes are those of the inner file; no name occurs twice. With all axes and dimensions known, a variable with coordinate systems on both sides is compatible exactly if the axes of every type agree in length (a missing one counting as one value) and the shapes are equal or correspond dimension by dimension apart from those of length 1. Border smoothing can read every variable of the result; overlay reads dimension variables from the top file, variables missing there from the base file, others from both, and throws exactly for a top variable that is no dimension and not in the base file. setTargetGridFromInner takes the first inner variable that is in both files, no dimension in either, and on simple projected grids of the same kind in both.", "quantifier": "all metadata, coordinate systems and results of the interpolation, with no variable named _GLOBAL", "why_tests_cant": "Tests merge two files of one model with the same variables. Findings shown on the model: the unit of the x axis is handed over for the y axis; with all outer variables asked for, incompatible variables in both files are missing, and outer variables may get a dimension of the wrong length or the result two unlimited dimensions; auxiliary variables such as the grid mapping are listed but throw when read from an overlay; a scalar axis makes the whole merge throw; a coordinate system without horizontal axes makes a null pointer be followed.", "anchors": ["src/CDMMergeUtils.cc:49-119", "src/CDMMergeUtils.cc:164-321", "src/CDMOverlay.cc:91-114", "src/CDMBorderSmoothing.cc:98-105", "src/CDMMerger.cc:150-209"]}
{"id": "C83", "title": "A netCDF file written has the metadata asked for and they are read back", "statement": "Reading (NetCDF_CDMReader) a file defined by NetCDF_CDMWriter gives the dimensions in order under their new names with their lengths (at least 1, modulo 2^32; the first unlimited one as such), the variables in order under their new names with their types and shapes, and all attributes of variables and globally, provided the text of attributes does not end in NUL and lists of strings are written as netCDF-4. The definitions succeed if lengths are below 2^31, names distinct, dimensions known, types and attributes possible in the format, fill values of the type of the variable, levels at most 9 or 11 to 19, and, outside netCDF-4, only one dimension is unlimited (in the classic format the slowest of a variable). The configuration removes exactly the variables and attributes named, and the dimensions named or unused unless a remaining variable has them; a variable gets the last new name given for it, else the first one given for the dimension of its name; an edited attribute is the last one of its variable with the content given or the old one, everything else stays, and it is an error if the variable or attribute does not exist or the new name is taken.", "quantifier": "all metadata without duplicate names and all configurations", "why_tests_cant": "Tests write a few model files with and without a small configuration. Findings shown on the model: a dimension of length 0 gets length 1 and longer ones than 2^32 are truncated; a variable with an unknown dimension is undefined behaviour; renaming a variable leaves its old name in coordinates and other attributes; changing the type of a variable with a fill value is an error unless the fill value is changed too; a list with one string comes back as a string outside netCDF-4.", "anchors": ["src/io/netcdf/NetCDF_CDMWriter.cc:150-345", "src/io/netcdf/NetCDF_CDMWriter.cc:347-400", "src/io/netcdf/NetCDF_CDMWriter.cc:466-544", "src/io/netcdf/NetCDF_CDMReader.cc:46-130", "src/io/netcdf/NetCDF_Utils.cc:200-272"]}
{"id": "C84", "title": "The data written to a netCDF file are those of the reader, in any order of the threads", "statement": "If the reader delivers for every variable, or every record of a variable with the unlimited dimension, data of the size of the slice (or none), the writer succeeds in whatever order the records are processed; every slice then holds the data, converted and cast to the type of the variable (without data the fill value in the classic formats, nothing in the others), all other cells are as before, and the unlimited dimension has the length of the last record written. Read with getDataSlice, every slice gives these data if the unlimited dimension is the slowest one. With unchanged units, fill value and packing the data are not converted; otherwise, into float or double, missing values become the new fill value and every other number means the same physical value in the new units.", "quantifier": "all readers, metadata, configurations with at most one unlimited dimension that keeps its name, and orders of the jobs", "why_tests_cant": "Tests run the loop with one or a few threads on small files. Findings shown on the model: if the unlimited dimension is renamed the writer throws after the definitions; if units cannot be converted the data are written unconverted under the new units; data of another size are dropped with a message only; variables on a second unlimited dimension are not written; a scalar without type is defined as int but not written.", "anchors": ["src/io/netcdf/NetCDF_CDMWriter.cc:97-103", "src/io/netcdf/NetCDF_CDMWriter.cc:546-739", "src/io/netcdf/NetCDF_Utils.cc:358-441"]}
{"id": "C85", "title": "Chunks of compressed netCDF variables are accepted by the library", "statement": "For a variable with dimensions that are all in the file and lengths at least 1 and below 2^32, every chunk length chosen by the writer lies between 1 and the length of the dimension (1 for the unlimited one) unless the product of the lengths wraps to 0; variables below the default chunk size are one chunk, configured chunk lengths are used clamped to the dimension; the classic format, scalars and level 0 get neither chunks nor compression; levels 1 to 9 are used without and 11 to 19 as 1 to 9 with shuffling, level 10 and levels above 19 are an error.", "quantifier": "all dimensions, shapes, configured chunk lengths and levels", "why_tests_cant": "Tests use two or three fixed grids. Findings shown on the model: where the limit is passed the chunk length is set to the number of chunks of the intended size instead of a length, so a vector of 2^22 values gets chunks of 32 values and a grid of 100000 x 1000 chunks of 76 million; the product may wrap to 0 in 64 bits, and then no chunks are set although the variable is compressed.", "anchors": ["src/io/netcdf/NetCDF_CDMWriter.cc:401-466", "include/fimex/MathUtils.h:53-61"]}
{"id": "C86", "title": "Slices of a netCDF file opened for reading and writing", "statement": "A request or record written with putDataSlice is read back unchanged by getDataSlice; positions outside the request, other records and other variables keep their data; a request beyond a fixed dimension or with another number of values throws; a record written beyond the last one makes the unlimited dimension that much longer and no other.", "quantifier": "all files, variables, requests, records and data; for records, variables with the unlimited dimension slowest", "why_tests_cant": "Tests write and read one variable. Findings shown on the model: the unlimited dimension is taken to be the slowest one, so a netCDF-4 variable with another order is read along the wrong dimension; only the first unlimited dimension is reported as unlimited.", "anchors": ["src/io/netcdf/NetCDF_CDMReader.cc:134-276", "src/io/netcdf/NetCDF_Utils.cc:276-441"]}
{"id": "C87", "title": "An NcML document changes exactly the metadata it names", "statement": "A reader wrapped in NcmlCDMReader has, if its construction succeeds: every variable no element mentions, with type, data, counterpart and attributes unchanged and its dimensions under their new names; a variable with one <variable> element under its new name only, with the type, shape, counterpart and values given or else the old ones; a <variable> with a type and an unknown name as new variable; no variable that was removed. Each attribute of such a variable, and each global one, is the one given with a value by the last element of its name, or else the attribute renamed to it, or else the old one unless removed or renamed away. A dimension with one <dimension> element has its new name, and the length and isUnlimited given or else the old ones; one without element is unchanged; one with an unknown name and a length is added; one removed is gone, and removing one in use throws. A document without elements changes nothing.", "quantifier": "all consistent metadata and all documents in which no dimension is renamed twice, to a name itself renamed, or to the name of another; each variable mentioned by at most one element; attributes renamed likewise and not to the name of an existing one", "why_tests_cant": "Tests use two or three documents on one file. Findings shown on the model: _Unsigned is never found, so unsigned types become signed; the type char is refused; renaming an attribute to the name of one before it renames another attribute or is undefined behaviour; a variable with its own name as orgName is removed; a negative length is a huge one; start and increment without positions write out of bounds; isUnlimited on a renamed dimension reads the data of another variable; data in memory are not converted when the type is changed.", "anchors": ["src/NcmlCDMReader.cc:57-94", "src/NcmlCDMReader.cc:131-529", "src/NcmlUtils.cc:1-60"]}
{"id": "C88", "title": "Data read through an NcML document are those of the original variable", "statement": "getDataSlice of a variable without data in memory reads the original variable at the positions asked for, each under the dimension's new name, and at position 0 of dimensions not asked for; without change of type the data are returned unchanged, with one they are converted with fill value, scale and offset of both variables, which for floating-point types keeps the physical values. A request beyond the end of an original dimension gives no data.", "quantifier": "all readers, metadata and documents as for the metadata, all requests", "why_tests_cant": "Tests read one renamed variable. Findings shown on the model: variables renamed in a chain read the data of the wrong variable; an exchanged shape returns the data in the old order; with an added dimension there are too few values.", "anchors": ["src/NcmlCDMReader.cc:542-602"]}
{"id": "C89", "title": "Metadata and data written as NcML are read back", "statement": "The document NcmlCDMWriter writes is accepted by NcmlCDMReader without a base file, and the reader has exactly the dimensions of the original with lengths and the unlimited mark, its variables in order with names, shapes and, if written with data, values - fill values where the original reader has none - and its attributes in order. Types without sign are read as those with sign and marked by an attribute _Unsigned; numbers are those their printed form is read as; without types without sign, and with numbers that are printed exactly, nothing changes. A list of strings is written with a separator that occurs in no string, or the writer throws; it is read back exactly if a separator other than the space was needed and no string holds its first character, or if the strings are words. An escaped text is read as the text with tabs and line ends replaced by spaces.", "quantifier": "all consistent metadata with dimensions of 1 to 2^31-1 positions, numeric variables, names and texts without tabs and line ends, names of dimensions in shapes without spaces, attributes that are not empty; any data, any printing of numbers as non-empty words", "why_tests_cant": "Tests compare the text of one document. Findings shown on the model: line ends in attributes become spaces; empty attributes are lost; unsigned types become signed; a file with an empty unlimited dimension or a dimension of 2^31 positions gives a document the reader refuses; counterparts are not written; dimension names with spaces are split; strings with commas are split and empty ones dropped; the long separator can be found inside a string.", "anchors": ["src/NcmlCDMWriter.cc:41-225", "src/XMLUtils.cc:153-181", "src/NcmlCDMReader.cc:57-94", "src/NcmlCDMReader.cc:131-529"]}
{"id": "C90", "title": "Coordinate systems of CF files are those of the data variables", "statement": "CF1_xCoordSysBuilder lists one coordinate system for each set of axis names found among the data variables, in the order of the joined names: the dimensions of the first such variable are its axes, the names in its attribute coordinates its auxiliary axes. A data variable whose axes are known and have different types has exactly one system that is complete for it and for it, with exactly its axes, and findCompleteCoordinateSystemFor returns it. isComplete(v) holds iff all axes are axes of v, isCSFor(v) iff all axes of v are axes of the system. Listing throws if some data variable has two dimensions of one type, and otherwise succeeds if projections can be made. The system is a simple spatial gridded one iff both horizontal axes are dimensions with variables over themselves only. Its projection is made from the grid mapping of the first variable it is complete for that names one that exists, or that of longitude and latitude when these are the horizontal axes. Bounds of axes and the grid mapping are among its dependencies, and all dependencies are variables of the file.", "quantifier": "all metadata, any recognition of units, any making of projections; names without commas for the unique system", "why_tests_cant": "Tests read a handful of files. Findings shown on the model: one variable with two time dimensions makes the listing throw for the whole file; a coordinate with the type of a dimension is an axis or not by the order of the names in the alphabet, and then the variable has no system; a line end in the attribute coordinates hides the last name; whether an axis is auxiliary depends on which of two variables is first; a comma in a name gives two variables one system.", "anchors": ["src/coordSys/CF1_xCoordSysBuilder.cc:108-136", "src/coordSys/CF1_xCoordSysBuilder.cc:245-553", "src/coordSys/CoordinateSystem.cc:100-330"]}
{"id": "C91", "title": "Types of the axes of CF files follow the CF attributes", "statement": "CF1_xCoordSysBuilder types an axis by the first attribute that decides: a known standard_name, in any case; units of degrees or time, units of pressure, units level, layer or sigma_level; the attribute positive, where units of length give height for up and depth otherwise and other units a general vertical axis; the attribute axis with X, Y, Z or T; otherwise the type is undefined. For attributes of ASCII characters the type is always defined.", "quantifier": "all metadata and names, any recognition of time units and convertible units", "why_tests_cant": "Tests have files with conventional attributes. Findings shown on the model: positive is compared in lower case only, so UP gives depth; a unit with a byte above 127 such as the degree sign is undefined behaviour.", "anchors": ["src/coordSys/CF1_xCoordSysBuilder.cc:138-243", "src/StringUtils.cc:51-58"]}
{"id": "C92", "title": "Vertical transformations of CF files have the variables of their formula terms", "statement": "The formula_terms of a vertical axis, written as terms and names with a colon and any blanks between them, are read as exactly those pairs. An axis of type pressure, depth or height gives that transformation, a height being an altitude iff its name, or its computed_standard_name or else its standard_name, says so. Any other vertical axis gives the transformation of its standard_name with the variables of the terms, the empty name for a term whose variable does not exist, provided that each checked variable has no dimension of more than one position outside the system, and none otherwise or for any other standard_name. The variables of the terms that exist are dependencies of the system.", "quantifier": "all metadata, all coordinate systems, all texts of terms", "why_tests_cant": "Tests have two kinds of vertical axes. Findings shown on the model: the term b of hybrid pressure levels is not checked and may be on a dimension outside the system; the standard_name must be in lower case here although the axis is recognised in any case.", "anchors": ["src/coordSys/CF1_xCoordSysBuilder.cc:60-72", "src/coordSys/CF1_xCoordSysBuilder.cc:255-281", "src/coordSys/CF1_xCoordSysBuilder.cc:440-530"]}
{"id": "C93", "title": "Vectors found by standard names are symmetric pairs of one shape", "statement": "enhanceVectorProperties keeps every vector that is known already. Every new vector has a counterpart that has it as its own counterpart; neither was a vector before, both have the same shape, and their standard names begin with the two names of one entry of the list, which gives the directions. Afterwards no two free variables of one shape fit an entry, and a second call changes nothing. Two variables that fit an entry are paired if no other variable with a name of the list has their shape; several with one shape are paired in the order of the file. In WRF files U and V, UAH and VAH are paired if they exist and are free, and nothing else is changed. CF is used if the attribute Conventions, or else conventions, holds CF-1., cf-1. or COARDS, or if the file is no WRF file; WRF if there is a dimension south_north and an attribute MAP_PROJ. The coordinate systems are those of the same conventions, and those of CF when there are none.", "quantifier": "all metadata with distinct, non-empty variable names, any vectors before the call", "why_tests_cant": "Tests have one pair of winds. Findings shown on the model: winds at two heights are paired by the order of the variables; the wind shear is paired with the wind as only the beginning of the name counts; U and V of WRF files are paired whatever their shapes.", "anchors": ["src/coordSys/CF1_xCoordSysBuilder.cc:82-99", "src/coordSys/CF1_xCoordSysBuilder.cc:555-662", "src/coordSys/WRFCoordSysBuilder.cc:63-94", "src/coordSys/CoordinateSystem.cc:113-120", "src/coordSys/CoordinateSystem.cc:459-529"]}
{"id": "C94", "title": "Horizontal interpolation is offered the last usable system of each pair of horizontal axes", "statement": "findBestHorizontalCoordinateSystems returns one system for each pair of horizontal axes of the usable systems, in order: those that are simple grids with a projection, or those with longitude and latitude. It consists of the horizontal axes, longitude and latitude and the projection of the last usable system with these axes, and it is the system of exactly the variables assigned to the pair: those whose complete system has these horizontal axes. A variable is incompatible iff it is assigned to none and, for some of the systems, is no axis of it and has a dimension of its horizontal axes. For the systems of consistent CF files it neither throws nor reads a missing axis.", "quantifier": "all metadata, all lists of well-formed coordinate systems", "why_tests_cant": "Tests have files with one grid. Findings shown on the model: if one variable does not name its longitudes and latitudes in the attribute coordinates, these become incompatible variables of the file; variables with different grid mappings on the same axes all get the last projection; longitudes and latitudes can be assigned to the system they belong to as if they were data.", "anchors": ["src/coordSys/CoordinateSystem.cc:166-179", "src/coordSys/CoordinateSystem.cc:362-452"]}
{"id": "C95", "title": "A projection has one attribute of each name and one description of the earth", "statement": "Projection::create gives the class whose name is the attribute grid_mapping_name, latitude_longitude without it, and throws for other names. Each parameter is the last attribute of its name, with two exceptions: attributes whose name begins with semi_ or inverse_ that stand before the last earth_radius are dropped, and earth_radius is there exactly if no such attribute is left; it is the last one given, or 6371000. Any list of attributes with a known name gives a projection.", "quantifier": "all lists of attributes", "why_tests_cant": "Tests create projections with one consistent set of attributes; order and repetitions do not occur.", "anchors": ["src/coordSys/Projection.cc:107-156", "src/coordSys/ProjectionImpl.cc:47-122"]}
{"id": "C96", "title": "A projection written as a PROJ.4 text is read back with the same numbers and earth", "statement": "If numbers, names and values are written so that they can be read again, the text of getProj4String is accepted by createByProj4, which gives a projection of the same class. It has the same values, where some classes replace missing ones by 0, the same false easting and northing, the same figure of the earth (spheres, semi axes) and the same shift of the datum. This holds for 13 classes; for conic projections with one, or with three or more standard parallels; and for rotated poles with a longitude between -180 and 180. Texts with any longitude of a rotated pole are read into that range. An oblique projection written without rotation is read without rotation. A text that no class accepts is kept as it is. The class of a text follows from its +proj: 17 names stand for one class, stere is polar if lat_0 is within 0.0001 of 90 or -90, ob_tran of latlong or longlat is a rotated pole, any other name is unknown, and a text without +proj is refused.", "quantifier": "all parameters, all functions that write and read numbers and are inverse on the values used", "why_tests_cant": "Tests read and write a few texts of some classes. Findings shown on the model: of two standard parallels the second is lost; the scale factor of mercator projections is written as k_0 and read as k; the sweep axis of geostationary projections has two names; the flattening is not read; a negative longitude of the pole in the grid is lost; a polar stereographic text without lon_0 is accepted and throws; UTM longitudes are cut to digits; the shortcut for longitudes and latitudes is never taken.", "anchors": ["src/coordSys/ProjectionImpl.cc:124-330", "src/coordSys/Projection.cc:76-105", "src/coordSys/Projection.cc:158-205", "src/coordSys/StereographicProjection.cc:40-100", "src/coordSys/PolarStereographicProjection.cc:40-76", "src/coordSys/RotatedLatitudeLongitudeProjection.cc:50-120", "src/coordSys/TransverseMercatorProjection.cc:40-125", "src/coordSys/LambertConformalConicProjection.cc:40-105", "src/coordSys/AlbersConicalEqualAreaProjection.cc:40-105"]}
{"id": "C97", "title": "Replacing the figure of the earth changes no other word of a PROJ.4 text", "statement": "replaceProj4Earthfigure drops the words a, b, e, R, ellps and datum, keeps the others in their order and puts the new figure behind them. So these keys have their values from the new figure only, and every other key keeps its value, or gets that of the new figure if it had none. An empty figure changes nothing.", "quantifier": "all texts of words +key=value or +key separated by blanks, all new figures of such words", "why_tests_cant": "Tests replace the figure of two texts. Finding shown on the model: a flattening (rf) or a shift of the datum (towgs84) given before stays with the new figure.", "anchors": ["src/coordSys/Projection.cc:207-224"]}
{"id": "C98", "title": "The earth, the shift of the datum and the UTM zone are read from PROJ.4 texts as described", "statement": "If createByProj4 accepts a text, the figure of the earth is that of the ellipsoid named by ellps, or else by datum, if it is one of nine known ones, whatever else is given; Bessel's has an axis and a flattening. Otherwise it is given by the first a or R, and by e, or else b; a sphere without them, and a sphere of 6371000 m without a and R. The shift has 3, 6 or 7 numbers: those of towgs84 filled with zeros, or those of the datum, and is missing without both. For utm the class is transverse_mercator with scale 0.9996 and latitude 0; the zone z gives the longitude 6z-183 unless digits are given by lon_0; the false easting is 500 km and the false northing 10000 km in the south unless they are given.", "quantifier": "all texts, all functions that read numbers", "why_tests_cant": "Tests read about ten texts. Findings shown on the model: ellipsoids that are not in the list silently become a sphere; Bessel's ellipsoid with a short axis given has three numbers; zones of more than 60 are taken as 60.", "anchors": ["src/coordSys/ProjectionImpl.cc:223-317", "src/coordSys/TransverseMercatorProjection.cc:51-105", "src/coordSys/Projection.cc:158-205"]}
{"id": "C99", "title": "The metadata after a change of the projection", "statement": "changeProjection on systems whose axes have separate names: variables describing projections, the old longitudes and latitudes and the axes of all systems but the first are removed, and all other variables stay; the data variables of the other systems get the dimensions of the first one, and no other shape or type changes; the two axes of the first system have the values, type and unit asked for, the standard names for the kind of projection and no long_name; their dimensions have the new lengths, the dimensions of the other systems are removed, all others stay. For longitudes and latitudes as the target, data variables lose their coordinates and grid_mapping; for a projection there are three new variables under names that were free (the base name if that is free): one with the parameters of the projection and two with the longitudes and latitudes at all points, and each data variable names them in grid_mapping and coordinates. All other attributes stay; Conventions contains CF, MAP_PROJ is removed. Each dimension in a shape of the result exists if this was so before.", "quantifier": "all files with at least one horizontal system, all projections, axes and names, all functions that compute longitudes and latitudes", "why_tests_cant": "Tests change the projection of a few files and look at values. Findings shown on the model: axes of a rotated pole are called projection_x_coordinate; files with staggered grids cannot be interpolated; with one shared axis that axis loses its attributes and an old dimension is left; other coordinates are no longer named while the bounds of the old axes are; the names for longitudes and latitudes may collide.", "anchors": ["src/CDMInterpolator.cc:694-937", "src/CDM.cc:660-702"]}
{"id": "C100", "title": "Parts of interpolated variables are parts of the whole", "statement": "getDataSlice of a CDMInterpolator, for a variable whose two fastest dimensions are the x and y axis of the interpolation, an interpolation, turning and processes that treat horizontal layers separately: whatever box inside the shape of the variable is asked for, the values are those of the whole variable in that box, also if only a part of the input is needed, and for vectors that are turned; a record is the part at that position of the unlimited dimension. If the horizontal dimensions were renamed this holds for requests of all columns and rows. Nearest-neighbour interpolation treats layers separately, and each value read is that of the input cell closest to the point on the same levels and times, or the fill value. Both components of a vector are turned together: the x component read is the first and the y component the second result of turning the two interpolated fields", "quantifier": "all readers, variables, shapes, requests, interpolations, turnings, processes, types and fill values", "why_tests_cant": "Tests read whole variables or single records of a few files; the cutting of input and output happens in different functions that must agree. Findings shown on the model: parts of variables of a second grid cannot be read; variables whose fastest dimensions are not x and y are interpolated from wrong cells; packed vectors are turned without their offset; components on different axes are silently not turned; components with different level dimensions cannot be read.", "anchors": ["src/CDMInterpolator.cc:140-278", "src/CachedInterpolation.cc:89-128", "src/CachedInterpolation.cc:317-337"]}
{"id": "C101", "title": "An index keeps the metadata", "statement": "ProtobufCDM::writeCDM followed by readCDM into an empty CDM: for metadata without two dimensions, two variables or two attributes of one variable of the same name (and no variable named _GLOBAL), with lengths below 2^32, and with attribute and variable data of at least one number or of one text, the dimensions (name, length, unlimited), the variables (name, type, shape, data), the global attributes and the attributes of every variable come back as they were, in their order; that a variable is a component of a vector is not kept. Negative numbers of the types stored in unsigned fields keep their value. Writing what was read gives the same index.", "quantifier": "all metadata: any number of dimensions, variables and attributes, any names, texts and values", "why_tests_cant": "The tests write and read single data objects of a few numbers, most of them without a string table and none with several texts; names and texts share one table whose numbers must be right for every order of writing. Findings shown on the model: components of vectors are forgotten, so nothing read by way of an index is turned to another projection; several texts are read from the start of the table (or past its end); an attribute of no numbers comes back with a null pointer that getDataType and a second writing follow; lengths of 2^32 and more are cut; a variable named _GLOBAL makes the index unreadable.", "anchors": ["src/ProtobufCDM.cc:55-302", "src/StringUtils.cc:134-161", "src/protobuf/cdm.proto:21-54"]}
{"id": "C102", "title": "A GRIB index keeps the place of every message", "statement": "GribProtobufIndexWriter::write followed by readGribProtobufIndex, given a protobuf library that parses what it serialised: the scale factor, offset and the file number, start and size of every message of every variable come back as they were (numbers of files and sizes below 2^32), files are stored by their name without directory, and a message of a file in the directory of the index is read from exactly that file; messages marked missing are exactly those missing after reading. A file is taken for an index exactly if its first seven bytes are FMXIDX and a zero and bytes nine and ten are G and zero.", "quantifier": "all indexed files, variables, messages, file names and first bytes; any serialisation that can be parsed back", "why_tests_cant": "Tests index one file in one directory. Findings shown on the model: files of the same name in two directories become the same file; the byte telling protobuf and two of the three version numbers are never compared, since strncmp ends at the zero before them; sizes of 4 GB and more are cut.", "anchors": ["src/io/grib/GribProtobufIndexWriter.cc:48-86", "src/io/grib/GribProtobufIndexReader.cc:45-109", "src/io/grib/GribCDMReader.cc:125-141", "src/io/grib/GribCDMReader.cc:240-260", "src/FileUtils.cc:241-274"]}
{"id": "C103", "title": "Vertical converters evaluate their formula in every cell of the request", "statement": "getDataSlice of the vertical converters (sigma, hybrid sigma with ap, ln pressure, hybrid height, ocean s-coordinate g1 and g2 with and without eta, altitude/height with topography) returns, for a request inside of the dimensions, one value per cell, and the value of a cell is the formula of the coordinate applied to the values that the formula-term variables have at that place of the file: in every dimension of the variable the start of the request plus the position of the cell (0 in dimensions of length 1 that the request does not have). The sigma transformation set up from the formula terms of a file gives ptop + sigma*(ps-ptop). The hybrid sigma converter with a and p0 gives a*p0 + b*ps with p0 from record 0 when created in the declared order. This needs, except for altitude/height, that not all terms and the output have the same first dimension. Two requests give the same value for the same place. If a checked term has no data the result is the null pointer. The transformation set up for files with the terms a, b, ps, p0 exchanges ps and p0 (finding).", "quantifier": "all requests, shapes and orders of dimensions, data, formula terms and levels", "why_tests_cant": "the position of every term in every cell depends on the order of the dimensions of all terms and on the request; tests compare single profiles of files with one fixed order, and none uses the form with a and p0", "anchors": ["src/coordSys/verticalTransform/SigmaToPressureConverter.cc:50-72", "src/coordSys/verticalTransform/HybridSigmaApToPressureConverter.cc:71-101", "src/coordSys/verticalTransform/HybridSigmaToPressureConverter.cc:65-91", "src/coordSys/verticalTransform/HybridSigmaPressure2.cc:33-36", "src/coordSys/verticalTransform/AtmosphereSigma.cc:34-37", "src/coordSys/verticalTransform/LnPressureToPressureConverter.cc:51-72", "src/coordSys/verticalTransform/AtmosphereHybridHeight.cc:66-88", "src/coordSys/verticalTransform/OceanSCoordinateGToDepthConverter.cc:64-107", "src/coordSys/verticalTransform/AltitudeHeightConverter.cc:83-130", "src/coordSys/verticalTransform/VerticalTransformationUtils.cc:246-288", "src/coordSys/verticalTransform/VerticalTransformationUtils.cc:447-483", "src/coordSys/CF1_xCoordSysBuilder.cc:488-520"]}
{"id": "C104", "title": "The driver of a file follows from type name, first bytes or file name, in this order", "statement": "CDMFileReaderFactory chooses the driver with the highest mark, the first in the order of the names if several have it. A type name of an installed driver decides alone: nc, nc4, netcdf, netcdf4, nc4c, nc4classic, netcdf4classic, nc3, cdf, netcdf3 (each also with +rw) for netcdf; grb, grib, grb1, grib1, grb2, grib2, grbml, grbfp for GRIB; flt, dat, felt, flt2, dat2, felt2 for felt; ncml; null. Any other type name is as good as none. Without it, for reading, the first bytes of the file (behind a prefix file:) decide if the file has as many bytes as the drivers ask for: HDF5 or CDF and 1 are netcdf, GRIB and the head of an index file are GRIB. Otherwise, and always for writing, the name decides: URLs with http, https, dods and the extensions nc and nc4 are netcdf, other extensions count as type names, zarr names are netcdf. The search never reads outside of its buffer and never fails; without a driver the create functions throw. The driver then opens: netcdf the name without file: (zarr keeps it), with dods: replaced by http:, all files of a glob: pattern joined, with +rw the name for writing without configuration; GRIB an index for grbml and grbfp, else the files of glob:, many:, list: or the name itself followed by the file arguments, with the members named by memberRegex: and memberName:. Written netcdf files have version 3, 4 or 5 by type name (5 by default), GRIB files edition 2 if type or extension says so, else 1.", "quantifier": "all type names, file names, contents of files, sets of installed plugins, configurations and arguments", "why_tests_cant": "tests open a few files by name with all plugins installed; which of three rules decides depends on the combination of type name, bytes, name and plugins", "anchors": ["src/CDMFileReaderFactory.cc:110-227", "src/IoFactory.cc:31-51", "src/DefaultChunkReaderFactory.cc:41-51", "src/FileChunkReader.cc:67-82", "src/io/netcdf/NetCDFIoFactory.cc:52-223", "src/io/grib/GribIoFactory.cc:54-184", "src/io/felt/FeltIoFactory.cc:46-71", "src/NcmlIoFactory.cc:42-55", "src/NullIoFactory.cc:40-60", "include/fimex/min_max.h:87-96"]}
{"id": "C105", "title": "A written GRIB file has one message for each configured variable, time and level with valid values", "statement": "The file written by the GRIB writer holds, in order, exactly one message for each slot that can be written: for each coordinate system with a simple horizontal grid and a supported projection, each time, each variable with an element in the configuration, and each level. A slot can be written if exactly one element of the configuration belongs to the vertical axis and has an id, exactly one parameter element belongs to the variable (by name, or by standard name if no element has the name) and its level, if given, fits, its numbers and attributes can be read, the field at the positions of time and level can be read and is not empty, it has a value other than the fill value (with omitEmptyFields) and its units can be converted. The message has the keys of the parameter and its additional attributes, the keys of the grid, type and number of the level (rounded to zero; its position counted from 1 for hybrid levels of GRIB2, with coefficients of half levels whose means are ap and b, and from which the reader gets back ap and b), date and time of the reference time and the step to the time in the unit of the file (the time itself and step 0 if there is no unique reference time), and the values converted to the configured units, with the fill value as missing value. Levels are those of the axis in the configured units less the configured offset, divided by the configured factor; variables without vertical axis get the configured value. If the writer ends by an exception the file holds the messages of the first slots. This holds for a file with one reference time; for attributes and grid keys that are not keys of the writer itself; for hybrid levels from top to surface.", "quantifier": "all configurations, coordinate systems, axes, variables, values, units and both GRIB editions", "why_tests_cant": "tests write one file with one variable at a time and compare single values; which messages are left out depends on the combination of configuration, levels, units and missing values", "anchors": ["src/io/grib/GribApiCDMWriter_ImplAbstract.cc:44-493", "src/io/grib/GribApiCDMWriter_Impl1.cc:44-62", "src/io/grib/GribApiCDMWriter_Impl1.cc:351-425", "src/io/grib/GribApiCDMWriter_Impl2.cc:62-84", "src/io/grib/GribApiCDMWriter_Impl2.cc:348-480", "src/io/grib/GribCDMIndexer.cc:394-417"]}
{"id": "C106", "title": "The grid read from a written GRIB message is the grid of the variable", "statement": "The GRIB writer describes the grid of a variable with evenly spaced axes of at least two values by keys of the message from which the GRIB reader gets the same grid: for a latitude_longitude grid (longitudes and latitudes; at most 360000 longitudes) and a rotated_latitude_longitude grid (pole in whole degrees) the y axis of the file read is the one written and the x axis is the one written plus a whole number of turns, with the first longitude in [-180, 180], also when the axis crosses 0 or 180 degrees and in either direction; the PROJ.4 text is longlat, or ob_tran with the pole of the grid (lon_0 up to whole turns, in [-180, 180]); for a lambert_conformal_conic grid with increasing axes the text has the standard parallels and the central meridian (up to whole turns), and for a stereographic grid at the north pole (in GRIB1 also polar_stereographic, true at 60 degrees, with steps of whole metres; in GRIB2 true at 90 degrees or the latitude of the scale factor) it has the orientation and the true latitude, and both axes are those written if the projection of this text gives the first point of the grid for its longitude and latitude. The figure of the earth is the one the message had, which must be readable, and the message says that increments are given. Grids with other projections or without projection, and with axes of less than two values, are refused; no message is written while the grid is described.", "quantifier": "all axes, steps, directions, poles, orientations, parallels, keys the message had before, and both GRIB editions; numbers are rational and the GRIB library returns the values set", "why_tests_cant": "tests write one grid for each projection and compare a few keys; whether the reader gets the axes back depends on signs, turns and the crossing of 0 and 180 degrees", "anchors": ["src/io/grib/GribApiCDMWriter_Impl1.cc:64-349", "src/io/grib/GribApiCDMWriter_Impl2.cc:42-53", "src/io/grib/GribApiCDMWriter_Impl2.cc:86-346", "src/io/grib/GribFileIndex.cc:140-441", "src/io/grib/GribFileIndex.cc:675-687", "src/io/grib/GribUtils.cc:51-73", "src/io/grib/GribCDMIndexer.cc:845-884"]}
{"id": "C107", "title": "GRIB messages become variables, dimensions and an index that refers to each message", "statement": "A GRIB message gets the configuration of the first parameter element of its edition and number all of whose conditions (on the further parts of the parameter, level, time range, step type and further keys the message has) hold for it; without one it is skipped if only defined parameters are selected, and is named after its short name and level type otherwise. A file is refused if two of its messages for one variable differ in grid or level type, or in whether they belong to an ensemble or have a time. Otherwise (every grid type having axes in the configuration, with names that differ, and every variable having a time) the time axis has exactly the times of the messages in increasing order, the number of ensemble members is the largest number of members announced or needed by a member's number, there is one variable for every name, its levels are exactly those of its messages in increasing order, its shape is x, y, ensemble member if the messages belong to an ensemble, level and time, all of them dimensions of the file and no dimension occurring twice; two variables share the x or y dimension only if their grids are the same, and the level dimension exactly if level type and levels are the same; the index of the variable has at every time, level and member the last message with them, or none.", "quantifier": "all configurations and lists of messages, and any equality of grids", "why_tests_cant": "tests read files with one grid and complete sets of messages; sharing of dimensions, disagreeing messages and repeated messages depend on combinations of messages that they do not have", "anchors": ["src/io/grib/GribReaderConfig.cc:66-103", "src/io/grib/GribReaderConfig.cc:294-410", "src/io/grib/GribCDMIndexer.cc:264-301", "src/io/grib/GribCDMIndexer.cc:484-655", "src/io/grib/GribCDMIndexer.cc:700-763", "src/io/grib/GribCDMIndexer.cc:808-964"]}
{"id": "C108", "title": "Vertical axes read from GRIB files have the values described in the configuration", "statement": "The values of a vertical axis of a GRIB file, and of variables configured with it, are those of the configured elements: values given in the text as given; in half level mode, for coefficients a of n half levels followed by their b and level numbers k from 1 to n-1, the mean of half levels k and k+1 of a and of b (so that the coefficients written by the GRIB writer are read back); in full level mode coefficient k of a (k up to n) and of b (k below n); multiplied by the scale of the element if it has one. For the hybrid axis of the delivered configuration the variables p0, ap and b, with the same extension of their names as the axis, are added, and the value of the axis at level k is ap(k)/p0 + b(k); these values increase along the axis if a/p0 + b increases from half level to half level. An axis without further variables has the level numbers as values, and one whose values cannot be determined keeps them.", "quantifier": "all coefficients, level numbers, scales, extensions and variables already present", "why_tests_cant": "tests read one file with complete coefficients and compare few values; offsets by one and the ends of the lists of coefficients are not visited", "anchors": ["src/io/grib/GribCDMIndexer.cc:357-484", "share/etc/cdmGribReaderConfig.xml:173-199"]}
{"id": "C109", "title": "The fimex program makes the processing steps asked for, in the documented order, and writes their result", "statement": "For every map of option values given to the program fimex, and whatever the library does with the readers built: when a run ends with status 0, the reader that is filled into output.fillFile and written to output.file is the input file named, followed by just those steps whose options were given, in the order process, qualityExtract, extract, timeInterpolate, interpolate, verticalInterpolate (NcML configuration, data conversion, interpolation), merge, qualityExtract2, ncml; nothing else is written, and no output.file is written by a run that ends with another status. Within the steps: deaccumulation comes before accumulation, rotation and derived variables; the i-th reduced or picked dimension gets the i-th start and end or list, 0 and 0 meaning the first element, and missing starts or ends end the program; a box needs all four sides and they are not mixed up; reductions come before selecting and selecting before removing variables; a projection is preferred to a template, that to cross sections, these to points; the points of cross sections are dealt out in order, none lost and none used twice; an axis is preferred to a template variable, that to levels; a configuration for the inner file of a merge puts it through the steps asked for there; the names of the interpolation methods stand for their methods and unknown names for the nearest neighbour; descriptions are printed of the reader after the step. Guarded: an end of the time span without a start, the configuration by status flags (autoConfString), printing after process, levels without method, longitudes without latitudes and merge options without inner file are ignored; forward_undef_min stands for forward_min; a configuration of an inner file that names itself never ends.", "quantifier": "all maps of option values, all results of reading numbers, times and lists from texts, all sets of readers the library refuses, all depths of nested configuration files", "why_tests_cant": "The program has some 120 options; tests run it with a handful of combinations and compare a few outputs, so an option that is silently ignored, a step in the wrong place or two arguments exchanged is only seen in the combination that uses it.", "anchors": ["src/binSrc/fimex.cc:257-420", "src/binSrc/fimex.cc:424-579", "src/binSrc/fimex.cc:581-796", "src/binSrc/fimex.cc:798-899", "src/binSrc/fimex.cc:1043-1103", "src/interpolation.c:62-107"]}
{"id": "C110", "title": "The coordinate systems of a WRF file have axes centred on the grid, cover every gridded variable once, and can be listed again", "statement": "For a file with a dimension south_north and an attribute MAP_PROJ, listing the coordinate systems keeps all dimensions, attributes and variables and adds only variables that were not there, each for a dimension or for the reference time. Axes made for west_east, west_east_stag, south_north and south_north_stag have DX or DY as step and the projected CEN_LON/CEN_LAT in their middle, so a staggered axis lies half a step to either side of the plain one. Vertical axes count from nought. Times are counted from START_DATE in steps of TIME_STEP_MN minutes. Each variable with an x and a y dimension is in exactly one system, whose axes are those of its dimensions; systems have different lists of dimensions. MAP_PROJ 1, 2, 3 and 6 give lcc, stere, merc and ob_tran with the attributes of the file; any other gives no system and no change. Listing a second time gives the same systems and changes nothing. U/V and UAH/VAH become vectors if both are there and neither is one. Findings: the variable Times is never read (the test for the reader is inverted), so hourly files get three-hourly times; a file without Time fails; a variable with two vertical dimensions makes the listing fail for all; a file with a variable Time gets no reference time.", "quantifier": "all files: dimensions of any length, any variables, shapes and attributes; any place of the centre", "why_tests_cant": "Tests list the systems of one small file and look at a few axes; that nothing else in the file changes, that every shape has one system and that a second listing agrees hold for all files only by proof.", "anchors": ["src/coordSys/WRFCoordSysBuilder.cc:63", "src/coordSys/WRFCoordSysBuilder.cc:105", "src/coordSys/WRFCoordSysBuilder.cc:334", "src/coordSys/CoordinateSystem.cc:305"]}
{"id": "C111", "title": "The C interface copies texts within the given capacity, keeps requests to what fits, runs callbacks on every record read, and reports failures by codes", "statement": "A text is copied with its final NUL if both fit into the n characters, the rest of the n being NUL, and the code is its length plus one; otherwise all n are NUL and the code is 0; nothing behind the n is written. mifi_slicebuilder_ndims and _dimname list the dimensions in order. _set_dim_start_size takes a part that lies in the dimension (any part of the unlimited one); _get_start_size then shows it and the other dimensions as before, writing only as many numbers as there are dimensions. A record of a variable with a callback is what the callback makes of the scaled record of the source, with the fill value read as missing; all records and any request are put together from such records; a code other than 0 gives -1. Setting a callback makes the variable double and changes no other variable; variables without callback read as before. Values read for a request go to the beginning of the block, in the wanted units; failures give -1 and leave the block. Writing gives 0, -99, -98 or -1. Findings: a negative capacity is undefined behaviour; no longitude gives code 1 and an empty text where -1 and NULL are promised; names behind the end give NULL where an empty text is promised; dimension names out of range and parts that do not fit let a C++ exception out; sizes of 2^32 and more are shown modulo 2^32; a callback on another reader dereferences NULL instead of -2; for data in memory the callback is not called and the values come unscaled, one record ends by an assertion; the size of the block is not known, so it can be overrun; writing with units \"\" converts, against the documentation.", "quantifier": "all texts, capacities and blocks; all requests and sequences of calls; all readers, callbacks, units and data", "why_tests_cant": "Tests copy a few names into large buffers and set one callback on one file; capacities at the edge, all positions and all callbacks are covered only by proof.", "anchors": ["src/c_fimex.cc:65", "src/c_fimex.cc:169", "src/c_fimex.cc:353", "src/c_fimex.cc:372", "src/c_fimex.cc:424", "src/c_fimex.cc:477", "src/c_fimex.cc:503", "src/C_CDMReader.cc:50", "src/C_CDMReader.cc:69", "include/fimex/c_fimex.h"]}
{"id": "C112", "title": "An NcML document aggregates its files in the order of its elements: first those given, then those found by scanning", "statement": "The location of an element gives the file, then the type (netcdf if missing) and the configuration, separated by blanks. Without an aggregation the document reads from its location, or from nothing. With one aggregation of type joinExisting, joinNew or union (anything else is an exception) the result is the aggregation of the netcdf elements in order, each with its coordinate value (made up as location_ and its number if missing for joinNew; made up values of different elements differ), followed by the files of the scan elements that can be read; for joinNew record i of a joined variable is that of member i. A suffix stands for itself: exactly the files below the directory whose names end in it are taken, in sub-directories too unless these are switched off. A netcdf element that cannot be read ends the construction, a scanned file that cannot be read is left out. Findings: with several aggregations none is read, though the message says the first; all files of one scan get the same coordinate value; a scanned file that cannot be joined is reported as skipped but stays in the list without a position.", "quantifier": "all documents, directory trees, files, kinds of aggregation", "why_tests_cant": "Tests read three documents with a fixed set of files; all locations, suffixes, trees and mixtures of elements are covered only by proof.", "anchors": ["src/NcmlAggregationReader.cc:61", "src/NcmlAggregationReader.cc:69", "src/NcmlAggregationReader.cc:112", "src/NcmlAggregationReader.cc:138", "src/NcmlAggregationReader.cc:160", "src/AggregationReader.cc:91"]}
{"id": "C113", "title": "Writing to the null format reads all data exactly once", "statement": "Constructing a Null_CDMWriter asks the reader for every variable without the unlimited dimension as a whole and for every record of the others, nothing twice and nothing else, in whatever order the records are worked on. It ends normally only if all of this could be read and no variable or attribute holds several texts. With several MPI processes every record is asked for by exactly one process, the one of its number modulo the number of processes; one process does what it does without MPI. Findings: with two or more processes the variables without the unlimited dimension are asked for by none; a variable of type strings, as the coordinate of an aggregation along a new dimension, ends in an exception.", "quantifier": "all readers, variables, attributes, numbers of records and processes, all orders of records", "why_tests_cant": "The format has no test of its own; all orders of work of the OpenMP loop and all numbers of processes are covered only by proof.", "anchors": ["src/Null_CDMWriter.cc:46", "src/Null_CDMWriter.cc:73", "src/Null_CDMWriter.cc:119", "src/Null_CDMWriter.cc:123"]}
{"id": "C114", "title": "Instants count the seconds of the Gregorian calendar, and times, instants and extended texts convert into each other without loss", "statement": "asTimePoint and make_time_point give the days since 1970-01-01, one for every date of the Gregorian calendar, times 86400, plus the seconds of the day; days, hours, minutes and seconds beyond their range (up to 127) are carried over; epoch seconds are this number. For times of the calendar up to year 32767 instants are ordered as the times and equal only for times equal up to the fraction of the second. On the instants a clock of nanoseconds with 64 bits can hold (1677 to 2262) fromTimePoint gives the time of the calendar with this instant, asTimePoint and fromTimePoint undo each other (the fraction is cut), and make_time_from_string reads what make_time_string_extended writes. A time without valid month is the invalid instant, which no other time is, reads back as an invalid time and is written as invalid-date-time. Findings: instants outside of 1677 to 2262 overflow in the conversion to nanoseconds, so fromTimePoint and the texts are undefined for the year 1; years from 32768 are taken as negative; the compact text is not read back; 30 February is taken as 1 or 2 March.", "quantifier": "all times, all instants, all texts written", "why_tests_cant": "Tests convert a few dates; leap years, the ends of the range and all other instants are covered only by proof.", "anchors": ["src/TimeUtils.cc:45", "src/TimeUtils.cc:51", "src/TimeUtils.cc:61", "src/TimeUtils.cc:76", "src/TimeUtils.cc:112", "src/TimeUtils.cc:122", "src/TimeUtils.cc:132"]}
{"id": "C115", "title": "Templates in configured attributes are replaced by the times and texts of the file in the given format, moved by the given offset", "statement": "replaceTemplateAttribute leaves a value without %NAME% and %NAME(...)% as it is. %NAME% of a text becomes the text, %NAME(format)% of a time the time in this format, %NAME(format,seconds)% the time moved by the seconds, and what stands before and behind is kept, if no other )% follows; an offset that is no number throws. Names are replaced in the order of the map, each in the text left by the one before, and the replacement ends for every value. The result does not depend on formats used before; a value without comma leaves all offsets as they were, so without commas every attribute of a list has the value it has alone. fillAttributeListFromXMLNode gives one attribute for each element named attribute, with its name and type, in order; initUpdateTemplatedAttributeValues changes texts only. MIN_DATETIME is the first and MAX_DATETIME the last time of a GRIB file. Findings: a time without brackets gives the empty text, the default format is never used; two templates with formats in one value are taken as one, up to the last )%, for the same name and for a name later in the map; an offset stays for all values behind, so max_time behind Expires is four weeks late; the offset +5000 of the documentation throws; a text of 80 or more characters is written from a buffer with unspecified content.", "quantifier": "all values, names without %, times, formats, offsets and lists of attributes", "why_tests_cant": "Tests replace one template in one value; other positions, several templates and the state shared between attributes are covered only by proof.", "anchors": ["src/CDM_XMLConfigHelper.cc:42", "src/CDM_XMLConfigHelper.cc:73", "src/ReplaceStringTimeObject.cc:34", "src/ReplaceStringTimeObject.cc:49", "src/io/grib/GribCDMIndexer.cc:224", "src/io/grib/GribCDMIndexer.cc:242"]}
{"id": "C116", "title": "A FELT file gives the same words in either byte order, its fields are the valid entries of its index in order, and header, data and additional words of a field are adjacent", "statement": "A FELT file whose first word is 997, 998 or 999 in one byte order is opened with the same words and fields as the file with every pair of bytes exchanged. The index entry i is the 16 words at place i mod 64 of block 2 + i/64 (blocks of 1024 words, counted from 0), and the opened fields are as many valid entries, in order, as the header says, entries without grid being left out. Opening ends for every file; a file whose status word says it is incomplete throws. For a field placed at a word of a block with a total size, its 20 header words, its data and its additional words (the grid type modulo 1000 where it is above 1000) are exactly the consecutive words of the file. Parameters from 2000 to 5999 are ensembles: the parameter is the remainder modulo 1000, the second level is 0 and the member is the word that is otherwise the second level. The valid time is the reference time and the forecast length in hours. Findings: a field of fewer than 20 words counts as valid, has a size near 2^64 and cannot be read; with fewer valid entries than the header says reading leaves the index and then the file.", "quantifier": "all byte sequences, words, headers and placements", "why_tests_cant": "Tests read one file written on one kind of machine; other byte orders, incomplete files, index sizes and placements are covered only by proof.", "anchors": ["src/io/felt/FeltFile.cpp:43", "src/io/felt/FeltFile.cpp:181", "src/io/felt/FeltFile.cpp:194", "src/io/felt/FeltField.cpp:40", "src/io/felt/FeltField.cpp:67", "src/io/felt/FeltField.cpp:187", "src/io/felt/FeltField.cpp:214", "src/io/felt/FeltField.cpp:239", "src/io/felt/FeltTime.cpp:40", "src/io/felt/FeltTime.cpp:59"]}
{"id": "C117", "title": "Grids of FELT files have the parameters their words say, in every encoding, and axes that begin and step as in the file", "statement": "gridParameters gives for types 1 to 6 six parameters and throws for other types, for steps of 0, for stereographic grids whose latitude is 0 or outside -90 to 90, and for Lambert grids whose latitude is 0, 90 or -90. Without additional words the parameters are the words 14 to 17 in hundredths (corner and step of geographic grids, pole of stereographic ones) or tenths, with old stereographic grids (negative distance) in whole units; a Lambert grid without additional words throws. With additional words these replace the header words completely: two words a number (divided by 100 for stereographic, 10000 for other grids) or three with an exponent of ten, both encodings giving equal numbers; other numbers of words and other words in front throw. The axes of a field are arithmetic: geographic axes begin at the file's corner with the file's step, whether the step is positive or negative; in stereographic grids the point of the pole has the coordinates (0, 0) and the step is the radius times 1 + sine over the number of cells; Mercator and Lambert axes begin at the projected corner with steps in metres. The projection text of each type uses exactly the angles of the parameters and a sphere. getGridAllowDelta accepts a field iff its class is that of the default and each parameter is within its delta; one file has one class of grid or throws. Finding: a field read with another number of rows than its header says gets shifted rows.", "quantifier": "all words, additional words, types, numbers of rows and columns, deltas", "why_tests_cant": "Tests read files with one or two grids; the encodings, orientations, refused grids and tolerances are covered only by proof.", "anchors": ["src/io/felt/FeltGridDefinition.cpp:100", "src/io/felt/FeltGridDefinition.cpp:113", "src/io/felt/FeltGridDefinition.cpp:140", "src/io/felt/FeltGridDefinition.cpp:157", "src/io/felt/FeltGridDefinition.cpp:195", "src/io/felt/FeltGridDefinition.cpp:228", "src/io/felt/FeltGridDefinition.cpp:251", "src/io/felt/FeltGridDefinition.cpp:278", "src/io/felt/FeltGridDefinition.cpp:299", "src/io/felt/FeltGridDefinition.cpp:331", "src/io/felt/FeltGridDefinition.cpp:343", "src/io/felt/Felt_File2.cc:336", "src/io/felt/Felt_File2.cc:365", "src/io/felt/Felt_Array2.cc:245"]}
{"id": "C118", "title": "fiGribCut writes the selected messages in order, keeps the columns of the box with their longitudes, and counts what it cannot cut", "statement": "findFirstLastIndex gives for an ascending axis the smallest indices f and l (up to a margin) such that every point from first to last is from f to l, with l itself in the range only at the end of the axis, and for a descending axis of steps above the margin likewise; a range in the wrong direction throws. Without box fiGribCut writes exactly the messages whose parameter is asked for (all if none is named), unchanged, file by file in order. Every message is skipped, written or one error; one that cannot be cut or is damaged does not stop the others, and the exit code is the number of errors. Only regular_ll messages scanned from the left by rows are cut. In a cut message each column is a column of the original with its longitude and its values, and all columns from west to east are kept except the last column of the grid. Boxes need at least four numbers, latitudes in -90 to 90, longitudes in -180 to 180, south not above north, west not above east. Findings: the direction of latitudes is taken the wrong way round, so every box that lies behind the first row of the grid leaves exactly one row, the first, which is not in the box; the last column is never kept, not even for a box around the grid; the header's last longitude is one step beyond the last column; a file that cannot be opened leads to fclose of a null pointer; 256 errors give the exit code 0.", "quantifier": "all axes, ranges, messages, boxes, lists of files and options", "why_tests_cant": "There is no test of fiGribCut; ranges, scanning modes and damaged files are covered only by proof.", "anchors": ["src/binSrc/fiGribCut.cc:62", "src/binSrc/fiGribCut.cc:84", "src/binSrc/fiGribCut.cc:117", "src/binSrc/fiGribCut.cc:214", "src/binSrc/fiGribCut.cc:232", "src/binSrc/fiGribCut.cc:271"]}
{"id": "C119", "title": "An index of GRIB files read back gives the messages that were written, fiGrbmlCat joins the messages of its files, and appending replaces those of the same file", "statement": "A message all of whose members are set to values in range and whose doubles are given back by their text is the same after it is written to an index (grbml) and read: file, position, size, names, edition, numbers of the parameter, level, ensemble, extra keys, times, grid with its resolution. An index whose url holds no special characters of XML is read back with its url and its messages in order. If the texts hold no special characters, fiGrbmlCat on a list of indices gives an index with the url of the first and all messages in order. A document with an error of syntax before the end of the index is refused by the constructor that opens an index. GribFileIndex with an index to append to gives the old messages of other files followed by the new ones, and doing so twice changes nothing more. Indexing a file which is a sequence of messages of edition 1 and 2 asks the decoder for each of them at its offset with its length, and leaves out exactly those refused with a CDMException; it ends unless empty messages are accepted. fiIndexGribs appends, creates an index or refuses according to a table of its options. Findings: a damaged or missing index is not noticed when it is appended to and is then overwritten without the rest of its messages; the url in the head, and all attributes in fiGrbmlCat, are written without escapes, so a url with an ampersand gives an index that cannot be read; a message without level or time is accepted with members that were never set; a gribMessage as empty element swallows the next message; the length of a message of another edition is computed from variables without a value; 16 digits do not tell neighbouring doubles apart; --input.type=grib is refused because only GRIB input is supported, and --input.type=grbml is taken as GRIB; the type gribfp of the help text is unknown.", "quantifier": "all messages, indices, documents, lists of files, bytes of files and options", "why_tests_cant": "The test of the index reads one index made from one file; escapes, damaged indices, missing elements and the programs are not tested.", "anchors": ["src/io/grib/GribFileIndex.cc:462", "src/io/grib/GribFileIndex.cc:690", "src/io/grib/GribFileIndex.cc:970", "src/io/grib/GribFileIndex.cc:1136", "src/io/grib/GribFileIndex.cc:1167", "src/io/grib/GribFileIndex.cc:1229", "src/binSrc/fiGrbmlCat.cc:48", "src/binSrc/fiGrbmlCat.cc:85", "src/binSrc/fiIndexGribs.cc:93", "src/binSrc/fiIndexGribs.cc:203"]}
{"id": "C120", "title": "The parameters of a FELT configuration keep the words, type and fill value written for them, and fields go to the first name that agrees", "statement": "For a configuration whose ids contain no capital T or V, whose types are written in small letters, whose fill values have at most nine characters and no colon, and whose globalParameterRestrictions occur at the end of an id only, every parameter has under its own id: the sixteen words of the id together with the restrictions, its type (short if none is given) and its fill value (-32767 if none is given), and there are no other entries. The words of an id are: numbers in front set parameter, vertical coordinate and level; prod, grid, dtype, level, idnum, param and vcoord set their words, the last setting counts; unknown names and parts without an equal sign set nothing; a word not set agrees with everything. A field goes to the first name, in the order of texts, whose words agree with its header, keeps the order of the file, and is left out if there is none. gridParameterDelta gives at most six numbers, the rest is 0. Values can be read for short, float and double only. Not guaranteed, with witnesses: numbers from 32768 are other numbers (32769 is any value); unknown types are accepted until values are read; capital letters of a type stay in the name; a fill value of many digits is undefined behaviour; restrictions are removed from the middle of an id, too; an id which is a longer, more precise version of another id never gets a field.", "quantifier": "all configurations of any number of parameters, all ids, restrictions, headers and lists of fields", "why_tests_cant": "The ids are taken apart by four regular expressions and put together again under several keys; a test shows one id, not that no combination of type, fill value and restrictions changes the key or the words of another parameter.", "anchors": ["src/io/felt/FeltParameters.cc", "src/io/felt/FeltCDMReader2.cc", "src/io/felt/Felt_File2.cc"]}
{"id": "C121", "title": "fiXYcontents prints one line for each slice in the horizontal plane that is asked for, with the positions, values and statistics of this slice", "statement": "For a variable in a simple grid with a time axis whose axes are dimensions, without an axis of reference times and without the option verticalLayer, fiXYcontents prints a line for every combination of a wanted time, a wanted level and a position of every other dimension: times change slowest, then levels, then the other dimensions in the order of their names; no combination is missing or printed twice. Wanted times are those whose hours times 60 are those of a given time (all if none is given), wanted levels those at given positions and with given values. A line shows for the dimensions from the last to the first the position with the value of the axis at it, and the statistics of the slice with one position in these dimensions and all of the horizontal ones. Mean, sum, minimum, maximum, median and the variance from the mean are those of the defined values; def and undef count. The names are those given or with a given standard name, or all, each once and in order; names without coordinate system print nothing. Not guaranteed, with witnesses: verticalLayer looks at the x axis, so that no prints nothing for grids with several columns and units:hPa nothing for grids in metres; variables without time axis are not printed; a file with an axis of reference times is a null pointer; positions belong to the dimensions of the first variable of the coordinate system, even if another variable has them in another order; the median of two values is the greater one, the standard deviation of one value is not a number and the number of undefined values is not shown if all are.", "quantifier": "all files with any number of dimensions, lengths and values, all options", "why_tests_cant": "There is no test of the program; a test shows the lines of one file, not that no combination is left out or shown with the values of another position.", "anchors": ["src/binSrc/fiXYcontents.cc:110", "src/binSrc/fiXYcontents.cc:117", "src/binSrc/fiXYcontents.cc:158", "src/binSrc/fiXYcontents.cc:211", "src/binSrc/fiXYcontents.cc:291", "src/binSrc/fiXYcontents.cc:363"]}
{"id": "C122", "title": "Loggers and logger classes: no use of a deleted object, no deadlock, no leak, and answers that depend only on the class and level chosen last", "statement": "For every sequence of calls of one thread that makes loggers, asks them, logs, resets and deletes loggers which exist, changes the class (by Logger::setClass with a name, with a pointer, or with null) and the level (defaultLogLevel, mifi_set_default_log_level): no deleted logger, object or class is used, the mutex is never asked for while it is held, at most one class exists, and each object of a class belongs to exactly one logger and is of the class chosen last, whatever loggers were in use when the class was changed. isEnabledFor answers by the class chosen last (the default class after setClass(0)), the name, and the levels. With Log2StderrClass, LOG4FIMEX writes a message iff its level is at least the level set last, and the text is the name of the level, the message, the file and the line. With log4cpp, a priority set from a level enables the levels from this one on, and a level that is none of the five is never enabled. After all loggers are deleted, setClass(0) leaves no class and no object. Findings: with a logger in use, setClass(0) leaves the default class behind, made while the old one is deleted; with log4cpp and its root at INFO, levels above INFO (also OFF and the default WARN) are not kept and a level once lowered is not raised by mifi_set_default_log_level; with stderr, messages of level OFF are always written.", "quantifier": "all sequences of calls, any number of loggers and classes, all levels (any int), with and without log4cpp", "why_tests_cant": "The tests set one class at the start and never change it while loggers are in use; errors in lifetimes show only for certain orders of calls.", "anchors": ["src/Logger.cc:52", "src/Logger.cc:100", "src/Logger.cc:111", "src/Logger.cc:123", "src/Logger.cc:155", "src/Logger.cc:179", "src/Logger.cc:194", "src/Log4cppLogger.cc:40", "src/Log4cppLogger.cc:89", "include/fimex/Logger.h:170", "src/c_fimex.cc:535"]}
{"id": "C123", "title": "Vertical transformations: which converter is chosen, and the columns of levels read through it", "statement": "VerticalTransformation::getConverter of a coordinate system: for pressures the first variable with standard name pressure or air_pressure on the coordinate system (in hPa), whatever the transformation, else the transformation's formula, if it has one (none for heights, depths and hybrid heights; an exception for ocean levels); for altitudes of the transformations with pressures the first geopotential_height on the coordinate system, else the hypsometric equation if there are an air_temperature with the dimensions of the pressure, a surface_air_pressure and a surface_geopotential (the first of each), else the standard atmosphere, and none without pressures; heights are altitudes minus the topography and altitudes of heights are heights plus the topography, where the topography is the first variable with one of five standard names over both horizontal dimensions with a coordinate system of its own and at most one level, and there is no converter without topography or horizontal axes; depths are only those of depths and ocean levels; other types are refused with an exception, and a transformation's preferred type always has a converter. ToVLevelConverterAdapter(x, y, t) reads one position along those of the dimensions of the horizontal axes and the time which the converter has (the chosen record if the time is unlimited), everything along the others, throws if a position is beyond the end, and gives as many values as there are levels if there is no other dimension; a value is valid unless it is above the upper or below the lower limit, where these exist. getSimpleAxes gives the lengths of the axes, 1 for those missing, and throws for axes that do not have exactly one dimension.", "quantifier": "all files (any variables, shapes, lengths), all coordinate systems, all transformations and types, all positions", "why_tests_cant": "The tests use a handful of files with one transformation each; the order of the choices, files with several candidates and positions beyond the end are not tested.", "anchors": ["src/coordSys/verticalTransform/VerticalTransformation.cc:67", "src/coordSys/verticalTransform/VerticalTransformation.cc:79", "src/coordSys/verticalTransform/VerticalTransformation.cc:115", "src/coordSys/verticalTransform/PressureIntegrationToAltitudeConverter.cc:50", "src/coordSys/verticalTransform/AltitudeHeightConverter.cc:51", "src/coordSys/verticalTransform/Height.cc:72", "src/coordSys/verticalTransform/OceanSG1.cc:40", "src/coordSys/verticalTransform/ToVLevelConverterAdapter.cc:48", "src/coordSys/verticalTransform/ToVLevelConverterAdapter.cc:100", "src/coordSys/CoordSysUtils.cc:42"]}
{"id": "C124", "title": "Documents are read completely in pieces, and a reader is kept until another file is asked for", "statement": "ChunkReaderXmlInputCtx::read, called by the XML parser with buffers of any lengths (of type int), gives the bytes of the document one after the other: each answer is the number of bytes given, min(length, rest), the pieces together are the document, and at the end every answer is 0; a negative length gives -1 and reads nothing. This holds for a file (FileChunkReader), also if it has grown since it was opened (then only the bytes it had), and for a server (HttpChunkReader) which sends the ranges asked for in any chunks. If the file has become shorter, the parser gets bytes of the file and then -1, no document which ends too early. ChunkReaderFactory::readerFor gives for http:// and https:// a reader of that address and for all else a reader of the file of that name, without a prefix file:; it opens the file at the first request and after a request of another file, with the size it has then, and throws if it does not exist; until another file is asked for, the same reader is given, and requests of servers, or such which fail, do not change that; likewise for servers. A file once opened is read as it is, whatever is done with its name. Findings: the reader which is kept is not renewed if the file is replaced, removed, or changed: its size stays; a server which names no length (the size is then 2^64-1), or which answers with fewer bytes than asked for (e.g. the page of an error), gives bytes which were in the buffer before, as if they had been read.", "quantifier": "all documents shorter than 2^63 bytes, all sequences of lengths, all chunks; all sequences of requests and changes of files", "why_tests_cant": "The tests read small local files once; files which change, sequences of requests, servers and the lengths chosen by the parser are not tested.", "anchors": ["src/ChunkReaderXmlInputCtx.cc:34", "src/FileChunkReader.cc:53", "src/FileChunkReader.cc:67", "src/HttpChunkReader.cc:74", "src/HttpChunkReader.cc:109", "src/DefaultChunkReaderFactory.cc:41"]}
{"id": "C125", "title": "Interpolation to the points of a template gives the file the axes x and y and the longitudes and latitudes of the template", "statement": "CDMInterpolator::changeProjection with a template of longitudes and latitudes, for a file with one system of horizontal axes whose axes are either called x and y already, or neither x nor y are names of variables or dimensions of the file: the variables afterwards are x, y, latitude and longitude and all variables of the file but those with the attribute grid_mapping_name (if the system has a projection), the old longitude and latitude of the system and the old axes (if not called x and y). Each interpolated variable has x and y in the places of the old axes, coordinates \"longitude latitude\", no grid_mapping, and its other attributes as before; every other variable is unchanged with its attributes, as are the global attributes. x and y have the values and types of the template, the standard names projection_x_coordinate and projection_y_coordinate, and the units given; latitude and longitude are doubles over x and y with the values of the template (as they are, or converted to double) and units degree_north and degree_east. The dimensions are those before with x and y of the lengths of the template, without longitude, latitude and the old axes. A projection other than longitudes and latitudes (latlon, latlong, lonlat, longlat) throws. Findings: every file whose longitudes are on dimensions x and y without variables, or whose longitude is itself called x, is refused with an exception; if only one of the old axes is called x or y as the new one, the other one stays in the file with its dimension although nothing uses it.", "quantifier": "all files, systems, names of axes, values, types and units, under the conditions stated", "why_tests_cant": "The tests interpolate to one template and compare some values; the metadata, other names of axes and files with dimensions x and y but without such variables are not tested.", "anchors": ["src/CDMInterpolator.cc:1422", "src/CDMInterpolator.cc:1439", "src/CDMInterpolator.cc:1452", "src/CDMInterpolator.cc:1519", "src/CDMInterpolator.cc:1548", "src/CDMInterpolator.cc:1561"]}
{"id": "C126", "title": "Rotated vectors are made of both components of the reader, once per request", "statement": "CDMProcessor::rotateVectorToLatLon, rotateAllVectorsToLatLon, rotateDirectionToLatLon and the rotation in getDataSlice. rotateVectorToLatLon succeeds if and only if both lists have the same length and are empty, or the file has systems with a projection and both variables of each pair are on one and the same. After it, for pairs of different variables, each pair is marked as a vector along longitude and latitude (or x and y) with each other as counterparts, with the standard names given (unchanged where none is given), and all other variables keep name and mark. After the first request, the slices of the two are the first and second component of the rotation of the two slices of the reader by the matrix of their system and the direction asked for, in the type of the variable; slices of different sizes throw; other variables have the slices of the reader. After a later request they are the same with the direction of the first request for the system. rotateAllVectorsToLatLon, for vectors that are counterparts of each other, marks, names (LATLON_ROTATED_ or GRID_ROTATED_ before the old standard name, or the name) and rotates all vectors along x and y (or longitude and latitude), and changes no other variable. A component rotated as a direction too is rotated as a vector first. Directions are unpacked with scale factor and offset, rotated and packed again: the unpacked result is the rotation of the unpacked data if the scale factor is not zero; names and marks stay. No sequence of requests, failing ones included, leads to the use of a missing matrix. Rotating all vectors to longitude and latitude twice is rotating once. Findings: the matrix of a system is the one of the first request for ever, also when a later request asks for the other direction, so vectors rotated to longitude and latitude and back are described as vectors of the grid but are along longitude and latitude; vectors are rotated as packed, scale factor and offset have no effect, so components with offsets or with different scale factors are wrong; a pair on different systems is refused after its standard names and marks have been changed.", "quantifier": "all files, systems, vectors, matrices, packings and sequences of requests", "why_tests_cant": "The tests rotate one unpacked vector in one direction; a second request, packed data and failing requests are not tested.", "anchors": ["src/CDMProcessor.cc:404", "src/CDMProcessor.cc:432", "src/CDMProcessor.cc:475", "src/CDMProcessor.cc:485", "src/CDMProcessor.cc:652", "src/CDMProcessor.cc:694"]}
