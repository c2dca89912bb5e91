{"id": "C01", "title": "Delimiter split loses only one trailing delimiter", "statement": "SplitString(s, d) returns pieces none of which contains d, and joining them with d gives s back, except that exactly one trailing d of s is dropped; the empty string gives no pieces.", "quantifier": "every string s and every delimiter character d", "why_tests_cant": "a law over all strings; tests fix a few literals and never exercise the getline end-of-input corner in general", "anchors": ["src/utils_string.cpp: SplitString(const string&, char)"]}
{"id": "C02", "title": "Whitespace split returns the words", "statement": "SplitString(s) returns exactly the maximal whitespace-free words of s, in order, whenever s has at least one word and does not end in whitespace. The unrestricted claim is false: a trailing blank repeats the last word, and an empty input gives one empty word.", "quantifier": "every string s (positive part: not ending in whitespace and non-blank)", "why_tests_cant": "unbounded inputs; the stream-state corner only appears with trailing whitespace", "anchors": ["src/utils_string.cpp: SplitString(const string&)"]}
{"id": "C03", "title": "Trim removes exactly the surrounding whitespace", "statement": "Trim(s) deletes the maximal prefix and suffix of whitespace and nothing else: s = a ++ Trim(s) ++ b with a, b all whitespace and Trim(s) starting and ending with a non-whitespace character (or empty); Trim is idempotent. TrimSpaces strips blanks in the same way.", "quantifier": "every string", "why_tests_cant": "characterisation over all strings", "anchors": ["src/utils_string.cpp: Trim, TrimSpaces"]}
{"id": "C04", "title": "Case-insensitive matching is an equivalence", "statement": "StringMatch(a, b) holds exactly when a and b have equal length and agree character by character up to ASCII letter case; hence it is reflexive, symmetric and transitive, and GetUpper is idempotent and length preserving.", "quantifier": "every pair (triple) of strings", "why_tests_cant": "relation properties over all strings", "anchors": ["src/utils_string.cpp: StringMatch, GetUpper"]}
{"id": "C05", "title": "Integer text conversion is exact", "statement": "For every 32-bit integer n, ToInt/IsInt applied to the decimal text of n succeeds and yields n; conversely IsInt succeeds on a text only if the text is the canonical decimal form of the returned 32-bit value, so signs, blanks, leading zeros and out-of-range digits are all rejected.", "quantifier": "every 32-bit integer; every string", "why_tests_cant": "4 billion values and unboundedly many strings, including overflowing ones", "anchors": ["src/utils_string.cpp: IsInt, itoa", "src/utils_string.h: ToInt"]}
{"id": "C06", "title": "Overlaying option maps", "statement": "CopyStringMap / CopyHeader leave in the destination, for each key, the source's value if the source has the key and the old destination value otherwise; UpdateStringMap / UpdateStrHeader / UpdateHeader change exactly one key.", "quantifier": "every pair of maps and every key", "why_tests_cant": "frame condition over all keys", "anchors": ["src/utils_string.cpp: CopyStringMap, UpdateStringMap", "src/data_raster.cpp: CopyHeader, UpdateStrHeader", "src/data_raster.hpp: UpdateHeader"]}
{"id": "C07", "title": "Any history of map updates keeps last-writer-wins", "statement": "After any sequence of UpdateStringMap and CopyStringMap calls, the value of a key is the one given by the last call in the history that mentions the key.", "quantifier": "every sequence of updates, every key", "why_tests_cant": "ranges over histories of any length", "anchors": ["src/utils_string.cpp: CopyStringMap, UpdateStringMap"]}
{"id": "C08", "title": "One-dimensional array allocation contract", "statement": "Initialize1DArray on a null pointer and positive count yields an array of exactly that many elements, all equal to the initial value; on an already allocated pointer or a non-positive count it fails and changes nothing. The copying variant behaves the same for a non-null source; with a null source it fails but leaves a fresh array allocated.", "quantifier": "every count, initial value and pointer state", "why_tests_cant": "all sizes and states", "anchors": ["src/utils_array.h: Initialize1DArray(int, T*&, INI_T)"]}
{"id": "C09", "title": "Two-dimensional array is one disjoint contiguous block", "statement": "Initialize2DArray(rows, cols, v) makes rows*cols distinct cells in one block with row i at offset i*cols: writing cell (i,j) changes the read of (i,j) only, and Release2DArray frees exactly the blocks that were allocated, each once. Two corners are false: releasing a zero-row array reads out of bounds, and after a failed pool allocation the pointer is non-null but cannot be released.", "quantifier": "every rows, cols with rows*cols representable in int, every sequence of cell writes", "why_tests_cant": "aliasing and memory safety over all sizes and write sequences", "anchors": ["src/utils_array.h: Initialize2DArray, Release2DArray"]}
{"id": "C10", "title": "Vector membership and removal", "statement": "ValueInVector(v, xs) is true exactly when xs contains v; RemoveValueInVector(v, xs) deletes every occurrence of v and keeps the order and multiplicity of all other elements.", "quantifier": "every value and vector", "why_tests_cant": "all lengths and duplicate patterns", "anchors": ["src/utils_array.h: ValueInVector, RemoveValueInVector"]}
{"id": "C11", "title": "Leap years and day-of-year follow the Gregorian calendar", "statement": "IsLeapYear is the Gregorian rule; DayOfYear(y,m,d) computed from Julian day numbers equals 1 plus the number of days from 1 January to the date, for every valid civil date.", "quantifier": "every year >= -4799 and every valid month/day in it", "why_tests_cant": "infinite set of dates", "anchors": ["src/utils_time.h: IsLeapYear", "src/utils_time.cpp: DayOfYear, JulianDay"]}
{"id": "C12", "title": "Julian day numbers count civil days", "statement": "JulianDay(next civil day) = JulianDay(day) + 1 for every valid civil date, so the difference of two Julian days is the number of civil days between the dates and distinct dates have distinct numbers.", "quantifier": "every valid civil date with year >= -4799 (all divisions non-negative)", "why_tests_cant": "induction over the whole calendar, all month/century boundaries", "anchors": ["src/utils_time.cpp: JulianDay"]}
{"id": "C13", "title": "Forward/Backward honour their arguments (false for milliseconds)", "statement": "DateTime::Forward(ms) is documented to advance by the given number of milliseconds. The claim is false: the argument is ignored, the object's own current millisecond field is added instead.", "quantifier": "every date-time value and every argument", "why_tests_cant": "must compare against every argument; a test with a matching value passes by accident", "anchors": ["src/utils_time.cpp: DateTime::Forward, DateTime::Backward"]}
{"id": "C14", "title": "Array maximum and minimum", "statement": "MaxInArray / MinInArray return an element of a non-empty array that bounds every element, for totally ordered element types; false with NaN elements.", "quantifier": "every non-empty array", "why_tests_cant": "all arrays", "anchors": ["src/utils_math.h: MaxInArray, MinInArray"]}
{"id": "C15", "title": "Parallel sum does not depend on the schedule", "statement": "Sum over an integer array equals the sequential sum for every way the OpenMP runtime splits the iterations between threads and combines the partial sums; the variant with an index array sums the selected elements, each as often as it is listed. For int the sum of magnitudes must fit (otherwise overflow depends on the schedule); for float data the claim is false.", "quantifier": "every array, index list, partition of the iterations between threads and combination order", "why_tests_cant": "schedules are nondeterministic and cannot be enumerated by tests", "anchors": ["src/utils_math.h: Sum"]}
{"id": "C16", "title": "Basic statistics are those of the valid cells", "statement": "BasicStatistics reports the number of elements different from the excluded value, their maximum, minimum, range, and a mean and variance equal to sum/count and mean squared deviation (exact arithmetic), when at least one valid element exists and the valid elements are within the float range; with no valid element the mean is 0/0. Outside the float range the maximum or minimum is false.", "quantifier": "every value array and excluded value; 1-D and every layer of 2-D input", "why_tests_cant": "all arrays; the empty-selection corner", "anchors": ["src/utils_math.h: BasicStatistics (1D, 2D)"]}
{"id": "C17", "title": "Path pieces recompose", "statement": "For a path with a directory part and a base name containing a dot, GetPathFromFullName + GetCoreFileName + '.' + GetSuffix gives the path back; ReplaceSuffix changes only the suffix. AppendCoreFileName and PrefixCoreFileName change only the core name. The unrestricted claim is false: with a dot in a directory name and none in the file name GetSuffix returns a piece containing the separator; an existing directory does not recompose; a trailing dot reports the piece before.", "quantifier": "every path string", "why_tests_cant": "all strings, dots in directories", "anchors": ["src/utils_filesystem.cpp: GetPathFromFullName, GetCoreFileName, GetSuffix, ReplaceSuffix, ConcatFullName"]}
{"id": "C18", "title": "Text file loading keeps exactly the significant lines", "statement": "LoadPlainTextFile appends, in order, the trimmed lines of the file which are non-empty and do not start with '#', and nothing else. (false for a source whose reading fails, such as a directory: the function never returns.)", "quantifier": "every file content and every prior content of the output vector", "why_tests_cant": "all files", "anchors": ["src/utils_filesystem.cpp: LoadPlainTextFile"]}
{"id": "C19", "title": "IP address check", "statement": "IsIpAddress accepts every dotted quad of canonical octets 0..255 and never one whose component is between 256 and 2^31-1; exactly which texts are accepted. The converse claim is false: five-component texts, trailing dots and numbers wrapping at 2^32 are accepted.", "quantifier": "every string", "why_tests_cant": "all strings", "anchors": ["src/basic.cpp: IsIpAddress"]}
{"id": "C20", "title": "Raster data type names round trip", "statement": "StringToRasterDataType(RasterDataTypeToString(t)) = t for every data type, regardless of letter case of the text; exactly the listed names are recognised.", "quantifier": "every data type and every re-casing of its name", "why_tests_cant": "all re-casings", "anchors": ["src/data_raster.cpp: RasterDataTypeToString, StringToRasterDataType"]}
{"id": "C21", "title": "Position lookup finds a cell iff it is valid", "statement": "On a raster with calculated positions GetPosition(row, col) returns the index i of the stored value of that cell if the cell is valid, -1 if the cell is NoData and -2 outside the extent, with no out-of-bounds access and always terminating.", "quantifier": "every strictly increasing position list, every row and column", "why_tests_cant": "binary search over all sizes and contents", "anchors": ["src/data_raster.hpp: GetPosition(int,int)"]}
{"id": "C22", "title": "Dropping NoData cells does not change what users read", "statement": "Calculating valid positions stores the non-NoData cells once each, in row-major order, and GetValue(row, col, layer) returns afterwards for every cell whose first layer is valid, on every layer, the same value as before, and NoData elsewhere. The unrestricted claim is false for layers above the first: their values are lost where the first layer is NoData.", "quantifier": "every grid size, content, NoData value, layer count and cell", "why_tests_cant": "all grids including all-NoData and none-NoData ones", "anchors": ["src/data_raster.hpp: CalculateValidPositionsFromGridData, GetValue, SetCalcPositions"]}
{"id": "C23", "title": "SetValue changes exactly one cell", "statement": "SetValue(r,c,v,lyr) followed by GetValue(r,c,lyr) returns v when (r,c) is inside the extent and stored, and leaves the value of every other (r',c',lyr') unchanged; outside the extent, on invalid layers and on dropped NoData cells it changes nothing. Every history of SetValue, ReplaceNoData and SetCalcPositions calls reads as the same history on an abstract grid. False on a multi-layer raster all of whose cells were dropped, where SetValue writes out of bounds.", "quantifier": "every raster, cell, layer, value, and every sequence of SetValue calls", "why_tests_cant": "frame property over all cells and histories", "anchors": ["src/data_raster.hpp: SetValue, GetValue"]}
{"id": "C24", "title": "ReplaceNoData rewrites exactly the NoData cells under any schedule", "statement": "After ReplaceNoData(v) every cell that read as NoData reads v, every other cell keeps its value, and NoData is v; the result is the same for every execution order of the parallel loop.", "quantifier": "every raster and v; every permutation of the iterations", "why_tests_cant": "schedules and all grids", "anchors": ["src/data_raster.hpp: ReplaceNoData"]}
{"id": "C25", "title": "Reclassify maps each cell through the table (false for unmapped values)", "statement": "If every stored cell's integer value is in the table, Reclassify replaces each cell by its table entry. The documented treatment of values missing from the table (NoData) is never reached: an exception escapes instead and leaves the raster partially rewritten.", "quantifier": "every raster and table", "why_tests_cant": "all tables; failure point in the middle of the data", "anchors": ["src/data_raster.hpp: Reclassify"]}
{"id": "C26", "title": "Cell centre coordinates identify the cell", "statement": "GetPositionByCoordinate(GetCoordinateByRowCol(r,c)) = (r,c) and GetPosition(x,y) agrees with GetPosition(r,c), for every cell of the raster.", "quantifier": "every origin, positive cell size, extent and cell (exact arithmetic; and IEEE double arithmetic under a magnitude bound)", "why_tests_cant": "all geometries", "anchors": ["src/data_raster.hpp: GetCoordinateByRowCol, GetPositionByCoordinate, GetPosition(double,double)"]}
{"id": "C27", "title": "Every point of the extent belongs to the cell that contains it (false at the border)", "statement": "For points strictly inside the extent GetPosition(x,y) resolves the cell containing the point. GetPositionByCoordinate does so only for points not left of the first column's centres and not below the last row's centres: the outer half-cell strips are rejected, and points on the right edge give a column equal to the column count.", "quantifier": "every point and geometry", "why_tests_cant": "continuum of points", "anchors": ["src/data_raster.hpp: GetPosition(double,double), GetPositionByCoordinate"]}
{"id": "C28", "title": "Subsets partition the valid cells", "statement": "BuildSubSet puts every valid cell in exactly one subset, the one of its (group-mapped) integer value, keeps the cells in ascending order, and creates no empty subset.", "quantifier": "every raster of integer zone values and every group table", "why_tests_cant": "all zone patterns", "anchors": ["src/data_raster.hpp: BuildSubSet"]}
{"id": "C29", "title": "Subset windows are tight and local indices are a bijection", "statement": "Each subset's window is the bounding box of its cells; each local position is the cell's position relative to the window, lies inside it, and distinct cells have distinct local indices.", "quantifier": "every raster and subset", "why_tests_cant": "all zone patterns", "anchors": ["src/data_raster.hpp: BuildSubSet"]}
{"id": "C30", "title": "Splitting and combining is lossless", "statement": "Distributing a raster's valid values to its subsets (SetData) and combining all subsets again yields the original full grid; NoData cells get the NoData value.", "quantifier": "every raster, single layer or multi layer", "why_tests_cant": "all partitions", "anchors": ["src/data_raster.hpp: SubsetPositions::SetData, Set2DData, PrepareCombSubsetData"]}
{"id": "C31", "title": "Combined output of original values (false)", "statement": "OutputSubsetToFile with original values, combined, and no reclassification table is documented to write the original raster; it always fails when any subset has a cell.", "quantifier": "every raster with a non-empty subset", "why_tests_cant": "must hold for every raster", "anchors": ["src/data_raster.hpp: PrepareCombSubsetData, OutputSubsetToFile"]}
{"id": "C32", "title": "Subset output is georeferenced consistently", "statement": "The header of a subset window gives every window cell the same centre coordinates as the corresponding cell of the whole raster.", "quantifier": "every window and geometry (exact arithmetic)", "why_tests_cant": "all geometries", "anchors": ["src/data_raster.cpp: SubsetPositions::GetHeader", "src/data_raster.hpp: GetCoordinateByRowCol"]}
{"id": "C33", "title": "Masking reads the cell under each mask cell", "statement": "After reading with a mask using the mask's extent and borrowing its positions, GetValue(r,c) for each valid mask cell is the value of the source cell that contains the centre of the mask cell (default value if that is NoData, NoData if outside), and NoData for masked-out cells. This holds for up to two layers, or when no default value is set, or when no two mask cells share a source cell; otherwise a default value is written to the wrong layer of the source while it is being read. Centres left of the source's first column of centres or below its last row of centres count as outside although they lie in a cell.", "quantifier": "every source raster, mask raster and geometry in exact arithmetic", "why_tests_cant": "all pairs of grids and alignments", "anchors": ["src/data_raster.hpp: MaskAndCalculateValidPosition"]}
{"id": "C34", "title": "Masking with own positions keeps georeference (false)", "statement": "With calculated positions and the mask's extent kept, a masked raster must report each value at its coordinate. The claim is false whenever the matched cells do not start in the first mask row and column: positions are shifted to the upper left although the header keeps the mask's origin.", "quantifier": "every source/mask pair with an inexact match", "why_tests_cant": "needs a mask whose matched cells avoid the first row or column; the shipped tests do not have one", "anchors": ["src/data_raster.hpp: MaskAndCalculateValidPosition"]}
{"id": "C35", "title": "Masking without positions removes masked-out cells (false when sizes coincide)", "statement": "A mask applied without using mask extent must hide cells outside the mask. The claim is false when the intersected extent has as many cells as the source: the original data are kept unmasked.", "quantifier": "every source/mask pair", "why_tests_cant": "depends on a coincidence of two products", "anchors": ["src/data_raster.hpp: MaskAndCalculateValidPosition"]}
{"id": "C36", "title": "Masking with no matching value is rejected (false)", "statement": "When the mask covers the raster but no masked cell has a valid value, reading without mask extent reports success with a negative number of rows and columns.", "quantifier": "every source/mask pair without matched cell", "why_tests_cant": "needs an all-NoData overlap", "anchors": ["src/data_raster.hpp: MaskAndCalculateValidPosition"]}
{"id": "C37", "title": "Mask extent assertion never fires", "statement": "When the extent of matched cells equals the mask's extent, every valid mask cell lies inside the raster, so the internal assertion masked_count == mask_ncells holds. Masking therefore always returns: code 2 if some valid mask cell lies over the raster, -1 if none.", "quantifier": "every source/mask pair in exact arithmetic", "why_tests_cant": "an assertion over all geometries", "anchors": ["src/data_raster.hpp: MaskAndCalculateValidPosition"]}
{"id": "C38", "title": "Copies read the same (false when the target held layers)", "statement": "Copying a raster into a fresh object gives an object on which every GetValue, position and header query answers as on the source. Copying a single-layer raster into an object that held a multi-layer raster leaves an unusable object.", "quantifier": "every valid source raster, every cell and layer", "why_tests_cant": "all states of source and target", "anchors": ["src/data_raster.hpp: Copy"]}
{"id": "C39", "title": "Statistics are those of the data (false after an update)", "statement": "GetStatistics on a raster whose statistics were not yet calculated returns the statistics of the stored cells; after SetValue or ReplaceNoData the old values are still returned until UpdateStatistics is called; statistics of all layers of an initialised multi-layer raster are never delivered by the array variant.", "quantifier": "every raster and history of updates", "why_tests_cant": "histories of calls", "anchors": ["src/data_raster.hpp: GetStatistics, CalculateStatistics, UpdateStatistics"]}
{"id": "C40", "title": "Raster built from a mask and values reads back the values (false)", "statement": "The constructor taking a mask and the values of its valid cells must make GetValue(r,c) return the value of that cell. The claim is false: positions are not consulted and the compressed array is indexed with the full-grid index (wrong value or out-of-bounds read).", "quantifier": "every mask and value array", "why_tests_cant": "all masks with at least one NoData cell before a valid one", "anchors": ["src/data_raster.hpp: clsRasterData(clsRasterData<MASK_T>*, T*, ...)"]}
{"id": "C41", "title": "ASC output writes each cell in its place", "statement": "OutputAscFile's scan over sorted positions writes, in row-major order, exactly GetValue(r,c) for each cell of the grid.", "quantifier": "every raster with sorted positions", "why_tests_cant": "two-pointer scan over all position sets", "anchors": ["src/data_raster.hpp: OutputAscFile"]}
{"id": "C42", "title": "Multi-layer ASC output marks NoData with the header's NoData value (false)", "statement": "In multi-layer ASC output the masked-out cells carry -9999 whatever the raster's NoData value is, so they read back as data when NoData differs from -9999.", "quantifier": "every multi-layer raster with NoData other than -9999", "why_tests_cant": "needs a particular NoData value", "anchors": ["src/data_raster.hpp: OutputAscFile"]}
{"id": "C43", "title": "GDAL full-size expansion writes each cell in its place", "statement": "OutputFileByGdal writes, for a complete or compacted raster with data, one GeoTIFF per layer (numbered from 1 if there are several) whose cell (r,c) holds GetValue(r,c) of that layer, in the type of the raster and with its NoData value. A raster all of whose cells were dropped is not written (one layer) or is undefined behaviour (several).", "quantifier": "every raster with distinct in-range positions", "why_tests_cant": "all position sets", "anchors": ["src/data_raster.hpp: OutputFileByGdal"]}
{"id": "C44", "title": "ASC write then read is the identity on integer grids", "statement": "A grid of 32-bit integers written by WriteSingleAsc and read by ReadAscFile gives back the same rows, columns and values.", "quantifier": "every grid of positive size with 32-bit values and a header whose real-valued entries survive the 6-digit text form", "why_tests_cant": "all sizes and values", "anchors": ["src/data_raster.hpp: ReadAscFile, WriteSingleAsc", "src/data_raster.cpp: WriteAscHeaders"]}
{"id": "C45", "title": "ASC reader rejects wrong cell counts (false for too few)", "statement": "ReadAscFile rejects files with more values than rows*columns, but accepts files with fewer, filling the rest with NoData; data lines before the row count lead to a write through a null pointer.", "quantifier": "every ASC text", "why_tests_cant": "all malformed files", "anchors": ["src/data_raster.hpp: ReadAscFile"]}
{"id": "C46", "title": "GeoTIFF type conversion accepts exactly representable values", "statement": "When integer cells are written as another integer type, the write is refused iff a cell that is not a NoData cell to be substituted lies outside the type's range; accepted values are unchanged and NoData cells are NoData cells of the file. Exceptions: 32- and 64-bit unsigned cells are never accepted as a signed type that is not wider; a valid cell equal to the substituted NoData value becomes a NoData cell; floating cells are cut to integers, and one that is more than 1 outside the range, or not a number, is undefined behaviour instead of a refusal; a fractional NoData value within the range is lost; signed bytes without a type asked for are stored as unsigned bytes before GDAL 3.7.", "quantifier": "every value array, NoData value and target type", "why_tests_cant": "all values at type boundaries", "anchors": ["src/data_raster.hpp: WriteSingleGeotiff"]}
{"id": "C47", "title": "GeoTIFF geotransform round trip", "statement": "The lower left corner and the cell size read back from a written GeoTIFF are those of the header: exactly, when corner and half a cell are multiples of one power of two and at most 2^53 of these (corner and height of the grid together); otherwise the corner is off by at most 2^-50 of the size of the coordinates.", "quantifier": "every header with square cells", "why_tests_cant": "all geometries", "anchors": ["src/data_raster.hpp: WriteSingleGeotiff, ReadRasterFileByGdal"]}
{"id": "C48", "title": "GridFS byte stream round trip", "statement": "Values written to GridFS and read back by ReadGridFsFile give the same values (converted to the stored type and to the type of the reader), header numbers and options; the reader accepts a file iff it holds n_cells*n_lyrs values of the recorded type and fewer than n_cells*n_lyrs further bytes. With zero cells or layers recorded the reader divides by zero, and a whole header number outside int cannot be written.", "quantifier": "every value array, data type, header, option map and bucket", "why_tests_cant": "all arrays and byte patterns", "anchors": ["src/data_raster.hpp: WriteStreamDataAsGridfs, ReadGridFsFile"]}
{"id": "C49", "title": "GridFS output in the default type (false)", "statement": "OutputToMongoDB on a raster whose output data type option is empty, or is a 64-bit integer type different from the in-memory type, must store the values; the claim is false: a null buffer with length -1 is handed to the driver.", "quantifier": "every raster in such a state", "why_tests_cant": "needs a specific option state", "anchors": ["src/data_raster.hpp: WriteStreamDataAsGridfs, OutputToMongoDB"]}
{"id": "C50", "title": "Boolean metadata (false for numbers)", "statement": "GetBoolFromBson must read numeric 1 as true and 0 as false; it does the opposite.", "quantifier": "every numeric value", "why_tests_cant": "all values", "anchors": ["src/db_mongoc.cpp: GetBoolFromBsonIterator"]}
{"id": "C51", "title": "Date metadata is the millisecond value divided by 1000 (false near the epoch)", "statement": "GetDatetimeFromBson yields floor(ms/1000) for every ms from 1000 up to the end of 32-bit time; for 1..99 ms it returns ms itself as seconds.", "quantifier": "every millisecond count", "why_tests_cant": "all values", "anchors": ["src/db_mongoc.cpp: GetDatetimeFromBsonIterator"]}
{"id": "C52", "title": "GridFS names are recovered from collection names (false with dots)", "statement": "GetGridFsNames lists a GridFS when both its .files and .chunks collections exist; the claim is false for bucket names containing a dot.", "quantifier": "every list of collection names", "why_tests_cant": "all names", "anchors": ["src/db_mongoc.cpp: MongoDatabase::GetCollectionNames / GetGridFsNames"]}
{"id": "C53", "title": "Key-value option parsing", "statement": "parse_key_values turns an argument list of well-formed 'key:value' entries into the map with the first value for each key.", "quantifier": "every argument list", "why_tests_cant": "all lists", "anchors": ["apps/mask_rasterio.cpp: parse_key_values"]}
{"id": "C54", "title": "Config-file command line (false)", "statement": "The documented invocation with a single configuration file argument must load the file; the branch is unreachable for every command line, so without the word -configfile no file is ever read; with that word as the last argument the program reads through a null pointer.", "quantifier": "every argument vector", "why_tests_cant": "all command lines", "anchors": ["apps/mask_rasterio.cpp: main"]}
{"id": "C55", "title": "Rasters release what they own, once", "statement": "For every history of calls on rasters without masks (creating from arrays, reading and writing cells, computing positions, building, filling, rebuilding and releasing subsets, statistics, copying and destroying), no array is released twice, used after its release or overrun, the live arrays are exactly those the rasters hold, and none is left after all rasters are destroyed. This holds if some cell is valid, no single layer is copied onto layers, positions are not handed over and statistics have not been computed for both rasters of a copy; the first three are necessary: destroying a raster without a valid cell after computing positions is undefined, copying two single layers of growing size onto layers overruns an array, and SetPositions on a raster with positions leaks its other array.", "quantifier": "every history of operations", "why_tests_cant": "memory safety over all histories", "anchors": ["src/data_raster.hpp: ~clsRasterData, Copy, SetCalcPositions, ReleaseSubset"]}
{"id": "C56", "title": "Rasters and their masks share positions safely (false in general)", "statement": "With masks, every history of calls made with care is as safe as without: nothing is released twice, used after its release or left behind. Care means that masks outlive the rasters read with them and that a raster which borrows the positions of its mask is not copied onto, given positions, set to the extent of the mask or asked for positions of its own. Each of these is necessary: Copy onto it, SetPositions, SetUseMaskExt and SetCalcPositions release the arrays of the mask, whose next use is undefined. A raster made of a mask and values is read beyond its end unless all cells of the mask are valid.", "quantifier": "every history with a mask", "why_tests_cant": "needs specific call histories", "anchors": ["src/data_raster.hpp: Copy, SetPositions, SetUseMaskExt, MaskAndCalculateValidPosition"]}
{"id": "C57", "title": "The empty text is not a number (false)", "statement": "IsNumber must reject a text with no digits. The claim is false for the empty text, whatever the C library's strtod does within its contract.", "quantifier": "every strtod implementation within the C contract", "why_tests_cant": "holds for every library implementation", "anchors": ["src/utils_string.cpp: IsDouble", "src/utils_string.h: IsNumber"]}
{"id": "C58", "title": "A raster without valid cells can be used and destroyed (false)", "statement": "After valid positions were calculated on a raster all of whose cells are NoData, destroying the object is undefined behaviour (the position array has no row, yet its first row is dereferenced); on a multi-layer raster SetValue on any cell also writes out of bounds. With at least one valid cell destruction is safe.", "quantifier": "every full grid whose first layer is NoData everywhere; every grid with a valid cell", "why_tests_cant": "the crash depends on heap contents; the safe half ranges over all rasters", "anchors": ["src/data_raster.hpp: ~clsRasterData, CalculateValidPositionsFromGridData, SetValue", "src/utils_array.h: Initialize2DArray, Release2DArray"]}
{"id": "C59", "title": "Irregular two-dimensional arrays keep every row", "statement": "The one-array form of Initialize2DArray reads a row count and count-prefixed rows and gives an array whose row i is exactly that row (its count, then its values), with the number of rows and the largest count reported, other memory unchanged, and Release2DArray returning all of it.", "quantifier": "every list of row lengths and contents", "why_tests_cant": "offset arithmetic over all shapes", "anchors": ["src/utils_array.h: Initialize2DArray(T1*, int&, int&, T2**&)"]}
{"id": "C60", "title": "UTC calendar fields of an instant are the civil date", "statement": "GetYear/GetMonth/GetDay/GetDateInfoFromTimet of ConvertYMDToTime(y,m,d) return y, m, d; JulianDay(t) = 2440588 + t/86400 and DayOfYear(t) agrees with DayOfYear(y,m,d). False from the year 10000 on: GetDateInfoFromTimet assigns only a truncated year.", "quantifier": "every valid civil date 1970..9999, every non-negative instant", "why_tests_cant": "all instants and century boundaries", "anchors": ["src/utils_time.cpp: ConvertYMDToTime, GetDateInfoFromTimet, GetYear, GetMonth, GetDay, JulianDay, DayOfYear"]}
{"id": "C61", "title": "Printed UTC times read back", "statement": "ConvertToTime applied to the text printed by ConvertToString (date), ConvertToString2 (date and time) or ConvertToString3 (compact) with the matching format gives the instant back (midnight of the day for the date-only text). Text not matching the format is not rejected: uninitialised variables are used.", "quantifier": "every instant from 1970 to 9999", "why_tests_cant": "all instants", "anchors": ["src/utils_time.cpp: ConvertToString, ConvertToString2, ConvertToString3, ConvertToTime"]}
{"id": "C62", "title": "Daylight saving correction goes back one hour (false at month starts)", "statement": "When the local time is in daylight saving time, ConvertToString2/3 print the time one hour earlier. True for every time except 00:xx on the first of a month: 1 January reads outside the month table, 1 February prints month 13, other months print a wrong day.", "quantifier": "every broken-down local time", "why_tests_cant": "depends on time zone databases and on one hour per month", "anchors": ["src/utils_time.cpp: ConvertToString2, ConvertToString3"]}
{"id": "C63", "title": "Local and UTC clock readings convert into each other", "statement": "In a time zone with a fixed offset, DateTime::LocalTime().ToUTCTime() equals DateTime::UTCTime() and UTCTime().ToLocalTime() equals LocalTime() taken at the same instant, in every field.", "quantifier": "every offset, instant and millisecond", "why_tests_cant": "a test runs in one zone at one moment", "anchors": ["src/utils_time.cpp: DateTime::LocalTime, UTCTime, ToLocalTime, ToUTCTime"]}
{"id": "C64", "title": "DateTime fields round trip through the file time", "statement": "DateTime::FromDateTime(y,m,d,h,mi,s,ms) keeps its arguments as fields, sets the day of the year, and FromFileTime of its file time gives the same object back; false when ms is 1000 or more.", "quantifier": "every valid date from 1970, time of day and fixed zone offset", "why_tests_cant": "all dates and zones", "anchors": ["src/utils_time.cpp: DateTime::FromDateTime, DateTime::FromFileTime"]}
{"id": "C65", "title": "FloatEqual decides equality on the values rasters hold, and nothing more", "statement": "FloatEqual(a, b) on integers of magnitude up to 2^53, and on finite doubles lying on a common binary grid of step at least 2^-106, returns true exactly when a equals b; on all finite doubles equal values compare equal and values that compare equal are closer than the tolerance. (false beyond that: NaN and infinity are not equal to themselves, so a NaN NoData is never recognised; 2^53 and 2^53+1 as 64-bit integers compare equal; and the relation is not transitive on values near 1e-32.)", "quantifier": "all finite binary64 values, all integers up to 2^53", "why_tests_cant": "the tolerance, rounding and special values need the semantics of binary64 arithmetic over all pairs of doubles", "anchors": ["src/utils_math.h:FloatEqual", "src/utils_math.h:Abs"]}
{"id": "C66", "title": "FindFiles lists the files of the wanted suffix (false: it lists others too)", "statement": "FindFiles on Linux lists exactly the visible entries whose suffix occurs inside the expression, or equals it up to case, or all visible ones for '.*' and '*.*'; so every visible file with the wanted suffix is listed. (false that only those are: a file without suffix is listed for every expression, '*.txt' also lists files with suffix 't', directories are listed, and an unreadable directory looks empty.)", "quantifier": "every directory content, expression and file name", "why_tests_cant": "all directory contents and names; the faulty matches need names nobody puts in a fixture", "anchors": ["src/utils_filesystem.cpp: FindFiles"]}
{"id": "C67", "title": "Cleaning and deleting directories (false: success is reported with files left)", "statement": "CleanDirectory on an accessible directory leaves exactly the hidden entries and the non-empty subdirectories, and returns true iff there is no visible non-empty subdirectory; DeleteDirectory with subdirectories removes a whole accessible tree of any depth; without, exactly the non-empty subdirectories and the directory stay. (false that true means empty or gone: hidden files, unreadable and unwritable directories, remaining subdirectories.)", "quantifier": "every directory tree", "why_tests_cant": "trees of every shape and depth, permissions", "anchors": ["src/utils_filesystem.cpp: CleanDirectory, DeleteDirectory"]}
{"id": "C68", "title": "Default NoData is a value of the cell type (false for UINT64)", "statement": "For each integer cell type up to 32 bits, DefaultNoDataByType is an end of the type's range, converts to the type and is recognised as NoData by FloatEqual, and no other value of the type is; for float and double it is -FLT_MAX exactly. (false for UINT64: the default rounds to 2^64 and its conversion is undefined; for INT64 other values are taken for NoData.)", "quantifier": "every data type and every value of it", "why_tests_cant": "values of 32-bit types are too many to enumerate, undefined conversion is invisible to a test", "anchors": ["src/data_raster.cpp: DefaultNoDataByType", "src/data_raster.hpp: InitializeRasterClass"]}
{"id": "C69", "title": "Reclassified and partly unusable subsets combine as documented", "statement": "Combining subsets with a reclassification table by subset id writes, for every valid cell and layer, the table entry of its subset, the default value where the table has none, and NoData where the subset is unusable and no default is given; without table usable subsets show their own values and unusable ones the default; all other cells are NoData.", "quantifier": "every raster, grouping, table and choice of usable subsets", "why_tests_cant": "values depend on the table, on two flags per subset and on the position of every cell", "anchors": ["src/data_raster.hpp: PrepareCombSubsetData"]}
{"id": "C70", "title": "Original values by subset (false for layered rasters with one layer)", "statement": "OutputSubsetToFile with original values, not combined, requests one file per usable subset and layer in order of ids until a write fails and reports success only if all were written; each file is the subset window with the values of its cells in place and NoData elsewhere. (false for a layered raster of one layer: nothing is written, success is reported.)", "quantifier": "every raster, grouping, choice of usable subsets and behaviour of the file writer", "why_tests_cant": "windows of every shape, writer failing at any request", "anchors": ["src/data_raster.hpp: OutputSubsetToFile, PrepareSubsetData, OutputFullsizeToFiles"]}
{"id": "C71", "title": "Text options survive as metadata (false for some numbers)", "statement": "AppendStringOptionsToBson followed by GetStringFromBson gives back every option whose value is empty, not a number, or the usual text of a 32-bit integer, and keeps the fields already in the document. (false otherwise: \"007\" comes back as \"7\", a whole number outside int is undefined behaviour, and the flag \"1\" is read back by GetBoolFromBson as false.)", "quantifier": "every option map, prefix and document, and every strtod that reads 32-bit integers correctly", "why_tests_cant": "all texts and all documents; the undefined conversion is invisible to a test", "anchors": ["src/db_mongoc.cpp: AppendStringOptionsToBson, GetStringFromBson, GetBoolFromBson"]}
{"id": "C72", "title": "Command line options and configuration file", "statement": "mask_rasterio groups its arguments into options with their values (negative numbers are values); the option in force is the first given on the command line, else the first in the configuration file, names up to case; data items come from the file in order; a missing or unreadable file ends the program with code 2 or 3.", "quantifier": "every command line made of options and values, every configuration file of well-formed lines", "why_tests_cant": "all argument lists and files", "anchors": ["apps/mask_rasterio.cpp: main"]}
{"id": "C73", "title": "Data formats of items (false for a lone format word)", "statement": "parse_fmt_paths takes items whose paths all exist for files, other two-part items for what their format word says (failing on unknown words), and a single unknown word for a file name iff it has a slash. (false for the documented lone format word, which is also taken for the path; an empty item throws.)", "quantifier": "every item and every state of the disk", "why_tests_cant": "all texts and all disk states", "anchors": ["apps/mask_rasterio.cpp: parse_fmt_paths"]}
{"id": "C74", "title": "Copy onto an object in use or onto itself (false)", "statement": "Copy must leave the target with the cells and statistics of the source whatever the target held before. The claim is false: with layers, if statistics were asked of both, Copy throws; if asked of the target only, the copy answers every statistics query with the default value; a raster all of whose cells are NoData cannot be copied without undefined behaviour; an object copied onto itself loses its cells (or dereferences null).", "quantifier": "every source and target raster", "why_tests_cant": "all combinations of states of source and target", "anchors": ["src/data_raster.hpp: Copy"]}
{"id": "C75", "title": "Numbers in text are read to the nearest double", "statement": "IsDouble accepts every decimal number (blanks, sign, digits, fraction, exponent) and returns the double nearest to it; whole numbers up to 2^53 are read exactly; text after the number makes the call fail. The empty text is (wrongly) accepted as zero.", "quantifier": "every decimal text", "why_tests_cant": "correct rounding and the grammar cannot be settled on examples", "anchors": ["src/utils_string.cpp: IsDouble"]}
{"id": "C76", "title": "ASC headers are read in any order, case and reference point", "statement": "ReadAscFile accepts the six header lines in any order and letter case, with the lower left corner given by corner or centre; the header afterwards has the number of columns and rows, the centre of the lower left cell, the cell size, the NoData value, one layer and the number of cells, all other entries unchanged. Files with fewer than seven significant lines, and files lacking a size, the cell size or a coordinate of the lower left corner, are refused.", "quantifier": "every header and grid, every text layout", "why_tests_cant": "all orders, cases and layouts", "anchors": ["src/data_raster.hpp: ReadAscFile"]}
{"id": "C77", "title": "Header numbers in ASC files have six significant digits", "statement": "A real number written to an ASC header and read again is the double nearest to the number rounded to six significant decimal digits; doubles with a six-digit decimal form survive; printing again changes nothing; a whole number survives exactly if six digits suffice.", "quantifier": "every finite double", "why_tests_cant": "all doubles", "anchors": ["src/data_raster.cpp: WriteAscHeaders", "src/data_raster.hpp: ReadAscFile"]}
{"id": "C78", "title": "The NoData value of a written ASC file is that of the raster (false)", "statement": "The NoData value is printed with six digits: a 32-bit integer raster with the default NoData value reads back with NoData -2147480000, so its empty cells become data; for unsigned 32-bit integers the printed value is out of range and reading is undefined.", "quantifier": "every grid with these NoData values", "why_tests_cant": "needs particular NoData values", "anchors": ["src/data_raster.cpp: WriteAscHeaders, DefaultNoDataByType", "src/data_raster.hpp: ReadAscFile, WriteSingleAsc"]}
{"id": "C79", "title": "ASC write then read is the identity on 8-bit grids (false)", "statement": "Grids of 8-bit integers are written as characters: cells 48 to 57 come back less 48, grids of letters are refused.", "quantifier": "every grid of such cells", "why_tests_cant": "needs particular cell values", "anchors": ["src/data_raster.hpp: ReadAscFile, WriteSingleAsc"]}
{"id": "C80", "title": "Reading into an array that exists is safe (false)", "statement": "ReadAscFile uses an array the caller already has as it is: when the file has more values than the array has cells, it writes behind its end.", "quantifier": "every file and array", "why_tests_cant": "memory errors are not observable by assertions", "anchors": ["src/data_raster.hpp: ReadAscFile", "src/utils_array.h: Initialize1DArray"]}
{"id": "C81", "title": "GeoTIFF round trip of cells", "statement": "A GeoTIFF written in the type of the cells and read into cells of that type gives the same cells, NoData value, cell size and projection, and the type is recognised; a raster object written and read gives the grid that GetValue shows. Exceptions: a byte file without a valid cell makes the reader use uninitialised numbers, and unsigned bytes up to 127 with a negative NoData value are taken for signed bytes.", "quantifier": "every grid, raster, type and GDAL version", "why_tests_cant": "all values, types and versions", "anchors": ["src/data_raster.hpp: WriteSingleGeotiff, OutputFileByGdal, ReadRasterFileByGdal"]}
{"id": "C82", "title": "Writing to GridFS under a name in use", "statement": "Writing again under the same name with the same options replaces the file: files with these options go, all others stay, and reading by these options gives the new values. When an option differs the old file stays, and a reader asking by name may go on seeing it.", "quantifier": "every bucket, name, header, option map and value array", "why_tests_cant": "all bucket contents", "anchors": ["src/data_raster.hpp: WriteStreamDataAsGridfs", "src/db_mongoc.cpp: RemoveFile, GetFile"]}
{"id": "C83", "title": "Raster objects to GridFS and back", "statement": "A raster written to GridFS with OutputToMongoDB including its NoData cells, its cells kept in their own type, and under a name not in use, is read back by another object without mask as a full grid: GetValue returns the same value for every row, column and layer, whether or not the raster written had dropped its NoData cells; position, cell size, NoData value and the options given are those written, the default value is the one the reader was given, or the NoData value read when that was the NoData value the reader was given, and the raster written is left unchanged. Reading with calc_pos gives what SetCalcPositions makes of that grid. Whatever the store holds, a file not marked as holding valid cells only is read only if its number of cells is rows times columns.", "quantifier": "for all rasters with data (full or with NoData cells dropped, any number of layers), cell types, options, stores, names and schedules", "why_tests_cant": "a test stores one raster; that expansion, metadata, conversion and gathering invert each other is a statement about every grid, type and option set", "anchors": ["src/data_raster.hpp:3269-3346", "src/data_raster.hpp:3511-3620", "src/data_raster.hpp:870-1078"]}
{"id": "C84", "title": "GridFS files without NoData cells depend on the mask", "statement": "A raster written to GridFS without its NoData cells can never be read without a mask. With a mask it is read by rank: value number q of the file becomes the value of the q-th valid cell of the mask. With the same valid cells the same grid comes back; with any other mask of the same number of valid cells the read succeeds too and the values silently sit in the wrong cells.", "quantifier": "for all rasters that dropped NoData cells, masks with as many valid cells, cell types, options, stores and schedules", "why_tests_cant": "tests use the mask the file was made with; that only the number of valid cells is compared shows for other masks", "anchors": ["src/data_raster.hpp:3286-3310", "src/data_raster.hpp:3538-3600"]}
{"id": "C85", "title": "Copies of subsets own their arrays", "statement": "A deep copy of a subset has arrays of its own, which its destructor releases, leaving all others as they were. A copy that is not deep (the default) shares the arrays of values with the original although both release them: destroying both is a double release whenever the subset has values.", "quantifier": "every state a program gets to, every subset", "why_tests_cant": "double release is not observable by assertions", "anchors": ["src/data_raster.cpp:239-286", "src/data_raster.hpp:1086-1171"]}
{"id": "C86", "title": "Reading with a mask releases what it copies (false)", "statement": "A raster read with a mask takes copies of the subsets of the mask. When its cells match the mask in part, the copied values of the subsets are forgotten without release: after all rasters are gone one array of values is still live.", "quantifier": "every size of mask, raster and subset, every way to match in part", "why_tests_cant": "leaks are not observable by assertions", "anchors": ["src/data_raster.hpp:4185-4252", "src/data_raster.cpp:239-286"]}
{"id": "C87", "title": "Constructors with the text of a coordinate system (false)", "statement": "The constructors that take an array and the text of a coordinate system build another object from the array, which dies at the end of the statement and releases the array: the array of the caller is gone.", "quantifier": "every state a program gets to, every length", "why_tests_cant": "use after release is not observable by assertions", "anchors": ["src/data_raster.hpp:2079-2086", "src/data_raster.hpp:2108-2115"]}
{"id": "C88", "title": "Array2D tables are values", "statement": "Every program of declarations, construction with sizes, copies, moves, assignments, create, element writes and reads over Array2D variables behaves as if every variable held a table of its own: writing one never shows in another, a copy has all elements, a moved-from variable keeps its sizes without elements, zero sizes throw and change nothing. At every point there are exactly two blocks of memory for each variable with elements.", "quantifier": "every program without the calls of C89, every element type and value, every size with fewer than 2^32 elements", "why_tests_cant": "aliasing, leaks and double releases across arbitrary programs", "anchors": ["src/utils_array.h:229-326"]}
{"id": "C89", "title": "Array2D tables beyond their limits (false)", "statement": "Copying or assigning a table without elements (declared without sizes, or moved from) is undefined. A table whose number of elements needs more than 32 bits is constructed, but its last element is outside its memory. Construction without memory is undefined.", "quantifier": "every program before the call, all sizes", "why_tests_cant": "undefined behaviour and huge sizes", "anchors": ["src/utils_array.h:234-254", "src/utils_array.h:265-273", "src/utils_array.h:282-285"]}
{"id": "C90", "title": "Subsets stored in MongoDB come back", "statement": "OutputSubsetToMongoDB with one file per subset stores exactly one file for each usable subset, named with the number of the subset before the name given. SubsetPositions::ReadFromMongoDB of such a file into a subset of the same cells gives the values written, whether or not the file has the NoData cells of the window; a subset that was not usable has no file, and reading it returns false and changes nothing.", "quantifier": "every raster, zone groups, numbers of layers per subset, stored cell type, options, bucket contents, with each value its conversion to the stored type", "why_tests_cant": "composition of grouping, windows, byte codec, names and bucket over all rasters", "anchors": ["src/data_raster.hpp:3348-3412", "src/data_raster.cpp:289-347", "src/data_raster.hpp:3032-3111"]}
{"id": "C91", "title": "OutputSubsetToMongoDB tells whether it stored (false)", "statement": "Writing subsets to separate files returns true even when nothing could be stored. Writing all subsets to one file uses sizes that were never set, undefined behaviour, whenever the values cannot be gathered: always for the original values of a usable subset, and when a usable subset has no values.", "quantifier": "every raster, zone groups and bucket; every subset after the first usable one", "why_tests_cant": "needs a failing database; undefined behaviour", "anchors": ["src/data_raster.hpp:3348-3412", "src/data_raster.hpp:2924-3029"]}
{"id": "C92", "title": "Subsets stored together are the grid", "statement": "OutputSubsetToMongoDB with one file for all subsets stores a file that reads back as the whole grid: the value of each cell of a usable subset at its place, the default at the cells of the others (NoData when that equals the default), NoData at all other cells; the header is that of the raster with the number of layers of the subsets.", "quantifier": "every raster, zone groups, number of layers, stored cell type, options, bucket contents", "why_tests_cant": "composition of scatter, byte codec and bucket over all rasters", "anchors": ["src/data_raster.hpp:3348-3412", "src/data_raster.hpp:2924-3029"]}
{"id": "C93", "title": "Several files are the layers of one raster", "statement": "ReadFromFiles over files that can be read gives a raster with the grid, the header and the NoData value of the first file and one layer per file. Where the first file has a value, layer 1 has it, and every other layer has what its file has at the place of the cell centre: that value, or NoData where the file has its own NoData or does not cover the place (the cells just left of or below its lower left centre are the subject of the next property). Where the first file has NoData all layers have. With files on one grid every layer is its file cell by cell. This does not depend on the order in which the loops run.", "quantifier": "every list of at least two files, grids, NoData values, cell types, positions calculated or not, orders of the loops", "why_tests_cant": "composition of georeferencing, compaction and parallel loops over all grids", "anchors": ["src/data_raster.hpp:3431-3506", "src/data_raster.hpp:3623-3640", "src/data_raster.hpp:2288-2325", "src/data_raster.hpp:3774-3799"]}
{"id": "C94", "title": "Layers cover their grids (false)", "statement": "A cell of the first layer whose centre is well inside a cell of another layer, but left of or below the centre of the lower left cell of that layer, gets NoData although the layer has a value there.", "quantifier": "every such cell, layer and value", "why_tests_cant": "needs layers with different grids", "anchors": ["src/data_raster.hpp:3431-3506", "src/data_raster.hpp:3623-3640", "src/data_raster.hpp:3780-3799"]}
{"id": "C95", "title": "ReadFromFiles returns false for files it cannot read (false)", "statement": "The readers leave the header as it was when they give up. When a file after the first exists but cannot be read, whatever its number and the files before it, ReadFromFiles does not return false: it throws out_of_range, as soon as the first layer has a cell with a value.", "quantifier": "every list of files, place of the unreadable one, grids, orders of the loops", "why_tests_cant": "needs a corrupt file in a set; exception on a parallel loop", "anchors": ["src/data_raster.hpp:3463-3477", "src/data_raster.hpp:3623-3628", "src/data_raster.hpp:215-309", "src/data_raster.hpp:359-573"]}
{"id": "C96", "title": "NoData of float layers is recognised (false)", "statement": "When the cells are of type float and the NoData value of a file after the first is not a float number (for instance -99.9), the NoData cells of that file are ordinary values of the raster, and IsNoData denies.", "quantifier": "every such NoData value, grid and cell, provided it also differs from the NoData value of the first file", "why_tests_cant": "depends on the representation of a decimal number as float", "anchors": ["src/data_raster.hpp:3431-3506", "src/data_raster.hpp:3623-3640"]}
{"id": "C97", "title": "Layers with a cell centre on their right edge (false)", "statement": "For a layer of the same size whose grid lies half a cell further left, the centres of the last column lie on its right edge and are taken to be in a column that does not exist; ReadFromFiles reads outside the array as soon as the lower right cell of the first layer has a value.", "quantifier": "every number of rows and columns, whole coordinates up to 2^40, even cell sizes up to 2^21, files and orders of the loops", "why_tests_cant": "undefined behaviour without visible effect", "anchors": ["src/data_raster.hpp:3431-3506", "src/data_raster.hpp:3623-3640", "src/data_raster.hpp:3780-3799"]}
{"id": "C98", "title": "Name template of layered rasters", "statement": "When ReadFromFiles of at least two files succeeds and the first is dir/core_k.suffix or dir/core.suffix, the core name is core and the template of layer names dir/core_%d.suffix. A core name that itself contains an underscore and no number loses its last part, so that rasters such as soil_depth and soil_type of one directory get the same template.", "quantifier": "every path, name and suffix, every content of the files", "why_tests_cant": "all names", "anchors": ["src/data_raster.hpp:3447-3455"]}
{"id": "C99", "title": "The fast square root is accurate for every positive normal number", "statement": "For every finite double z of at least 2^-1022, ApprSqrt(z) is finite and differs from the real square root of z by at most 5e-11 of it; for every finite float of at least 2^-126 by at most 4e-7 of it.", "quantifier": "all positive normal doubles and all positive normal floats", "why_tests_cant": "There are 2^63 doubles; the worst relative error of three Newton steps from a bit-pattern guess, with rounding, cannot be established by sampling.", "anchors": ["src/utils_math.cpp:18-57", "src/utils_math.h:215-238"]}
{"id": "C100", "title": "Outside the normal numbers the fast square root fails", "statement": "ApprSqrt keeps zeros with their sign. Expected: infinity for infinity, NaN for negative numbers, an approximation for subnormal numbers. This is false: the root of infinity is minus infinity, the root of -1 is plus infinity, and a subnormal number gets a root more than a million times too small.", "quantifier": "zeros of both signs and types; the refutations are instances", "why_tests_cant": "Tests use ordinary magnitudes; the failing inputs are exactly the ones where the bit trick has no meaning.", "anchors": ["src/utils_math.cpp:18-57"]}
{"id": "C101", "title": "The fast logarithm has a bounded absolute error for every positive normal number", "statement": "For every finite double of at least 2^-1022 ApprLn is finite and within 4.6e-4 of the real logarithm; for every finite float of at least 2^-126 within 4.9e-4. The error is not relative: ApprLn(1) is at least 4.4e-4 instead of 0.", "quantifier": "all positive normal doubles and floats", "why_tests_cant": "The bound is over the whole range of exponents and fractions including all rounding errors; one coefficient of the float version has transposed digits, which no test tolerance reveals.", "anchors": ["src/utils_math.cpp:59-94", "src/utils_math.h:294-308"]}
{"id": "C102", "title": "The fast logarithm of a number that has none is an ordinary number", "statement": "Expected: log of a negative number is NaN, log of zero minus infinity, log of infinity infinity. This is false: ApprLn(-z) equals ApprLn(z) for every z, and ApprLn(0) and ApprLn(infinity) are finite, between -710 and 710.", "quantifier": "all doubles and floats for the sign; zero and infinity", "why_tests_cant": "An error that should become visible as NaN passes silently for every negative input.", "anchors": ["src/utils_math.cpp:59-94"]}
{"id": "C103", "title": "The fast exponential is accurate up to 43.66", "statement": "For every finite x with |x| <= 43.66, ApprExp(x) has defined behaviour, is finite and differs from e^x by at most 4e-6 of it for double and 9e-6 of it for float.", "quantifier": "all finite doubles and floats in [-43.66, 43.66]", "why_tests_cant": "The bound holds for every representable argument, including those where the rounded quotient by ln 2 falls on the other side of an integer; sampling cannot show it.", "anchors": ["src/utils_math.h:247-283"]}
{"id": "C104", "title": "Beyond 43.67 the fast exponential is negative, then undefined", "statement": "Expected: ApprExp is positive for every finite x. This is false: for every finite x with 43.67 <= |x| <= 44.36 the result is negative, because 1ULL << 63 is stored in a signed long, and for every x with |x| >= 44.4, for infinities and for NaN the behaviour is undefined (shift by 64 or more, or conversion of a value that does not fit).", "quantifier": "all finite doubles and floats in these ranges, infinities, NaN", "why_tests_cant": "Undefined behaviour often returns plausible numbers; the exact ranges follow from rounding.", "anchors": ["src/utils_math.h:266-283"]}
{"id": "C105", "title": "The fast power is accurate while it fits", "statement": "For every positive normal float a and finite float b with |b ln a| + |b|/1000 <= 86, ApprPow(a, b) has defined behaviour, is a positive finite float r and |ln r - b ln a| <= 4.9e-4 |b| + 3e-4. For |b| <= 10 and |b ln a| <= 85 it is within 0.6 percent of a^b. It is never exact at b = 0: ApprPow(a, 0) is 1.00017 for every normal a.", "quantifier": "all pairs of floats in the range", "why_tests_cant": "The result depends on a table of 2048 entries, the fast logarithm and four rounded operations; all pairs cannot be tested.", "anchors": ["src/utils_math.cpp:97-364", "src/utils_math.h:323-335"]}
{"id": "C106", "title": "A fast power that does not fit is undefined or not positive", "statement": "Expected: an overflowing power is infinity and an underflowing power is 0. This is false: for positive normal a and |b| <= 10^6, if b ln a exceeds 268 + |b|/1000 or is below -(89 + |b|/1000) the behaviour is undefined, and if b ln a lies between 90 + |b|/1000 and 266 - |b|/1000 the result is never a positive number.", "quantifier": "all pairs of floats in these ranges", "why_tests_cant": "The sign appears because the exponent overflows into the sign bit; the undefined conversion may pass unnoticed on one compiler.", "anchors": ["src/utils_math.cpp:356-364"]}
{"id": "C107", "title": "The fast power ignores the sign of the base and mistreats zero", "statement": "Expected: odd powers of negative numbers are negative and positive powers of 0 are 0. This is false: ApprPow(-a, b) equals ApprPow(a, b) for all a and b; ApprPow(0, b) is a positive number for 0 < b <= 0.98 and undefined for 1.01 <= b <= 10^6.", "quantifier": "all floats a and b; all b in the ranges for zero", "why_tests_cant": "Tests of a power function with positive bases never see it.", "anchors": ["src/utils_math.h:323-335", "src/utils_math.cpp:356-364"]}
{"id": "C108", "title": "Expo takes the exponential of the argument brought between the limits", "statement": "For finite arguments, Expo(x, upper, lower) is exp(min(upper, max(lower, x))), also when the limits are exchanged, where upper wins. Infinities are brought to the limit; NaN is passed to exp.", "quantifier": "all floats x, upper, lower and every function exp", "why_tests_cant": "It is a statement about all arguments and any exponential function.", "anchors": ["src/utils_math.cpp:5-9"]}
{"id": "C109", "title": "Power is odd in its base, so even powers of negative numbers are negative", "statement": "Power(a, n) is pow(a, n) for a >= 0 and Power(-a, n) = -Power(a, n) for finite a other than 0. Expected as in pow: the square of a negative number is positive. This is false: with any pow that is positive on positive bases, Power(a, n) is negative for every a < 0 and every n.", "quantifier": "all floats a, n and every function pow", "why_tests_cant": "Quantifies over all bases, exponents and power functions.", "anchors": ["src/utils_math.cpp:11-16"]}
{"id": "C110", "title": "The data sets of the raster tool are those of the options and items, in order", "statement": "Whatever the arguments and the configuration file, the tool starts with every option once and with a value, and with no empty item. When it goes on to process, and at most one of -out and -output is given, its list of data sets is that of -in, if given, followed by items in their order, some left out; inputs, output, default, NoData, type and table of each are the ones its own fields give, or the documented fallback.", "quantifier": "all command lines, configuration files, file systems and connection outcomes", "why_tests_cant": "Ten vectors are filled by different branches and read by index; a test sees one combination of options.", "anchors": ["apps/mask_rasterio.cpp:59-276", "apps/mask_rasterio.cpp:278-475"]}
{"id": "C111", "title": "Giving -in with both -out and -output shifts the outputs of all items", "statement": "Expected: each item is written to its own output. This is false: with -in, -out and -output the vector of outputs has one entry more than that of inputs, so the first item is written to the path of -output, and each later item to the output of the item before it.", "quantifier": "all options and items for which the tool goes on to process", "why_tests_cant": "Needs both spellings of one option together with items.", "anchors": ["apps/mask_rasterio.cpp:319-333", "apps/mask_rasterio.cpp:375-414"]}
{"id": "C112", "title": "Options for default, NoData and table do not reach the data items", "statement": "Expected: -default, -nodata, -reclass and -outdatatype apply to items that do not say otherwise. This is false: without -in the tool makes the same calls and returns the same value whatever these options say, except that -outdatatype reaches items that have a field for the type.", "quantifier": "all pairs of option sets that differ only there, all items and all answers of the library", "why_tests_cant": "It is a statement about pairs of runs.", "anchors": ["apps/mask_rasterio.cpp:334-373", "apps/mask_rasterio.cpp:416-475"]}
{"id": "C113", "title": "The calls the tool makes when masking and decomposing files", "statement": "Without a database, with accepted options and readable files, the tool sets the threads, reads the mask if there is one, and then reads, converts and writes each data set in order exactly once, releasing each before the next; items are passed over exactly when they say nothing or one of their files does not exist; the return value is 0.", "quantifier": "all options, items and file systems under these conditions", "why_tests_cant": "The trace of calls is fixed for any number of data sets.", "anchors": ["apps/mask_rasterio.cpp:477-602", "apps/mask_rasterio.cpp:654-664"]}
{"id": "C114", "title": "Decomposing to files without a table writes nothing and returns 0", "statement": "Expected: -mode DEC writes one file per subset. This is false: without a table the only output the tool asks of any raster is OutputToFile(path, false), which is OutputSubsetToFile(false, true, path); for subsets as BuildSubSet makes them this writes no file and answers false, the answer is not looked at, and the tool returns 0.", "quantifier": "all options, items and file systems as in the masking case, all rasters, groups and subsets", "why_tests_cant": "The return value is 0 and no message is printed.", "anchors": ["apps/mask_rasterio.cpp:554-570", "src/data_raster.hpp:2851-2921", "src/data_raster.hpp:2337-2403"]}
{"id": "C115", "title": "The calls the tool makes when combining files", "statement": "In mode COM, without a database and with a mask that can be read, each data set resets the subsets of the mask, then fills from each file whose name starts with the number of a subset and which can be read, in the order given, and then writes one output; other files are passed over and the return value is 0. Without a mask the tool returns 1 and reads nothing.", "quantifier": "all options, items, file systems and sets of subset ids under these conditions", "why_tests_cant": "Which files are used depends on every name and every id of the mask.", "anchors": ["apps/mask_rasterio.cpp:603-655"]}
{"id": "C116", "title": "Missing masks and inputs are passed over with return value 0", "statement": "Expected: a file that is missing or cannot be read makes the tool fail. This is false: a mask that does not exist counts as no mask; an input of -in that does not exist leaves nothing read or written and the return value 0; an input that exists but cannot be read is used through a null pointer.", "quantifier": "all options and file systems with such a file", "why_tests_cant": "The return value is that of success, and use of a null pointer has no defined outcome a test could observe.", "anchors": ["apps/mask_rasterio.cpp:483-497", "apps/mask_rasterio.cpp:526-535"]}
{"id": "C117", "title": "With a database the first data item decides where all items are read from", "statement": "Expected: each item is read from files if they exist and from GridFS otherwise. This is false: without -in, if the files of the first item do not exist, every item is read from GridFS, also those whose files exist; if they exist, no item is read from GridFS, and items whose files do not exist are dropped unless they come with a table.", "quantifier": "all options with a connected database and all lists of items", "why_tests_cant": "Needs a database and items of both kinds, and depends on their order.", "anchors": ["apps/mask_rasterio.cpp:416-440"]}
{"id": "C118", "title": "Releasing several arrays in one call frees exactly their memory", "statement": "BatchRelease1DArray and BatchRelease2DArray, called with distinct live arrays and a null pointer at the end, free every block of these arrays once, set the first argument to null, and touch no other block.", "quantifier": "all heaps, numbers of arrays, sizes and element types", "why_tests_cant": "A double free or a leak of one array of many need not show in a test.", "anchors": ["src/utils_array.h:477-501"]}
{"id": "C119", "title": "A null array among the arguments ends the batch release", "statement": "Expected: arrays that are null are passed over. This is false: the first null pointer after the first argument ends the list, so arrays listed after it keep their memory; without a null pointer at the end the behaviour is undefined.", "quantifier": "all heaps and argument lists", "why_tests_cant": "A leak and a read past the arguments have no observable result in a test.", "anchors": ["src/utils_array.h:477-501"]}
{"id": "C120", "title": "Arrays in text files are read as written there", "statement": "A text made of a label, a count and that many elements reads as these elements, whatever the white space between them and whatever follows, from files and from strings; for tables the count is that of rows and each row starts with its length, which becomes element 0 of the row.", "quantifier": "all labels, counts, elements, element readers and layouts of white space", "why_tests_cant": "Tests use a few layouts and sizes.", "anchors": ["src/utils_array.cpp:27-72"]}
{"id": "C121", "title": "What the text writers write is not what the text readers read", "statement": "Expected: an array written with Output1DArrayToTxtFile or Output2DArrayToTxtFile is read back with Read1DArrayFromTxtFile or Read2DArrayFromTxtFile. This is false for every array with elements: the first value is taken as label, the second as count, and what is read is never the array written.", "quantifier": "all nonempty arrays of whole numbers below a million in magnitude, and all previous values of the count", "why_tests_cant": "A test shows one array; this holds for all of them.", "anchors": ["src/utils_array.cpp:8-37", "src/utils_array.cpp:16-55", "src/utils_array.h:147-187"]}
{"id": "C122", "title": "Missing, short and malformed texts are not reported", "statement": "Expected: a text that cannot be read as an array is reported. This is false: with a file that does not exist or has less than two words the count of the caller is kept and as many elements are left unset; too few elements leave the rest unset; missing rows get the length of the row before; a row length of -1 or of the largest int is undefined.", "quantifier": "all files, counts, elements and previous values of the count", "why_tests_cant": "The elements left unset hold any value, so a test may see anything.", "anchors": ["src/utils_array.cpp:27-72"]}
{"id": "C123", "title": "A raster on the mask's positions takes over the mask's subsets", "statement": "When a raster is masked and keeps the mask's grid and positions (mask extent asked for, or matches spanning the whole mask; positions not asked for, or all mask cells matched), it takes over exactly those subsets of the mask below which the source has a value. Each keeps its id, cells, window, data and usability, gets the raster's number of layers, and its indices and positions stand for the same cells in the masked raster, whose values are those of the source. Subsets built by BuildSubSet on a mask meet the conditions. A raster away from the mask, or whose mask has no subsets, keeps its own subsets.", "quantifier": "all masks with calculated positions, all their subsets, all sources, layers, default values that do not alter the source while it is read, and thread orders", "why_tests_cant": "A test covers one mask and a few cells; the index of a cell among the valid ones depends on all cells before it.", "anchors": ["src/data_raster.hpp:3969-3983", "src/data_raster.hpp:4184-4250", "src/data_raster.cpp:239-261"]}
{"id": "C124", "title": "Subsets of the mask do not fit a masked raster that drops cells under the mask's extent", "statement": "Expected: the subsets a masked raster takes over address its own cells. This is false when the raster has the mask's extent and positions of its own and some valid mask cell is not kept: it has fewer cells, but the subsets keep the mask's indices. A subset with an index beyond the cells does not describe the raster, and reading there is undefined; this holds for every subset taken over that has the mask's last cell.", "quantifier": "all masks, subsets and sources for which at least one mask cell is dropped", "why_tests_cant": "Reads beyond an array often return plausible values, so a test may pass.", "anchors": ["src/data_raster.hpp:3969-3983", "src/data_raster.hpp:4184-4250", "src/data_raster.cpp:239-261"]}
{"id": "C125", "title": "Trimming to the matches rebuilds the subsets", "statement": "When a masked raster is trimmed to the matches and not all mask cells match, the subsets with a kept cell are rebuilt, the others removed: indices, local positions and windows are those of the kept cells in the trimmed grid, in the order of the mask's subset; the layers are those of the raster, the data is dropped, the usability kept. This holds with positions and without.", "quantifier": "all masks, subsets, sources and rectangles of matches smaller than the mask; without positions the trimmed grid must have another number of cells than the source", "why_tests_cant": "Windows, local and global indices must agree for every cell pattern.", "anchors": ["src/data_raster.hpp:3969-3983", "src/data_raster.hpp:4184-4250", "src/data_raster.cpp:239-261"]}
{"id": "C126", "title": "Trimming to the matches leaves the subsets alone when all mask cells match", "statement": "Expected: the subsets of a trimmed raster describe its cells. This is false when all mask cells match: the subsets are copied unchanged. With positions their indices are right, but the window lies off by the trimmed columns and rows, so they describe the raster only if nothing was trimmed above and on the left. Without positions their indices stand for other cells: the index is smaller than the position of the cell as soon as the mask leaves out a cell of the rectangle before it.", "quantifier": "all masks, subsets and sources with all mask cells matched and a rectangle smaller than the mask", "why_tests_cant": "A test needs a mask with an empty border and must compare coordinates of the window.", "anchors": ["src/data_raster.hpp:3969-3983", "src/data_raster.hpp:4184-4250", "src/data_raster.cpp:239-261"]}
{"id": "C127", "title": "Subset data is not widened to the raster's layers", "statement": "Expected: a subset taken over from a mask can be written out. This is false when the mask's subset carries data of several layers (a 2-D array) and the raster has more layers: the copy announces the raster's layers beside the data of the mask, and Output reads outside the data.", "quantifier": "all masks with such a subset, all sources with more layers, all conversions", "why_tests_cant": "Reads beyond an array often return plausible values, so a test may pass.", "anchors": ["src/data_raster.hpp:3969-3983", "src/data_raster.hpp:4184-4250", "src/data_raster.cpp:239-261", "src/data_raster.hpp:1136-1156"]}
{"id": "C128", "title": "The text of a double is its value in millionths", "statement": "ftoa of a finite number is its value rounded to whole millionths (to nearest, ties to even) in plain notation: a minus sign for negative numbers and negative zero, no needless zeros at either end, at most six digits behind the point, no exponent; the buffer is never too small. Two numbers have the same text exactly if sign and millionths agree, doubles that are whole numbers are written as that integer, and infinities as words that are read back.", "quantifier": "all doubles", "why_tests_cant": "There are 2^64 doubles; lengths and rounding differ over 600 decimal orders.", "anchors": ["src/utils_string.cpp:139-149", "src/utils_string.cpp:200-212"]}
{"id": "C129", "title": "Reading the text of a double gives a number within a millionth (not always the number itself)", "statement": "IsDouble accepts what ftoa writes and returns a finite number of the same sign at most 0.000001 away. It is the number itself exactly if that is the double of a number of whole millionths; so it is for every number of absolute value 2^33 and more. Expected: it always is. This is false for small numbers: every number up to half a millionth is written as zero.", "quantifier": "all doubles", "why_tests_cant": "A test with ordinary decimal numbers passes; only small or long fractions are changed.", "anchors": ["src/utils_string.cpp:139-149", "src/utils_string.cpp:200-212", "src/utils_string.cpp:306-311"]}
{"id": "C130", "title": "Wide strings convert into byte strings and back (undefined for characters without encoding)", "statement": "In every encoding without shift states, wtoa turns a wide string of characters that have an encoding into their encodings, and atow turns these back; in the \"C\" locale that holds for all ASCII texts, and ftow is the widened ftoa. Expected: other texts are refused. This is false: a wide string with a character without encoding, and a byte string that is no encoding, are copied into an array of length zero, which is undefined. A NUL ends the text that is converted. IsInt, IsInt64, IsUInt and IsUInt64 accept exactly the wide canonical decimal texts of numbers in range, with their value, and IsDouble agrees with the one for byte strings on ASCII texts and accepts no number text followed by a character outside ASCII.", "quantifier": "all wide strings, all byte strings, all encodings without shift states", "why_tests_cant": "Depends on the locale and on every character; an overrun of a few bytes goes unnoticed.", "anchors": ["src/utils_string.cpp:214-248", "src/utils_string.cpp:257-262", "src/utils_string.cpp:271-276", "src/utils_string.cpp:285-290", "src/utils_string.cpp:299-304", "src/utils_string.cpp:313-318"]}
{"id": "C131", "title": "Careful programs never use a MongoDB object that is gone", "statement": "A program that makes clients first and destroys them last, gives numeric addresses, does not query or list what may be NULL and copies nothing, makes only defined calls on the MongoDB driver, whatever the driver answers: all calls return, every object it holds is alive (but for clients after the driver was shut down), and no two places hold the same object. If no call leaks, every object that is alive is held, so a program that has given everything back leaves nothing.", "quantifier": "all call sequences over clients, databases, collections, buckets, files, metadata and streams, all answers of the driver", "why_tests_cant": "Lifetimes depend on the order of calls and on the driver's answers; misuse often goes unnoticed.", "anchors": ["src/db_mongoc.cpp:47-111", "src/db_mongoc.cpp:153-195", "src/db_mongoc.cpp:208-210", "src/db_mongoc.cpp:271-306", "src/db_mongoc.cpp:308-471"]}
{"id": "C132", "title": "The raster tool gives back what it took from MongoDB, but for the buffers of failed readings", "statement": "From a numeric address, whatever buckets can be opened and whichever readings and writings succeed, the tool's calls all return; at its end the driver is shut down and nothing is left but one buffer for each file that was found within five attempts and could not be read. A client that cannot be made leaves nothing. Without a bucket, GridFs still returns an object (never nullptr): readings and writings then do nothing.", "quantifier": "all addresses, all sequences of readings and writings, all answers of the driver", "why_tests_cant": "Failing connections and readings are hard to stage, and leaks do not show in results.", "anchors": ["apps/mask_rasterio.cpp:331-352", "apps/mask_rasterio.cpp:654-662", "src/data_raster.hpp:870-976", "src/data_raster.hpp:989-1078", "src/db_mongoc.cpp:47-111", "src/db_mongoc.cpp:183-185"]}
{"id": "C133", "title": "Careful programs give back all MongoDB objects (false for five calls)", "statement": "Expected: an object no caller sees is given back by the function that made it. This is false of listing the files of a bucket, counting records, asking for a collection that does not exist, a reading that fails after the file was found, and deleting a client without destroying it: in every careful program that makes one of these calls, an object is alive ever after which the program does not hold.", "quantifier": "all careful call sequences, all answers of the driver", "why_tests_cant": "A leak shows only in long-running processes.", "anchors": ["src/db_mongoc.cpp:47-111", "src/db_mongoc.cpp:153-195", "src/db_mongoc.cpp:208-210", "src/db_mongoc.cpp:271-306", "src/db_mongoc.cpp:308-471"]}
{"id": "C134", "title": "No rule of use of the MongoDB classes can be dropped", "statement": "After any careful program, a call on an object the program has that breaks one of the rules is undefined, or aborts for an address that is not numeric (Init's comment says hosts need not be addresses, the constructor it calls asserts that they are). Copying a bucket or a collection, which the compiler permits, goes unnoticed; but deleting the copy and the original is undefined. Expected: destroying one client leaves the others usable. This is false: it shuts the driver down, every further call on another client and every Init is undefined.", "quantifier": "all careful call sequences, all answers of the driver, all calls", "why_tests_cant": "Undefined calls may appear to work.", "anchors": ["src/db_mongoc.cpp:47-111", "src/db_mongoc.cpp:153-195", "src/db_mongoc.cpp:208-210", "src/db_mongoc.cpp:271-306", "src/db_mongoc.cpp:308-471", "src/db_mongoc.h:120-178"]}
{"id": "C135", "title": "Files appear under the names the given name asks for, if its suffix is one of the two formats", "statement": "OutputToFile of dir/core.suf writes dir/core.suf' for one layer and dir/core_k.suf' for several, k counting from 0 in ASC files and from 1 in GeoTIFF files; when it returns false the files written are the first ones of these, when true all of them. suf' is suf (in any case) for the two formats, else tif with GDAL and asc without. WriteRasterToFile writes dir/core.suf' in the format of suf', OutputFullsizeToFiles counts from 1 in both formats, and its file number k holds the k-th values of all cells. A name without directory whose file is not there yet, and one without suffix, write nothing and return false. Expected: after true the file asked for is there. This is false of every other suffix: the file has another name, and reading the name asked for fails.", "quantifier": "all rasters, options, names and answers of the operating system about names, creating and writing; with and without GDAL", "why_tests_cant": "The names depend on the build, the suffix, the number of layers and the state of the file system.", "anchors": ["src/data_raster.hpp:2850-2869", "src/data_raster.hpp:3137-3210", "src/data_raster.hpp:3213-3263", "src/data_raster.hpp:838-857", "src/data_raster.hpp:3113-3135"]}
{"id": "C136", "title": "A raster written as GeoTIFF files comes back from them, as far as its first layer has values", "statement": "OutputToFile under a name ending in .tif returns true, and reading the files written (on a disk with any other files) gives a raster with the same rows, columns and layers, the corner within 1/1024 of a cell, the same cell size and NoData value, and the same values in the first layer and in every further layer where the first one has a value. Expected: all values come back. This is false: where the first layer is NoData, values of further layers are lost.", "quantifier": "all rasters with all cells or with dropped cells, all cell types but signed bytes, all tidy grids (cells not smaller than 2^-30, corner within 2^39 cells), any order of the parallel loops, with positions calculated or not", "why_tests_cant": "Writing and reading are tested on a few small rasters, not as inverse functions.", "anchors": ["src/data_raster.hpp:2850-2869", "src/data_raster.hpp:3137-3210", "src/data_raster.hpp:3213-3263", "src/data_raster.hpp:2299-2308", "src/data_raster.hpp:3469-3477", "src/data_raster.hpp:2286-2360"]}
{"id": "C137", "title": "A raster written as ASC files comes back from them, if it is complete and its cells are numbers of six digits", "statement": "The same for a name ending in .asc, with and without GDAL, for cells whose text gives them back (integers, floating numbers of six digits) and either one layer or all cells stored; corner, cell size and NoData value come back rounded to six digits. Expected: the same of rasters with dropped cells and of bytes. This is false: in rasters of several layers the dropped cells come back as the number -9999 whatever the NoData value; bytes are written as characters, so that the codes 48 to 57 come back as 0 to 9.", "quantifier": "all rasters, all tidy grids of at most 10^22, any order of the parallel loops", "why_tests_cant": "Losses by printing depend on the values; dropped cells with another NoData value than -9999 are not tested.", "anchors": ["src/data_raster.hpp:2850-2869", "src/data_raster.hpp:3137-3210", "src/data_raster.hpp:3213-3263", "src/data_raster.hpp:2299-2308", "src/data_raster.hpp:3469-3477", "src/data_raster.hpp:2286-2360"]}
{"id": "C138", "title": "Names stand for what the operating system finds under them; MakeDirectory makes the one directory named or nothing", "statement": "GetAbsolutePath gives the same place a name that holds in every working directory, and is idempotent; a name of nothing comes back unchanged. DirectoryExists, PathExists and FileExists tell, links followed, of directories, of directories and regular files, and of anything. MakeDirectory returns true and changes nothing if the directory is there; returns true and adds exactly the directory named, one level; or returns false and changes nothing. A free name in a directory that may be written is made. Expected: when nothing exists under a name in such a directory, MakeDirectory makes it. This is false of links to nothing.", "quantifier": "all trees of directories, files, links and devices, all working directories and permissions, all paths", "why_tests_cant": "Chains of links, dots, repeated separators, relative names and permissions have no bound; tests use a few plain names.", "anchors": ["src/utils_filesystem.cpp:23-33", "src/utils_filesystem.cpp:43-63", "src/utils_filesystem.cpp:133-148", "src/utils_filesystem.cpp:283-294"]}
{"id": "C139", "title": "DeleteExistedFile removes exactly what a name stands for", "statement": "It returns 0 and exactly the place the name leads to is gone, after which nothing exists under the name, or returns -1 and nothing changed. Directories with entries stay, files in directories that may be written go. Expected: it removes the file of that name and only files. This is false: of a link it removes the target and keeps the link, which then leads nowhere and cannot be removed by the same call; an empty directory is removed too.", "quantifier": "all trees, working directories, permissions and paths", "why_tests_cant": "The outcome depends on links and permissions of the file system, not on the arguments.", "anchors": ["src/utils_filesystem.cpp:23-33", "src/utils_filesystem.cpp:43-63", "src/utils_filesystem.cpp:133-148", "src/utils_filesystem.cpp:283-294"]}
{"id": "C140", "title": "Writing an ASC file over another one leaves nothing of the old file, if it can be removed", "statement": "OutputAscFile of one layer and WriteSingleAsc, given a free name or that of a file in a directory that may be written: the file holds exactly the text written, nothing else changed, and links lead to it as before. WriteSingleAsc makes a missing directory if it is the only one missing; OutputAscFile fails then. Expected: the same of every file that may be written. This is false: in a directory that may not be written the old text stays in front of the new one and the writers return true; reading the file gives false if both grids have the same number of cells, and writes outside the array otherwise.", "quantifier": "all trees, permissions, paths and texts; all pairs of grids whose cells can be read back", "why_tests_cant": "Tests run in directories that can be written.", "anchors": ["src/utils_filesystem.cpp:23-33", "src/utils_filesystem.cpp:43-63", "src/utils_filesystem.cpp:133-148", "src/utils_filesystem.cpp:283-294", "src/data_raster.cpp:189-208", "src/data_raster.hpp:318-346", "src/data_raster.hpp:3137-3210"]}
{"id": "C141", "title": "Names put behind GetAppPath stand for files beside the program", "statement": "If the operating system tells the name of the program in fewer than 4096 bytes, GetAppPath returns its directory with a separator at the end, and a relative name put behind it leads to what it leads to in that directory, in every working directory. Expected: this always holds or an error is reported. This is false: when the operating system does not tell, or the name is too long, the empty text is returned and the names stand for files in the working directory.", "quantifier": "all trees, working directories, names of programs and relative names", "why_tests_cant": "The directory of the test program and the working directory are fixed in a test.", "anchors": ["src/utils_filesystem.cpp:250-280"]}
{"id": "C142", "title": "DeleteDirectory removes nothing outside the directory a name leads to, and all of it where it may", "statement": "Whatever the permissions, a name that leads to no directory changes nothing; else places are only removed, and only at or below the directory the name leads to, so what links in it lead to stays. It ends after as many nested calls as the tree is deep. With subdirectories, where everything may be listed and changed, nothing is left; without, exactly the subdirectories with entries stay, and the directory itself if there are any. Expected: true means that the name is gone. This is false: of a link to a directory the target goes and the link stays, leading nowhere; a directory that may not be listed stays, and the answer is true as always.", "quantifier": "all trees of directories, files, links and devices of any depth, all working directories, permissions and paths", "why_tests_cant": "That nothing outside is removed is a statement about all places of the file system and all links.", "anchors": ["src/utils_filesystem.cpp:170-172", "src/utils_filesystem.cpp:222-248", "src/utils_filesystem.cpp:283-294"]}
{"id": "C143", "title": "CleanDirectory removes exactly the visible entries but subdirectories with entries, and nothing outside", "statement": "Whatever the permissions, the directory stays and places are only removed below it; what links in it lead to stays. Where it may be listed and changed, exactly the hidden entries and the subdirectories with entries stay, with all they hold, and the answer is true if and only if no visible subdirectory has entries (so true does not mean empty). Where there is no directory, the effect is that of MakeDirectory.", "quantifier": "all trees, working directories, permissions and paths", "why_tests_cant": "See C142; links in the directory are not tested.", "anchors": ["src/utils_filesystem.cpp:65-121", "src/utils_filesystem.cpp:150-168"]}
{"id": "C144", "title": "FindFiles lists the same files in every working directory (false)", "statement": "FindFiles lists exactly the visible entries of the directory a name leads to whose suffix fits the expression; the suffix is taken from what the bare name of the entry leads to in the working directory, which is its own suffix if it leads to nothing there. Expected: what is listed does not depend on the working directory. This is false: a file of the wanted suffix is left out where its name is, in the working directory, that of a link to a file of another suffix.", "quantifier": "all trees, working directories, directories, expressions and names", "why_tests_cant": "The dependence shows only for pairs of directories with entries of the same name.", "anchors": ["src/utils_filesystem.cpp:65-121", "src/utils_filesystem.cpp:311-318"]}
{"id": "C145", "title": "Combining subset files puts the values of each subset's file back on the mask's grid, whatever was combined before", "statement": "With the mask_rasterio tool in mode COMBINE, one data set gives one file on the grid of the mask, also after any other data sets with the same mask: a cell of a subset gets the value of its rank in the last file given for the subset that has as many values (other than NoData) as the subset has cells, the default value if there is none; other cells get NoData; nothing is written if no subset has a fitting file. If the files carry the values of their subsets (windows with NoData outside the subset), the combined file has these values in these cells. The file written for subset k is taken for subset k again. Expected also: values that are NoData come back as NoData. This is false: one NoData value in a subset's file makes the whole subset the default value, and a file with no other value makes the program's behaviour undefined.", "quantifier": "all masks with valid cells, cell types, files, names and histories of data sets; every order of the parallel loops", "why_tests_cant": "Depends on which values of each file are NoData and on what earlier data sets left in the subsets.", "anchors": ["apps/mask_rasterio.cpp:602-647", "src/data_raster.hpp:2851-2855", "src/data_raster.hpp:2871-2921", "src/data_raster.hpp:2908-2918"]}
{"id": "C146", "title": "The log keeps every message, one stamped line per call, in order, in the file each name leads to", "statement": "After any calls of Log a log file holds what it held before and then one line per call whose name leads to it (through links, \"..\" or different names), in the order of the calls: the local time in 24 characters that tell it to the second, \": \", the message, a line break. A log that does not exist is made by the first such call; calls whose file cannot be opened change nothing; no other place of the file system changes. The text of a log determines the times and messages, if the messages have no line breaks. With line breaks it does not: one call can leave the same file as two.", "quantifier": "all file systems, permissions, histories of calls, messages, names and times (years 1000 to 9999 for the stamps)", "why_tests_cant": "Depends on every earlier call, the names' links and the permissions; tests look at single lines.", "anchors": ["src/basic.cpp:78-101"]}
{"id": "C147", "title": "The text of an exception tells class, function and message apart", "statement": "what() and ToString() of ModelException give \"Class:\", \"Function:\" and \"Message:\" lines with exactly the strings given, if these have no NUL; two exceptions with the same text have the same class, function and message, if the classes and functions have no line break. With line breaks they can be confused, and nothing is shown from the first NUL on.", "quantifier": "all class names, function names and messages", "why_tests_cant": "Injectivity over all pairs of triples of strings.", "anchors": ["src/basic.cpp:37-48"]}
{"id": "C148", "title": "The last call decides the number of threads, but the default also replaces a number the program chose", "statement": "Outside of parallel regions, after any calls of SetOpenMPThread and SetDefaultOpenMPThread, the number of threads asked for is the one of the last call: n for SetOpenMPThread(n) with n >= 0 (other n change nothing), half of the processors for SetDefaultOpenMPThread. Inside a region of several threads the default changes nothing. Expected also, from its comments: the default is set only if no number was set before. This is false: it replaces any other number; and on one processor it asks for 0 threads.", "quantifier": "all histories of calls, numbers of processors and threads", "why_tests_cant": "Depends on the history of calls and on the machine.", "anchors": ["src/basic.cpp:103-134", "src/basic.h:464-473"]}
{"id": "C149", "title": "The parallel loops have no data races and their results do not depend on timing", "statement": "However the iterations of an OpenMP loop of the library are divided among any number of threads, and however the single reads and writes of these threads follow each other: no two threads access the same array element with one of them writing; no access is outside of the arrays; the loop comes to an end; and then the elements have the values of the sequential loop and all others are unchanged. With reductions, each thread adds the operands of its own iterations, so that all threads together add exactly those of the sequential loop, each once. This holds for the loops that initialize and copy arrays, sum and compute deviations, convert cells for GeoTIFF, build layers from files, read GridFS data, drop NoData cells and replace NoData. Where another property describes a loop by running its iterations one after the other, the threads leave what is described there: dropping and replacing NoData cells, building layers, converting cells, reading GridFS data and counting illegal values; combining the sums and deviations, in whichever order, gives the result of one of the teams described for sums and statistics.", "quantifier": "all array contents, sizes, numbers of threads, divisions of the iterations and interleavings of single accesses", "why_tests_cant": "Races need an unlucky interleaving and are invisible in almost every run.", "anchors": ["src/utils_array.h:344-425", "src/utils_math.h:355-460", "src/data_raster.hpp:607-780", "src/data_raster.hpp:3450-3500", "src/data_raster.hpp:3580-3605", "src/data_raster.hpp:3715-3740", "src/data_raster.hpp:3845-3880"]}
{"id": "C150", "title": "Threads may share a raster: they read what nobody sets and set cells of their own (false for first-time statistics)", "statement": "Any number of threads use one raster object through GetValue, GetValueByIndex, GetPosition and SetValue, each making any calls that depend on earlier answers, where each cell is set by at most one thread and read only by it or, if nobody sets it, by all. However their single reads and writes of the object's fields and elements follow each other: no data race, no access outside of the object; every thread gets exactly the answers it would get alone; and the object ends up as if the threads had worked one after the other, in any order. Setting a cell another thread reads or sets is a race. Calculated statistics can be read by all threads, and one call before the threads start calculates all six; expected also, from the name of the function: statistics that have not been calculated. This is false: the first calls of GetStatistics in two threads always race, for every raster of one layer.", "quantifier": "all complete grids and rasters without NoData cells, all numbers of threads and clients (trees of calls), all assignments of cells to threads, all interleavings of single accesses", "why_tests_cant": "Interleavings and programs are unbounded; a race shows in few runs, if at all.", "anchors": ["src/data_raster.hpp:1765-1807", "src/data_raster.hpp:2439-2513", "src/data_raster.hpp:2542-2571", "src/data_raster.hpp:2696-2739", "src/data_raster.hpp:2786-2802"]}
{"id": "C151", "title": "Reading from GridFS with a mask takes over all subsets of the mask (false for a file of other columns)", "statement": "A file of GridFS with as many cells as the mask has valid ones, read with the mask and its extent and positions, gives the raster all subsets of the mask, also those lying on NoData, each with its cells, window and data and the number of layers of the file. After writing a raster without its NoData cells and reading it with a mask of the same grid and number of cells, each subset stands for the same cells of the raster read, which hold the values of the raster written by rank. A raster written with its NoData cells and read without positions, with its own extent or with a mask of another number of cells is the complete grid written, then masked: its cells and its subsets are those masking gives. Expected for every file that is read: the subsets stand for cells of the raster. This is false when the file has another number of columns: reading succeeds, and a subset with a cell below the first row stands for no cells of the raster.", "quantifier": "all stores, files, cell types, layers, options, masks with positions and subsets of them", "why_tests_cant": "A test reads files of the grid of the mask; the number of cells is the only thing compared.", "anchors": ["src/data_raster.hpp:3511-3620", "src/data_raster.cpp:239-261"]}
{"id": "C152", "title": "Threads may share a mask that has its positions (false for the first use of a mask without)", "statement": "Any number of threads mask rasters of their own by one mask object. If the mask has its positions, there is no data race however their accesses follow each other, the mask is unchanged, and every thread gets the rows, columns and positions of the mask. A mask that is a complete grid gets its positions, those of its valid cells by rows with their indexes and values, when it is used once before the threads start. Expected also, as masking takes the mask as input: two threads may be the first to use a mask. This is false for every such mask: there is a race, and a run in which one thread gets the right number of positions that are all row 0, column 0, which is wrong unless the only valid cell is that one.", "quantifier": "all masks of one layer, sizes, values, numbers of threads and interleavings of single accesses", "why_tests_cant": "A test masks rasters one after the other; the race shows in few runs.", "anchors": ["src/data_raster.hpp:2641-2656", "src/data_raster.hpp:3801-3869", "src/data_raster.hpp:3887-3911", "src/utils_array.h:380-410"]}
{"id": "C153", "title": "Options and the spatial reference of a raster can be read back (false through the pointer of GetSrs)", "statement": "GetOption gives the value last set for a key, other keys keep theirs, and a key never set gives an empty string; GetSrsString is the option SRS, and a pointer into the string it returns reads the same text while the caller keeps the string. Expected also of GetSrs, which returns the spatial reference as a pointer: the same text. This is false for every raster, with or without a spatial reference: the pointer is into a string that no longer exists when the function returns, so that reading any character is undefined.", "quantifier": "all rasters (option maps), keys, values and contents of memory", "why_tests_cant": "Freed memory usually still holds the text, so that a test passes.", "anchors": ["src/data_raster.hpp:2677-2693", "src/utils_string.cpp:94-104"]}
{"id": "C154", "title": "Setting a header moves a raster without changing its cells (false for headers of other sizes)", "statement": "SetHeader with numbers of rows, columns, layers and cells as before (entries left out are kept) leaves a well-formed raster whose stored cells have the same values in all layers; its lower left centre (as the header says, or half a cell from the corner it says), cell size and NoData value are those of the header, and every cell that is not stored reads as the new NoData value. Stored cells that were NoData keep the old NoData value and are no longer NoData if the new value differs. Expected of any header: the raster has the cells its header says. This is false: with other rows and columns, cells of a complete grid are read in another arrangement, and the last cell of every larger grid is outside of the storage, undefined though row and column are accepted; a layer that is only in the header is undefined in every cell of a raster of several layers, and repeats the first in a raster of one.", "quantifier": "all headers, cell types, complete grids and rasters without NoData cells, rows, columns, layers", "why_tests_cant": "A test sets the header of a raster of the same size; reading beyond an array often goes unnoticed.", "anchors": ["src/data_raster.hpp:1628-1653", "src/data_raster.hpp:2726-2739", "src/data_raster.hpp:2773-2782", "src/data_raster.cpp:122-136"]}
{"id": "C155", "title": "The data type of a raster is that of its C++ cell type (false for long long)", "statement": "TypeToRasterDataType gives for char, signed char, unsigned char, short, int, long and their unsigned types a data type with exactly the values of the cell type, and a new raster of such cells (unsigned long apart) has the lowest value, or the highest of an unsigned type, as NoData. Converting a value of the cell type (float and double too) to the data type keeps it. Cell types with the same values never have different data types other than unknown. Expected: types with the same values are treated alike. This is false: on 64-bit Linux long long has the values of long, but is unknown: without an option for the type no GeoTIFF is written, whatever header, values and state of the driver; NoData is -9999, and for unsigned long long setting up a raster is undefined.", "quantifier": "all standard integer types; all headers, options without output type, values, schedules, GDAL versions", "why_tests_cant": "Tests instantiate rasters with int and float; which typedef int64_t is depends on the platform.", "anchors": ["src/data_raster.cpp:48-60", "src/data_raster.cpp:62-77", "src/data_raster.hpp:596-601", "src/data_raster.hpp:777-783", "src/data_raster.hpp:2034", "src/basic.h:208-215"]}
{"id": "C156", "title": "The arrays a raster hands out are indexed by its positions", "statement": "For complete grids and rasters without NoData cells, of one or several layers: GetPosition of a stored cell is an index into the arrays of GetRasterData or Get2DRasterData, where the values of the cell are those GetValue gives in each layer; every index below the reported number of cells is the position of a stored cell. GetDataLength is the number of values in these arrays if that fits an int, and undefined otherwise.", "quantifier": "all cell types, rasters of both kinds, rows, columns, layers, indices", "why_tests_cant": "Tests compare a few elements; rasters with more than 2147483647 values are too large for tests.", "anchors": ["src/data_raster.hpp:1627", "src/data_raster.hpp:2541-2571", "src/data_raster.hpp:2615-2638", "src/data_raster.hpp:2696-2739"]}
