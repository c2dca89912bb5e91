# Formal model of CCGL in Rocq (Coq 8.16.1)

Source of truth: `/repo` (crazyzlj/CCGL, C++), read as text. Model and proofs:
`/verif/rocq/theories`, logical name `Verif`.

## 1. Layout

Every topic has up to four files:

* `XxxModel.v`   proof-free transcription of the code, one definition per
  function (or per loop), each with a comment citing file and lines;
* `XxxSpec.v`    small independent vocabulary used only to *state* properties
  (when the standard library vocabulary is not enough);
* `XxxProofs.v`  lemmas;
* `XxxProps.v`   property theorems only, each closed by `exact lemma`, with a
  concrete `Example` meeting the hypotheses and `Print Assumptions` below it.

## 2. Modelling conventions

* `Base.v` defines `outcome A := Ok a | UB | Throw`. Undefined behaviour
  (out-of-bounds access, null dereference, signed overflow where relevant,
  double free) is a distinct outcome, never a default value. `Throw` is an
  escaping C++ exception.
* `int` values are `Z`; where overflow matters the range is an explicit
  hypothesis or an explicit wrap.
* `std::string` is `list ascii`; the "C" locale is assumed for `isspace`,
  `toupper`, `strtol`.
* `std::map` is an association list whose observable is `lookup`.
* Cell values are an arbitrary type `T` with an arbitrary boolean comparison
  `feq` standing for `FloatEqual`, unless a theorem needs more. All sections
  are closed, so nothing is assumed globally.
* `FloatEqual` on integers is equality; on doubles it is `|a-b| < 1e-32`.
* Real-valued headers (cell size, corner coordinates) are rationals `Q` (exact
  arithmetic) in the raster model. A separate development uses Flocq's IEEE
  binary64 for the coordinate functions.
* OpenMP loops are modelled as running their iterations in an arbitrary order
  or split in arbitrary chunks; theorems quantify over the order.
* External services (GDAL, MongoDB, file system, libc clock) are outside the
  model; the model covers the code on our side of the call and represents the
  other side by plain data (list of lines, byte list, metadata).

## 3. Trusted base

* The Coq 8.16.1 kernel, including `vm_compute`.
* What `Print Assumptions` prints below each theorem. Theorems that involve
  IEEE numbers or real numbers (C26/C27 in binary64, C41-C50, C65, C68, C71,
  C75-C84, C93-C97) list axioms of Coq's standard library that Flocq's proofs use:
  `Classical_Prop.classic`, `FunctionalExtensionality.functional_extensionality_dep`,
  `ClassicalDedekindReals.sig_not_dec`, `ClassicalDedekindReals.sig_forall_dec`.
  All others are closed under the global context. No axiom is added here, no
  kernel check is switched off, there is no `Admitted`.
* The faithfulness of the transcription (section 5). The C++ language, the
  standard library, libc, GDAL and the MongoDB driver enter as described in the
  comments of the models.

## 4. Plan per property

See `properties.jsonl` for the statements, `MANIFEST.json` for the theorems.
Claims that are false of the code are kept: their title says so, a theorem
`..._refuted` shows for which inputs they fail (a whole family where possible,
not one example), and the part that does hold is proved next to it.

| id | model | proof |
|----|-------|-------|
| C01-C05, C57 | `StrModel.v` | induction over strings; round trip through a decimal printer/parser |
| C06, C07 | `MapModel.v` | lookup characterisation; induction over histories |
| C08-C10, C59 | `ArrayModel.v` (block heap) | induction over rows/vectors |
| C11-C13, C60-C64 | `TimeModel.v`, `ScanModel.v` | `lia` over the calendar formula; printer/scanner round trip; refutations |
| C14-C16 | `MathModel.v` | loop invariants; permutation/chunk invariance |
| C17, C18, C66, C67 | `FsModel.v` | string lemmas; induction over directory trees; refutations |
| C19, C20 | `BasicModel.v`, `ScanModel.v` | scanner lemmas; case analysis |
| C65, C68 | `FloatModel.v`, `TypeModel.v` | Flocq binary64: exactness of integers, spacing of doubles |
| C21-C25, C58 | `RasterModel.v` | binary-search invariant; compaction invariant; any loop order |
| C26, C27 | `CoordModel.v` (rationals), `CoordFloatModel.v` (binary64) | rational arithmetic; rounding-error bounds |
| C28-C32, C69, C70 | `SubsetModel.v` | invariant over the grouping loop; scatter/gather |
| C33-C37 | `MaskModel.v` | loop invariants; refutations |
| C38-C40, C74 | `CopyModel.v` | case analysis over object states; refutations |
| C41, C42, C44, C45, C76-C80 | `AscModel.v`, `NumModel.v` | two-pointer scan invariant; printer/parser round trip |
| C75 | `NumModel.v` | correct rounding of `strtod` on the modelled syntax |
| C43, C46, C47, C81 | `GdalModel.v`, `CellModel.v` | conversion lemmas per type; expansion invariant |
| C48, C49, C82-C84 | `GridfsModel.v`, `CellModel.v`, `MongoModel.v` | byte codec; bucket lemmas; composition of writer and reader |
| C50-C52, C71 | `MongoModel.v` | case analysis over BSON values; string lemmas |
| C53, C54, C72, C73 | `AppModel.v` | induction over arguments and items |
| C55, C56, C85-C87 | `OwnModel.v` (live arrays) | separation-style invariant over all histories of calls; families of bad histories |
| C88, C89 | `Array2DModel.v` | refinement to tables as values; block ownership invariant |
| C90-C92 | `SubGridModel.v` | composition of subsets and GridFS; fold over the subsets with distinct file names |
| C93-C98 | `LayersModel.v` (reading one file a parameter) | table invariant over the loops in any order; binary64 positions |
| C99-C109 | `FastModel.v` (generic in the format), `FastTable.v` | rounding error analysis over Flocq operations; polynomial enclosures checked by a verified checker; the table checked against interval powers of 2^(1/2048) |
| C110-C117 | `ToolModel.v`: the raster tool as the list of library calls it makes; the answers of the library are arguments | induction over options and items with the vectors as one list of data sets (`holds`); traces computed from the options; pairs of runs for options without effect (C112) |
| C118, C119 | `BatchModel.v`: the batch releases as a walk along the list of pointers passed; a missing end is undefined | induction over the arguments with the set of freed blocks; `_refuted` families for C119 |
| C120-C122 | `TextModel.v`: the readers on a stream of bytes with a good flag; unset elements are `None`; the reader of an element is an argument with `reads` and `stops` (`TextSpec.v`) as its contract, both proved for ints | induction over words; counting the numbers left in the stream for C121; `_refuted` families for C121, C122 |
| C123-C127 | `MaskSubModel.v`: the subset parts of masking, on top of `MaskModel.v` and `SubsetModel.v` | what it means for a subset to stand for cells (`describes`, `MaskSubSpec.v`), carried from the mask's grid to the new one for each way masking can end; `_refuted` families for C124, C126, C127 |
| C128-C129 | `FtoaModel.v`: `snprintf("%f")` correctly rounded, the buffer, the removal of zeros | plain decimal texts and rounding to millionths as real numbers (`FtoaSpec.v`); a unique text per sign and value; nearest-double arguments for the way back; `C129_tiny_refuted` |
| C130 | `FtoaModel.v`: `wcstombs`/`mbstowcs` over an arbitrary encoding, buffers with their length | induction over the text; the "C" locale as an instance; `_refuted` families for texts that cannot be converted |
| C131 | `HandleModel.v`: live objects of the MongoDB driver, every function of the classes as a sequence of obtaining, using and destroying, programs as lists of calls | invariant: what is held is alive, nothing is held twice, and without leaks what is alive is held |
| C132 | the same, the tool's sequence of calls | induction over readings and writings |
| C133 | the same | `_refuted`: the invariant with a list of lost objects, which no careful call can remove |
| C134 | the same | every call, in every state of the invariant, by its first call of the driver |
| C135 | `OutputToFile`, `WriteRasterToFile`, `OutputFullsizeToFiles` and the choice of the writer (DiskModel.v), on the writers of AscModel.v and GdalModel.v | invariant of the loops over layers (names written so far are a prefix), suffix rules of C17 |
| C136 | the same, with the choice of the reader by suffix and a disk of named files; `ReadFromFiles` of LayersModel.v | writer and reader of one file (C81, C47) for every layer, then C93 on the common grid; error bounds for the corner |
| C137 | the same | C41's round trip of one file for every layer; relative errors of rounding to six digits and to double |
| C138 | a tree of directories, files, links and devices with path resolution of POSIX; `GetAbsolutePath`, `DirectoryExists`, `PathExists`, `FileExists`, `MakeDirectory` (PathModel.v) | induction on resolution, by the number of links left and the names left; resolution of trees that differ at one place |
| C139 | `DeleteExistedFile` on such trees | the same |
| C140 | `WriteAscHeaders`, `OutputAscFile` of one layer and `WriteSingleAsc` as changes of such trees; `WriteSingleAsc`, `ReadAscFile` of AscModel.v for the texts | place of the name before and after each step; the loop of the reader over two grids in one text |
| C141 | `GetAppPath` | resolution of a text of names without links |
| C142 | `DeleteDirectory` on the trees of PathModel.v, by paths as in the code (PathModel2.v) | induction on nested calls, with the places removed so far as invariant of the loop over entries |
| C143 | `CleanDirectory`, `FindFiles` on these trees | invariant of the loop over the paths listed |
| C144 | `FindFiles`, `GetSuffix` on these trees | unfolding; suffix rules of C17 |
| C145 | Combining files by the subsets of a mask (`ComModel.v`, on the raster and subset models) | subsets as a function applied to those built, invariant over files and data sets; C31 for the combined array |
| C146 | `Log`, `asctime_r` (LogModel.v), on the trees of PathModel.v | invariant over the calls: names keep leading where they led; stamps of fixed width, cut line by line |
| C147 | `ModelException` | cut line by line |
| C148 | `SetOpenMPThread`, `SetDefaultOpenMPThread` with the OpenMP state they read and set | induction on the calls |
| C149 | the bodies of all OpenMP loops as programs of single reads and writes, threads interleaving them | one safety theorem (`par_safe`: iterations with disjoint footprints), footprints of each body; linked to the sequential models of C22, C24, C46, C83, C84, C93 by what each iteration writes, and to the teams of C15 and C16 (`teams`) |
| C150 | `GetValue`, `GetValueByIndex`, `GetPosition`, `SetValue`, `GetStatistics` (one layer) as programs of single accesses to one object; clients are trees of calls | reads of fields are pinned by the object (`reach`), footprints by owner, simulation of RasterModel.v, `par_safe`; races by running two threads in turn |
| C151 | `GridMaskModel.v`: the subset part of `ReadFromMongoDB`, on `GridfsModel.v` and the copy of `MaskSubModel.v` | inversion of a successful read; C84 for the values; C83 for the grid that is masked otherwise; a subset determines its cells, so two numbers of columns contradict each other |
| C152 | `MaskShareModel.v`: what `MaskAndCalculateValidPosition` accesses of the mask, with `GetRasterPositionData` and `CalculateValidPositionsFromGridData` (one layer), as programs of single accesses | read-only footprints and `par_safe`; a thread going on alone (`goes`), the writes as a list; the refutation stops the first thread after the new arrays are zeroed |
| C153 | `SrsModel.v`: `GetOption`, `GetSrsString`, `GetSrs`, on the maps of `MapModel.v` and the memory of `ArrayModel.v` | lookup after update; reading up to the null character by induction; the block of the temporary is freed |
| C154 | `HeaderModel.v`: `SetHeader` with `GetXllCenter`, `GetYllCenter`, on the header maps (doubles) and `RasterModel.v` | lookup after copying; conversions of small integers are exact; `GetValue` before and after, row-major arithmetic |
| C155 | `CTypeModel.v`: `TypeToRasterDataType` on the arithmetic types of C++ (64-bit Linux), with `TypeModel.v` and `GdalModel.v` | all types; the writer refuses an unknown type before it looks at values |
| C156 | `LengthModel.v`: `GetDataLength`; `GetRasterData`, `Get2DRasterData`, `GetPosition`, `GetValue` of `RasterModel.v` | both shapes: reading at a position; sorted positions are distinct; lengths add up |

## 5. What is modelled and what is not

Per source file; every definition of a `...Model.v` file cites its lines, and
simplifications are stated in the comment of the definition or at the head of
the file.

* `src/basic.h`, `src/basic.cpp`: `IsIpAddress`, `FloatEqual` (in `utils_math.h`),
  the missing-value constants, `Log`, `ModelException`, the number of threads
  (`omp_get_num_threads` and `omp_set_num_threads` as OpenMP defines them). Not modelled:
  sleeping, `StatusMessage`, the `Object` base classes.
* `src/utils_string.h/.cpp`: all functions, GCC branches on 64-bit Linux. Wide
  strings convert through a parameter, the encoding of the locale, without shift
  states. Not modelled: code page conversion (Windows).
* `src/utils_array.h/.cpp`: allocation, copying, release (one and several), vectors,
  `Array2D`, arrays in text files. `va_start` on a reference parameter is undefined
  by the standard; the model follows what compilers do. The readers are templates
  defined in the `.cpp` file, so they link only where that file is included.
* `src/utils_math.h/.cpp`: maximum, minimum, sum, statistics, `FloatEqual`, the
  fast approximations of sqrt, ln, exp and pow, `Expo`, `Power`. The operators
  are IEEE 754 in the declared type (no excess precision, no contraction to fused
  operations), `long` has 64 bits, and a union gives the bit pattern of its other
  member. The library functions `exp` and `pow` are parameters.
* `src/utils_filesystem.cpp`: Linux branch: paths, text files, directory
  listing, cleaning, deletion. The operating system is a parameter, except in
  C138-C144, where it is a tree in which names are resolved (`PathModel`): no hard
  links, mounts, limits on names, or other processes.
* `src/utils_time.h/.cpp`: calendar, Julian days, formatting, scanning, file
  times, `DateTime`. Not modelled: counters of elapsed time, Windows branch.
* `src/db_mongoc.h/.cpp`: reading and appending of BSON values, names of GridFS
  buckets, files of a bucket; lifetimes of connections, databases, collections,
  buckets, files, documents and buffers (C131-C134), under the driver's documented
  contract. Not modelled: what queries return.
* `src/data_raster.hpp/.cpp`: cells, positions, NoData, reclassification,
  coordinates, statistics, copies, constructors, subsets, masks, ASC, GeoTIFF
  and GridFS input and output, ownership of arrays. Cell values, georeference
  and memory are modelled in separate files (`RasterModel`, `CoordModel`,
  `OwnModel`), each leaving out what the others treat. Not modelled: plain
  getters, console messages, the projection text inside masks.
* `apps/mask_rasterio.cpp`: the whole program, as calls of the library and a return
  value; what the library answers (files that exist, can be read, subset ids,
  connection) is an argument. Not modelled: messages; in C114 the subsets a masked
  raster takes over from its mask (C123-C127) are not followed through the tool.
* Concurrency: OpenMP loops only. Their sequential models take arbitrary orders or chunkings; C149 interleaves the single accesses of their bodies, which is all there is to say in C++ for loops without data races. Reading the loop bounds and pointers (unchanged in the loops) is not an access of C149. C150 lets threads use one raster through its getters and `SetValue`, C152 one mask for masking; other functions and several objects are not interleaved.

## 6. What the proofs found

Behaviour that differs from what callers would expect, each with a theorem:

* Positions and NoData: a raster without a valid cell cannot be destroyed once
  positions are computed (C55, C58); dropping NoData cells of layered rasters
  drops values of other layers (C22); `SetValue`/`GetPosition` on an emptied
  layered raster is undefined (C23).
* Memory: copying onto, giving positions to, or masking again a raster that
  borrows the positions of its mask releases the mask's arrays (C56);
  `SetPositions` leaks (C55); a single layer copied twice onto layers overruns
  an array (C55, C74); default copies of subsets release shared values twice
  (C85); copied values of subsets leak (C86); constructors with a coordinate
  system text release the caller's array (C87); the ASC reader overruns an array
  the caller passes (C80); copying an `Array2D` without elements is undefined and
  sizes beyond 32 bits overrun it (C89).
* Masks: coinciding sizes skip the removal of masked-out cells (C35), cells with
  own positions are shifted (C34), non-matching masks are accepted (C36).
  Values given with a mask are read at the wrong index (C40).
* Statistics are stale after updates (C39) and wrong outside the range of
  `float` (C16). Sums depend on the schedule unless they are exact (C15).
* Coordinates on the right and lower border are refused or assigned to a cell
  outside (C27).
* Subsets: combined output of original values always fails (C31), values of one
  layer in layered form are refused (C70).
* ASC: too few values are accepted (C45), NoData does not survive (C78), 8-bit
  cells are written as characters (C79), header numbers have six digits (C77),
  several layers mark missing cells by -9999 (C42).
* GeoTIFF: out-of-range floating cells are cast before they are refused, some
  unsigned rasters can never be written, small unsigned bytes come back signed
  (C46, C81).
* GridFS: default output of rasters built from arrays is undefined (C49); files
  of valid cells are placed by rank under any mask (C84); a changed option leaves
  the old file (C82); booleans of numbers are inverted (C50); dates near the
  epoch are lost (C51); names with dots are cut (C52). Writing
  subsets reports success when nothing was stored, and writing the original
  values of all subsets in one file is undefined (C91).
* Time: `Forward`/`Backward` ignore their argument (C13); the daylight saving
  correction breaks at month starts (C62); texts that do not match leave fields
  without value (C61).
* Strings and files: the empty text is a number (C57); five components make an
  IP address (C19); `FindFiles` lists others (C66); deletion reports success with
  files left (C67); the configuration file branch of the tool is never reached
  (C54).
* Layers from files: cells just left of or below another layer's lower left centre
  get NoData (C94); an unreadable file throws (C95); NoData values that are no
  float are taken as values (C96); a centre on the right edge of a layer reads
  outside the array (C97); names with underscores are cut (C98).
* Fast mathematics: the exponential is negative from 43.67 and undefined from 44.4
  on (C104); the power is undefined or negative when it does not fit (C106) and
  ignores the sign of its base (C107); the logarithm of a negative number is that
  of its magnitude (C102); the root of infinity is minus infinity (C100); `Power`
  makes squares of negative numbers negative (C109).
* UINT64 default NoData is out of range (C68); FloatEqual is no equivalence
  (C65).
* The raster tool: -out and -output together shift outputs (C111); options for
  default, NoData and table do not reach items (C112); decomposing to files writes
  nothing and returns 0 (C114); missing masks and inputs are passed over and
  unreadable inputs used through a null pointer (C116); the first item decides
  the source of all (C117).
* Arrays: a null array among several ends their release (C119); what the text
  writers write is not what the readers read (C121); missing and short texts leave
  elements unset (C122).
* Subsets of masks: under the mask's extent they keep indices of cells that were
  dropped (C124); when all cells match they keep the mask's windows and indices
  although the grid was trimmed (C126); data with fewer layers is read outside
  (C127). Rebuilding a subset (C125) also forgets its data without freeing it.
* Texts of numbers: `ftoa` keeps millionths only, so small numbers become zero
  (C129). `wtoa` and `atow` of a text that cannot be converted allocate an array
  of length zero and write without limit (C130).
* MongoDB objects: `GetCollection` of a missing collection loses the database,
  `QueryRecordsCount` its query, `GetFileNames` its query (`bson_init` on a document
  from the heap), a failed `ReadGridFsFile` its buffer, `delete` of a client its
  connection (C133). `GridFs()` never returns nullptr, so the tool's test for it
  never succeeds (C132). `GetFileNames` goes on without a bucket, `Init` asserts a
  numeric address although its comment says otherwise, copies of `MongoGridFs` and
  `MongoCollection` are destroyed twice, and destroying a client shuts down the
  driver for all (C134).
* Files by their names: suffixes other than those of the two formats are replaced
  without telling the caller, a bare file name that is not there yet is refused
  (C135); layers count from 0 in ASC files and from 1 in GeoTIFF files, but from 1
  in both from `OutputFullsizeToFiles` (C135). Values below NoData cells of the
  first layer are lost (C136). Dropped cells of several layers become -9999 in ASC
  files, bytes become characters (C137).
* Names and places: no directory can be made under the name of a link to nothing
  though nothing exists there (C138). `DeleteExistedFile` removes the target of a
  link and keeps the link, and removes empty directories (C139). ASC files are
  removed, then opened for appending, and a failing removal is not noticed: in a
  directory that may not be written the new grid goes behind the old one, the
  writer returns true, and the reader refuses the file or, if the numbers of cells
  differ, writes outside its array (C140). `GetAppPath` fails silently (C141).
* Whole directories: `DeleteDirectory` of a link removes the target and keeps the
  link, and always returns true (C142). `FindFiles` asks for the suffix of what the
  bare name leads to in the working directory, not in the directory listed (C144).
* Combining: `SetData` refuses a subset file with a NoData value inside the subset, and
  the program does not look at the answer: the whole subset becomes the default value.
  A file of the wrong shape with the right number of values is taken. Destroying
  the raster of a file without valid cells is undefined (C145).
* Log, exceptions, threads: a message with a line break can look like another entry
  (C146), and a class name with one like another class and function (C147).
  `SetDefaultOpenMPThread` asks `omp_get_num_threads`, which is 1 outside of parallel
  regions whatever was set: it replaces a number the program chose, and asks for 0
  threads on one processor (C148).
* Threads: none of the 25 parallel loops has a data race (C149). `GetStatistics` is a
  getter by name but calculates and writes on its first call, so that first calls in two
  threads race (C150).
* Reading from GridFS with a mask compares numbers of cells only: subsets of a mask with
  another number of columns are taken over and fit no cells (C151).
* Masking calculates the positions of the mask if it has none: two threads using the same
  new mask race, and one can get positions that are all zero (C152).
* `GetSrs` returns a pointer into a temporary string: every use of it is undefined (C153).
* `SetHeader` accepts any sizes and leaves the storage as it is: accepted rows, columns and
  layers are then read outside of the arrays. With another NoData value, stored NoData cells
  become ordinary cells with the old NoData value (C154).
* `long long` and `unsigned long long` are no cell types on 64-bit Linux, where `int64_t` is
  `long`: GeoTIFF output is refused, the default NoData value of the unsigned type is undefined (C155).
