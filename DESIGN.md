# Formal model of instaclustr/atsc in Rocq (Coq 8.16.1)

## Approach

The code under `/repo` is modelled function by function as total Gallina functions.

* A panic (`unwrap`, `todo!`, index out of bounds, division by zero, overflow in a build with
  overflow checks) is the explicit value `Panic` of the result type `res`; `Result`/`Option` stay
  data. `PFuel` is never produced by Rust: it marks exhausted recursion fuel, and the theorems that
  state success exclude it.
* `f64`/`f32` are Flocq's IEEE-754 `binary64`/`binary32` **with NaN payloads**; every arithmetic
  operation is the IEEE round-to-nearest-even one, casts are Rust's saturating ones.
* Integers are `Z`; fixed widths are explicit (`arith_s`, `arith_u`, `wrap_s`, `wrap_u`) wherever the
  code can wrap, truncate or overflow, with the build profile (`Dev` / `Release`) as a parameter.
* Bytes and characters are `Z` in `[0,256)`.
* A file system is a function from file names to optional contents; the tools return the new one and
  how they ended (normally, with an error, by a panic).

Layout of `rocq/theories`: `Base.v`, `Model_*.v` (definitions only, each citing file and lines),
`Spec*.v` (small independent vocabulary used in statements), `*Facts.v` and `VsriLookup.v` (proofs),
`Props_*.v` (the property theorems, with `Print Assumptions` and non-vacuity `Example`s), `Tests.v`
(the model evaluated on the literals of the repository's own unit tests).
Names: `Cnn_...` belongs to property Cnn; `..._refuted` proves that the stronger claim one would
expect is false of the code, by a witness.

## Per-property plan

| id | modelled | proof |
|---|---|---|
| C01, C02, C03 | bincode encoders/decoders, header, frame, stream | parser round-trip lemmas composed (`codec`); prefix rejection by induction on the grammar |
| C04 | header counter with build profile | induction over additions |
| C05 | noop with Flocq `round`, saturating casts | Flocq correctness theorems |
| C06, C07, C08, C09 | `split_n` on bit patterns, statistics fold, constant and RLE codecs | bit-level lemma linking `split_n` to the real value; run decomposition and sorting uniqueness |
| C10, C11, C12 | optimiser plan, utils | fuel induction, arithmetic |
| C13, C14, C15 | whole pipeline of `main.rs` | composition of the above |
| C16, C17, C18, C19 | polynomial/IDW compressor, spline sampling | clamp lemma for any interpolator; grid induction; loop invariant over rounds; exactness of integer arithmetic in binary64 |
| C20, C21 | automatic selection | case analysis, minimum lemma; witness |
| C22 | metrics as folds over binary64 | sign reasoning on Flocq operations |
| C23-C26, C44, C45 | FFT bookkeeping; transform and heap order arbitrary | list updates, permutation arguments, loop invariant |
| C53 | error.rs metrics over Flocq doubles, against exact means over the reals (Spec_Metric.v) | forward error analysis by induction over the sum (AccuracyFacts.v) |
| C54, C55 | the whole command line path | C18 / C44 per chunk + C53 + the padded length is at most 6/5 of the chunk |
| C56, C57 | every encoder and decoder, streams, payloads | `Spec_Wire.v` is a grammar of the format written without the encoders; each decoder is shown to accept exactly the grammar (sound and complete, compositional in bind / vector), each encoder to write its unique shortest spelling |
| C58 | `frame_decompress`, `stream_decompress` on arbitrary payloads | length of every expansion path; `map_res` over append |
| C59 | FFT compression with a bound, chunking, decompression | the loop's exit analysed from its permille comparison (`permille_stop`), the measured error transferred from the padded data to the chunk and from computed to exact reals (`fft_measured`, `mape_accuracy`); assumes of the third-party code `no_overflow` (transforms of moderate input are finite) and `zeros_last` (the heap hands out non-zero frequencies first), both written next to the theorem |
| C60 | IDW frames, chunking, decompression | as C20/C55 for polynomials, with the crate's interpolation as an assumption `idw_interpolates` (bounded, and equal to the point's value at a point) |
| C61 | `round_f64`, `round_and_limit_f64` with the i32 power, `f64_to_u64` | Flocq: one rounding of the product, nearest integer, one rounding of the quotient; case analysis on infinities and NaN for the limits |
| C62 | FFT decoding in real numbers; frames that store every non-zero bin; bounded compression of short chunks | error of the f32 division and of five-decimal rounding (`fft_scaled_value`), clamping is 1-Lipschitz (`limited_near`), mirrored spectrum of C26 equals the transform when every bin is stored (`full_spectrum`); assumes of the transforms that real data gives a conjugate-symmetric spectrum and that the inverse is accurate to `delta` |
| C63 | `PartialEq`/`Ord`/`PartialOrd` of `FrequencyPoint` with an abstract norm (accurate to `eps`), std's max-heap as any function that returns a sorted permutation | comparison of keys through Flocq's real values; sortedness carried from the heap to the stored prefix (`pop_freqs`); NaN by computation |
| C64 | file operations of a call one by one (`Model_Disk`): create, positioned write; a process stopped before, between or within them | the operations, run to the end, are the call (`C64_operations`); inversion of `stopped`; C02's torn-stream refusal for a strict beginning; witness for the zero-filled `.wbro` |
| C65 | the same for csv-compressor, whose calls write up to three files | induction over sequences of whole-file writes (`whole_files`), whose creates erase every earlier difference; witness with index ahead of the values |
| C66 | any number of compress/uncompress calls of atsc on one file, as an inductive relation over the file system of C49 | invariant over cycles (`cycles_settle`): a class of series reached by the first cycle and kept by the next; for Constant the class is per chunk of the plan, which later cycles cut at the same places; the drift of lossy cycles is computed on twelve integers and carried to exact real errors by C53 |
| C67 | reading a whole file (header, frames, decompression) | the counter byte is dropped by reading (case split on the header checks); the frame size is not an argument of decompression; trailing bytes by the byte-level characterisation of C57; a constant frame is written out byte by byte for the damaged value and for the small file announcing n samples |
| C68 | the two error-control loops run twice, with two bounds; the file as the sum of its frames | relational induction over the loops: both runs share every round until the run with the larger bound stops; the other one can only go on to more frequencies (a prefix argument on the heap's pops) or a finer grid (the number of grid points decreases with the step); wire lengths are monotone; the counterexamples are computed |
| C69 | the chunk plan, the frames of a run, the decompression of a stream frame by frame | the output of a run is the concatenation of a function of each chunk; the plan depends on the number of finite samples only, and a prefix of whole blocks is planned on its own (the planning loop unrolled k times); list splitting does the rest |
| C70 | bounded Fourier compression and decompression, against the discrete Fourier transform over the reals (`Spec_Fourier.v`) | inversion and Parseval proved from the sums of roots of unity (FourierFacts.v); the stored spectrum is the folded kept part of the computed transform (C62); a greedy choice of the largest bins (C63) is within a factor of two because only the bins 0 and N/2 count once. The accuracy of the third-party transforms enters as the hypotheses `forward_accurate` and `inverse_accurate` |
| C71 | csv-core's state machine and the three readers | `Spec_CsvTable.v` defines the texts of a table (quotes, blank lines, line ends) and of an integer as inductive relations; the tokeniser inverts the former, the integer parser is shown equivalent to the latter, and the readers to exact conditions on the table |
| C72 | every model function with a build-profile argument | relational induction over the two profiles: `follows` (a panic may become anything, a result stays) is a congruence of bind, map and the loops; equality when no counter reaches its width; the differing inputs by evaluation |
| C73 | `Model_Cli.process_directory`, and `Model_DiskDir.ops_directory` with its single disk operations | induction over the listing: a call's effect depends only on its input file and touches only its output, outputs and inputs are disjoint (last-dot uniqueness of names); interruption by `in_order` and erasure as for C64/C65 |
| C74 | `Model_Cli.csvc_process_args` both ways, `Model_Vsri.get_time`, the CSV reader and writer | `Spec_Segments.v` defines the segmentation of a list of times by maximal runs; the index is shown to have exactly these segments (C29_segments, by adding one point at a time) and the specification to determine them; the time attached to row k is the line of its segment at k, compared with the true time |
| C75 | `Model_Vsri`, `Model_Csvc` metric functions, `csvc_process_args` both ways | `Spec_Seconds.v`: the segments and the number of uncounted points as an inductive relation over the points; Props_Seconds.v: induction over appended points for the index, then get_time on it, the pairing of times and values and the tool on the file system model |
| C76 | `Model_Polynomial` decompression with the spline crate's `sample`, `lerp`, `cubic_hermite` and key search | `Spec_Spline.v`: the curve as a relation (chord, or a cubic given by its end values and slopes) over the reals; SplineValueFacts.v: forward error analysis of the interpolation formulas, the key search returns the segment around the position, uniqueness of the Hermite cubic; Props_Spline.v puts them together through the final rounding and limiting |
| C77 | `Model_Polynomial` both ways, `calculate_error`, `Model_Stream` selection and file format | `Spec_Lines.v`: steady series; Props_Lines.v: the curve of C76 through values near a line stays near the line, so rounding to five decimals gives the decimal fraction back; hence the error loop sees 0 (or NaN) and stops after its first round; sizes of the encodings, chunks of a steady series are steady |
| C78 | `Model_Compressors` run lengths, `Model_Stream` selection and file format | `Spec_Runs.v`: number of changes of a series; Props_Runs.v: one run per change and one more, at most 18 bytes each with their share of the group headers; changes add up over chunks; the automatic choice is no longer than the run-length frame (C20) |
| C79 | `Model_Cli` (both tools), both CSV readers of `Model_Csv` | Props_Interop.v: whatever the serde reader accepts (one timestamp, one value column, full rows) the header reader of the library reads to the same values; the metric's samples are the values (C36 chunks), so both tools hand the same series to the same compress_data; file round-trip C37 |
| C80 | `Model_Args` (clap 4.5 for the Args structs of both tools) | Spec_Args.v spells command lines as an inductive relation from uses to words; Props_Args.v: the word-by-word parser accepts exactly these (both directions, induction over the words), and the settings are the values of the uses; the parser is clap's, modelled from its documentation, not from source in /repo |
| C81 | `Model_Command` (main and process_args of both tools; panics are status 101) on top of `Model_Args` and `Model_Cli` | Props_Command.v: case analysis of the calls for the statuses; sessions from C49, C50 and C55 through C80 |
| C82 | `Model_Number`: `str::parse::<f64>` and ryu's printing as executable functions (`std_numbers`), used for the `number_text` parameter of the CSV readers and writers | `Spec_Number.v`: decimal texts and the reals they write; NumberFacts.v: the reader accepts exactly the grammar and rounds correctly (Flocq division); PrintFacts.v: the shortest-digits search finds a text read as the same double; Props_Number.v: sessions from C49, C50, C14 and C71 |
| C83 | `set_extension` of `Model_Cli` on whole paths (std's components from the back), `join` of `Model_Command` (DirEntry::path) | Props_Path.v: shape of the changed path; the directory session from C73 and C55 |
| C84 | `utf8` of `Model_Utf8` (core's run_utf8_validation), its use in `collect_samples`, `read_samples_with_headers`, `collect_deserialized`; `deserialize_positional` | Spec_Utf8.v: encoding of scalar values; Utf8Facts.v: the check accepts exactly those; CsvTextFacts.v: the reader copies the bytes of a character together; Props_Text.v |
| C85 | `Model_Verbose`: Rust's `Debug` for f64 and Vec (`debug_f64`, `debug_vec`; shortest search shared with ryu's in `Model_Number.shown`), process_single_file, process_directory and main with what is printed | `Spec_Verbose.v`: a bracketed series of numbers that read back; VerboseFacts.v: layouts write the number, the notation by magnitude, separating at commas is unambiguous; Props_Verbose.v: the printed line against `file_samples` / `decompress_data` / the x.wbro written, induction over the listing; effects equal those of C81's command. Standard output is taken to accept everything |
| C86 | `Model_Refusal`: every call to the operating system is answered from a list (all, a part, interrupted, refused); create, write_all, fs::write, write_at, BufWriter and csv::Writer with their drops, the two tools on top | `Props_Refusal.v`: induction over the answers for the writers; a call is reading, making the bytes, writing them; induction over the directory with the retry; refutations by explicit answers |
| C87 | `Model_Parallel`: calls as phases (before looking, with these file operations still to do), interleaved in any order, writes in pieces; a call looks at its inputs in one step (simplification), directory runs are not covered | `Props_Parallel.v`: what a call does depends on its inputs and concerns its outputs only, invariant per call kept by own and foreign steps; stages of two writers of one file; refutation by an explicit interleaving |
| C88 | `Model_WavTool`: wav2wbro's Args through the same clap model, main with exit status, and main on a disk that may refuse (hound's reading has three possible fates: everything, not opened, broken off) | `Props_WavTool.v`: the grammar of C80 for its options; recorded doubles as groups of words; composition with C81 for the session; refutations by general constructions |
| C89 | `Model_History`: a program's acts on one stream (chunk calls whose panics are caught, to_bytes/from_bytes with bytes after, decompress) and what it sees | `Props_History.v`: invariant over the history (stream = frames of the calls that can succeed, counter per build), promises from C05-C07, C54, C55, C60 per call; C01 for write-out/read-in |
| C90 | `Model_IndexAny`: `Vsri::load` on any bytes — `lines()` (UTF-8 check per line), `str::trim` (Unicode white space), `parse::<i32>`, the `unwrap`s in file order; csv-compressor's `--uncompress` with it | `Props_IndexAny.v`: from the UTF-8 decoding of C86 and the line structure of C34; grammar and first-wrong-line both ways, and agreement with the ASCII model on ASCII files |
| C91 | `Model_ParallelDir`: the loop of `process_directory` as steps (is_file, the operations of process_single_file, the second try), next to the calls of `Model_Parallel` | `Props_ParallelDir.v`: what a call still comes to by itself is invariant under its own steps and, by locality, under the others' |
| C92 | `Model_Parallel`, any number of copies of one call | `Props_SameCall.v`: invariant — some call that has created the file has its first k bytes in place and still has to write from k on |
| C09, C53 (additions) | `st_mean`; `error_smape`, `error_nmsqe` | running error of a signed sum (`sum_error`); quotient of two sums with relative errors (`ratio`, `approx_round`) |
| C27-C33, C35, C52 | VSRI state machine over i32 with build profile | invariants by induction over histories; witnesses by computation |
| C34 | decimal text format, file load/flush | print/parse round-trip |
| C36-C38 | WavBrro structure, rkyv byte layout, positioned writes with the OS's answers as inputs | induction over chunks |
| C39, C40 | Metric, second-of-day | composition with the VSRI invariants |
| C41, C49, C51 | `process_directory`, `process_single_file` on a file map | induction over the entries; composition of C14/C47 with C37 |
| C42, C48 | csv-core's state machine, both CSV readers, the CSV writer | the writer's text is tokenised back (induction over characters) against an independent relation in `Spec_Csv.v` |
| C43 | wav2wbro on the 16-bit samples hound delivers | bit arithmetic |
| C46 | sizes of every encoder | length bounds composed |
| C47 | automatic selection with error 0 | C18/C44 loop exits plus exactness of 5-decimal rounding |
| C50 | csv-compressor main | composition of C48, C39, C29/C31, C34, C14/C47 |

## Trusted base

1. Coq 8.16.1's kernel, its `vm_compute` machine (used for concrete witnesses and a few finite
   checks), and the reader's trust in the statements (`Spec*.v`, `Props_*.v`) and in the model
   (`Model_*.v`).
2. Axioms. `Print Assumptions` of every theorem is recorded in `ASSUMPTIONS.md` (generated by
   `tools/assumptions.py`). A theorem either is closed under the global context, or depends on
   exactly these four axioms of the standard library, which come in with the reals used by Flocq:
   `ClassicalDedekindReals.sig_forall_dec`, `ClassicalDedekindReals.sig_not_dec`,
   `FunctionalExtensionality.functional_extensionality_dep`, `Classical_Prop.classic`.
   The development adds none. Flocq is the only library beyond the standard one.
3. What the model takes from code outside `/repo` (whose source is not available here):
   * **bincode 2.0.0-rc.3**, `config::standard()`: its documented wire format (varints, zig-zag,
     little-endian floats, length-prefixed vectors). Allocation failure on absurd lengths is not
     modelled.
   * **rkyv 0.7**: the archive layout of `WavBrro`, checked by hand against the byte literals of
     `wavbrro.rs:222-233` (see `Tests.v`/`Props_Wavbrro.v`); validation is modelled by its bounds and
     alignment checks only, so the model may accept a malformed archive the code refuses.
   * **splines 4.3.1**: `clamped_sample` for Linear and Catmull-Rom keys, modelled from its published
     source as remembered; of two published variants of the tangents, the one that reproduces the
     expected values of the repository's unit test.
   * **inverse_distance_weight**, **rustfft**, **BinaryHeap**'s order of equal elements: arbitrary
     functions over which the theorems quantify (`env`). Theorems that need it state `env_ok`: the
     transforms preserve the length, and the heap returns each element exactly once. C59 also assumes
     `no_overflow` and `zeros_last`, C60 `idw_interpolates`; each is inhabited by an example.
   * **csv-core/csv/serde**: the tokenizer's state machine, record handling and the UTF-8 check of each field (`str::from_utf8`, Model_Utf8.v).
   * **f64 <-> text** (std, ryu): two arbitrary functions (`number_text`); theorems that need it state
     that the parser inverts the printer. C82 instantiates them with `std_numbers` (Model_Number.v), the
     documented behaviour of `str::parse::<f64>` and of `ryu::Buffer::format` as executable functions: trusted
     to be what the two libraries compute (except for exponents beyond 65536 in texts longer than that). Likewise
     `debug_f64` (Model_Verbose.v) for core's `Debug` of f64, used by C85 only.
   * **chrono**: the range of `DateTime::from_timestamp` and time of day as Euclidean remainders.
   * **hound**: an arbitrary function from bytes to channel count and 16-bit samples.
   * **The operating system**: writes are complete and creating files does not fail (except in C38 and C86, which are about
     short and refused calls, and in C64 and C65, where the process stops anywhere; the operating system itself keeps running,
     so completed writes stay; what BufWriter and csv::Writer do with errors is modelled from their documentation and source as known); directory listing yields arbitrary names in arbitrary order.
   * **NaN payloads** produced by arithmetic are Flocq's default choice; Rust leaves them unspecified.
     `f64::round`, `powi(2)` and `Iterator::sum` follow Rust 1.81's library (`rust-toolchain.toml`).

## Which code is modelled

| file | modelled | not modelled |
|---|---|---|
| atsc/src/compressor/mod.rs, noop.rs, constant.rs, rle.rs | all functions | debug output |
| atsc/src/compressor/polynomial.rs | all functions | `Decode` beside `BorrowDecode` (same body) |
| atsc/src/compressor/fft.rs | all functions; rustfft and the complex norm as parameters | planner caching |
| atsc/src/frame/mod.rs, header.rs, data.rs | all functions | |
| atsc/src/optimizer/mod.rs, utils.rs | all functions except the dead paths named in the comments | `get_compressor`'s never-run iterator |
| atsc/src/utils/mod.rs, error.rs, readers/bro_reader.rs | all functions | |
| atsc/src/csv.rs | all functions | – |
| atsc/src/main.rs | process_args' file handling, compress_data, decompress_data, Args (the options; clap itself from its documentation) | clap's messages, logging |
| vsri/src/lib.rs | all functions | `index_file` names, logging |
| wavbrro/src/*.rs | all functions | overlap checks of rkyv validation |
| csv-compressor/src/*.rs | all functions, Args (the options; clap itself from its documentation) | clap's messages, logging |
| tools/src/bin/wav2wbro.rs | all functions, Args | hound, non-UTF-8 words |

File names are whole paths (Unix); two different paths are taken to be two different files (no links, no second spelling of a path),
and directories exist where files are written. No process uses threads or locks; several calls at the same time are the subject of C87.

## Not expressible / not modelled

* Compression ratio, speed, memory consumption (except the size bound C46).
* Logging, `env_logger`; of clap its messages, non-UTF-8 words and everything the two Args structs do not use. What Model_Args says about clap is
  trusted: clap is not in /repo.
* Numerical quality of rustfft (its output is an arbitrary list of the right length; C62 and C70 take its accuracy as a hypothesis).

## Findings (claims a user would expect that are false of the code)

Each is a theorem with suffix `_refuted` or an explicit witness: RLE/constant corrupt values of
magnitude 2^64 or below 2^-64 (C06, C07); the 256th frame panics or wraps the counter (C04); a series
without finite samples compresses to a file the reader refuses (C15, C49, C50); polynomial frames that
store everything are not exact for fractional data with more than five decimals (C19); the sampling
level loses the error bound (C21); FFT positions of the largest frames wrap to 16 bits (C23);
unbounded FFT compression uses another transform size than decompression (C45); FFT reports error 0
for a range that collapses in single precision (C44); the symmetric error is at most 1/n instead of up to 1 (C53);
rounding to 32 or more decimals gives NaN in release builds (C61); VSRI: division by zero on single-sample segments
(C30), wrong times in later segments (C31), wrong next sample (C32), wrong emptiness (C33), torn files
load silently (C34), overflow with repeated seconds (C52), lost samples with repeated seconds (C28,
C39); short writes truncate .wbro files silently (C38); a directory run aborts at the first foreign
file, in particular at its own output (C41); files that differ in the extension overwrite each other's
output (C51); a NaN norm breaks the order of frequencies (C63); an interrupted decompression can leave a `.wbro` that reads
as empty (C64); an interrupted csv-compressor call can pair new times with old values (C65); lossy compression of its own output drifts past the allowed error (C66); files carry no integrity check, the frame counter is never compared with the frames, and 25 bytes can announce any number of samples (C67); a larger allowed error can give a larger polynomial file (C68); appending to a series that does not fill its last block changes what its earlier samples read back as (C69). An output cut short by an interrupted decompression run aborts later runs over the same directory (C73); after the first irregular gap csv-compressor's uncompressed times are late, possibly out of order and beyond the day (C74). A CSV file with four samples in one second followed by a later one is compressed without complaint, and `csv-compressor --uncompress` then panics (C75). The CSV files csv-compressor writes are refused by `atsc --csv` with its default field names (C79); the default error is 3 where README and docs/usage.md say 5, and their list of compressors lacks rle (C80); uncompressing a file that is no compressed one exits with 0 without doing anything (C81). CSV cells inf and nan, and numbers from 2^1024 - 2^970 on, are accepted and silently dropped, so that the later samples move up (C82). On a full disk `atsc -u` and `csv-compressor -u` can exit with 0 and leave torn .wbro and CSV files (short positioned writes; a CSV writer that is never flushed), and a directory whose entries cannot be examined is skipped with status 0 (C86). Two concurrent `atsc -u` calls for the same .wbro file can both end well and leave a readable mixture of the two series (C87). `wav2wbro --validate` reports a mismatch exactly when there is none, and an input the WAV library cannot open silently replaces the output by an empty series (C88). In a debug build the chunk call that overflows the frame counter panics after its chunk has been added (C89). csv-compressor forgets the column names, and takes columns 1 and 2 for timestamps and values, if the header row is not UTF-8 (C84).

## Mutation tests

`tools/mutate.py` applies an edit to a scratch copy of the model, rebuilds everything that still
builds, and reports the lemmas that fail and the property files that cannot be built. The outcomes are
in `seeded/LOG.jsonl`.
