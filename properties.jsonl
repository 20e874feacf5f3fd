{"id": "C01", "title": "Stream serialisation round-trip", "statement": "Serialising a compressed stream to bytes and parsing those bytes back yields the same header (version, frame count) and the same frames (frame size, sample count, compressor, payload), whatever bytes follow the stream.", "quantifier": "every stream with version <= 1, any number of frames, any payload bytes, any trailing bytes", "why_tests_cant": "The payload sizes cross four varint widths (251, 2^16, 2^32) and every combination of frames; tests use one 3-byte frame.", "anchors": ["atsc/src/data.rs:CompressedStream::to_bytes", "atsc/src/data.rs:CompressedStream::from_bytes", "atsc/src/header.rs:CompressorHeader", "atsc/src/frame/mod.rs:CompressorFrame"]}
{"id": "C02", "title": "Foreign, newer and truncated streams are refused", "statement": "Parsing refuses (panics) any input shorter than the 9-byte header, any input whose first four bytes are not BRRO, and any header version above 1; and it refuses every strict prefix of every valid stream, so a torn file is never silently read as a shorter series.", "quantifier": "every byte string; every stream and every cut position", "why_tests_cant": "The cut position ranges over every byte of every file.", "anchors": ["atsc/src/header.rs:CompressorHeader::from_bytes", "atsc/src/header.rs:verify_header_versions", "atsc/src/data.rs:CompressedStream::from_bytes"]}
{"id": "C03", "title": "Integer, float and vector wire format round-trips", "statement": "Each wire encoding (u8, varint u16/u32/u64/usize, zig-zag i16/i32/i64, f32, f64, vectors, enum tags) decodes to exactly the encoded value and leaves exactly the following bytes; every encoding is a byte string of the documented length.", "quantifier": "every value of each type, any following bytes", "why_tests_cant": "2^64 integers and arbitrary nesting of vectors.", "anchors": ["atsc/src/compressor/mod.rs:BinConfig", "bincode 2.0.0-rc.3 config::standard()"]}
{"id": "C04", "title": "Header frame counter", "statement": "After any sequence of chunk additions the header's frame counter equals the number of frames as long as there are at most 255; the 256th addition panics in a build with overflow checks and wraps the counter to 0 in a release build, in which the frames themselves still decode.", "quantifier": "every sequence of chunk additions, both build profiles", "why_tests_cant": "The limit needs 256 frames (over 33 million samples through the CLI).", "anchors": ["atsc/src/header.rs:CompressorHeader::add_frame", "atsc/src/data.rs:CompressedStream::compress_chunk_bounded_with"]}
{"id": "C05", "title": "Noop stores nearest integers", "statement": "Compressing any non-empty series with the no-op compressor and decompressing gives, sample by sample, the nearest integer (ties away from zero) of each finite sample below 2^63 in magnitude; infinities and larger values saturate to the i64 limits, NaN becomes 0. In particular integer-valued samples below 2^63 in magnitude come back numerically equal.", "quantifier": "every series of doubles", "why_tests_cant": "2^64 bit patterns per sample, with ties, signed zero, saturation and NaN.", "anchors": ["atsc/src/compressor/noop.rs:Noop::optimize", "atsc/src/compressor/noop.rs:noop", "atsc/src/compressor/noop.rs:noop_to_data"]}
{"id": "C06", "title": "Constant frames are lossless", "statement": "A series whose samples are all numerically equal to one finite value that is zero or has magnitude in [2^-64, 2^63) is returned exactly (numerically) by the constant compressor, for any length; values outside that range are not (witnesses at 2^64 and 2^-65).", "quantifier": "every length and every double in the range", "why_tests_cant": "All doubles; the failing bands (tiny, huge) are not in any test file.", "anchors": ["atsc/src/compressor/constant.rs:constant_compressor", "atsc/src/compressor/constant.rs:constant_to_data", "atsc/src/optimizer/utils.rs:split_n"]}
{"id": "C07", "title": "RLE is lossless", "statement": "Run-length compressing and decompressing returns, sample by sample, a numerically equal series, for every non-empty series whose samples are zero or have magnitude in [2^-64, 2^63); outside that range it can silently corrupt data (witness).", "quantifier": "every such series, any length and any run structure", "why_tests_cant": "Run structure, repeated values and bit widths interact; only a handful of literals are tested.", "anchors": ["atsc/src/compressor/rle.rs:IndexRLE", "atsc/src/compressor/rle.rs:rle_compressor", "atsc/src/compressor/rle.rs:rle_to_data"]}
{"id": "C08", "title": "Sample width selection is safe", "statement": "When the analysis of a series recommends storing samples as u8, i16 or i32, every sample of the series is an integer that fits that type, for series in the supported range; and it recommends f64 whenever a sample has a fractional part.", "quantifier": "every series of doubles in the supported range", "why_tests_cant": "All doubles and all mixtures of ranges and signs.", "anchors": ["atsc/src/optimizer/utils.rs:DataStats::new", "atsc/src/optimizer/utils.rs:DataStats::bitdepth", "atsc/src/optimizer/utils.rs:split_n"]}
{"id": "C09", "title": "Series statistics are correct", "statement": "The reported minimum and maximum are samples of the series and bound every sample; the reported locations point at (the first occurrence of) those samples. The reported mean, when finite, is the exact mean up to (n+2)*2^-52 of the mean absolute value, and it is finite when no sample exceeds 2^900.", "quantifier": "every non-empty series of finite doubles", "why_tests_cant": "All series.", "anchors": ["atsc/src/optimizer/utils.rs:DataStats::new"]}
{"id": "C10", "title": "Chunk plan partitions the data", "statement": "The optimiser's plan covers the cleaned series exactly: the chunk sizes are positive, at most 131072, sum to the number of cleaned samples, each is a power of two unless it is the last one (then at most 512), and the slices handed to the compressors concatenate to the cleaned series in order, one compressor per chunk, without ever going out of bounds.", "quantifier": "every series length", "why_tests_cant": "Every length up to memory limits; off-by-one errors live at powers of two and multiples of 131072.", "anchors": ["atsc/src/optimizer/mod.rs:OptimizerPlan::plan", "atsc/src/optimizer/mod.rs:OptimizerPlan::get_chunks_sizes", "atsc/src/optimizer/mod.rs:OptimizerPlan::get_execution"]}
{"id": "C11", "title": "Cleaning removes exactly NaN and infinities", "statement": "The cleaned series is the subsequence of finite samples, in order and bit-for-bit; a series without NaN or infinity is unchanged.", "quantifier": "every series of doubles", "why_tests_cant": "Arbitrary mixtures.", "anchors": ["atsc/src/optimizer/mod.rs:OptimizerPlan::clean_data"]}
{"id": "C12", "title": "prev_power_of_two and next_size", "statement": "prev_power_of_two(n) is the greatest power of two not above n (0 for 0) for every 64-bit n; next_size(n) is the least number strictly above n of the form 2^a*3^b, and the search always terminates.", "quantifier": "every 64-bit n", "why_tests_cant": "2^64 inputs, and termination of an unbounded search.", "anchors": ["atsc/src/utils/mod.rs:prev_power_of_two", "atsc/src/utils/mod.rs:next_size", "atsc/src/utils/mod.rs:is_decomposable"]}
{"id": "C13", "title": "Sample count is preserved", "statement": "For every compressor, decompressing a compressed series yields exactly as many samples as the cleaned input, through the whole plan/compress/serialise/parse/decompress pipeline.", "quantifier": "every series, every compressor choice, error level and sampling level", "why_tests_cant": "All lengths cross chunking, Gibbs padding and interpolation grids.", "anchors": ["atsc/src/main.rs:compress_data", "atsc/src/main.rs:decompress_data", "atsc/src/compressor/mod.rs:Compressor::decompress"]}
{"id": "C14", "title": "End-to-end lossless path", "statement": "Compressing any series with the RLE compressor through the CLI's compress_data and decompressing the bytes gives the cleaned series back, numerically equal sample by sample (supported range); with noop it gives every finite sample rounded to the nearest integer.", "quantifier": "every series, any number of chunks", "why_tests_cant": "All series and chunk layouts.", "anchors": ["atsc/src/main.rs:compress_data", "atsc/src/main.rs:decompress_data"]}
{"id": "C15", "title": "Empty series", "statement": "Compressing a series with no finite sample produces a 10-byte stream that the library parses back to the empty series, but which the file reader (needs 12 bytes) refuses; every stream with at least one frame is long enough for the file reader.", "quantifier": "every series", "why_tests_cant": "The file-length threshold depends on every frame's payload length.", "anchors": ["atsc/src/utils/readers/bro_reader.rs:is_bro_file", "atsc/src/main.rs:process_single_file"]}
{"id": "C16", "title": "Interpolated output stays in range", "statement": "Every sample returned by a polynomial or IDW frame, whatever the interpolator computes, is either NaN or lies between the frame's stored minimum and maximum; for a frame produced by compression these are the minimum and maximum of the original samples.", "quantifier": "every series, every interpolation result", "why_tests_cant": "The interpolant's values are unconstrained (overshoot).", "anchors": ["atsc/src/compressor/polynomial.rs:Polynomial::polynomial_to_data", "atsc/src/compressor/polynomial.rs:Polynomial::idw_to_data", "atsc/src/utils/mod.rs:round_and_limit_f64"]}
{"id": "C17", "title": "Interpolation grid agreement", "statement": "The grid positions the decoder rebuilds from the stored step and the sample count are exactly the positions the encoder sampled: same number, same order, first position 0, last position n-1, strictly increasing; and the step chosen by compress / compress_bounded always fits the one-byte field, whereas compress_hinted with too few points can overflow it (witness).", "quantifier": "every series length, every compression path", "why_tests_cant": "Every length; the one-byte step field wraps silently.", "anchors": ["atsc/src/compressor/polynomial.rs:Polynomial::compress_hinted", "atsc/src/compressor/polynomial.rs:Polynomial::get_positions"]}
{"id": "C18", "title": "Polynomial error control", "statement": "Bounded polynomial/IDW compression terminates after at most 23 rounds; on exit either every sample is stored, or the reported error is exactly the error metric of what the decompressor will return and its 4-digit rounding does not exceed the bound rounded to 3 digits, or the metric is NaN; the last case does occur when a zero sample is reproduced exactly, and then the bound is not enforced (witness).", "quantifier": "every series and bound", "why_tests_cant": "The loop runs on floating point data; NaN escape needs a particular series.", "anchors": ["atsc/src/compressor/polynomial.rs:Polynomial::compress_bounded", "atsc/src/compressor/polynomial.rs:polynomial_allowed_error"]}
{"id": "C19", "title": "Stored-everything frames reproduce integer data", "statement": "When a Catmull-Rom polynomial frame stores every sample of an integer-valued series (|x| < 2^31), decompression returns every sample exactly; for fractional data rounding to 5 decimals makes this false although the error is reported as 0 (witness).", "quantifier": "every such series", "why_tests_cant": "Floating point evaluation of the spline at every knot.", "anchors": ["atsc/src/compressor/polynomial.rs:Polynomial::polynomial_to_data", "atsc/src/compressor/polynomial.rs:Polynomial::compress_bounded"]}
{"id": "C20", "title": "Automatic selection", "statement": "With automatic selection and a non-negative bound, compression never panics on a non-empty finite series; without sampling the chosen candidate's reported error is within the bound and its payload is no larger than any other candidate whose reported error is within the bound; a constant series always becomes a constant frame.", "quantifier": "every series, bound and sampling level", "why_tests_cant": "Depends on the outcome of three compressors on arbitrary data, NaN errors included.", "anchors": ["atsc/src/frame/mod.rs:CompressorFrame::compress_best"]}
{"id": "C21", "title": "Sampling level does not preserve the error bound", "statement": "With a sampling level above 0 the compressor is chosen on a prefix only; the frame's error on the full chunk is not checked (what is guaranteed: the chosen compressor met the bound on the sampled prefix).", "quantifier": "every series and sampling level", "why_tests_cant": "Needs adversarial tails.", "anchors": ["atsc/src/frame/mod.rs:CompressorFrame::compress_best"]}
{"id": "C22", "title": "Error metrics", "statement": "Each metric panics exactly when lengths differ; MAE, MSE, MAPE of a series against itself are 0 (MAPE: NaN as soon as a sample is zero); metrics are never negative.", "quantifier": "every pair of series", "why_tests_cant": "All doubles incl. NaN, infinities, zero denominators.", "anchors": ["atsc/src/utils/error.rs:error_mape", "atsc/src/utils/error.rs:error_mae", "atsc/src/utils/error.rs:error_mse", "atsc/src/utils/error.rs:error_smape", "atsc/src/utils/error.rs:error_nmsqe"]}
{"id": "C23", "title": "FFT frequency bookkeeping", "statement": "Every stored frequency keeps the position and value of the transform bin it came from, positions are distinct, at most the requested number is stored, and none is zero - provided the (padded) frame has at most 131070 samples; for larger frames (the maximum chunk 131072 pads to 139968) bin positions wrap modulo 65536 (witness).", "quantifier": "every transform result, frame size and frequency budget", "why_tests_cant": "Needs frames above 131071 samples; heap order on arbitrary norms.", "anchors": ["atsc/src/compressor/fft.rs:FFT::fft_trim", "atsc/src/compressor/fft.rs:FrequencyPoint"]}
{"id": "C24", "title": "Gibbs padding is undone", "statement": "Padding keeps the samples contiguous, extends with the first and last value up to the next 2^a*3^b size, and decompression removes exactly the padding: the number of returned samples is the frame's sample count.", "quantifier": "every series length", "why_tests_cant": "Every length.", "anchors": ["atsc/src/compressor/fft.rs:FFT::gibbs_sizing", "atsc/src/compressor/fft.rs:FFT::to_data"]}
{"id": "C25", "title": "FFT output stays in range", "statement": "Every sample returned by an FFT frame, whatever the inverse transform computes, is NaN or lies between the stored single-precision minimum and maximum.", "quantifier": "every inverse transform result", "why_tests_cant": "The inverse transform's output is unconstrained.", "anchors": ["atsc/src/compressor/fft.rs:FFT::round", "atsc/src/compressor/fft.rs:FFT::to_data"]}
{"id": "C26", "title": "Mirrored spectrum is conjugate-symmetric", "statement": "The full spectrum rebuilt from the stored half has the requested length and holds at each mirrored bin the conjugate of its counterpart, and zero where nothing was stored; it never indexes out of bounds when positions are within half the frame.", "quantifier": "every frequency list and frame size", "why_tests_cant": "All subsets of frequencies and frame parities.", "anchors": ["atsc/src/compressor/fft.rs:FFT::get_mirrored_freqs"]}
{"id": "C27", "title": "VSRI accepts exactly non-decreasing points", "statement": "Indexing a point succeeds if and only if it is not below the current maximum; a refused point leaves the index unchanged; the minimum is the first point and the maximum the last accepted one.", "quantifier": "every sequence of points", "why_tests_cant": "All histories.", "anchors": ["vsri/src/lib.rs:Vsri::update_for_point"]}
{"id": "C28", "title": "VSRI counts every sample", "statement": "For strictly increasing points the index's sample count equals the number of points indexed, its segments tile the sample numbers 0..n without gaps, and as many timestamps are listed; with repeated points at the start of a segment samples are lost (witness).", "quantifier": "every strictly increasing history", "why_tests_cant": "All histories; losing needs repeated timestamps.", "anchors": ["vsri/src/lib.rs:Vsri::update_for_point", "vsri/src/lib.rs:Vsri::get_sample_count", "vsri/src/lib.rs:Vsri::get_all_timestamps"]}
{"id": "C29", "title": "VSRI timestamps are accurate to one period", "statement": "For strictly increasing points, the i-th listed timestamp t' and the i-th real point t satisfy t' <= t < t' + m for the segment's period m (equality for the first two points of a segment); a series with a constant period is listed exactly and needs one segment. Which segments there are is determined by the points alone: the points are cut into runs, each as long as possible, where a run is set by its first two points and its point number j must lie in the j-th period; a regular beginning stays in the first segment whatever follows.", "quantifier": "every strictly increasing history", "why_tests_cant": "All jitter patterns.", "anchors": ["vsri/src/lib.rs:Vsri::fits_segment", "vsri/src/lib.rs:Vsri::get_all_timestamps"]}
{"id": "C30", "title": "VSRI lookup by time", "statement": "For every listed timestamp in a segment of at least two samples, looking up its sample number returns its position in the list; looking up the timestamp of a single-sample segment panics (division by zero); a time in no segment yields nothing.", "quantifier": "every index built from strictly increasing points, every query time", "why_tests_cant": "All histories and queries.", "anchors": ["vsri/src/lib.rs:Vsri::get_sample"]}
{"id": "C31", "title": "VSRI lookup by sample number", "statement": "get_time(i) returns the i-th listed timestamp for every i in the first segment; in later segments it adds period times the absolute sample number, so it overshoots by period times the segment's first sample number (witness); past the end it returns the maximum for i = count and nothing beyond.", "quantifier": "every index and sample number", "why_tests_cant": "All histories.", "anchors": ["vsri/src/lib.rs:Vsri::get_time"]}
{"id": "C32", "title": "VSRI next / previous sample", "statement": "For a time between two segments, the previous-sample lookup returns the last sample of the earlier segment; inside a segment that another one follows it returns that segment's last sample (which can be later than the time), inside the last segment nothing. The next-sample lookup returns the first sample of the last segment, which is the next sample only if no segment lies in between (witness otherwise). The combined lookups answer a time the index finds with its own sample, any other time with the neighbour lookup.", "quantifier": "every index and query time", "why_tests_cant": "All histories.", "anchors": ["vsri/src/lib.rs:Vsri::get_next_sample", "vsri/src/lib.rs:Vsri::get_previous_sample"]}
{"id": "C33", "title": "VSRI emptiness test", "statement": "If the index says a time interval is not empty, the interval really overlaps a segment; if a single-segment index says it is empty, no indexed time lies in it; with several segments it can wrongly report an occupied instant as empty (witness).", "quantifier": "every index and interval", "why_tests_cant": "All histories and intervals.", "anchors": ["vsri/src/lib.rs:Vsri::is_empty"]}
{"id": "C34", "title": "VSRI file round-trip and torn files", "statement": "Writing an index to text and loading it gives the same minimum, maximum and segments, for all 32-bit contents. Loading a torn (prefix) file can succeed with silently wrong content (witness): the write is not atomic. A file is accepted exactly if it is an index text (32-bit decimal numbers with optional sign, leading zeros and blanks around them, LF or CRLF, last line end optional), and is then read as the index it shows; every other file panics.", "quantifier": "every index state; every crash point of the write", "why_tests_cant": "All i32 texts and all cut positions.", "anchors": ["vsri/src/lib.rs:Vsri::flush_to", "vsri/src/lib.rs:Vsri::load"]}
{"id": "C35", "title": "VSRI arithmetic does not overflow within a day", "statement": "For strictly increasing points within [0, 86400) no 32-bit arithmetic in updates and lookups overflows, in either build profile.", "quantifier": "every strictly increasing history within one day", "why_tests_cant": "The product period*position comes within 13% of 2^31.", "anchors": ["vsri/src/lib.rs:Vsri::calculate_b", "vsri/src/lib.rs:Vsri::fits_segment", "vsri/src/lib.rs:Vsri::get_sample"]}
{"id": "C36", "title": "WavBrro accumulates samples in order", "statement": "Adding samples one by one and reading them back yields them in order; the count equals the number added; every chunk but the last holds exactly 2048 samples and none is empty; building from a slice gives the same structure as adding one by one.", "quantifier": "every sequence of samples", "why_tests_cant": "All lengths around multiples of 2048.", "anchors": ["wavbrro/src/wavbrro.rs:WavBrro::add_sample", "wavbrro/src/wavbrro.rs:WavBrro::from_slice", "wavbrro/src/wavbrro.rs:WavBrro::get_samples"]}
{"id": "C37", "title": "WavBrro file round-trip", "statement": "Writing any series to a .wbro file and reading it back gives the same samples bit for bit; files without the two WBRO marks are refused; files shorter than 12 bytes give an I/O error.", "quantifier": "every series (up to the format's 2^31-byte reach)", "why_tests_cant": "Relative pointers over arbitrarily many chunks.", "anchors": ["wavbrro/src/wavbrro.rs:WavBrro::to_file_with_data", "wavbrro/src/wavbrro.rs:WavBrro::from_file", "wavbrro/src/write.rs:write_wavbrro_file", "wavbrro/src/read.rs:is_wavbrro_file"]}
{"id": "C38", "title": "Positioned writes may be short", "statement": "The .wbro writer issues one positioned write per part and ignores the written count: if the operating system writes fewer bytes the call still succeeds and the file is truncated (witness); if both writes are complete the file is header plus content.", "quantifier": "every OS write outcome", "why_tests_cant": "Depends on kernel behaviour (2 GiB limit, full disks).", "anchors": ["wavbrro/src/write.rs:write_wavbrro_file"]}
{"id": "C39", "title": "Metric index and values", "statement": "Building a metric from samples keeps all values in order and indexes the second-of-day of each; it fails iff a second-of-day decreases. Reading back samples pairs value i with the index's time for sample i; several samples within one second can make reading back panic (witness).", "quantifier": "every list of samples", "why_tests_cant": "All timestamp patterns.", "anchors": ["csv-compressor/src/metric.rs:Metric::append_samples", "csv-compressor/src/metric.rs:Metric::get_samples"]}
{"id": "C40", "title": "Second of day", "statement": "day_elapsed_seconds(t) is t modulo 86400 in [0,86400), also for negative t, and t minus it is the start of the day. Exactly the timestamps of the Gregorian years -262143 to 262142 have a second of the day.", "quantifier": "every timestamp in range", "why_tests_cant": "2^64 inputs.", "anchors": ["vsri/src/lib.rs:day_elapsed_seconds", "vsri/src/lib.rs:start_day_ts"]}
{"id": "C41", "title": "Directory runs stop at the first bad file", "statement": "Processing a directory ends normally exactly if every file is processed normally, one after the other; the first file that fails is tried again and its error aborts the run, leaving later files unprocessed. Compression aborts at any file that is no WavBrro file, including the tool's own output if the walk yields it; decompression passes over foreign files of at least 12 bytes and aborts at shorter ones.", "quantifier": "every directory content and order", "why_tests_cant": "All orders and failure patterns.", "anchors": ["atsc/src/main.rs:process_directory"]}
{"id": "C42", "title": "CSV value extraction", "statement": "With headers present, reading returns the value column in order, and reports the missing column or the first unparsable value; without headers it returns the first column. A UTF-8 byte-order mark in front of the text changes nothing.", "quantifier": "every table of records", "why_tests_cant": "All tables.", "anchors": ["atsc/src/csv.rs:read_samples_with_headers", "atsc/src/csv.rs:read_samples"]}
{"id": "C43", "title": "Legacy WAV samples", "statement": "Joining four 16-bit channels gives the double whose bit pattern is their little-endian concatenation; doubles split into four channels come back exactly; with fewer channels the missing words are zero, with more the tool panics. The converter writes exactly the samples that are not NaN to x.wbro; with --validate it then panics if one was dropped and otherwise reports a mismatch that is not there; a file the WAV library refuses becomes an empty x.wbro.", "quantifier": "every four 16-bit words / every double", "why_tests_cant": "2^64 patterns.", "anchors": ["tools/src/bin/wav2wbro.rs:join_u16_into_f64", "tools/src/bin/wav2wbro.rs:main"]}
{"id": "C44", "title": "FFT error control", "statement": "The error reported with an FFT frame is exactly the error metric between the padded series and the series whose middle decompression returns, and, in thousandths, it does not exceed the bound unless the last of 23 rounds was reached; except that a range which collapses to one single-precision number is reported as error 0 even when samples are lost (witness: 1e39 and 1e300 come back as infinity with reported error 0). The library function with an allowed error gives what the compressor object gives with that bound, and the functions without one what it gives unbounded. A chunk of one infinity repeated is kept exactly, sign included, by every call that makes Fourier frames.", "quantifier": "every non-empty series, bound, and behaviour of the third-party transforms that preserves length", "why_tests_cant": "Depends on the data-dependent error loop and on arbitrary transforms; tests see a few waveforms.", "anchors": ["atsc/src/compressor/fft.rs: compress_bounded, fft_compressor, fft_to_data"]}
{"id": "C45", "title": "Unbounded FFT compression uses another frame size than decompression", "statement": "For series of 128 samples or more the unbounded FFT entry point stores bins of the transform of the series itself, while decompression always rebuilds a spectrum of the next larger 2^a*3^b size: the two sides do not use the same transform, so the frame is not undone whatever the transform computes.", "quantifier": "every series of at least 128 samples and every length-preserving transform", "why_tests_cant": "Shipped tests use fewer than 128 samples on this path; the mismatch holds for all larger sizes.", "anchors": ["atsc/src/compressor/fft.rs: compress, compress_hinted, to_data, gibbs_sizing"]}
{"id": "C46", "title": "Compressed size is bounded", "statement": "Whatever the data, compressor, error and sampling level, the bytes produced by a run never exceed 18 + 26 per sample + 428 per chunk.", "quantifier": "every series, compressor choice, error and sampling level", "why_tests_cant": "Worst cases depend on adversarial data for five encoders and on the automatic choice.", "anchors": ["atsc/src/main.rs:compress_data", "atsc/src/frame/mod.rs:CompressorFrame::compress_best"]}
{"id": "C47", "title": "Error 0 is lossless", "statement": "With automatic selection, error 0 (documented as 'lossless compression') and sampling level 0, decompressing gives back every finite sample exactly, for samples in the supported range with at most five decimals that single precision tells apart, in particular integers up to 2^24 in magnitude. It is not lossless beyond: integers above 2^24 may come back changed, so may samples with more than five decimals, and so may small integers if the polynomial compressor is chosen explicitly.", "quantifier": "every series meeting the condition, every chunking, every transform; concrete counterexamples beyond the condition", "why_tests_cant": "Losslessness is a claim about every series; the failures need values at the edge of single precision or errors below the rounding of the error metric.", "anchors": ["atsc/src/main.rs:Args", "atsc/src/frame/mod.rs:CompressorFrame::compress_best", "atsc/src/compressor/fft.rs:FFT::compress_bounded", "atsc/src/compressor/polynomial.rs:Polynomial::compress_bounded"]}
{"id": "C48", "title": "csv-compressor CSV files round-trip", "statement": "Writing any list of samples as CSV and reading the file back with csv-compressor's reader gives the same timestamps and, for any number formatting that its parser inverts, the same values in the same order; a file lacking the timestamp or value column is refused. A UTF-8 byte-order mark in front of the text changes nothing.", "quantifier": "every list of samples, every printable/parsable number pair", "why_tests_cant": "All lists of samples and all texts.", "anchors": ["csv-compressor/src/csv.rs:write_samples_to_csv_file", "csv-compressor/src/csv.rs:read_samples_from_csv_file"]}
{"id": "C49", "title": "Command-line round-trip of one file", "statement": "Compressing x.wbro and then uncompressing the resulting x.bro with the atsc command both succeed and leave an x.wbro holding the decompressed samples: as many as the original had finite samples, and exactly those with the RLE compressor. The original x.wbro is overwritten, no other file is touched. A series without any finite sample compresses to a file that cannot be uncompressed.", "quantifier": "every series within the size limits, every compressor, error, level, file name", "why_tests_cant": "It ranges over every series, option and directory content.", "anchors": ["atsc/src/main.rs:process_single_file", "atsc/src/main.rs:compress_data", "atsc/src/main.rs:decompress_data", "wavbrro/src/wavbrro.rs:WavBrro::from_file"]}
{"id": "C50", "title": "csv-compressor round-trip", "statement": "Compressing a CSV file of samples at a regular interval within one day with --output-vsri and then uncompressing gives a CSV file with the seconds of the day of the samples as timestamps and the decompressed values. Without --output-vsri uncompressing panics. NaN and infinite values are dropped and value k of what is left is attributed to the time of sample k, so later values move to earlier times. The same holds with output names given: only y.bro and y.vsri, and z.wbro and z.csv, are written; the original stays when the names differ. A CSV file whose seconds of the day step back makes the call panic before anything is written.", "quantifier": "every regular series, every compressor and error, every file name", "why_tests_cant": "It composes four file formats over all series.", "anchors": ["csv-compressor/src/main.rs:process_args", "csv-compressor/src/metric.rs:Metric::get_samples"]}
{"id": "C51", "title": "What a call of atsc changes on disk", "statement": "One call on one file changes at most the file named like the input with the extension replaced by bro (wbro with -u), and nothing unless it ends normally. Files that differ only in the extension share that output: processing the second erases what the first produced.", "quantifier": "every file name with an extension, every directory content, every option, every outcome", "why_tests_cant": "It ranges over all contents, names and failures.", "anchors": ["atsc/src/main.rs:process_single_file"]}
{"id": "C52", "title": "Repeated seconds overflow the index arithmetic", "statement": "Within one day a non-decreasing history with repeated seconds can make the index panic on integer overflow in a build with overflow checks (the bound of C35 needs distinct seconds); the release build accepts the same history.", "quantifier": "every number of twice-sampled seconds and pause with product at least 2^31", "why_tests_cant": "The overflow needs tens of thousands of samples in a particular pattern.", "anchors": ["vsri/src/lib.rs:Vsri::update_for_point", "vsri/src/lib.rs:Vsri::calculate_b"]}
{"id": "C53", "title": "Error metrics are accurate", "statement": "Whenever the mean relative, mean absolute or mean squared error reported for two series of finite samples is a finite number, it is the exact mean over the real numbers up to a relative error of (n+4)*2^-52 (plus 2^-1070 for underflow), n being the number of samples. A finite mean relative error also implies that no original sample is zero and every generated sample is finite. The symmetric error (the sum of the errors relative to the sum of the magnitudes, divided by the number of samples, hence at most 1/n and not up to 1 as documented) and the normalised squared error are accurate up to (n+4)*2^-50 for samples of moderate size.", "quantifier": "all pairs of series of up to 2^50 samples", "why_tests_cant": "It is a statement about rounding for all series of all lengths.", "anchors": ["atsc/src/utils/error.rs:error_mape", "atsc/src/utils/error.rs:error_mae", "atsc/src/utils/error.rs:error_mse"]}
{"id": "C54", "title": "Polynomial compression: error bound from input to output", "statement": "Compressing supported non-zero samples with the polynomial compressor and an error of E percent and decompressing the bytes returns, chunk by chunk, either every sample up to 0.000006 (or a relative 2^-24), or a series whose exact mean relative error is at most E% + 0.0601 percentage points.", "quantifier": "all series within the frame counter's range, all errors, both build profiles", "why_tests_cant": "Connects the floating point loop of the compressor to an exact statement about the bytes for all inputs.", "anchors": ["atsc/src/main.rs:compress_data", "atsc/src/compressor/polynomial.rs:Polynomial::compress_bounded", "atsc/src/utils/error.rs:error_mape"]}
{"id": "C55", "title": "The default command line: error bound from input to output", "statement": "With automatic selection and no sampling (the defaults) and an error of E percent, every chunk of a supported series (zeros allowed) comes back either sample by sample up to 0.000006 (or a relative 2^-24), or with an exact mean relative error of at most 6/5 of E% (plus 0.00012 percentage points); the factor comes from the Fourier compressor measuring the error on the padded chunk.", "quantifier": "all series within the frame counter's range, all errors, both build profiles, all length-preserving transforms", "why_tests_cant": "Holds for whatever the Fourier transform computes and whichever candidate wins, for all inputs.", "anchors": ["atsc/src/main.rs:compress_data", "atsc/src/frame/mod.rs:CompressorFrame::compress_best", "atsc/src/compressor/fft.rs:FFT::compress_bounded"]}
{"id": "C56", "title": "The bytes written are the documented format", "statement": "The bytes of a stream are: BRRO, the version in four bytes least significant first, the frame counter byte, the number of frames and then each frame as size, sample count, compressor number, payload length and payload; numbers take one byte up to 250 and otherwise the shortest of a marker 251/252/253 with 2/4/8 little-endian bytes; and every payload a compressor makes has that compressor's layout (mark byte, width tag, zig-zag integers, IEEE bit patterns). A run of the command line writes version 1, the number of frames modulo 256, and for each block of at most 131072 finite samples one frame that announces size 41, the block's length and the requested compressor (under automatic selection constant, Fourier, polynomial or run-length).", "quantifier": "all streams, all series, all compressors, bounded or not", "why_tests_cant": "Files written by one version must be readable by any other program that follows the format; a symmetric change of writer and reader passes every round-trip test.", "anchors": ["atsc/src/header.rs:CompressorHeader::to_bytes", "atsc/src/data.rs:CompressedStream::to_bytes", "atsc/src/compressor/mod.rs:BinConfig", "atsc/src/compressor/constant.rs:Constant::encode", "atsc/src/compressor/rle.rs:IndexRLE::encode", "atsc/src/compressor/fft.rs:FFT::encode", "atsc/src/compressor/polynomial.rs:Polynomial::encode"]}
{"id": "C57", "title": "Exactly the format is accepted, and what is accepted can be rewritten", "statement": "Parsing accepts a byte string exactly when it starts with a stream of version 0 or 1, in any spelling of its numbers, and returns that stream; writing an accepted stream again gives bytes that parse to the same stream and are not longer; a payload that does not start with the layout of its frame's compressor is refused.", "quantifier": "all byte strings", "why_tests_cant": "Ranges over every byte string, not only those produced by the library.", "anchors": ["atsc/src/data.rs:CompressedStream::from_bytes", "atsc/src/header.rs:CompressorHeader::from_bytes", "atsc/src/compressor/mod.rs:Compressor::decompress"]}
{"id": "C58", "title": "Frames of unknown origin give the announced number of samples", "statement": "Whatever bytes a frame carries, decompressing it panics or returns as many samples as the frame announces, except for a noop frame, which returns as many samples as its payload holds; the samples of a stream are those of its frames one after the other, and replacing a frame changes no other frame's samples.", "quantifier": "all frames with arbitrary payloads, all streams", "why_tests_cant": "Ranges over every payload, including corrupted and forged ones.", "anchors": ["atsc/src/frame/mod.rs:CompressorFrame::decompress", "atsc/src/data.rs:CompressedStream::decompress", "atsc/src/compressor/noop.rs:noop_to_data"]}
{"id": "C59", "title": "Error of the Fourier compressor on the command line, end to end", "statement": "Compressing a series with --compressor fft and error E and decompressing it again gives, for each chunk, as many samples as it had, all between its least and greatest sample as single-precision numbers, and either values equal up to single precision, or a mean relative error of at most 6/5 of (E% + 0.1 percentage points), or the result of the last attempt the compressor makes: the largest number of frequencies it ever tries or every frequency that is not zero.", "quantifier": "all finite non-zero supported samples (NaN and infinities in between are dropped), all errors of one byte, all sampling levels, all transforms that keep lengths and do not overflow on moderate input", "why_tests_cant": "The number of iterations, the truncation of the error to per mille, the padding to a power of two and the single-precision range all depend on the data.", "anchors": ["atsc/src/compressor/fft.rs:FFT::compress_bounded", "atsc/src/compressor/fft.rs:FFT::to_data", "atsc/src/main.rs:compress_data", "atsc/src/main.rs:decompress_data"]}
{"id": "C60", "title": "Inverse-distance frames: stored samples come back, and the error end to end", "statement": "A frame of the inverse-distance compressor decompresses to finite samples, as many as were compressed, and there is a step such that the samples at its multiples and the last one come back within 6 millionths, exactly if they have five decimals; compressing with --compressor idw and error E and decompressing gives for each chunk values that are nearly equal or a mean relative error of at most E% + 0.0601 percentage points.", "quantifier": "all supported series, all errors and sampling levels, all interpolation functions that return a point's value at the point and stay bounded", "why_tests_cant": "The step the search ends with depends on the data; quantifies over all series.", "anchors": ["atsc/src/compressor/polynomial.rs:Polynomial::compress_bounded", "atsc/src/compressor/polynomial.rs:Polynomial::idw_to_data", "atsc/src/main.rs:compress_data"]}
{"id": "C61", "title": "Rounding and conversion helpers", "statement": "Rounding to 0 to 9 decimals gives the double nearest to the nearest multiple of 10^-d, keeps the order and leaves numbers with d decimals unchanged; rounding with limits returns a number between the limits for every input that is not NaN; ten or more decimals panic in a build with overflow checks, and 32 or more give NaN without them; conversion to an unsigned integer keeps up to six digits, truncates, saturates at both ends, maps NaN to 0 and panics for more than six digits.", "quantifier": "all doubles, all numbers of decimals and digits, both build profiles", "why_tests_cant": "Rounding of the product and of the quotient depends on every bit of the input; tests sample a few literals.", "anchors": ["atsc/src/utils/mod.rs:round_f64", "atsc/src/utils/mod.rs:round_and_limit_f64", "atsc/src/utils/mod.rs:f64_to_u64"]}
{"id": "C62", "title": "Decoded Fourier values; frames that keep every frequency", "statement": "Sample i of a decompressed Fourier frame is the real part of the inverse transform of the described spectrum (stored frequencies, their conjugates, zeros elsewhere) divided by the transform's size and moved into the stored range, to six millionths and single precision. A frame of fewer than 128 samples that keeps every non-zero frequency gives each sample back up to twice the transforms' own error, seven millionths and single precision; bounded Fourier compression of a chunk of at most 49 samples therefore either meets the bound after decompression or gives every sample back in that sense.", "quantifier": "all Fourier frames with finite range, all frame sizes up to 2^24, all spectra, all forward and inverse transforms of the stated accuracy", "why_tests_cant": "Depends on every stored frequency, on the padding and on two roundings; tests sample a few series.", "anchors": ["atsc/src/compressor/fft.rs:FFT::to_data", "atsc/src/compressor/fft.rs:FFT::get_mirrored_freqs", "atsc/src/compressor/fft.rs:FFT::round", "atsc/src/compressor/fft.rs:FFT::compress_bounded"]}
{"id": "C63", "title": "Frequencies are compared by norm; the largest are kept", "statement": "Frequencies are compared by the norm of their complex value: over norms that are not NaN the order is total and consistent with equality; a NaN norm breaks it (less than everything in both directions, not equal to itself). With a max-heap over this order the frames of bounded Fourier compression, and of compression with a requested number of frequencies, store the bins of largest norm: no stored bin is smaller than an unstored one beyond the error of the norm, and zero bins come last.", "quantifier": "all frequencies, all norms accurate to a given relative error, all heaps that obey the order, all series of supported samples up to 131072", "why_tests_cant": "The order must be total for every pair and triple of floats, and which bins are kept depends on the whole spectrum.", "anchors": ["atsc/src/compressor/fft.rs:impl PartialEq for FrequencyPoint", "atsc/src/compressor/fft.rs:impl Ord for FrequencyPoint", "atsc/src/compressor/fft.rs:impl PartialOrd for FrequencyPoint", "atsc/src/compressor/fft.rs:FFT::fft_trim"]}
{"id": "C64", "title": "Interrupted calls of atsc", "statement": "A call of atsc on a file that is stopped at any point, also within a write, changes no file but its output; the output is as before, or a beginning of what the finished call writes. Repeating the call gives exactly what the undisturbed call gives. An x.bro left incomplete by an interrupted compression is refused on decompression without changing any file. This does not hold for an x.wbro left incomplete by an interrupted decompression: if the series begins with two zeros, it can read as an empty series, and compressing it destroys x.bro.", "quantifier": "all inputs, all options the command line accepts, all points at which the process may stop, before, between or within its file operations", "why_tests_cant": "The stopping point is arbitrary; tests run calls to the end.", "anchors": ["atsc/src/main.rs:process_single_file", "wavbrro/src/write.rs:write_wavbrro_file", "wavbrro/src/wavbrro.rs:WavBrro::from_file", "atsc/src/data.rs:CompressedStream::from_bytes"]}
{"id": "C65", "title": "Interrupted calls of csv-compressor", "statement": "A call of csv-compressor that is stopped at any point has written its outputs in order (wavbro, vsri, bro; or wbro, csv): those before the stopping point are complete, the one at it is as before or a beginning of its new content, those after it are as before, and no other file changes. Repeating the call gives what the undisturbed call gives unless the input is among the outputs. Index and values are not replaced together: a compression over an older x.bro that is stopped between x.vsri and x.bro leaves a pair that uncompresses without error to the old values at the new times and overwrites the new values in x.csv.", "quantifier": "all inputs, options and output names, all points at which the process may stop", "why_tests_cant": "The stopping point is arbitrary; tests run calls to the end.", "anchors": ["csv-compressor/src/main.rs:process_args", "vsri/src/lib.rs:Vsri::flush_to", "csv-compressor/src/csv.rs:write_samples_to_csv_file"]}
{"id": "C66", "title": "Repeated compress and uncompress cycles", "statement": "A .wbro file is compressed to .bro and uncompressed back to .wbro any number of times (at least once), with the same options. Every call ends normally. With RLE (values in the supported range) the file settles after the first cycle: whatever the number of cycles, it holds the finite samples of the original, unchanged by value. With Noop it settles as well: it holds the finite samples of the original rounded to 64-bit integers, as after one cycle. With Constant it settles too: every chunk holds its own minimum, found in the first cycle. Lossy compression with an allowed error does not settle: the allowed error holds for each cycle with respect to its own input and the errors add up, so that after two cycles at 10 percent the series can be more than 15 percent off the original.", "quantifier": "all files and samples with at least one finite value in the supported range, all accepted options, all numbers of cycles", "why_tests_cant": "The number of cycles and the samples are arbitrary; a round-trip test runs one cycle.", "anchors": ["atsc/src/main.rs:process_single_file", "atsc/src/data.rs:CompressedStream::compress_chunk_with", "atsc/src/compressor/constant.rs:constant_compressor", "atsc/src/compressor/polynomial.rs:Polynomial::compress_bounded"]}
{"id": "C67", "title": "What reading does not check", "statement": "Decompression checks the file mark, the version and that the frames decode, and nothing more. Whatever byte stands in the header's frame counter, and whatever sizes the frames record, the same samples come out. Bytes after the last frame are ignored; of two files appended to each other only the first is read. There is no checksum: in the file of a constant series of integers from 0 to 255 every other value of the last byte is accepted and gives another series. A file of at most 25 bytes can announce any number of samples below 2^64, and decompression makes them all.", "quantifier": "all byte sequences, all frame counters and recorded sizes, all trailing bytes, all sample counts below 2^64", "why_tests_cant": "Damage can hit any byte of any file; a test only shows single damaged files.", "anchors": ["atsc/src/data.rs:CompressedStream::from_bytes", "atsc/src/header.rs:CompressorHeader", "atsc/src/frame/mod.rs:CompressorFrame::decompress", "atsc/src/compressor/constant.rs:Constant::to_data"]}
{"id": "C68", "title": "A larger allowed error and the size of the result", "statement": "For allowed errors e1 <= e2: a Fourier file compressed with e2 is never longer than with e1; each frame keeps the first of the frequencies it keeps with e1, and the same range. A polynomial or IDW frame compressed with e2 never stores more points; its payload, and the whole file, is never longer if all samples take the same number of bytes (integers from 0 to 255, or no integers). For other integers this fails: nine negative integers take 39 bytes at 5 percent and 40 bytes at 10 percent, also with automatic selection. Noop, Constant and RLE ignore the allowed error and the selection level altogether.", "quantifier": "all series, all pairs of allowed errors (0 to 1 for Fourier payloads, 0 to 2^29 for polynomial payloads, 0 to 50 percent for files), all behaviours of the third-party transforms, both build profiles", "why_tests_cant": "It compares two runs on every series and every pair of bounds; tests show single pairs.", "anchors": ["atsc/src/compressor/fft.rs:FFT::compress_bounded", "atsc/src/compressor/polynomial.rs:Polynomial::compress_bounded", "atsc/src/main.rs:compress_data"]}
{"id": "C69", "title": "Compression is local", "statement": "What a sample reads back as depends only on the finite samples of its own block; blocks hold at most 131072 samples and their bounds depend only on the number of finite samples. So if two series with the same number of finite samples agree inside (outside) a block, the values read back agree inside (outside) it. If the finite samples of a series fill whole blocks of 131072, the compressed form of the series with more samples appended consists of the frames of the series followed by the frames of the continuation, and reads back as the one followed by the other. Without whole blocks appending changes earlier values (Constant: 5 reads back as 5, but 5, 1 as 1, 1). Two streams that differ in one frame and both decompress read back the same before and after that frame.", "quantifier": "all series and continuations, all positions, all compressors including automatic selection, all allowed errors and levels, both build profiles, all behaviours of the third-party transforms", "why_tests_cant": "It relates two runs for every pair of series that agree on a block of any length; tests compare a few fixed series.", "anchors": ["atsc/src/optimizer/mod.rs:OptimizerPlan::get_chunks_sizes", "atsc/src/main.rs:compress_data", "atsc/src/data.rs:CompressedStream::decompress"]}
{"id": "C70", "title": "Fourier frames are partial Fourier sums", "statement": "A decompressed Fourier frame holds, at every position, the partial Fourier sum of the (padded, single-precision) series over the stored frequencies, limited to the stored range, up to the accuracy of the two transforms, 6 millionths and single precision. The squared distance of such a partial sum from the series is the energy of the frequencies left out; if none is left out it is the series itself. Hence the mean squared error of bounded Fourier compression is at most three times the dropped energy per sample plus the squared errors of the transforms and formats. And the stored frequencies are nearly the best choice: any other choice of at most as many frequencies drops at least half as much energy, up to the accuracy of the norm and of the forward transform.", "quantifier": "all non-empty chunks of at most 109000 samples in the supported range, all error bounds, both build profiles, all transforms of the stated accuracy, all heaps and norms that order frequencies up to the stated accuracy, all choices of other frequencies", "why_tests_cant": "It relates the decompressed values of every series to the mathematical Fourier transform and compares the stored frequencies with every other choice; tests check a handful of series against recorded output.", "anchors": ["atsc/src/compressor/fft.rs:FFT::compress_bounded", "atsc/src/compressor/fft.rs:FFT::fft_trim", "atsc/src/compressor/fft.rs:FFT::get_mirrored_freqs", "atsc/src/compressor/fft.rs:FFT::to_data"]}
{"id": "C71", "title": "A CSV file is read as the table it shows", "statement": "All texts of a table - fields plain or quoted with doubled quotes, line feeds, carriage returns or both as line ends, blank lines anywhere, last line end present or not - are read alike by every reader (a byte-order mark at the very start does not belong to the table). csv-compressor reads a table exactly if every row is as wide as the header and there is exactly one timestamp and exactly one value column, holding integers within 64 bits (decimal with optional sign, or hexadecimal after 0x) and numbers; other columns may hold any UTF-8 text. The library's reader with column names gives exactly the numbers of the first column with that name, if both columns exist, every row is as wide as the header and every cell is UTF-8; the reader without names gives the first column of every row.", "quantifier": "all tables, all texts of a table, all column names, all behaviours of the number parser", "why_tests_cant": "There are infinitely many texts for a table; the shipped tests read four fixed files without quotes.", "anchors": ["atsc/src/csv.rs:read_samples_with_headers", "atsc/src/csv.rs:read_samples", "csv-compressor/src/csv.rs:read_samples_from_csv_file"]}
{"id": "C72", "title": "Debug and release builds agree", "statement": "Wherever the build with overflow checks gives a result, the release build gives the same result: for compression, decompression, every timestamp-index operation, and every call of the three tools, files included. The two builds do exactly the same, panics included, when compressing any series of fewer than 247 times 131072 samples, and when decompressing any bytes whose interpolating frames announce at least one sample; on an interpolating frame announcing none they differ (checked build panics, release build yields nothing), and the checked build refuses every series of 256 times 131072 or more finite samples.", "quantifier": "all series, bytes, compressors, errors, levels, index histories, file systems and tool arguments", "why_tests_cant": "cargo test runs one profile; agreement of two builds is a relation between two programs over all inputs, and the differing inputs are sizes of 33 million samples or corrupt frames.", "anchors": ["atsc/src/header.rs:add_frame", "atsc/src/compressor/polynomial.rs:decompress", "atsc/src/main.rs", "csv-compressor/src/main.rs", "vsri/src/lib.rs", "tools/src/bin/wav2wbro.rs"]}
{"id": "C73", "title": "Directory runs are the single-file runs of their files", "statement": "Processing a directory of files with different stems (none named like an output) does to each output exactly what a call on that file alone, on the directory as it was, would do; it ends normally exactly if each such call does, otherwise everything before the first failing file is processed and nothing after it; all other files stay; the order in which the files are listed does not matter. Compressing a directory of WavBrro files and then uncompressing it, whichever way the second listing mixes old and new files, ends normally and leaves in every x.wbro what the library makes of its samples. A run stopped anywhere leaves complete outputs before that point, at most one partial output (a beginning of the final one), and nothing changed after it; repeating it over the same files gives the undisturbed result. Repeating it over the directory as it then is can fail: a short x.wbro left behind aborts every later decompression run that meets it.", "quantifier": "all directories, listings, file contents, options, and all points at which the process may stop", "why_tests_cant": "Listing order is up to the operating system and stopping points lie within single writes; the shipped tests process single files.", "anchors": ["atsc/src/main.rs:process_directory", "atsc/src/main.rs:process_single_file"]}
{"id": "C74", "title": "csv-compressor on irregular times", "statement": "For a CSV file of samples of one day, each at a later second than the one before and at least one finite, compressing with an index and uncompressing both end normally; the resulting CSV has one row per finite value, with the decompressed values in order and for row k the time that the index attaches to sample k. These times are exact as long as the samples keep a fixed period from the first one on; within the first segment they are early by less than the period of that segment; in every later segment of two or more samples they are late, by at most the period times the number of samples before the segment, so they can be out of order and beyond the end of the day (witness). With automatic selection, error 0 and integer values all values are exact.", "quantifier": "all such files, all options, builds and transforms", "why_tests_cant": "The shipped tests convert a few regular files; the time of each row depends on the whole history of gaps before it.", "anchors": ["csv-compressor/src/main.rs", "csv-compressor/src/metric.rs:get_samples", "vsri/src/lib.rs:get_time"]}
{"id": "C75", "title": "Several samples in one second", "statement": "For up to 24855 samples of one day in the order of their seconds, any number of them in the same second, building the index never fails, and the seconds alone determine its segments and how many samples it does not count: the reported sample count is the number of samples minus the lost ones, and c+2 samples in one second followed by a later sample lose at least c. Reading the stored series back works if at most one sample was lost and panics otherwise. In csv-compressor, compressing with an index ends normally; uncompressing ends normally exactly if the number of finite values is at most the counted samples plus one, and otherwise panics after writing x.wbro and leaves x.csv as it was. In particular a file with four finite samples in one second followed by a later one compresses without an error and cannot be uncompressed.", "quantifier": "all such files of samples, all options, builds and transforms", "why_tests_cant": "The shipped tests have no repeated seconds; whether a file can be uncompressed depends on the whole history of repeated seconds.", "anchors": ["csv-compressor/src/main.rs", "csv-compressor/src/metric.rs:get_samples", "vsri/src/lib.rs:update_for_point", "vsri/src/lib.rs:get_time"]}
{"id": "C76", "title": "Between the stored samples polynomial frames draw a Catmull-Rom curve", "statement": "A polynomial frame keeps every step-th sample (1 <= step <= 133) and the last one. For a series whose samples have magnitude at most M, 1 <= M <= 2^25, every sample it decompresses to is within 6e-6 + M/2^43 of the value, limited to the smallest and largest sample of the series, of the curve through the kept samples: the straight line in the first and in the last segment, and elsewhere the cubic whose slope at each kept sample is that of the line through its two neighbours. The kept samples determine that curve. Samples on a straight line come back within that error everywhere, whatever the step.", "quantifier": "all non-empty series of at most 2^53 supported samples of bounded magnitude, all frames compressed with a usable bound, all transforms and builds", "why_tests_cant": "The value at every position is the result of a search among the keys and of some twenty rounded operations on arbitrary reals; tests compare a few outputs.", "anchors": ["atsc/src/compressor/polynomial.rs:polynomial_to_data", "atsc/src/compressor/polynomial.rs:get_positions", "atsc/src/compressor/polynomial.rs:compress_hinted"]}
{"id": "C77", "title": "Steadily growing series shrink to one sample in a hundred, exactly", "statement": "If consecutive samples always differ by the same multiple of 0.00001 (the samples being the doubles nearest to such decimal fractions, at most 30 million in magnitude; in particular every integer progression), polynomial compression with any usable allowed error, or without one, decompresses to exactly the same numbers and its payload takes at most 8*floor(n/100)+68 bytes; the reported error is 0, or NaN if a sample is 0. With the command line tool the file of n such samples has at most n/12 + 900 bytes (the samples alone take 8n) and gives the series back exactly; with automatic selection it is no longer than that if no sample is 0.", "quantifier": "all such series of any length, all allowed errors, both builds, all transforms", "why_tests_cant": "The interpolated samples are results of rounded arithmetic on arbitrary progressions; exactness needs an error analysis over all of them.", "anchors": ["atsc/src/compressor/polynomial.rs:compress_bounded", "atsc/src/compressor/polynomial.rs:polynomial_to_data", "atsc/src/utils/mod.rs:round_and_limit_f64", "atsc/src/frame/mod.rs:compress_best"]}
{"id": "C78", "title": "Run-length and automatic files grow with the number of changes, not with the length", "statement": "A run-length frame of a finite series in which the value changes k times has a payload of at most 18k+25 bytes, however long the series is. With the command line tool the file of n samples whose finite samples change k times has at most 18k + n/2048 + 600 bytes, with the run-length compressor and with automatic selection at the default sampling level, for every allowed error.", "quantifier": "all series of any length, all allowed errors 0..50, both builds, all transforms", "why_tests_cant": "The size depends on how runs of equal values are grouped, on variable-length encodings of every index and on the cut into chunks; a bound must cover every arrangement of runs and every length.", "anchors": ["atsc/src/compressor/rle.rs:IndexRLE", "atsc/src/frame/mod.rs:compress_best", "atsc/src/optimizer/mod.rs:get_chunks_sizes"]}
{"id": "C79", "title": "atsc and csv-compressor agree with each other", "statement": "If csv-compressor compresses a UTF-8 CSV file with at least one row, atsc --csv --fields=timestamp,value with the same settings compresses it too and writes the same bytes. Compressing the .wavbro file left by --output-wavbrro with atsc gives the same .bro file again: nothing on disk changes. When csv-compressor uncompresses a .bro file, the .wbro file it leaves is the one atsc leaves for it. The CSV files csv-compressor writes are refused by atsc --csv with its default --fields=time,value, and compressed with --fields=timestamp,value.", "quantifier": "all file contents, names, output names, settings, number formats, both builds, all transforms", "why_tests_cant": "Two programs with different CSV readers and different in-memory paths must produce the same bytes for every accepted file.", "anchors": ["csv-compressor/src/main.rs:process_args", "csv-compressor/src/csv.rs:read_samples_from_csv_file", "csv-compressor/src/metric.rs:append_samples", "atsc/src/main.rs:process_single_file", "atsc/src/csv.rs:read_samples_with_headers"]}
{"id": "C80", "title": "Which command lines are accepted, and what they mean", "statement": "atsc and csv-compressor accept exactly the command lines spelled from their declared options (long names with the value after = or as the next word; one-letter names with the value attached, after = or as the next word; letters without value clustered; -- ends the options), each used at most once and with exactly one non-empty input, without help or version: numbers are decimal, the error 0 to 50, the level 0 to 6, the compressor one of the lower-case names (rle only for atsc). Options not given have their defaults: auto, level 0, fields time,value, error 3 for atsc (the README says 5) and 5 for csv-compressor. The order of the options and their spelling do not matter. Every accepted command line is within the limits the other properties ask for.", "quantifier": "all lists of words (ASCII)", "why_tests_cant": "There are infinitely many spellings and orders; a test covers some of the accepted and few of the refused.", "anchors": ["atsc/src/main.rs:Args", "atsc/src/main.rs:CompressorType", "csv-compressor/src/main.rs:Args", "csv-compressor/src/main.rs:CompressorType"]}
{"id": "C81", "title": "From the words of the command line to the files and the exit status", "statement": "A refused command line changes nothing on disk. Compressing a file with atsc exits with 0 exactly if the file holds samples for the given options (and these can be compressed: always within the frame counter's range); x.bro then holds their compression and nothing else changed; otherwise the status is 1 or 101 and nothing changed. Uncompressing exits with 0 after writing x.wbro with the decompressed samples - or, without doing anything, for a file that does not start like a compressed one; otherwise with 1 or 101, nothing changed. A missing input gives 1; a directory the outcome of its run. csv-compressor exits with 0 or 101: compressing, 0 after writing every output asked for (index, wavbro, bro) with what the CSV file says, 101 with y.bro as before; uncompressing, 0 after writing y.wbro and y.csv with the decompressed values and the times of x.vsri (or without doing anything, as above), 101 with y.csv as before; no other file changes. Any two command lines meaning: compress x.wbro (automatic selection, no sampling, error E), and: uncompress x.bro, both exit with 0 and leave in x.wbro the finite samples, chunk by chunk nearly equal or within 6/5 of E percent; in particular atsc x.wbro and atsc -u x.bro with 3 percent. The same for csv-compressor --output-vsri x.csv and -u x.bro.", "quantifier": "all command lines, file systems, file contents, both builds, all length-preserving transforms", "why_tests_cant": "Scripts rely on the exit status for every file content and every spelling of the options.", "anchors": ["atsc/src/main.rs:main", "atsc/src/main.rs:process_args", "atsc/src/main.rs:process_single_file", "csv-compressor/src/main.rs:main"]}
{"id": "C82", "title": "Numbers as text: what is read, what is written, and whole sessions in decimal", "statement": "A cell of a CSV file is read as a number exactly if it is an optional sign followed by digits with at most one point and at most one exponent, or by inf, infinity or nan in any case; the sample is the double nearest to the number written (ties to even, infinity from 2^1024 - 2^970 on), with the sign written. Every sample but NaN is written as a text that is read as the same double, with at most 17 digits, no shorter text being read as that double and none as short being nearer; integers up to 2^53 are written as such followed by .0. So csv-compressor reads back exactly the samples it wrote. With atsc --csv and RLE, a column (of a UTF-8 table) of decimal numbers that are 0 or between 10^-18 and 10^18 in magnitude comes out as the nearest double of each, the cells inf and nan dropped. With csv-compressor, automatic selection and error 0, a file of non-zero integers at a fixed period within a day comes out as a text with the second of the day, a comma, the integer and .0 in each line.", "quantifier": "all texts, all doubles, all tables and file systems, both builds, all length-preserving transforms", "why_tests_cant": "There are 2^64 doubles and unboundedly many texts; rounding errors in conversion show on a few of them only.", "anchors": ["atsc/src/csv.rs:read_samples_with_headers", "csv-compressor/src/csv.rs:read_samples_from_csv_file", "csv-compressor/src/csv.rs:write_samples_to_csv_file", "atsc/src/main.rs:process_single_file", "csv-compressor/src/main.rs:process_args"]}
{"id": "C83", "title": "Outputs go next to the inputs, for every path", "statement": "A call of atsc on the file f in the directory d (any path, dots in the names of directories included) changes at most one file, in the same directory, whose name is f with its extension (what follows the last dot of the file name, if that is not its first character) replaced by, or else extended by, bro (wbro when uncompressing). A call on a directory changes only files directly in that directory, each named like a listed one with that extension. Compressing a directory of WavBrro files by one command line (automatic selection, no sampling, error E) and uncompressing it by another exits with 0 both times, whatever order the files are listed in and whichever of the outputs the second listing also contains; each x.wbro then holds its finite samples, chunk by chunk nearly equal or within 6/5 of E percent, and no other file changes. csv-compressor writes only next to --output (the input without it), under that name with .wavbro, .vsri and .bro (those asked for) when compressing and .wbro and .csv when uncompressing, slashes and /. at the end of the path not counting; uncompressing without the .vsri file next to the input changes nothing.", "quantifier": "all paths and file names, all command lines, file systems, listings, both builds, all length-preserving transforms", "why_tests_cant": "Tests use a few names in a temporary directory; a wrong treatment of dots and slashes overwrites unrelated files.", "anchors": ["atsc/src/main.rs:process_single_file", "atsc/src/main.rs:process_directory", "atsc/src/main.rs:process_args"]}
{"id": "C84", "title": "CSV files in any language, and files that are not UTF-8", "statement": "A CSV file is UTF-8 (the encoding of Unicode scalar values) exactly if every cell of its table is. A UTF-8 table with header names in any language given by --fields, any text in the other columns, with or without a byte-order mark in front, is compressed by atsc --csv as the numbers of its value column. A table that is not UTF-8 is never compressed by atsc: a header row that is not UTF-8 ends it with status 1, a later row that is not, in whichever column, with status 101, and no file changes. csv-compressor also refuses a file with such a row and changes nothing; but if only its header row is not UTF-8 it takes the first column for the timestamps and the second for the values, whatever they are called.", "quantifier": "all tables and their texts, all byte sequences in the cells, all command lines, file systems, transforms, both builds", "why_tests_cant": "Tests read a few ASCII files; there are unboundedly many texts, and the encoding check sits in a library whose two callers treat its answer differently.", "anchors": ["atsc/src/csv.rs:read_samples_with_headers", "atsc/src/csv.rs:read_samples", "csv-compressor/src/csv.rs:read_samples_from_csv_file", "atsc/src/main.rs:process_single_file"]}
{"id": "C85", "title": "--verbose prints exactly the samples and changes nothing else", "statement": "With --verbose atsc prints, for a file it compresses, one line Input=[...] with exactly the samples it read and is about to compress, in order, and for a file it uncompresses one line Output=[...] with exactly the samples x.wbro then holds; for a file it can read no samples from, nothing. The line determines the samples: every number is printed as a text that is read as the same double (down to the sign of zero), shortest and nearest among the shortest, without exponent from 10^-4 up to below 10^16 and with one otherwise; two series printed alike are equal (NaNs alike). For a directory the lines are, in the order listed, those that a call on each file alone would print, up to the file at which the run stops. Files written and exit status are those of the same command without --verbose, and without it nothing is printed.", "quantifier": "all command lines, file systems, file contents, series of doubles, both builds", "why_tests_cant": "tests print a few series; shortest round-trip printing and unambiguity concern all 2^64 doubles and all series, and the equality of effects all file systems and failures", "anchors": ["atsc/src/main.rs:process_single_file", "atsc/src/main.rs:process_directory", "atsc/src/main.rs:Args.verbose"]}
{"id": "C86", "title": "Exit status and files on a disk that refuses, fills up or answers short", "statement": "Whatever the operating system answers to the single calls (done, done in part, interrupted, refused): a compressing atsc that exits with status 0 has written every output completely, the same files as on a disk that never refuses; csv-compressor likewise for .bro and .vsri files. Files other than the call's outputs never change. A compressing call that ends with another status leaves its output as it was or as a beginning of the complete one, and uncompressing a proper beginning is refused without changing anything. Where this does not extend: .wbro files are written with one positioned write each whose length nobody looks at, so a disk that takes only part of it gives status 0 with a torn file (status 0 is reliable if no write is answered short); csv-compressor -u never flushes its CSV writer, so a disk that refuses the last write gives status 0 with the end of the CSV file (all of it, if short) missing; a directory that can be listed but whose entries cannot be examined gives status 0 with nothing done.", "quantifier": "all command lines, file systems, inputs and all sequences of answers of the operating system (including interruptions, partial writes of any length and refusals at any call), all buffer fillings of the buffered writers, both build profiles", "why_tests_cant": "needs every combination of failing and partial calls; tests run on a disk that works", "anchors": ["atsc/src/main.rs: process_args, process_directory, process_single_file, main", "wavbrro/src/write.rs: write_wavbrro_file", "wavbrro/src/read.rs", "atsc/src/utils/readers/bro_reader.rs", "vsri/src/lib.rs: flush_to, load", "csv-compressor/src/csv.rs: write_samples_to_csv_file", "csv-compressor/src/main.rs: process_args, main"]}
{"id": "C87", "title": "Calls that run at the same time", "statement": "Calls of atsc (on single files) and csv-compressor that run at the same time, in whatever interleaving of their file operations and with writes carried out in pieces or not, do not disturb each other as long as no call writes a file another one reads or writes: every call ends as it would have alone, its outputs are those it would have made alone, no other file changes, and no call ever waits for another. At any moment during such a run, the output of a compressing call is what it was before, the complete new stream, or a beginning of it whose decompression is refused without changing anything. Two calls that compress different inputs into the same output leave a stream that decompresses to the one series or the other, never to a mixture. This does not extend to uncompressing into the same .wbro file: an interleaving exists in which both calls end well and the file reads without complaint as a series that is a mixture of both plus three samples that are in neither.", "quantifier": "all numbers of calls, all interleavings of their operations, all splittings of their writes, all file systems, inputs and options, both build profiles", "why_tests_cant": "needs every interleaving of every combination of calls", "anchors": ["atsc/src/main.rs: process_single_file", "csv-compressor/src/main.rs: process_args", "wavbrro/src/write.rs: write_wavbrro_file", "wavbrro/src/wavbrro.rs: to_file_with_data, from_bytes"]}
{"id": "C88", "title": "wav2wbro from the words of the command line to the files, and the way of a recording through the tools", "statement": "wav2wbro accepts exactly one non-empty input and optionally --validate (once, anywhere); everything else is refused without touching a file. Its exit status is 0 or 101. Only the file whose name is the input's with wav replaced by wbro can change, and nothing if the name does not end in wav. Status 0 means the input starts with RIFF....WAVE and the output holds exactly the recorded doubles (groups of one to four 16-bit channels) that are not NaN, in order; with --validate there was no NaN. On a disk that refuses or is interrupted the same limits hold, and status 0 still means the same file if no write was answered short and the WAV library could read the input. wav2wbro x.wav, atsc x.wbro, atsc -u x.bro all end with 0 and give the finite recorded doubles back, chunk by chunk nearly equal or within 6/5 of 3 percent. Where expectations fail: --validate prints 'File generated but data doesn't match!' exactly when it does match, and panics after writing the file when it does not; an input the WAV library cannot open or understand gives status 0 and an empty series in place of whatever the output was.", "quantifier": "all command lines, file systems, WAV contents and channel counts, all answers of the operating system, both build profiles", "why_tests_cant": "needs every command line, every file and every pattern of failing calls; the tool has no tests at all", "anchors": ["tools/src/bin/wav2wbro.rs: Args, main, is_wav_file, read_metrics_from_wav", "wavbrro/src/wavbrro.rs: add_sample, to_file, get_samples", "wavbrro/src/write.rs: write_wavbrro_file"]}
{"id": "C89", "title": "A history of library calls on one stream", "statement": "A program adds chunks to one stream with any mix of the three chunk calls, compressors and error bounds, reads it in between, writes it out and reads it back in (with any bytes after it), and carries on after calls that panicked. A call that cannot succeed (empty chunk, automatic selection without a bound, a sampling level that does not exist) is refused and leaves the stream as it was. Every reading gives, in call order, one piece per call that could succeed: the piece a stream holding that chunk alone would give, of the chunk's length, and keeping that call's own promise (nearest integers for no-op and the default; equality for run lengths and constants; the error bound for bounded polynomial, inverse-distance and automatic calls; every step-th sample and the last one for unbounded interpolating calls; the chunk's range for unbounded Fourier calls; the bound, or the best effort, for bounded Fourier calls). Writing out, reading in, reading and refused calls leave no trace: the final stream is the one the successful calls make alone. Where expectations fail: in a debug build the 256th and every later call panics, yet its chunk is in the stream and comes back.", "quantifier": "all finite histories of calls, readings and write-out/read-in steps, all chunks, compressors, bounds and levels, both build profiles", "why_tests_cant": "the property is about every interleaving and length of history, including what a panicking call leaves behind", "anchors": ["atsc/src/data.rs: CompressedStream::compress_chunk, compress_chunk_with, compress_chunk_bounded_with, to_bytes, from_bytes, decompress", "atsc/src/header.rs: add_frame", "atsc/src/frame/mod.rs: compress, compress_bounded, compress_best, decompress"]}
{"id": "C90", "title": "Index files of any bytes", "statement": "Loading an index file accepts exactly the files whose lines (ended by LF or CRLF) are UTF-8 and whose numbers are 32-bit decimal numbers with any Unicode white space around them: two numbers, then segments of four numbers between commas. On every other file the first wrong line decides: if it is not UTF-8, loading returns an InvalidData error; if it is, loading panics; lines after it are not looked at. A file that is accepted as ASCII gives the same index, on an ASCII file nothing else is accepted, and the result of csv-compressor --uncompress is the one proved for ASCII index files; every index that is flushed loads back as itself.", "quantifier": "all files (all byte strings), all indices of 32-bit fields, all csv-compressor --uncompress calls", "why_tests_cant": "the byte strings of index files are unbounded, and which failure is seen depends on the first wrong line wherever it is", "anchors": ["vsri/src/lib.rs: Vsri::load, flush_to", "csv-compressor/src/main.rs: process_args"]}
{"id": "C91", "title": "Directory calls at the same time", "statement": "Calls of atsc on directories run at the same time as each other and as calls of atsc and csv-compressor on single files, in whatever interleaving of their file operations and with writes carried out in pieces or not, and do not disturb each other as long as no call writes a file another one reads or writes: every call ends as it would have by itself, every file it writes holds what the call by itself would have left there, no other file changes, and no call ever waits for another. (A directory call may meet files it wrote itself.) So a directory can be divided between calls that run at the same time: if one call on all the files goes through, so do the calls on the parts, and they leave the same files.", "quantifier": "all numbers of calls, all listings and divisions of them, all interleavings of their operations, all splittings of their writes, all file systems, inputs and options, both build profiles", "why_tests_cant": "needs every interleaving of every combination of calls, listings of every length included", "anchors": ["atsc/src/main.rs: process_directory, process_single_file", "csv-compressor/src/main.rs: process_args"]}
{"id": "C92", "title": "The same call several times at once", "statement": "If the same call of atsc on one file (compressing, or uncompressing; with the same options) is started several times and the calls run at the same time, in whatever interleaving of their file operations and with writes carried out in pieces or not, then, when all of them have ended, each has ended as one call alone would, the output file is the one that one call alone would leave, byte for byte, and no other file has changed: although every call empties the output when it starts to write it.", "quantifier": "all numbers of simultaneous starts, all interleavings, all splittings of the writes, all file systems, files and options with the output not the input, both build profiles", "why_tests_cant": "needs every interleaving of any number of calls, including holes that a call leaves when another one empties the file it is writing", "anchors": ["atsc/src/main.rs: process_single_file", "wavbrro/src/write.rs: write_wavbrro_file"]}
