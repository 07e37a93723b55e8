{"id": "C01", "title": "freqcd reassembles the event stream whatever the read sizes", "statement": "Running freqcd, the 8-byte events that are corrected are exactly the consecutive 8-byte groups of the bytes received on the input, in order, none lost, duplicated or torn, however the bytes are split over read() calls and however those reads are interleaved with select() timeouts and frequency-stream reads.", "quantifier": "every input byte stream, every split of it into reads, every interleaving with timeouts and frequency reads", "why_tests_cant": "the kernel decides the split; the number of splits is exponential in the stream length", "anchors": ["src/fpfind/freqcd.c:main (282-385)"]}
{"id": "C02", "title": "freqcd never touches memory outside its buffers in its main loop", "statement": "In the main loop of freqcd no read or write of the input, output or frequency buffer is outside the allocated 8192, 8192 and 100 bytes, provided read() never returns more than it was asked for.", "quantifier": "every input stream, frequency stream and schedule of reads", "why_tests_cant": "an out-of-bounds access needs one particular combination of partial sizes; tests sample few", "anchors": ["src/fpfind/freqcd.c:main (282-454)"]}
{"id": "C03", "title": "freqcd emits one event per input event with the detector bits intact", "statement": "Every event that freqcd writes corresponds to the input event in the same position and carries the same low 10 bits (detector and flag bits); only the 54-bit timestamp may differ.", "quantifier": "every event, correction value, schedule, both word orders", "why_tests_cant": "2^64 events times every state of the accumulated correction", "anchors": ["src/fpfind/freqcd.c:main (347-380)"]}
{"id": "C04", "title": "freqcd with zero correction is the identity", "statement": "With -f 0 and no frequency updates freqcd's output bytes are the input bytes (up to the last incomplete event), provided every read that precedes the first complete event brings a complete event.", "quantifier": "every input byte stream, both word orders, every split into reads", "why_tests_cant": "all streams and all splits", "anchors": ["src/fpfind/freqcd.c:main (330-385)"]}
{"id": "C05", "title": "freqcd's 64-bit arithmetic never overflows", "statement": "For input timestamps that never decrease and fit the 54-bit format, and any correction values below 2^21 in magnitude, changing at any time, no signed 64-bit operation of freqcd overflows.", "quantifier": "every non-decreasing stream, every sequence of corrections, every split into reads", "why_tests_cant": "overflow needs extreme elapsed times combined with extreme corrections and accumulated history", "anchors": ["src/fpfind/freqcd.c:main (355-385)"]}
{"id": "C06", "title": "freqcd's correction is accurate to 3/2 unit per batch", "statement": "For non-decreasing timestamps and a fixed correction f (units 2^-34), after any number n of reads, each written timestamp differs from t + f*(t - t_first)/2^34 by less than 3n/2 timestamp units.", "quantifier": "every non-decreasing stream, every f with |f| < 2^21, every split into reads completing at least one event", "why_tests_cant": "truncation error accumulates over arbitrarily many batches", "anchors": ["src/fpfind/freqcd.c:main (355-385)"]}
{"id": "C07", "title": "freqcd preserves time order", "statement": "If the input timestamps never decrease then the timestamps written never decrease (as unwrapped values), whatever the corrections and whenever they change, provided every read completes at least one event.", "quantifier": "every non-decreasing stream, every sequence of corrections, every split into reads", "why_tests_cant": "a reordering would need a particular residue of the truncated products", "anchors": ["src/fpfind/freqcd.c:main (355-385)"]}
{"id": "C08", "title": "freqcd's output does not depend on how the input was split", "statement": "Two runs of freqcd over the same input bytes and the same fixed correction write the same bytes, whatever the read sizes were.", "quantifier": "every stream, every f, every pair of splits", "why_tests_cant": "pairs of splits cannot be enumerated", "anchors": ["src/fpfind/freqcd.c:main (382-384)"]}
{"id": "C09", "title": "A short read does not disturb freqcd's correction state", "statement": "A read that does not complete any event leaves the reference time and accumulated correction unchanged, so later events are corrected as if those bytes had arrived with the next read.", "quantifier": "every state, every short read", "why_tests_cant": "needs a read shorter than the bytes missing from the pending event, which pipes rarely produce in tests", "anchors": ["src/fpfind/freqcd.c:main (330-385)"]}
{"id": "C10", "title": "freqcd legacy mode is the word-swapped normal mode", "statement": "freqcd -x on a stream whose events have their 32-bit words swapped writes exactly the word-swapped output of freqcd without -x on the original stream, for the same read sizes and frequency updates.", "quantifier": "every stream, schedule, frequency stream", "why_tests_cant": "every state and event", "anchors": ["src/fpfind/freqcd.c:main (335-341, 353-357, 373-377)"]}
{"id": "C11", "title": "Frequency updates do not depend on how the frequency stream is split", "statement": "The correction in force after a frequency stream has been delivered is the last valid newline-terminated number in it, however its bytes are split over reads.", "quantifier": "every byte stream and every split", "why_tests_cant": "exponentially many splits", "anchors": ["src/fpfind/freqcd.c:main (387-434)", "src/fpfind/freqcd.c:readint"]}
{"id": "C12", "title": "The correction in force stays within the documented range", "statement": "At every moment the correction freqcd applies is an integer of magnitude at most 2^21-1, whatever arrives on the frequency stream and whatever was passed with -f/-d.", "quantifier": "every frequency byte stream, split and command line", "why_tests_cant": "all byte streams", "anchors": ["src/fpfind/freqcd.c:main (210-213, 418)", "src/fpfind/freqcd.c:readint"]}
{"id": "C13", "title": "Malformed or out-of-range frequency lines are ignored", "statement": "A line on the frequency stream that is not a decimal integer of magnitude below 2^21 leaves the correction unchanged.", "quantifier": "every line of bytes", "why_tests_cant": "infinitely many malformed lines", "anchors": ["src/fpfind/freqcd.c:readint", "src/fpfind/freqcd.c:main (412-424)"]}
{"id": "C14", "title": "freqcd -f/-d accept exactly the documented range", "statement": "freqcd starts with -f n exactly when |n| <= 2097151, and with -d -f n exactly when |n| <= 1220703 (the correction then being n*2^34/10^10 truncated towards zero); otherwise it exits with error 5.", "quantifier": "every int-sized n", "why_tests_cant": "2^32 values times two modes, with floating-point conversion", "anchors": ["src/fpfind/freqcd.c:main (168-213)"]}
{"id": "C15", "title": "freqcd options can be given in any order and clustered", "statement": "The configuration freqcd runs with is determined by the set of options given (last one wins per letter), whether flags are separate or clustered and option arguments attached or detached.", "quantifier": "every argument vector built from the documented options", "why_tests_cant": "unboundedly many argument vectors", "anchors": ["src/fpfind/freqcd.c:main (173-208)", "src/fpfind/lib/getopt.c:getopt"]}
{"id": "C16", "title": "Filename options never overflow their buffers", "statement": "Whatever string is passed to -i, -o or -F, freqcd writes at most 200 bytes into the 200-byte name buffer.", "quantifier": "every argument string", "why_tests_cant": "needs a name of exactly 200 or more characters", "anchors": ["src/fpfind/freqcd.c:main (81-83, 174-194)"]}
{"id": "C17", "title": "freqcd's output is a prefix of the corrected stream at every stop", "statement": "However freqcd stops (input EOF, read error, short write, select error), the bytes written so far are a prefix of the corrected event stream: nothing is written twice, skipped or reordered.", "quantifier": "every schedule and every stopping point", "why_tests_cant": "every crash/stop point", "anchors": ["src/fpfind/freqcd.c:main (282-461)"]}
{"id": "C18", "title": "freqcd survives the 54-bit timestamp rollover", "statement": "When the 54-bit timestamp counter rolls over (about every 20 hours) the correction applied to the event after the rollover is computed from the true elapsed time.", "quantifier": "every pair of consecutive events across the rollover", "why_tests_cant": "needs a 20 hour recording", "anchors": ["src/fpfind/freqcd.c:main (358-384)"]}
{"id": "C19", "title": "a1 files round-trip", "statement": "read_a1(write_a1(t,p)) returns exactly the (t,p) written, for either legacy setting, for 54-bit timestamps given in 4ps units or in ns with 1/256 fractions, and 4-bit patterns.", "quantifier": "every list of events, both legacy settings", "why_tests_cant": "2^58 events and any number of them", "anchors": ["src/fpfind/lib/parse_timestamps.py:read_a1", "src/fpfind/lib/parse_timestamps.py:write_a1", "src/fpfind/lib/parse_timestamps.py:_consolidate_events", "src/fpfind/lib/parse_timestamps.py:_format_timestamps"]}
{"id": "C20", "title": "a2 files round-trip", "statement": "read_a2(write_a2(t,p)) returns exactly the (t,p) written.", "quantifier": "every list of 54-bit timestamps and 4-bit patterns", "why_tests_cant": "values straddling 2^63 and list sizes 0 and 1 behave differently", "anchors": ["src/fpfind/lib/parse_timestamps.py:read_a2", "src/fpfind/lib/parse_timestamps.py:write_a2"]}
{"id": "C21", "title": "a0 files round-trip", "statement": "read_a0(write_a0(t,p)) returns exactly the (t,p) written.", "quantifier": "every list of 54-bit timestamps and 4-bit patterns", "why_tests_cant": "numpy's type promotion silently loses the last bit only for large odd timestamps", "anchors": ["src/fpfind/lib/parse_timestamps.py:read_a0", "src/fpfind/lib/parse_timestamps.py:write_a0"]}
{"id": "C22", "title": "Timestamp formatting is exact", "statement": "Reading with fractional=False at resolution r yields the floor of the raw time in units of r; with fractional=True it yields the exact raw time in units of r (80-bit floats).", "quantifier": "every 54-bit raw timestamp and each of the three resolutions", "why_tests_cant": "2^54 values with floating-point rounding", "anchors": ["src/fpfind/lib/parse_timestamps.py:_format_timestamps", "src/fpfind/lib/constants.py:TSRES"]}
{"id": "C23", "title": "Streaming readers agree with in-memory readers", "statement": "Concatenating the batches of sread_aX gives the result of read_aX, the number of batches yielded is the announced num_batches, and every batch but the last has exactly buffer_size events.", "quantifier": "every file of whole events, every positive buffer size, each format", "why_tests_cant": "all sizes relative to the buffer size", "anchors": ["src/fpfind/lib/parse_timestamps.py:sread_a0", "src/fpfind/lib/parse_timestamps.py:sread_a1", "src/fpfind/lib/parse_timestamps.py:sread_a2"]}
{"id": "C24", "title": "Streaming writers agree with in-memory writers", "statement": "swrite_aX of any sequence of batches produces the same file as write_aX of the concatenated batches.", "quantifier": "every partition of every event list into batches", "why_tests_cant": "exponentially many partitions", "anchors": ["src/fpfind/lib/parse_timestamps.py:swrite_a0", "src/fpfind/lib/parse_timestamps.py:swrite_a1", "src/fpfind/lib/parse_timestamps.py:swrite_a2"]}
{"id": "C25", "title": "Streaming statistics agree with in-memory statistics", "statement": "print_statistics_stream reports the same counts, first/last timestamps and pattern set as counting over the whole event list, whatever the batch boundaries, including empty batches.", "quantifier": "every event list and every partition into batches", "why_tests_cant": "exponentially many partitions", "anchors": ["src/fpfind/lib/parse_timestamps.py:print_statistics", "src/fpfind/lib/parse_timestamps.py:print_statistics_stream"]}
{"id": "C26", "title": "Pattern filter keeps exactly the specified events", "statement": "get_pattern_mask selects: without mask, the events whose pattern equals (or with invert differs from) the given one, patterns unchanged; with mask, the events sharing a bit with it, reduced to those bits; with mask and invert, the events that have a bit outside it or had no bit at all, with its bits cleared.", "quantifier": "every list of 4-bit patterns, every 4-bit pattern argument, all four modes", "why_tests_cant": "all lists; interaction of the dummy marker with the mask", "anchors": ["src/fpfind/lib/parse_timestamps.py:get_pattern_mask"]}
{"id": "C27", "title": "Time filter keeps exactly the events within the bounds", "statement": "For a sorted timestamp array get_timing_mask is true exactly at the events with start <= t <= end, missing bounds being infinite.", "quantifier": "every sorted array (including empty and with duplicates), every bounds", "why_tests_cant": "boundary and duplicate combinations for every array size", "anchors": ["src/fpfind/lib/parse_timestamps.py:get_timing_mask"]}
{"id": "C28", "title": "Filtering a stream equals filtering the whole file", "statement": "For time-ordered events, applying the command-line filters batch by batch and concatenating gives the same events as filtering the whole file at once.", "quantifier": "every sorted event list, every batch size, every filter setting", "why_tests_cant": "every partition", "anchors": ["src/fpfind/lib/parse_timestamps.py:main.event_filter", "src/fpfind/lib/parse_timestamps.py:main.inline_filter"]}
{"id": "C29", "title": "parse_timestamps converts losslessly between formats", "statement": "Converting a well-formed file from any input format/word order to any output format/word order yields the encoding of the same (filtered) events; only flag bits 4-9 are cleared.", "quantifier": "every event list, every pair of formats and legacy flags, every filter", "why_tests_cant": "all event lists and option combinations", "anchors": ["src/fpfind/lib/parse_timestamps.py:main"]}
{"id": "C30", "title": "Incomplete a1 files are rejected", "statement": "read_a1 and sread_a1 reject (ValueError) every file whose size is not a multiple of 8 bytes.", "quantifier": "every file size", "why_tests_cant": "sizes modulo 8", "anchors": ["src/fpfind/lib/parse_timestamps.py:read_a1", "src/fpfind/lib/parse_timestamps.py:sread_a1"]}
{"id": "C31", "title": "T1 epoch files round-trip", "statement": "read_T1 of the file written by write_T1(dir, epoch, timestamps, detectors) returns for each event the epoch-local time plus the epoch's low 17 bits, and its detector, for timestamps below 2^37 and detectors 1..15.", "quantifier": "every event list, every 32-bit epoch", "why_tests_cant": "all lists; an all-zero event is the terminator", "anchors": ["src/fpfind/lib/parse_epochs.py:read_T1", "src/fpfind/lib/parse_epochs.py:write_T1"]}
{"id": "C32", "title": "T1 integer timestamps with full epoch are exact", "statement": "read_T1(full_epoch=True, fractional=False) returns floor((epoch*2^37 + local time)/unit) for each resolution without 64-bit overflow.", "quantifier": "every epoch, local time, resolution", "why_tests_cant": "2^69 combinations", "anchors": ["src/fpfind/lib/parse_epochs.py:read_T1 (204-237)"]}
{"id": "C33", "title": "T1 fractional timestamps have the documented precision", "statement": "read_T1(fractional=True) is exact without full_epoch, and with full_epoch is within half a unit in the last place of a 64-bit significand of the exact time (62.5 ps), preserving order.", "quantifier": "every epoch and local time", "why_tests_cant": "floating-point rounding over 2^69 values", "anchors": ["src/fpfind/lib/parse_epochs.py:read_T1 (213-235)"]}
{"id": "C34", "title": "Truncated T1 files are detected", "statement": "If a T1 file with a non-zero length entry loses any bytes of its event section, read_T1 raises ValueError instead of returning data.", "quantifier": "every file and every truncation point", "why_tests_cant": "every truncation point of every file", "anchors": ["src/fpfind/lib/parse_epochs.py:read_T1 (184-206)"]}
{"id": "C35", "title": "extract_bits returns the leading bits of the stream", "statement": "Successive extract_bits calls of widths up to 32 return consecutive bit fields of the big-endian bit stream formed by the file's little-endian words, losing no bit.", "quantifier": "every sequence of widths, every file", "why_tests_cant": "all alignments of fields to words", "anchors": ["src/fpfind/lib/parse_epochs.py:extract_bits"]}
{"id": "C36", "title": "T2 files decode to the encoded events", "statement": "read_T2 of a file encoding a list of time differences and patterns per the filespec (short/extended fields, terminator) returns the running sums starting at the epoch, with the patterns, exactly.", "quantifier": "every list of differences and patterns, every timeorder 2..32 and base width up to 32, every epoch", "why_tests_cant": "all event lists and field alignments, numpy scalar promotion to float64", "anchors": ["src/fpfind/lib/parse_epochs.py:read_T2"]}
{"id": "C37", "title": "read_T2 and read_T4 terminate on every file", "statement": "For any file contents read_T2 and read_T4 return or raise; they do not loop forever.", "quantifier": "every file, including truncated ones", "why_tests_cant": "non-termination cannot be observed by a finite test", "anchors": ["src/fpfind/lib/parse_epochs.py:read_T2", "src/fpfind/lib/parse_epochs.py:read_T4", "src/fpfind/lib/parse_epochs.py:extract_bits"]}
{"id": "C38", "title": "T2 timestamps are available in every resolution", "statement": "read_T2 returns, for each resolution and fractional/full_epoch setting, the exact time (or its floor) in that unit.", "quantifier": "every event list, the six resolution/fractional settings, both full_epoch settings", "why_tests_cant": "combination of dtype paths", "anchors": ["src/fpfind/lib/parse_epochs.py:read_T2 (353-385)"]}
{"id": "C39", "title": "T4 files decode to the encoded indices", "statement": "read_T4 of a file encoding index increments and bases returns the running index sums and bases exactly.", "quantifier": "every list of increments and bases, every timeorder and base width", "why_tests_cant": "all lists and alignments", "anchors": ["src/fpfind/lib/parse_epochs.py:read_T4"]}
{"id": "C40", "title": "T3 coincidence bookkeeping adds up", "statement": "read_T3's coincidence matrix counts exactly the entries with one detector on each side, okcount is its sum, the garbage counters count exactly the sides without a single detector, and qber is the error fraction within [0,1] (0.5 if none).", "quantifier": "every file whose header length does not exceed its entries", "why_tests_cant": "all entry lists", "anchors": ["src/fpfind/lib/parse_epochs.py:read_T3"]}
{"id": "C41", "title": "Epoch names and numbers correspond", "statement": "epoch2int(int2epoch(n)) = n for every n >= 0, int2epoch is injective, and write_T1's file name is int2epoch of the 32-bit epoch so that reading it back raises no header warning.", "quantifier": "every non-negative integer", "why_tests_cant": "infinite domain", "anchors": ["src/fpfind/lib/parse_epochs.py:epoch2int", "src/fpfind/lib/parse_epochs.py:int2epoch", "src/fpfind/lib/parse_epochs.py:write_T1"]}
{"id": "C42", "title": "date2epoch gives the epoch containing the instant", "statement": "date2epoch of an instant with integer unix second s >= 0 is the epoch number floor(s*8e9/2^32) in at least 8 hex digits.", "quantifier": "every unix second in the 32-bit epoch range", "why_tests_cant": "2^31 seconds with floating point division", "anchors": ["src/fpfind/lib/parse_epochs.py:date2epoch", "src/fpfind/lib/parse_epochs.py:epoch2date"]}
{"id": "C43", "title": "The first overlapping epoch and run length are right", "statement": "get_first_overlapping_epoch returns the smallest epoch present in both directories and not below first_epoch, and the number of consecutive common epochs from it; (None, 0) exactly when there is none.", "quantifier": "every pair of directory listings, every first_epoch", "why_tests_cant": "all set pairs", "anchors": ["src/fpfind/lib/utils.py:get_first_overlapping_epoch"]}
{"id": "C44", "title": "get_timestamp concatenates consecutive epochs", "statement": "get_timestamp returns the events of epochs first+skip .. first+skip+n-1 in order, each exactly once, and fails if one is missing; times never decrease across the boundary of consecutive epochs.", "quantifier": "every directory, start, skip, count", "why_tests_cant": "all epoch numbers including wrap of the 17-bit epoch field", "anchors": ["src/fpfind/lib/utils.py:get_timestamp"]}
{"id": "C45", "title": "Normalisation keeps relative times", "statement": "normalize_timestamps subtracts one common start time (latest first event plus skip) from all arrays and drops exactly the events before it; intervals between kept events of all arrays are unchanged.", "quantifier": "every non-empty arrays of device timestamps (multiples of 1/256 ns the float format holds), every skip for which the start time is one", "why_tests_cant": "all arrays", "anchors": ["src/fpfind/lib/utils.py:normalize_timestamps", "src/fpfind/lib/utils.py:slice_timestamps"]}
{"id": "C46", "title": "slice_timestamps selects the half-open window", "statement": "slice_timestamps(ts, start, duration) returns, in order, t - start for exactly the events with start <= t < start+duration.", "quantifier": "every array of device timestamps with an event at or after start, every such start, every duration", "why_tests_cant": "all arrays and boundaries", "anchors": ["src/fpfind/lib/utils.py:slice_timestamps"]}
{"id": "C47", "title": "get_overlap truncates to the common length", "statement": "get_overlap returns the minimum length and each array's prefix of that length.", "quantifier": "every non-empty collection of arrays", "why_tests_cant": "all lengths", "anchors": ["src/fpfind/lib/utils.py:get_overlap"]}
{"id": "C48", "title": "Binning conserves events", "statement": "The histogram built for the FFT has num_bins bins, each event falls in exactly the bin floor(t/res) mod num_bins, and the total count is the number of events.", "quantifier": "every event list, resolution > 0, number of bins", "why_tests_cant": "all lists", "anchors": ["src/fpfind/lib/utils.py:generate_fft"]}
{"id": "C49", "title": "The cross-correlation peak is the relative shift", "statement": "If the second histogram is the first one cyclically shifted by s bins and no non-trivial cyclic shift fixes the first one, the correlation is maximal exactly at s and the delay reported is s bins, or s-N bins when that is not longer.", "quantifier": "every histogram length, every aperiodic histogram, every shift, any computed correlation less than 1/2 off per bin", "why_tests_cant": "all histograms", "anchors": ["src/fpfind/lib/utils.py:get_xcorr", "src/fpfind/lib/utils.py:get_timing_delay_fft"]}
{"id": "C50", "title": "The two delay candidates are consistent", "statement": "get_timing_delay_fft returns the peak bin position and its alias one full range lower (both zero for bin 0), the one of smaller magnitude first.", "quantifier": "every histogram and evenly spaced time axis", "why_tests_cant": "all peak positions", "anchors": ["src/fpfind/lib/utils.py:get_timing_delay_fft", "src/fpfind/lib/utils.py:get_delay_at_index_fft"]}
{"id": "C51", "title": "Peak statistics split the histogram without overlap", "statement": "get_statistics' signal contains the peak bin, its background is disjoint from the signal and contained in the histogram, and a flat background gives significance 0.", "quantifier": "every histogram, every window and center", "why_tests_cant": "all positions at the edges", "anchors": ["src/fpfind/lib/utils.py:get_statistics", "src/fpfind/lib/utils.py:PeakStatistics"]}
{"id": "C52", "title": "Histogram re-centering keeps bins and times paired", "statement": "convert_histogram_fft rotates an even-length histogram so that the value at time tau is the original value at tau modulo the range.", "quantifier": "every even-length histogram", "why_tests_cant": "all lengths", "anchors": ["src/fpfind/lib/utils.py:convert_histogram_fft"]}
{"id": "C53", "title": "The returned offset composes all refinement steps", "statement": "time_freq returns (dt, df) such that (T - dt)/(1 + df) equals, for every time T, the successive application of the per-iteration corrections it made to the target timestamps; fpfind likewise including the precompensation.", "quantifier": "every sequence of iterations", "why_tests_cant": "any number of iterations", "anchors": ["src/fpfind/fpfind.py:time_freq (268-307)", "src/fpfind/fpfind.py:fpfind (355-387)"]}
{"id": "C54", "title": "The returned frequency offset is within the compensation range", "statement": "Whenever time_freq returns, |df| < 2^-13.", "quantifier": "every input and parameter", "why_tests_cant": "every path through the loop", "anchors": ["src/fpfind/fpfind.py:time_freq (251-311)"]}
{"id": "C55", "title": "The refinement loop terminates", "statement": "time_freq stops for every input whose separation/acquisition ratio exceeds the float64 value of sqrt(2) used, within a number of iterations logarithmic in the ratio of starting and target resolution.", "quantifier": "every input and parameter with ratio above sqrt(2); in float64 by a relative 2^-49", "why_tests_cant": "non-termination cannot be observed", "anchors": ["src/fpfind/fpfind.py:time_freq (148-307)"]}
{"id": "C56", "title": "fpfind returns the first successful precompensation", "statement": "fpfind returns the composed result for the first precompensation in the list whose search succeeds and raises ValueError exactly when all fail with ValueError.", "quantifier": "every list of precompensations", "why_tests_cant": "all success/failure patterns", "anchors": ["src/fpfind/fpfind.py:fpfind"]}
{"id": "C57", "title": "A full precompensation scan still returns a result", "statement": "With precompensation_fullscan=True fpfind tries every precompensation and returns a found offset if any of them succeeded.", "quantifier": "every list with at least one success", "why_tests_cant": "all patterns", "anchors": ["src/fpfind/fpfind.py:fpfind (351-384)"]}
{"id": "C58", "title": "Peak search failures surface as ValueError", "statement": "Whatever the (non-empty, normalised) data, fpfind either returns or raises ValueError; no other exception escapes.", "quantifier": "all data and parameters", "why_tests_cant": "all data", "anchors": ["src/fpfind/fpfind.py:time_freq", "src/fpfind/fpfind.py:fpfind", "src/fpfind/lib/utils.py:slice_timestamps", "src/fpfind/lib/utils.py:PeakStatistics"]}
{"id": "C59", "title": "Precompensation lists cover the scan range", "statement": "generate_precompensations(start, stop, step) yields start + k*step for k = 0,1,-1,2,-2,... up to |k*step| <= stop, each once; ordered: k = 0,1,.. up to start + k*step <= stop; step 0 yields [0].", "quantifier": "every start, stop >= 0, step > 0", "why_tests_cant": "all parameter values, floating floor division", "anchors": ["src/fpfind/fpfind.py:generate_precompensations"]}
{"id": "C60", "title": "Inverted output is the inverse compensation", "statement": "With output bit 0 set, the printed offsets describe the map that undoes the un-inverted one: applying both corrections in turn returns every time to itself.", "quantifier": "every dt and df > -1", "why_tests_cant": "all offsets", "anchors": ["src/fpfind/fpfind.py:main (661-671)"]}
{"id": "C61", "title": "fpfind's frequency output is accepted by freqcd", "statement": "The integer printed with output bit 1 set (without precompensation) is within the range freqcd accepts, inverted or not.", "quantifier": "every returned df", "why_tests_cant": "boundary of two independent programs", "anchors": ["src/fpfind/fpfind.py:main (664-670)", "src/fpfind/freqcd.c:main (213)"]}
{"id": "C62", "title": "Output fields and units follow the flags", "statement": "The line printed is the frequency field, then unless bit 2 is set a tab and the integer time in ns (or 1/8 ns with bit 3), with no trailing tab.", "quantifier": "all 16 flag values, all offsets", "why_tests_cant": "all combinations", "anchors": ["src/fpfind/fpfind.py:main (664-677)"]}
{"id": "C63", "title": "Generated test events decode to the requested timestamps", "statement": "get_event(t) is an a1 event whose timestamp is t modulo 2^54 and whose pattern is the detectors argument, in the module's word order.", "quantifier": "every t >= 0, detectors 0..15", "why_tests_cant": "all timestamps", "anchors": ["src/fpfind/lib/generate_freqcd_testcase.py:get_event"]}
{"id": "C64", "title": "The test generator honours its legacy flag", "statement": "generate_freqcd_testcase -x emits events in legacy word order.", "quantifier": "every timestamp list", "why_tests_cant": "global/local variable scoping across all inputs", "anchors": ["src/fpfind/lib/generate_freqcd_testcase.py:main (86-87)"]}
{"id": "C65", "title": "The test generator reads its input file without changing it", "statement": "generate_freqcd_testcase FILE prints the timestamps stored in FILE and leaves FILE unchanged.", "quantifier": "every file and standard input", "why_tests_cant": "all file contents", "anchors": ["src/fpfind/lib/generate_freqcd_testcase.py:main (106-128)"]}
{"id": "C66", "title": "Verbosity always maps to a log level", "statement": "verbosity2level is defined for every count >= 0, non-increasing, WARNING at 0, INFO at 1, DEBUG from 2 on.", "quantifier": "every count", "why_tests_cant": "infinite domain", "anchors": ["src/fpfind/lib/logging.py:verbosity2level"]}
{"id": "C67", "title": "write_T1 accepts numpy arrays", "statement": "write_T1 called with int64 or uint64 numpy arrays writes the same file as with Python ints.", "quantifier": "every epoch and event list, each array type", "why_tests_cant": "dtype promotion over all 64-bit values", "anchors": ["src/fpfind/lib/parse_epochs.py:write_T1"]}
{"id": "C68", "title": "read_T1 terminates on every file", "statement": "For any bytes read_T1 returns or raises, and what it returns are the words before the first zero word, zeros being supplied at the end of the file.", "quantifier": "every file", "why_tests_cant": "unbounded file contents", "anchors": ["src/fpfind/lib/parse_epochs.py:read_T1"]}
{"id": "C69", "title": "The delay of events is found through binning and correlation", "statement": "If the second party's events are the first party's, each delayed by s bins plus any number of full turns and in any order, then binning both, correlating and get_timing_delay_fft report s bins, or s-N bins when that is not longer, unless the histogram has a period.", "quantifier": "every event list, number of bins, resolution and shift", "why_tests_cant": "all event lists", "anchors": ["src/fpfind/lib/utils.py:generate_fft", "src/fpfind/lib/utils.py:get_xcorr", "src/fpfind/lib/utils.py:get_timing_delay_fft"]}
{"id": "C70", "title": "The k strongest delays come in order", "statement": "get_top_k_delays_fft returns the delays of k distinct positions of the largest values, strongest first, each with its value; for k = 1 the delay of get_timing_delay_fft.", "quantifier": "every histogram, 1 <= k <= its length, whichever way equal values are ordered", "why_tests_cant": "all histograms and ties", "anchors": ["src/fpfind/lib/utils.py:get_top_k_delays_fft"]}
{"id": "C71", "title": "The significance is the distance in standard deviations", "statement": "PeakStatistics.significance is (max - mean)/stdev of signal and background rounded to three decimals, and total is the sum of the signal above the background mean.", "quantifier": "every signal and background, exact arithmetic", "why_tests_cant": "all lists", "anchors": ["src/fpfind/lib/utils.py:PeakStatistics"]}
{"id": "C72", "title": "significance_raw returns a number", "statement": "PeakStatistics.significance_raw returns a number whenever the signal is not empty and the background varies.", "quantifier": "every such signal and background", "why_tests_cant": "universally quantified", "anchors": ["src/fpfind/lib/utils.py:PeakStatistics.significance_raw"]}
{"id": "C73", "title": "generate_precompensations returns its documented examples", "statement": "The four calls in the docstring of generate_precompensations return the lists shown there.", "quantifier": "the four examples", "why_tests_cant": "not run by any test", "anchors": ["src/fpfind/fpfind.py:generate_precompensations (399-407)"]}
{"id": "C74", "title": "Details of a log record are aligned with its message", "statement": "A record with a list or dict of details is shown in the readable format as its message followed by one line per detail, each made of the message's prefix turned to blanks of the same width, the delimiter and the detail two columns further in than the text; an empty message is replaced by the first detail, and in the plain format details follow after a tab.", "quantifier": "every message, delimiter, list of details and notion of whitespace", "why_tests_cant": "all strings", "anchors": ["src/fpfind/lib/logging.py:LoggingOverrideFormatter.format"]}
{"id": "C75", "title": "g2 counts the pairs closer than the maximal delay", "statement": "g2 counts in bin k exactly the pairs of an event of the second array and a stamp of the first, both in the interval, whose delay is below the maximum and falls in bin k.", "quantifier": "every two sorted arrays, interval, maximum and bin width", "why_tests_cant": "all arrays", "anchors": ["src/fpfind/lib/g2_two_timestamps.py:g2"]}
{"id": "C76", "title": "histogram_fft returns the correlation and keeps its inputs", "statement": "histogram_fft returns a histogram for any two non-empty arrays and leaves the arrays as they were.", "quantifier": "every pair of non-empty arrays", "why_tests_cant": "universally quantified", "anchors": ["src/fpfind/lib/utils.py:histogram_fft"]}
{"id": "C77", "title": "Detuned timestamps are restored by the plotter's correction", "statement": "The events that generate_freqdetuneg2 keeps, detuned by a ratio and offset, are brought back to their original times by fpplot with that ratio in ppm and the offset less ratio times the first time; fpplot's correction is the one fpfind's result stands for.", "quantifier": "every event list, channel, ratio other than -1 and offset, in exact arithmetic", "why_tests_cant": "all event lists", "anchors": ["src/fpfind/lib/generate_freqdetuneg2.py:detune (28-40)", "src/fpfind/fpplot.py:plotter"]}
{"id": "C78", "title": "The program description is the docstring's first part", "statement": "parse_docstring_description returns the text before 'Changelog:' with the first run of newlines replaced by an empty line and every other run by a space.", "quantifier": "every docstring without a tilde before the changelog", "why_tests_cant": "all strings", "anchors": ["src/fpfind/lib/utils.py:parse_docstring_description"]}
{"id": "C79", "title": "Enough epochs are read for the search", "statement": "fpfind reads as many epochs as cover (separation + 1) times the acquisition window, and at most one more than the rounded duration requires; with fewer epochs available it prints no result.", "quantifier": "every separation >= 0 and window below 2^53 ns; every pair of directories", "why_tests_cant": "all options and directories", "anchors": ["src/fpfind/fpfind.py:main (561-600)"]}
{"id": "C80", "title": "A common shift of both clocks does not change the result", "statement": "fpfind prints the same for two timestamp files and for the files with the same constant added to all times.", "quantifier": "every pair of files with times below 2^54, shift keeping them there, option and skipped duration representable in the arrays", "why_tests_cant": "all files; rounding of the formats included", "anchors": ["src/fpfind/fpfind.py:main (602-677)", "src/fpfind/fpfind.py:time_freq"]}
{"id": "C81", "title": "One pass finds the delay and the clock ratio", "statement": "If in the window and in the separated window the target's events are the reference's, moved by s1 and s2 bins plus full turns and in any order, the histograms have no period and the significance reaches the threshold, then the search at the target resolution returns the delay of s1 bins exactly and a frequency within 2^-52 of (delay of s2 - delay of s1) / separation.", "quantifier": "every event list, shifts, number of bins, wraps and integer resolution, the correlation computed to within one half", "why_tests_cant": "all event lists; floating point included", "anchors": ["src/fpfind/fpfind.py:time_freq"]}
{"id": "C82", "title": "The statistics of every file of events can be printed", "statement": "parse_timestamps -p on a file holding at least one event prints the whole report without an exception.", "quantifier": "every list of events and format", "why_tests_cant": "single events and events at one time are corner cases", "anchors": ["src/fpfind/lib/parse_timestamps.py:print_statistics_report", "src/fpfind/lib/parse_timestamps.py:main (758-767)"]}
{"id": "C83", "title": "The counts are printed in one column", "statement": "The seven count lines of the report hold the number of events, of events per channel, with several and with no channels, right-aligned to the same width.", "quantifier": "every non-empty list of events, format and way of reading; any filters", "why_tests_cant": "all numbers of events", "anchors": ["src/fpfind/lib/parse_timestamps.py:print_statistics_report (500-513)"]}
{"id": "C84", "title": "Printed times are right to the nanosecond", "statement": "The start, end and duration printed, in seconds with nine decimals, differ from the true values by at most 9/16 ns.", "quantifier": "every list of events with times below 2^54, in order or not", "why_tests_cant": "all times; rounding of every step included", "anchors": ["src/fpfind/lib/parse_timestamps.py:print_statistics_report (514-516)", "src/fpfind/lib/parse_timestamps.py:print_statistics_stream"]}
{"id": "C85", "title": "Event rate and patterns are printed", "statement": "The event rate printed is the whole part of the number of events divided by a duration that is within 1/16 ns of the true one; the patterns printed are those that occur, in increasing order.", "quantifier": "every list of events whose last time is at least 32 units after the first", "why_tests_cant": "all event lists", "anchors": ["src/fpfind/lib/parse_timestamps.py:print_statistics_report (517-518)"]}
{"id": "C86", "title": "fpfind's frequency given to freqcd brings the clocks in step", "statement": "The frequency fpfind prints with its values inverted is accepted by freqcd -f, and the events freqcd then writes have the times of the reference clock: elapsed times are off by at most 2^-35 + 2^-49 of the elapsed time and 3/2 units per read, for any true frequency within 2^-51 of the one found.", "quantifier": "every frequency found up to the limit, every event stream in order and every split of it into reads", "why_tests_cant": "all streams and splits; two programs with different arithmetic", "anchors": ["src/fpfind/fpfind.py:main (668-677)", "src/fpfind/freqcd.c:main (121-385)"]}
{"id": "C87", "title": "The search converges to the delay and clock ratio", "statement": "If every pair of delays a search finds is true to one bin width at some times of their windows, the frequency returned is off by at most an error that each iteration multiplies by window / separation, plus the drift of two bins over the separation and three roundings, and the delay by one bin (times 1 + 2^-12) plus the frequency error over the window and its rounding.", "quantifier": "every number of iterations, event list and option, in float64 or exact arithmetic; ended normally or by giving up", "why_tests_cant": "all event lists; any number of iterations", "anchors": ["src/fpfind/fpfind.py:time_freq"]}
{"id": "C88", "title": "fpfind prints the delay and clock ratio of two files of the same events", "statement": "If, from the time both devices have started, the target file holds the events of the reference file s1 bins later in the first window and s2 bins later in the one after the separation (whole turns and order free), fpfind -t -T prints a line showing that delay and a frequency within 2^-51 of the change of delay over the separation.", "quantifier": "every pair of a1 files, output flag, number of bins, wraps, integer resolution and separation that the search handles in one iteration", "why_tests_cant": "all files; from the bytes of the files to the digits of the line, rounding included", "anchors": ["src/fpfind/fpfind.py:main (561-677)", "src/fpfind/fpfind.py:time_freq"]}
{"id": "C89", "title": "Files, fpfind and freqcd together bring the clocks in step", "statement": "The line printed by fpfind -V 7 for two such files is accepted by freqcd -f, and the events freqcd writes are in step with the reference: elapsed times are off by at most 2^-35 + 2^-49 of the elapsed time and 3/2 units per read.", "quantifier": "every pair of such files, every event stream in order and every split of it into reads", "why_tests_cant": "two programs and all their inputs", "anchors": ["src/fpfind/fpfind.py:main", "src/fpfind/freqcd.c:main"]}
{"id": "C90", "title": "Epoch directories and timestamp files of the same events give the same result", "statement": "fpfind -d -D on T2 and T1 files of consecutive epochs prints exactly what fpfind -t -T prints for a1 files of the events of the epochs it needs, starting at the first epoch both directories have plus the epochs skipped; in particular it shows the delay and clock ratio as in C88.", "quantifier": "every pair of directories, first epoch, skip, event list, field width of the T2 files and option; errors included", "why_tests_cant": "all directories; three file formats decoded and compared through the whole search", "anchors": ["src/fpfind/fpfind.py:main (576-606)", "src/fpfind/lib/utils.py:get_first_overlapping_epoch", "src/fpfind/lib/utils.py:get_timestamp", "src/fpfind/lib/parse_epochs.py:read_T2", "src/fpfind/lib/parse_epochs.py:read_T1"]}
{"id": "C91", "title": "fpplot applies the delay and frequency it is given to the target's events", "statement": "fpplot compares the reference's times since the later of the two first events (plus the time skipped) with the target's, less the delay and divided by 1 + freq/10^6, within the fraction 2^-51; with the target clock's delay and ratio given, coincident events are at zero but for the error of these. Epoch directories give the same as timestamp files.", "quantifier": "every pair of a1 files or epoch directories, skip, duration, delay, and frequency up to 1000 ppm", "why_tests_cant": "all files and settings; floating point included", "anchors": ["src/fpfind/fpplot.py:main", "src/fpfind/fpplot.py:plotter", "src/fpfind/lib/utils.py:normalize_timestamps", "src/fpfind/lib/utils.py:slice_timestamps"]}
{"id": "C92", "title": "generate_freqdetuneg2 writes the two channels, the second detuned by the ratio in each file's name", "statement": "From a legacy a1 recording, c1_a2.dat is the a2 file of the events of channel 1, unchanged, and c4eN.dat the legacy a1 file of the events of channel 8 in order, each at t0 + (t - t0)(1 + 10^-N), t0 the first time of the recording, within 257/256 unit (4 ps) and 2^-52 of t - t0.", "quantifier": "every recording with no time before its first and none detuned past 2^54, every longdouble of 64 bits or more", "why_tests_cant": "all recordings; floating point and file encodings included", "anchors": ["src/fpfind/lib/generate_freqdetuneg2.py (21-49)", "src/fpfind/lib/parse_timestamps.py:write_a1", "src/fpfind/lib/parse_timestamps.py:write_a2", "src/fpfind/lib/parse_timestamps.py:read_a1"]}
{"id": "C93", "title": "freqcd turns an a1 file into an a1 file of the same events at other times", "statement": "When freqcd has been given a whole a1 file, what it wrote is an a1 file with as many events and the same flag bits in the same order, and read_a1 reads both, with the same patterns. With one frequency f the new times are t + f (t - t0) / 2^34 modulo 2^54, within 3/2 unit per read; with the frequency printed by fpfind they are in step with the corrected times of fpfind as in C86.", "quantifier": "every file in both word orders, split into reads, frequency stream, resolution and precision", "why_tests_cant": "two programs in different languages have to agree on the format for all files", "anchors": ["src/fpfind/freqcd.c:main", "src/fpfind/lib/parse_timestamps.py:read_a1"]}
{"id": "C94", "title": "freqcd with fpfind's number for the ratio undoes generate_freqdetuneg2", "statement": "For N = 4...10 fpfind's line for the ratio 10^-N is accepted by freqcd -f, and freqcd -x turns c4eN.dat into a legacy a1 file of the channel 8 events in which times since the first are the original ones, within 2^-34 of the time since the recording's start, 3 units and 3/2 unit per read.", "quantifier": "every recording in order, every split of the file into reads", "why_tests_cant": "three programs and all recordings", "anchors": ["src/fpfind/lib/generate_freqdetuneg2.py:detune", "src/fpfind/freqcd.c:main", "src/fpfind/fpfind.py:main"]}
{"id": "C95", "title": "time_freq measures the most frequent time difference of the pairs of events", "statement": "A result of time_freq is explained without histograms and transforms: every iteration takes the first of the most frequent differences, in cells of the resolution and around the circle of num_bins cells, among all pairs of events of a window at 0 (in the first iteration in groups of 2^k cells) and of one at the separation; these give the delay and drift that are accumulated, applied to the target times, and refined from until the target resolution is met or the values are more than ten times what was found so far.", "quantifier": "every pair of streams, number of bins, resolution, separation, threshold; transforms with any error e on histograms of that many bins and events, which then bounds how far from the maximum the chosen count may be", "why_tests_cant": "all pairs of streams and all sequences of refinements", "anchors": ["src/fpfind/fpfind.py:time_freq", "src/fpfind/fpfind.py:fpfind", "src/fpfind/lib/utils.py:histogram_fft", "src/fpfind/lib/utils.py:get_xcorr", "src/fpfind/lib/utils.py:get_timing_delay_fft"]}
{"id": "C96", "title": "a constant delay is reported with frequency offset 0 when bins had to be merged", "statement": "When the same delay stands out in both windows, time_freq returns that delay and frequency offset 0, however many times the first iteration merged bins.", "quantifier": "every pair of streams with a delay of q cells that stands out, every number of merges", "why_tests_cant": "needs low significance together with a delay beyond the range of the first correlation", "anchors": ["src/fpfind/fpfind.py:time_freq (180-241)"]}
{"id": "C97", "title": "the transforms compute the circular correlation", "statement": "get_xcorr of the rfft of two integer arrays of one even length n >= 2 is, over the real numbers, the array of the n absolute values of their circular correlation sum_i a[i] b[(i+k) mod n]; an odd length gives n - 1 values, a single bin ValueError.", "quantifier": "every pair of integer arrays of one length", "why_tests_cant": "all arrays and lengths; the sums of roots of unity are proved, not sampled", "anchors": ["src/fpfind/lib/utils.py:generate_fft (194)", "src/fpfind/lib/utils.py:get_xcorr"]}
{"id": "C98", "title": "fpfind finds the clock relation when the coincidences stand out in the data", "statement": "The target shows D + (1 + F) tau, up to a jitter j, when the reference shows tau. If in every iteration some time difference is shared by more pairs of events (by more than the error of the transforms) than any difference without a coincidence, and the delays left stay within the range of the correlation, then the result of time_freq is D and F within the errors that the bin widths used, widened by the jitter, add up to; fpfind's within the same times 1 + df0 for the precompensation df0 it settled on.", "quantifier": "every pair of streams, D, F, j, every number of iterations and of merges, window lengths up to W, transforms with error at most e on histograms of that many bins and events", "why_tests_cant": "a statement about all data with a signal; tests use a few simulated streams", "anchors": ["src/fpfind/fpfind.py:time_freq", "src/fpfind/fpfind.py:fpfind"]}
{"id": "C99", "title": "fpfind finds the clock relation when the coincidences stand out, in floating point", "statement": "As C98, with the scalars and times rounded as the code rounds them: if in every iteration the coincidences stand out among the pairs of the rounded events, by more than the error of the transforms and of the summed counts, then the result is D and F within the errors that the bin widths used add up to, widened by the jitter and by the rounding of the delays, plus the rounding of the result.", "quantifier": "every pair of streams, D, F, j, every number of iterations and of merges, every rounding of times, scalars with relative error at most u <= 2^-50, float64 being one; transforms with error at most e on histograms of that many bins and events", "why_tests_cant": "a statement about all data with a signal and all roundings; tests use a few simulated streams", "anchors": ["src/fpfind/fpfind.py:time_freq", "src/fpfind/lib/utils.py:get_timing_delay_fft", "src/fpfind/lib/utils.py:slice_timestamps"]}
{"id": "C100", "title": "a run of freqcd on a file corrects the file", "statement": "freqcd with any spelling of -i, -o, -f, -d, -x (no -F), the correction within the documented range, on a file or standard input holding a whole number of events with times in order: exit code 0, the output holds the events of the input with their detector bits and with times in order, event i is within 3(i/1024 + 1)/2 units of t + f (t - t0)/2^34, and no other file changes.", "quantifier": "every such command line, file system, input of any length, contents of uninitialised memory", "why_tests_cant": "all file lengths and contents; errors add up over blocks of 1024 events", "anchors": ["src/fpfind/freqcd.c:main"]}
{"id": "C101", "title": "the correction in a frequency file is applied to the input", "statement": "freqcd -F with a file of at most 99 bytes with the value g: every event of the input file is corrected by g.", "quantifier": "every command line, file system, input and frequency file", "why_tests_cant": "files of fewer than 1024 events, as used in tests, never see the frequency file's value", "anchors": ["src/fpfind/freqcd.c:main"]}
{"id": "C102", "title": "freqcd without a correction copies its input", "statement": "freqcd with correction 0 and no -F on any bytes, not fewer than 8: exit code 0, the output is the input without the last length mod 8 bytes, no other file changes.", "quantifier": "every command line asking for no correction, every file system and contents, ordered or not", "why_tests_cant": "all contents and lengths", "anchors": ["src/fpfind/freqcd.c:main"]}
{"id": "C103", "title": "freqcd does not change its input file", "statement": "After a run of freqcd the file given with -i has the contents it had.", "quantifier": "every command line of good options, file system and input", "why_tests_cant": "only visible with -i and -o naming one file", "anchors": ["src/fpfind/freqcd.c:main (224)"]}
{"id": "C104", "title": "freqcd changes no file when it ends with an error", "statement": "If freqcd ends with an exit code other than 0 then no file has changed and nothing was written to standard output.", "quantifier": "every argument vector and file system", "why_tests_cant": "depends on the order in which files are opened", "anchors": ["src/fpfind/freqcd.c:main (216-232)"]}
{"id": "C105", "title": "fpfind run on two files prints the clock relation when the coincidences stand out", "statement": "fpfind -t A -T B without precompensation, any number of iterations: if the events common to the two files (the target's at D + (1 + F) tau, up to j) stand out in all that the search looks at, then the line printed shows offsets within the error bounds of D and F, in the direction, units and form asked for with -V.", "quantifier": "every pair of files of events, legacy or not, every D, F, j, options, number of iterations, longdouble of 54 bits or more; transforms with error at most e on histograms of that many bins and events", "why_tests_cant": "all recordings with a signal; reading, start times, search, rounding and printing compose", "anchors": ["src/fpfind/fpfind.py:main (-t, -T)", "src/fpfind/fpfind.py:fpfind", "src/fpfind/fpfind.py:time_freq", "src/fpfind/lib/utils.py:normalize_timestamps", "src/fpfind/lib/parse_timestamps.py:read_a1"]}
{"id": "C106", "title": "freqcd with the value printed by fpfind brings the target in step with the reference", "statement": "If fpfind -V 7 printed a line for two files whose common events stand out, then freqcd -f with that line on the target's file ends with exit code 0, keeps all events and their detector bits and order, and any two events common to the files are as far apart in the output as in the reference: up to the jitter, 5/4 of the frequency error of the search over the time since the first event, and 3/2 unit per 1024 events.", "quantifier": "every pair of files and options as in C105, every spelling of freqcd's command line and file system", "why_tests_cant": "composes both programs over all recordings", "anchors": ["src/fpfind/fpfind.py:main", "src/fpfind/freqcd.c:main"]}
{"id": "C107", "title": "fpfind with precompensation prints the clock relation when the coincidences stand out", "statement": "fpfind -t A -T B -P: the line printed belongs to one of the frequencies df0 tried; if the common events stand out after the target times are divided by 1 + df0, the offsets shown are D and F within the error bounds of the search for what is left, times 1 + df0, and freqcd with that line brings the target in step with the reference.", "quantifier": "every pair of files of events, every list of frequencies of size at most 1/2, ordered or not, and all else as in C105, C106", "why_tests_cant": "all recordings with a signal and all frequency lists; failures before the frequency that works must leave no trace", "anchors": ["src/fpfind/fpfind.py:main", "src/fpfind/fpfind.py:fpfind", "src/fpfind/fpfind.py:generate_precompensations", "src/fpfind/freqcd.c:main"]}
{"id": "C108", "title": "Times from the test generator come out of freqcd scaled by the frequency asked for", "statement": "generate_freqcd_testcase -t writes times to standard output; freqcd -f reads them; the generator's decoder reads freqcd's output: as many times come out, ordered, the i-th at t0 + (t - t0)(1 + f/2^34) mod 2^54 up to the rounding per 1024 events; every exit code is 0.", "quantifier": "every ordered list of times below 2^54, every f, spelling of the command line, buffer size and time stamp precision of 54 bits or more", "why_tests_cant": "the project's own test runs this chain for three times and one f", "anchors": ["src/fpfind/lib/generate_freqcd_testcase.py", "src/fpfind/freqcd.c:main"]}
{"id": "C109", "title": "Two runs of freqcd compose; with inverse frequencies the recording is restored", "statement": "freqcd -f f followed by freqcd -f g on its output keeps the number, order and detector bits of the events and multiplies times since the first by (1 + f/2^34)(1 + g/2^34), up to the rounding of both; if g is f's inverse to the nearest unit then the times are those of the input, up to 2^-35 of the time since the first event and the rounding.", "quantifier": "every recording without roll-over, ordered, legacy or not; every f, g, command line, file or pipe", "why_tests_cant": "all recordings and pairs of frequencies", "anchors": ["src/fpfind/freqcd.c:main", "src/fpfind/lib/generate_freqcd_testcase.py (19)"]}
{"id": "C110", "title": "Exchanging reference and target gives the inverse offsets", "statement": "If the events common to A and B stand out in both directions, then fpfind(A, B) = (t1, f1) and fpfind(B, A) = (t2, f2) satisfy (1 + f1)(1 + f2) = 1 and t1 (1 + f1) + t2 = 0 up to the errors of the two searches, as the tests expect (10^-9 and 1 ns).", "quantifier": "every pair of lists of times, every clock relation D, F, jitter, search parameters and number of iterations, float64 scalars, transforms with error at most e on histograms of that many bins and events", "why_tests_cant": "the tests check seven recordings, in which D F is small", "anchors": ["src/fpfind/fpfind.py:fpfind", "src/fpfind/fpfind.py:time_freq", "tests/test_fpfind_timestamp.py", "tests/test_fpfind_epoch.py"]}
{"id": "C111", "title": "The search finds the clock relation when the coincidences stand out, are significant and within reach", "statement": "If the events common to A and B stand out in all that the search looks at, the first peak is above the significance threshold, the delay left is below 100 ms and the frequency with its error below 2^-13 in each iteration, then fpfind(A, B) returns, for every sufficiently large bound on the number of iterations, one and the same pair of offsets, which are D and F within the error bounds of the search; it does not raise.", "quantifier": "every pair of lists of times, clock relation D, F, jitter, even number of bins, resolutions, separation longer than the data looked at by the refinement factor; float64 scalars, transforms with error at most e on histograms of that many bins and events", "why_tests_cant": "all recordings with a signal; no exception on any path of the iteration", "anchors": ["src/fpfind/fpfind.py:fpfind", "src/fpfind/fpfind.py:time_freq", "src/fpfind/lib/utils.py:slice_timestamps", "src/fpfind/lib/utils.py:get_timing_delay_fft", "src/fpfind/lib/utils.py:get_statistics"]}
{"id": "C112", "title": "fpfind prints the clock relation of two files when the coincidences stand out, are significant and within reach", "statement": "Under the conditions of C111 on the times since the common start, fpfind -t A -T B on the two files of events prints a line, and that line shows D and F within the error bounds of the search.", "quantifier": "every pair of files of events, legacy or not, every D, F, j and options of a search without precompensation, longdouble of 54 bits or more; transforms with error at most e on histograms of that many bins and events", "why_tests_cant": "all recordings with a signal; reading, start times, search, rounding and printing compose without exception", "anchors": ["src/fpfind/fpfind.py:main (-t, -T)", "src/fpfind/fpfind.py:fpfind", "src/fpfind/fpfind.py:time_freq", "src/fpfind/lib/utils.py:normalize_timestamps", "src/fpfind/lib/parse_timestamps.py:read_a1"]}
{"id": "C113", "title": "fpfind's command line means what it says", "statement": "For every way of writing options (grouped letters, attached or separate arguments, abbreviated names, any order, repeated) fpfind runs the search with the options last written and the documented defaults on the named directories or files, prints one line and exits with 0, or prints nothing and exits with 1 if there is an exception, a file is missing or nothing is named. Without arguments or with -h it prints nothing on standard output and exits with 1.", "quantifier": "every command line written from the documented options (without =, --config, --save, --logging), every number written in decimal, every file system", "why_tests_cant": "infinitely many command lines; the tests call the functions, never main", "anchors": ["src/fpfind/fpfind.py:main (424-677)"]}
{"id": "C114", "title": "fpfind on the command line prints the clock relation when coincidences stand out", "statement": "Under the conditions of C112, every command line which asks for these options and names the two files with -t and -T makes fpfind exit with 0 and print one line, which shows D and F within the error bounds of the search.", "quantifier": "every such command line, pair of files of events, clock relation and search options as in C112 and C113", "why_tests_cant": "command lines times recordings", "anchors": ["src/fpfind/fpfind.py:main", "src/fpfind/fpfind.py:fpfind", "src/fpfind/lib/utils.py:normalize_timestamps", "src/fpfind/lib/parse_timestamps.py:read_a1"]}
{"id": "C115", "title": "A command line with an unknown word is refused", "statement": "If among correctly written requests there is a word which is neither an option nor the argument of one, fpfind prints nothing on standard output and exits with 2, whatever else is asked for.", "quantifier": "every command line with any number of such words in any places", "why_tests_cant": "infinitely many command lines", "anchors": ["src/fpfind/fpfind.py:main (424-546)"]}
{"id": "C116", "title": "The README's command line for fpfind runs", "statement": "fpfind -t A -T B -n 1 -q 25 -S 4 is accepted.", "quantifier": "every pair of file names", "why_tests_cant": "documentation is not tested", "anchors": ["README.md (22)", "src/fpfind/fpfind.py:main (438-540)"]}
{"id": "C117", "title": "Every decimal number can be written in the word after its option", "statement": "An option which takes a number accepts every decimal number in the next word.", "quantifier": "every number option, every decimal numeral, every context on the command line", "why_tests_cant": "infinitely many numerals; negative frequencies are usual values of --precomp-start", "anchors": ["src/fpfind/fpfind.py:main (519-527)"]}
{"id": "C118", "title": "The command line of parse_timestamps means what it says", "statement": "For every way of writing options (grouped letters, attached or separate arguments, abbreviated names, any order, repeated) before or after the file names, parse_timestamps converts the input file to the output file, or prints the statistics, with the formats and filters last written. The exit code is 0, or 1 if there is an exception, the output name or the input file is missing; no other file is touched. Without -A or a file name, or with a format other than 0, 1, 2, it exits with 2; with -h it shows its help.", "quantifier": "every command line written from the options (without =), every file system, in memory or streaming", "why_tests_cant": "infinitely many command lines; the tests never call main", "anchors": ["src/fpfind/lib/parse_timestamps.py:main (686-773)"]}
{"id": "C119", "title": "parse_timestamps on the command line converts events", "statement": "If the input file holds events in the format named with -A, the run exits with 0 and the output file holds, in the format named with -a, exactly the events that pass the filters named, with their new patterns; every other file is unchanged.", "quantifier": "every command line, every list of events the conversion handles (C29), every filter; the output is not the input unless --inmemory", "why_tests_cant": "command lines times files", "anchors": ["src/fpfind/lib/parse_timestamps.py:main", "src/fpfind/lib/parse_timestamps.py:sread_a1", "src/fpfind/lib/parse_timestamps.py:swrite_a1"]}
{"id": "C120", "title": "Converting a file onto itself converts it", "statement": "C119 also if input and output are the same file.", "quantifier": "every command line and file", "why_tests_cant": "the default differs from --inmemory in the order of opening files", "anchors": ["src/fpfind/lib/parse_timestamps.py:main (769-773)", "src/fpfind/lib/parse_timestamps.py:swrite_a1 (358)", "src/fpfind/lib/parse_timestamps.py:sread_a1 (188)"]}
{"id": "C121", "title": "Options and file names can be written in any order", "statement": "Where the options stand among the file names, and how they are written, makes no difference.", "quantifier": "every command line", "why_tests_cant": "infinitely many command lines", "anchors": ["src/fpfind/lib/parse_timestamps.py:main (688-707)"]}
{"id": "C122", "title": "Converting to another format and back restores the file", "statement": "parse_timestamps from format x to y followed by parse_timestamps from y to x, without filters, both exit with 0, and the last file has the bytes of the first.", "quantifier": "every pair of command lines and formats, every list of events both conversions handle", "why_tests_cant": "command lines times files times formats", "anchors": ["src/fpfind/lib/parse_timestamps.py:main"]}
{"id": "C123", "title": "fpfind on the command line finds the clock relation after the time to be skipped", "statement": "fpfind -t A -T B -Z s ... exits with 0 and prints the delay and frequency offset of the events from s seconds after the later of the two starts on, if these stand out, are significant and within reach, up to the stated errors; what was recorded before has no influence.", "quantifier": "every spelling of the command line, two recordings, legacy or not, every s of whole 1/256 ns", "why_tests_cant": "all recordings; the tests use -Z nowhere", "anchors": ["src/fpfind/fpfind.py:main", "src/fpfind/lib/utils.py:normalize_timestamps"]}
{"id": "C124", "title": "fpfind on the command line finds the clock relation of epoch directories", "statement": "fpfind -d A -D B -e E -z n ... exits with 0 and prints delay and frequency offset of the events in the epochs needed, from n epochs after the first common one on, if these stand out, are significant and within reach, up to the stated errors.", "quantifier": "every spelling of the command line, all directories with T2 and T1 files of these epochs, any other files", "why_tests_cant": "all directories", "anchors": ["src/fpfind/fpfind.py:main", "src/fpfind/lib/utils.py:get_first_overlapping_epoch", "src/fpfind/lib/utils.py:get_timestamp"]}
{"id": "C125", "title": "fpplot with the values printed by fpfind shows the coincidences at zero", "statement": "With what fpfind printed, the delay as it is and the frequency in ppm, fpplot on the same files gives histogram the reference's times and the target's times such that those of common events differ by no more than the errors of the search, the rounding of the delay to ns, the jitter, and what the frequency error makes of the time since the start.", "quantifier": "every pair of recordings as in C123, every -Z and --duration", "why_tests_cant": "needs the agreement of two programs for all recordings", "anchors": ["src/fpfind/fpplot.py:main", "src/fpfind/fpplot.py:plotter", "src/fpfind/fpfind.py:main"]}
{"id": "C126", "title": "The times of a recording and of the T1 files cut from it are the same", "statement": "read_a1 of a recording and read_T1 (without full epoch) of the files of its consecutive epochs give the same times and patterns, one epoch after another, in every resolution, fractional or not.", "quantifier": "every recording and epoch number, also across the clock's turn, any number of epochs, in both word orders", "why_tests_cant": "the tests compare two data sets in two settings", "anchors": ["src/fpfind/lib/parse_epochs.py:read_T1", "src/fpfind/lib/parse_timestamps.py:read_a1", "tests/parse_epochs/test_readT1_outputs.py"]}
{"id": "C127", "title": "With full epochs the times are the recording's modulo its clock", "statement": "read_T1 with full epoch agrees with read_a1 modulo 2^54 in 4 ps units as integers, and modulo 2^46 ns to 1/8 ns as floats.", "quantifier": "every recording and epoch number, any number of epochs, in both word orders", "why_tests_cant": "the tests compare two data sets, which do not reach the clock's turn", "anchors": ["src/fpfind/lib/parse_epochs.py:read_T1", "tests/parse_epochs/test_readT1_outputs.py"]}
{"id": "C128", "title": "parse_timestamps -p on the command line prints the statistics of a recording", "statement": "parse_timestamps with -p exits with 0, changes no file, and prints name, size, the counts of the channels, duration, first and last time, rate and patterns of the events; so does the README's parse_timestamps -A1 -X -p FILE.", "quantifier": "every spelling of the command line, every recording in the formats 0, 1, 1X and 2 whose first and last event are 1/8 ns apart or more, in memory or not", "why_tests_cant": "all recordings and command lines; no test covers the statistics", "anchors": ["src/fpfind/lib/parse_timestamps.py:main", "src/fpfind/lib/parse_timestamps.py:print_statistics", "src/fpfind/lib/parse_timestamps.py:print_statistics_report", "README.md:22"]}
{"id": "C129", "title": "freqcd -d corrects by units of 1e-10", "statement": "With -d and -f n the output is the input with the times moved by n * 1e-10 of the time since the first event, to 3/2 time units per batch of 1024 events and one unit per 2^34; so does the README's freqcd -x -df 568.", "quantifier": "every spelling of the command line, every event file, |n| <= 1220703", "why_tests_cant": "all files and corrections; no test covers -d", "anchors": ["src/fpfind/freqcd.c:main", "README.md:22"]}
{"id": "C130", "title": "generate_freqcd_testcase -t delivers the events asked for", "statement": "With -t and non-negative decimal times the program exits with 0 and writes one event of detector 1 for each time, cut to 54 bits, to the file after -o or to standard output, in the legacy word order with -x. A negative time ends it with exit code 1 after the events before it.", "quantifier": "every spelling of the command line, all times, any files present and any standard input", "why_tests_cant": "all command lines and lists of times; the test runs one of each", "anchors": ["src/fpfind/lib/generate_freqcd_testcase.py:main", "src/fpfind/lib/generate_freqcd_testcase.py:get_event"]}
{"id": "C131", "title": "generate_freqcd_testcase - prints the times of the events on standard input", "statement": "With the input - the times of the events on standard input are printed in decimal, one to a line, the exit code is 0 and no file is left behind or changed.", "quantifier": "every spelling of the command line with -x or without, all events", "why_tests_cant": "all event streams; the test decodes one stream of three", "anchors": ["src/fpfind/lib/generate_freqcd_testcase.py:main", "src/fpfind/lib/parse_timestamps.py:read_a1"]}
{"id": "C132", "title": "The examples in the header of generate_freqcd_testcase for reading events", "statement": "'cat .input | generate_freqcd_testcase.py' and 'generate_freqcd_testcase.py .input' print the times of the events in .input and leave the file as it is.", "quantifier": "all events in .input", "why_tests_cant": "documentation; no test runs these lines", "anchors": ["src/fpfind/lib/generate_freqcd_testcase.py:main"]}
{"id": "C133", "title": "generate_freqcd_testcase without times and input writes an event for every number typed", "statement": "After the two lines of greeting every line with a whole number gives one event, in the output file or on standard output; lines without digits are skipped; at the end of the input the exit code is 1.", "quantifier": "every spelling of the command line, every sequence of lines which are numbers or have no digit", "why_tests_cant": "interactive input is not tested", "anchors": ["src/fpfind/lib/generate_freqcd_testcase.py:main"]}
{"id": "C134", "title": "The chain of the freqcd test prints the corrected times", "statement": "generate_freqcd_testcase -t TIMES | freqcd -f N | generate_freqcd_testcase - : all three exit with 0, and the numbers printed are the times moved by N / 2^34 of the time since the first, to 3/2 time units per batch of 1024, cut to 54 bits. A second freqcd with the inverse correction restores the times.", "quantifier": "every spelling of the three command lines, all non-decreasing lists of times below 2^54 (below 2^53 with two freqcd), all corrections", "why_tests_cant": "the test has one list of three times and one correction", "anchors": ["src/fpfind/lib/generate_freqcd_testcase.py:main", "src/fpfind/freqcd.c:main", "tests/freqcd/test_freqcd.py:test_freqcd_onepass"]}
{"id": "C135", "title": "fpfind -P from the command line prints offsets whenever the coincidences stand out for one of the frequencies", "statement": "When the coincidences left after one of the precompensations stand out, within reach of the limits and significantly enough, and the recordings are long enough for the frequencies tried before it, the command exits with 0 and prints one line. It shows the offsets found with that frequency or one before it, and where the coincidences stand out for the frequency used the offsets are right up to the widths of the bins.", "quantifier": "every spelling of the command line with -t and -T, all options of the search and all frequencies up to 1/2, all pairs of files, any accuracy of the correlation of histograms of that many bins and events", "why_tests_cant": "all recordings and grids of frequencies; the tests run one pair of files with one grid", "anchors": ["src/fpfind/fpfind.py:main", "src/fpfind/fpfind.py:fpfind", "src/fpfind/fpfind.py:generate_precompensations"]}
{"id": "C136", "title": "fpfind and freqcd from their command lines bring the clocks in step", "statement": "When the coincidences stand out for one of the frequencies tried, fpfind -V 7 prints a line, and freqcd -f with this line exits with 0 and moves the events of the target to times as far apart as in the reference, up to the jitter, the bin widths and 3/2 unit for each batch of 1024.", "quantifier": "every spelling of both command lines, all options of the search, all recordings ordered in time, any allocation of the buffers", "why_tests_cant": "both programs are only tested separately, each with one stream", "anchors": ["src/fpfind/fpfind.py:main", "src/fpfind/freqcd.c:main"]}
{"id": "C137", "title": "get_xcorr with inexact transforms is off by a bounded number of coincidences", "statement": "If rfft and irfft have a relative error eps in the euclidean norm and complex products one of mu, every value of the cross-correlation of two histograms differs from the number of pairs of events at that delay by at most 2 d |h| |k| + eps (a b + sqrt(n) 2 d |h| |k|), where d = mu (1+eps)^2 + eps (1+eps) + eps, a and b are the numbers of events and |h|, |k| the norms of the histograms: below 1/128 for a million events on each side, 2^26 bins and errors of 2^-50.", "quantifier": "every even number of bins, all histograms, all transforms and products with such errors", "why_tests_cant": "errors of floating-point transforms are properties of all inputs; the tests use small histograms", "anchors": ["src/fpfind/lib/utils.py:get_xcorr", "src/fpfind/lib/utils.py:generate_fft"]}
{"id": "C138", "title": "fpfind from the command line finds the offsets with transforms in floating point", "statement": "With transforms and products of these relative errors, when the coincidences stand out by more than the resulting error of the counts, the command exits with 0 and prints one line showing delay and frequency offset up to the widths of the bins.", "quantifier": "every spelling of the command line with -t, -T and -Z, all options of a search without precompensation, all recordings, all transforms with such errors", "why_tests_cant": "the accuracy of the transforms and the search are never tested together for large data", "anchors": ["src/fpfind/fpfind.py:main", "src/fpfind/fpfind.py:fpfind", "src/fpfind/lib/utils.py:get_xcorr"]}
{"id": "C139", "title": "fpfind finds the clock relation when common events outnumber accidental coincidences", "statement": "If in both windows, at each of the bin widths given by the parameters, for every delay v the pairs of different events with delays from v to v plus two bins and the spread of the common delays, modulo the range of the correlation, times the number of bins that the common delays can be spread over, are fewer than the common events well inside the window, then the search succeeds, and delay and frequency are D and F up to bounds given by those bin widths. The conditions are only on the times, D, F, the jitter and the parameters, not on the intermediate results of the search.", "quantifier": "all recordings, parameters, delays D and frequency offsets F within the limits of the search, every accuracy of the correlation, first peak significant", "why_tests_cant": "a sufficient condition for success on all recordings; tests try some recordings", "anchors": ["src/fpfind/fpfind.py:time_freq", "src/fpfind/fpfind.py:fpfind"]}
{"id": "C140", "title": "the fpfind command prints the clock relation when common events outnumber accidental coincidences", "statement": "Under these conditions on the times in the two files, the command exits with 0 and prints one line with delay and frequency offset up to these bounds.", "quantifier": "every spelling of the command line with -t, -T and -Z, all options of a search without precompensation, all recordings", "why_tests_cant": "no test goes from the contents of arbitrary files to the line printed", "anchors": ["src/fpfind/fpfind.py:main", "src/fpfind/fpfind.py:fpfind", "src/fpfind/fpfind.py:time_freq"]}
{"id": "C141", "title": "fpfind goes on to the target resolution on good recordings", "statement": "On recordings whose common events outnumber the accidental coincidences the search ends with an iteration at the target resolution, and the errors of delay and frequency offset are bounded by what iterations up to the target resolution leave.", "quantifier": "all recordings, parameters, delays D and frequency offsets F within the limits of the search, every accuracy of the correlation, first peak significant", "why_tests_cant": "the search gives up without an error when a later iteration finds ten times as much as was known; whether it does depends on D, F and the parameters", "anchors": ["src/fpfind/fpfind.py:time_freq", "src/fpfind/fpfind.py:fpfind"]}
{"id": "C142", "title": "the fpfind command prints the clock relation at the target resolution", "statement": "If moreover what can be left of delay and frequency offset after each iteration is less than ten times what is certain to have been found by then, or less than 10 ns and 10^-8, the command exits with 0 and prints one line with delay and frequency offset up to the errors of a search that ended at the target resolution.", "quantifier": "every spelling of the command line with -t, -T and -Z, all options of a search without precompensation, all recordings", "why_tests_cant": "no test goes from the contents of arbitrary files to the line printed", "anchors": ["src/fpfind/fpfind.py:main", "src/fpfind/fpfind.py:fpfind", "src/fpfind/fpfind.py:time_freq"]}
{"id": "C143", "title": "fpfind does not follow an iteration that is out of proportion", "statement": "If an iteration after the first finds a delay of more than 10.01 times the delay known by then (at least 1 ns), or a frequency offset of more than 10.01 times the one known by then (at least 10^-9), then the search ends with the delay and the frequency offset known by then.", "quantifier": "all recordings, parameters and states after at least one iteration, delays up to 100 ms", "why_tests_cant": "the guard is passed only when a peak is wrong or the first iteration coarse; tests have recordings where it does not matter", "anchors": ["src/fpfind/fpfind.py:time_freq"]}
{"id": "C144", "title": "fpfind takes negative numbers for its options with =", "statement": "Every option of fpfind that takes a number accepts every decimal number written in the same word after =, like --precomp-start=-1e-6.", "quantifier": "all such options, numbers and further options around them", "why_tests_cant": "= is what one tries after a negative number has been refused as a word of its own; nobody tests the parser of a library", "anchors": ["src/fpfind/fpfind.py:main"]}
{"id": "C145", "title": "A peak that is high enough over few pairs is accepted", "statement": "For two recordings whose common events outnumber the accidental coincidences, fpfind returns the delay and the frequency offset within the bounds of the target resolution if, in the first window, there are fewer pairs of events than half the bins, some of them at longer delays of both signs, and the common events are 1 + threshold^2 times the pairs of an average bin, for each of the bins they can be spread over.", "quantifier": "all recordings meeting the condition on the times of their events, all parameters and thresholds", "why_tests_cant": "that the threshold is passed is seen only by running the correlation; the condition says beforehand for which rates and thresholds it is", "anchors": ["src/fpfind/fpfind.py:time_freq", "src/fpfind/lib/utils.py:get_statistics"]}
{"id": "C146", "title": "From the command line, a peak that is high enough over few pairs is accepted", "statement": "fpfind -t ... -T ... exits with code 0 and prints offsets within the bounds of the target resolution if the recordings in the two files meet the conditions of the property before, which are on the times of their events and the options alone.", "quantifier": "all recordings meeting the conditions, all ways to write the options, -V 0 to 7 and skipped durations", "why_tests_cant": "whether the default threshold of 6 suits a rate and a buffer is otherwise found out by trying", "anchors": ["src/fpfind/fpfind.py:main", "src/fpfind/fpfind.py:time_freq"]}
{"id": "C147", "title": "The significance computed in doubles is close to the standard score", "statement": "Whatever the order in which the background is summed, the significance of a peak above the mean computed in double precision and rounded to three decimals is the exact standard score to one part in a thousand and to 0.001, for up to 2^32 background bins whose standard deviation is at least a quarter of their mean divided by the square root of their number; over a single bin it is 0.", "quantifier": "all peaks and backgrounds of doubles within these limits, all orders of summation with up to 1024 additions one after the other", "why_tests_cant": "the rounding errors depend on the values, their number and numpy's order of summation; a test sees a few histograms", "anchors": ["src/fpfind/lib/utils.py:PeakStatistics.significance"]}
{"id": "C148", "title": "Over a constant background the significance is 0", "statement": "The significance of a peak over a background of equal values is 0. Holds if the values are integers with a sum of at most 2^53; fails otherwise: over three bins of 0.1 the mean is rounded away from 0.1, the standard deviation is not 0, and the significance of a peak of 0.2 exceeds 7e15.", "quantifier": "all peaks and constant backgrounds of doubles", "why_tests_cant": "histograms of tests have integer counts, over which the guard against a zero deviation works; correlations through the Fourier transform do not", "anchors": ["src/fpfind/lib/utils.py:PeakStatistics.significance", "src/fpfind/lib/utils.py:PeakStatistics.stdev"]}
{"id": "C149", "title": "A value may follow its option after = or as the next word", "statement": "parse_timestamps reads --option=value and -A=value like --option value and -A value after other options, whatever follows on the command line. Holds for values not beginning with a dash and for plain negative numbers; fails for others: --tfilter-start -1e3 ends with exit code 2, --tfilter-start=-1e3 is taken. Options without a value are refused with exit code 2 if = follows.", "quantifier": "all command lines in ASCII without = after a group of letters, all values, all files", "why_tests_cant": "argparse decides by the form of the whole word; a test uses a few spellings of a few values", "anchors": ["src/fpfind/lib/parse_timestamps.py:main"]}
{"id": "C150", "title": "Rounding a float to significant figures writes the nearest such number", "statement": "round(x, sf=p) returns a numeral for the number with at most p significant figures nearest to the float x, the one with an even last figure of two equally near. Holds for every p from 1 except 16; fails for 16: of the float64 after 10^23 it returns 9.999999999999999e+22, not 1e+23, because the text is read as a float and written once more.", "quantifier": "all float64 values of a size from 10^-307 on and below 10^308, all p >= 1", "why_tests_cant": "the second rounding differs from the first only with 16 figures and few numbers; a test would have to find them", "anchors": ["src/fpfind/lib/utils.py:round"]}
{"id": "C151", "title": "Rounding a whole number to significant figures gives the nearest such number", "statement": "round(n, sf=p) returns the whole number with at most p significant figures nearest to n, ties to an even last figure. Holds up to 2^53; fails for larger ones, which pass through float: round(10**23, sf=3) is 99999999999999991611392, and 2**1024 raises OverflowError. Below 10^307 the relative error is at most half a unit of the last figure plus 2^-51.", "quantifier": "all whole numbers, all p >= 1", "why_tests_cant": "a comment says ints are preserved even when very large; tests of small numbers agree", "anchors": ["src/fpfind/lib/utils.py:round"]}
{"id": "C152", "title": "round returns a number, like the built-in function it stands in for", "statement": "round returns an int or a float, rounded as the built-in function does when sf is not given, dp taking precedence over ndigits. Holds without sf, and for whole numbers with sf; fails for floats with sf: the result is a str, for every float and every sf.", "quantifier": "all ints and floats, all precisions", "why_tests_cant": "the type of the result depends on the combination of arguments; printed, str and float look alike", "anchors": ["src/fpfind/lib/utils.py:round"]}
{"id": "C153", "title": "A scan of precompensations logs each one tried, with what was found", "statement": "At level INFO fpfind() writes exactly one line per precompensation tried, in order: 'Peak found' with the target resolution, the delay and the frequency offset (precompensation included) if the search succeeded, 'Peak finding failed' with the description of the failure if it raised ValueError. The numbers are right to half a unit of the last digit printed (and one float64 rounding). A full scan has a line for every precompensation, although it returns nothing; otherwise the last line is that of the result.", "quantifier": "all timestamps, parameters and lists of precompensations, full scans or not", "why_tests_cant": "which precompensations succeed depends on the data; the columns shift with the size of the numbers", "anchors": ["src/fpfind/fpfind.py:fpfind", "src/fpfind/lib/constants.py:PeakFindingFailed"]}
{"id": "C154", "title": "A failed search gives the true reason", "statement": "A PeakFindingFailed of time_freq carries one of four messages, each with the quantity that caused it: 'Bin saturation' with significance 0, 'Resolution OOB' with a significance below the threshold and a resolution above 10^4 ns, 'Time delay OOB' with a delay above 10^8 ns, 'Compensation OOB' with an offset of at least 2^-13 and an acceptable delay.", "quantifier": "all timestamps and parameters, all iterations", "why_tests_cant": "every failure needs data of its own; the messages are only read by people", "anchors": ["src/fpfind/fpfind.py:time_freq"]}
{"id": "C155", "title": "A failed search shows what was measured at the resolution it shows", "statement": "The significance and the delay in a PeakFindingFailed of time_freq are those of the early cross-correlation with bins of the resolution shown. Holds for 'Bin saturation', 'Time delay OOB' and 'Compensation OOB'; fails for 'Resolution OOB', where both belong to half the resolution shown (it is doubled before the message is made).", "quantifier": "all timestamps and parameters, all iterations", "why_tests_cant": "both numbers are plausible; only recomputing the correlation shows that they do not belong together", "anchors": ["src/fpfind/fpfind.py:time_freq"]}
{"id": "C156", "title": "With --logging everything logged at the chosen level is in the file", "statement": "When fpfind is run with -L FILE, every record of at least the level chosen with -v that the program logs is written to FILE, once and in order. Holds for the records of fpfind.py itself, which are also all on standard error; fails for those of parse_epochs.py, for instance the warnings about epoch headers, which only go to standard error.", "quantifier": "all sequences of records of the loggers, all verbosities", "why_tests_cant": "the records of the other module appear only with damaged files; on the terminal nothing is missing", "anchors": ["src/fpfind/fpfind.py:main (553-557)", "src/fpfind/lib/logging.py:set_logfile"]}
{"id": "C157", "title": "--quiet suppresses errors and does not block logging", "statement": "When fpfind is run with --quiet, no record of level ERROR appears on standard error, and FILE of -L has the same records as without it. The second half holds; the first fails: the option is never looked at.", "quantifier": "all sequences of records, all other options", "why_tests_cant": "the promise is in the help text only; a test has to look at standard error of a failing run", "anchors": ["src/fpfind/fpfind.py:main (449-450)"]}
{"id": "C158", "title": "A logger obtained several times writes each record once", "statement": "After any calls of get_logger for any names, a record given to a logger is written exactly once to standard error if its level is at least that of the last call for the name, and not otherwise, also for names below one another; it is formatted as the last call asked. Holds except for the format, which stays that of the first call for the name.", "quantifier": "all sequences of calls of get_logger with labels of levels or none, all records", "why_tests_cant": "handlers accumulate over calls in different modules; single calls look right", "anchors": ["src/fpfind/lib/logging.py:get_logger"]}
{"id": "C159", "title": "A filter of get_xcorr convolves the correlation", "statement": "For histograms a and b of an even number n of bins and any filter of n/2 + 1 complex values, get_xcorr(rfft(a), rfft(b), filter) is, at every delay, the absolute value of the circular convolution of the correlation with irfft(filter); the imaginary parts of the filter at the first and the last frequency have no effect. A filter of ones, or none, gives the correlation; one value is used for all frequencies; any other length raises ValueError.", "quantifier": "all histograms of even length, all filters; exact arithmetic", "why_tests_cant": "no caller passes a filter and the tests do not either", "anchors": ["src/fpfind/lib/utils.py:get_xcorr"]}
{"id": "C160", "title": "Line endings of text files do not matter", "statement": "A file of a0 or a2 text with any mixture of LF, CR LF and CR line endings is read like the same file with LF: read_a0 and read_a2 return the same, sread_a0 and sread_a2 produce the same batches and the same exceptions; the number of batches announced is at least as large.", "quantifier": "all files of words, all choices of line endings, all resolutions and buffer sizes", "why_tests_cant": "the tests only have files written on Linux", "anchors": ["src/fpfind/lib/parse_timestamps.py:read_a0", "src/fpfind/lib/parse_timestamps.py:read_a2", "src/fpfind/lib/parse_timestamps.py:sread_a0", "src/fpfind/lib/parse_timestamps.py:sread_a2"]}
{"id": "C161", "title": "The number of batches announced is the number produced", "statement": "When a streaming reader ends without an exception, it has produced as many batches as the number it returned. Fails for text with CR LF: the announcement counts bytes, the batches characters after the line endings were converted.", "quantifier": "all files, all positive buffer sizes", "why_tests_cant": "the number is only used for the progress bar", "anchors": ["src/fpfind/lib/parse_timestamps.py:sread_a0", "src/fpfind/lib/parse_timestamps.py:sread_a1", "src/fpfind/lib/parse_timestamps.py:sread_a2"]}
{"id": "C162", "title": "Comments and blanks in text files are ignored by both readers", "statement": "A file of a0 or a2 text with comment lines, blank lines, comments and blanks after the numbers and blanks before them is read like the file without them, in memory and as a stream. Holds in memory; a stream with a comment always ends in an exception.", "quantifier": "all files of words, all remarks of ASCII characters", "why_tests_cant": "genfromtxt ignores comments silently; whether the streaming reader does has to be tried with both", "anchors": ["src/fpfind/lib/parse_timestamps.py:read_a0", "src/fpfind/lib/parse_timestamps.py:read_a2", "src/fpfind/lib/parse_timestamps.py:sread_a0", "src/fpfind/lib/parse_timestamps.py:sread_a2"]}
{"id": "C163", "title": "Malformed lines of text files are refused", "statement": "read_a0 raises an exception if a line is not 8 hexadecimal digits, read_a2 if a line is not 16. Fails: lines are cut to this length, so that a longer number is read as its first digits, and shorter ones, signs, 0x and underscores are accepted. Characters that belong to no number are refused if they are among those first ones.", "quantifier": "all files of lines of ASCII characters", "why_tests_cant": "the tests only have well-formed files; the cut is in the dtype of genfromtxt", "anchors": ["src/fpfind/lib/parse_timestamps.py:read_a0", "src/fpfind/lib/parse_timestamps.py:read_a2"]}
{"id": "C164", "title": "The first call of freqcd does what later calls do", "statement": "The first call of an installed freqcd, which runs the stand-in script and compiles the program, has the same exit code, standard output and effect on files as a call of the compiled program, apart from the file freqcd_path. Fails for relative file names: the script changes to the directory of the package, so -i, -o and -F are looked for there.", "quantifier": "all command lines that ask for settings, all directories, all file contents", "why_tests_cant": "the tests do not install the package; whoever tries the call a second time sees it work", "anchors": ["src/fpfind/freqcd:1", "src/fpfind/freqcd.c:main"]}
{"id": "C165", "title": "freqcd is compiled once", "statement": "After a call of the stand-in script that could compile the program, a call by the same name in the same directory is a call of the compiled program. Holds for absolute names; by a relative name from another directory the program is compiled again every time, to a file in the directory of the package.", "quantifier": "all command lines, directories and program names", "why_tests_cant": "the tests do not install the package", "anchors": ["src/fpfind/freqcd:1", "src/fpfind/_postinstall:1"]}
{"id": "C166", "title": "A call of freqcd that fails writes nothing to standard output", "statement": "If the exit code of freqcd is not 0, standard output, which carries the events, is empty. Fails when the program cannot be compiled: the script prints its complaint to standard output.", "quantifier": "all command lines, directories and file contents", "why_tests_cant": "the tests run where a compiler is installed", "anchors": ["src/fpfind/freqcd:1", "src/fpfind/freqcd.c:main"]}
{"id": "C167", "title": "fpplot does what its command line asks for", "statement": "fpplot called with any spelling of its options reads the epoch directories if both are given, otherwise the two timestamp files, and hands histogram the arrays, the width and the name of the picture asked for, the last value of an option winning and defaults as documented; without arguments, with --help, or if files or options are missing, the exit code is 1.", "quantifier": "all command lines spelling requests (grouped letters, abbreviations, = and attached values), all files and directories, all settings but those for which 1 + freq*1e-6 is 0", "why_tests_cant": "fpplot has no tests; spellings of options are unbounded", "anchors": ["src/fpfind/fpplot.py:main", "src/fpfind/fpplot.py:plotter"]}
{"id": "C168", "title": "fpplot draws the compensated events of two recordings", "statement": "With two timestamp files in the a1 format, or two directories of T2 and T1 epochs, fpplot calls histogram with the reference's times since the common start and the target's, less the delay and divided by the rate asked for, to within 2^-51 of the time, and only those within the duration asked for.", "quantifier": "all command lines naming two files or directories, all recordings, all frequencies to 1000 ppm, all delays, widths and durations", "why_tests_cant": "fpplot has no tests; needs every event of every recording", "anchors": ["src/fpfind/fpplot.py:main", "src/fpfind/fpplot.py:plotter"]}
{"id": "C169", "title": "fpplot accepts every number for its options", "statement": "A decimal number after --freq, --time, --width, --duration or -Z, as a word of its own or after =, is accepted. Fails for negative numbers with an exponent, such as fpfind prints them: --freq -1e-3 and --freq=-1e-3 end with exit code 2.", "quantifier": "all command lines and all decimal numbers", "why_tests_cant": "the range of spellings of numbers is infinite", "anchors": ["src/fpfind/fpplot.py:main"]}
{"id": "C170", "title": "fpplot refuses unknown words", "statement": "A command line of fpplot with a word that is no option and no argument of one, or an unknown option, ends with exit code 2 and draws nothing.", "quantifier": "all command lines of requests with such words anywhere", "why_tests_cant": "unbounded command lines", "anchors": ["src/fpfind/fpplot.py:main"]}
{"id": "C171", "title": "fpfind and fpplot from their command lines show the coincidences at zero", "statement": "If fpfind, called with some command line, must find the relation of two recordings, then fpplot called for the same files with the delay printed as --time and the frequency printed, times 10^6, as --freq draws times at which every common event of the target is within the stated error of the reference's.", "quantifier": "all command lines of both programs asking for this, all recordings for which fpfind must find the relation", "why_tests_cant": "composes two programs over all recordings", "anchors": ["src/fpfind/fpplot.py:main", "src/fpfind/fpfind.py:main"]}
{"id": "C172", "title": "The help shows an option's names once, with its value after the last", "statement": "With ArgparseCustomFormatter an option is shown in the help as its names, separated by comma and blank, followed, if it takes a value, by a blank and what stands for the value: the metavar, the choices in braces or the destination in capitals.", "quantifier": "all options: any names, destination, metavar and choices", "why_tests_cant": "the formatter is not tested; options are arbitrary", "anchors": ["src/fpfind/lib/utils.py:ArgparseCustomFormatter"]}
{"id": "C173", "title": "Help texts marked as raw keep their lines", "statement": "The help text of an option that begins with rawtext| is shown line by line as written, without the mark; any other text is filled as argparse does.", "quantifier": "all texts, all widths", "why_tests_cant": "the formatter is not tested; texts are arbitrary", "anchors": ["src/fpfind/lib/utils.py:ArgparseCustomFormatter"]}
{"id": "C174", "title": "Showing help writes nothing to standard output", "statement": "Formatting an argument for the help, which fpfind prints to standard error, writes nothing to standard output. Fails for arguments without an option name: a print() left in the formatter shows them there. fpfind has none today.", "quantifier": "all options and positional arguments", "why_tests_cant": "fpfind has no positional argument, so the branch is never taken in a test", "anchors": ["src/fpfind/lib/utils.py:ArgparseCustomFormatter"]}
{"id": "C175", "title": "significance2 compares the excess with the spread of groups of bins", "statement": "PeakStatistics.significance2 of a signal of n bins, not more than the background has, is the sum of the signal less n times the background mean, divided by the standard deviation of the sums of consecutive groups of n background bins (an incomplete last group left out), to three decimals. It is None exactly when those sums are all equal or the background is, and a ZeroDivisionError exactly for an empty signal otherwise.", "quantifier": "all signals and backgrounds", "why_tests_cant": "the property is not tested; the claim is over all lists of any length", "anchors": ["src/fpfind/lib/utils.py:PeakStatistics.significance2"]}
{"id": "C176", "title": "g2 is the largest signal bin over the background mean", "statement": "PeakStatistics.g2 is the largest signal bin divided by the background mean, None for a mean of zero, and a TypeError for an empty background, or an empty signal with a mean other than zero.", "quantifier": "all signals and backgrounds", "why_tests_cant": "the property is not tested; the claim is over all lists of any length", "anchors": ["src/fpfind/lib/utils.py:PeakStatistics.g2"]}
{"id": "C177", "title": "epoch2date is the start of the epoch to the microsecond", "statement": "For every epoch e from 0 to 2^32 - 1, under any hexadecimal name of it, epoch2date is less than a microsecond from e * 536870.912 microseconds after the Unix epoch, and a later epoch has a later date.", "quantifier": "all epoch names with values below 2^32", "why_tests_cant": "four thousand million epochs, each with its own rounding of the float product", "anchors": ["src/fpfind/lib/parse_epochs.py:epoch2date"]}
{"id": "C178", "title": "An epoch converted to a date and back is the same", "statement": "date2epoch(epoch2date(e)) is e for every epoch name e below 2^32. Fails: date2epoch drops the fraction of the second, which is up to 1.86 epochs. The result is up to two epochs early, never late, and right only for epochs starting at a whole second or less than a microsecond before one.", "quantifier": "all epoch names with values below 2^32", "why_tests_cant": "epoch 0 and a few others agree; four thousand million epochs", "anchors": ["src/fpfind/lib/parse_epochs.py:epoch2date", "src/fpfind/lib/parse_epochs.py:date2epoch"]}
{"id": "C179", "title": "A record of a logger below an obtained one is written by that one, once", "statement": "After any calls of get_logger, a record given to a logger not obtained by it is written exactly as if given to the nearest logger above that was: once, in its form and by its level. With none above, only the message goes to standard error, from level WARNING on.", "quantifier": "all sequences of get_logger calls, all names without empty parts, all records", "why_tests_cant": "logging is not tested; sequences of calls and names are arbitrary", "anchors": ["src/fpfind/lib/logging.py:get_logger"]}
{"id": "C180", "title": "The header readers return the words of the file and warn exactly when they should", "statement": "read_T1_header to read_T4_header return the first 5, 6, 4 and 5 little-endian 32-bit words of the file (epoch and length unsigned, the others signed, all unsigned for T4). They raise struct.error exactly for shorter files. They warn about the tag exactly when it is neither 0x100 + type nor the type, and about the name exactly when its last part is not the epoch in lower-case hexadecimal.", "quantifier": "all files, all names, the four types", "why_tests_cant": "the tests read a few well-formed files only", "anchors": ["src/fpfind/lib/parse_epochs.py:read_T1_header", "src/fpfind/lib/parse_epochs.py:read_T2_header", "src/fpfind/lib/parse_epochs.py:read_T3_header", "src/fpfind/lib/parse_epochs.py:read_T4_header"]}
{"id": "C181", "title": "The warning about a wrong tag names the type of the reader", "statement": "A file without the tag of its type gives a warning that it is not a header file of that type. Fails for read_T1_header, which says Type2.", "quantifier": "all files with another tag, all names, the four types", "why_tests_cant": "log messages are not tested", "anchors": ["src/fpfind/lib/parse_epochs.py:read_T1_header", "src/fpfind/lib/parse_epochs.py:read_T2_header", "src/fpfind/lib/parse_epochs.py:read_T3_header", "src/fpfind/lib/parse_epochs.py:read_T4_header"]}
{"id": "C182", "title": "read_T3 reports no size error for a well-formed file", "statement": "A T3 file whose header gives the number of its entries, with the entries in reversed words of four bytes padded with zeros, is read without \"size inconsistency\". Fails exactly for files without entries and for those with a zero entry in the last word, as all zeros of that word count as padding.", "quantifier": "all entries, all numbers of them below 2^32, all other header fields", "why_tests_cant": "the tests have no T3 files", "anchors": ["src/fpfind/lib/parse_epochs.py:read_T3"]}
{"id": "C183", "title": "profile passes results and exceptions on and its log is well nested", "statement": "A decorated function returns or raises as the function itself, and logs the same lines of its own. Each call adds a START and an END line of the same function around those of the calls inside, with two blanks per level and the time between entering and leaving, also when exceptions pass through, and the level is afterwards what it was.", "quantifier": "all programs calling decorated functions, all clocks, all levels", "why_tests_cant": "exceptions through profiled functions are not tested", "anchors": ["src/fpfind/fpfind.py:profile"]}
{"id": "C184", "title": "freqcd's output for a file is given by an exact formula", "statement": "A run of freqcd on a file of events in order gives every event the time t + p(t - r) + g modulo 2^54, with p(d) = floor(floor(d / 2^12) f / 2^22), r the time of the last event of the previous block of 1024 events (the first event's in the first block) and g the sum of p over the earlier blocks. In particular the table of test_freqcd_overflow.py is right for a file with an event at 0.", "quantifier": "all command lines without -F, all files of events in order of any length, both word orders", "why_tests_cant": "the table in the test is a comment; the other test has three events", "anchors": ["src/fpfind/freqcd.c:main"]}
{"id": "C185", "title": "Events of a T1 file stay apart as far as the tests say", "statement": "Of two events in a T1 file that are at least one unit of the result apart (integers), 4 ps apart (floats) or 128 ps apart (floats with full epochs), the later one gets the greater time. Fails for floats with full epochs: 192 ps and 320 ps after the start of epoch ffffffff are read as the same time. True there for 132 ps and more.", "quantifier": "all events, epochs, resolutions and result types", "why_tests_cant": "the test compares each time with 0 only", "anchors": ["src/fpfind/lib/parse_epochs.py:read_T1"]}
{"id": "C186", "title": "No frequency line is lost when the pipe has the whole text", "statement": "If the text for -F consists of terminated lines of at most 98 characters and every read takes as much as fits into the buffer, the correction in force after all reads is that of the last acceptable line, also when reads break lines. As in test case 1 of test_freqcd_update.py, where 34000 is left.", "quantifier": "all such texts (lines without NUL, numbers that fit an int), all schedules of reads and events", "why_tests_cant": "the test case is a comment; the place where reads break lines depends on the text", "anchors": ["src/fpfind/freqcd.c:main"]}
{"id": "C187", "title": "After the correction is set to 0 events pass unchanged", "statement": "Once a frequency line has set the correction to 0, later events are written as they were read (\"Expected output: No change\" in test case 2 of test_freqcd_update.py). Fails: they are moved by what the last event before was moved, so that the clock does not jump.", "quantifier": "all runs in which every read brings complete events", "why_tests_cant": "the test case is a comment", "anchors": ["src/fpfind/freqcd.c:main"]}
{"id": "C188", "title": "The times written with a frequency file follow one formula", "statement": "For an event file and a frequency file of at most 99 bytes of lines, the time of event i in the output is t + floor(floor((t-b)/2^12)*c/2^22) plus what was gained up to b. b is the last event of the block of 1024 events before (the first event, in the first block), c is the value of -f in the first block and the one left by the frequency file afterwards.", "quantifier": "all event files with non-decreasing times, all such frequency files and command lines, all contents of uninitialised memory", "why_tests_cant": "one file of 1026 events or more has to be compared with an independent formula for every value of both corrections", "anchors": ["src/fpfind/freqcd.c:main"]}
{"id": "C189", "title": "The writers do not pair up times and patterns of different lengths", "statement": "write_a0, write_a1 and write_a2 write no file when the number of patterns is neither the number of times nor one; ValueError is raised if the times themselves can be written. A single pattern is used for all times.", "quantifier": "all formats, resolutions, arrays of times and patterns", "why_tests_cant": "every combination of two lengths, and what numpy does with each of them", "anchors": ["src/fpfind/lib/parse_timestamps.py:_consolidate_events", "src/fpfind/lib/parse_timestamps.py:write_a1"]}
{"id": "C190", "title": "generate_freqcd_testcase refuses times which are no numbers", "statement": "With a word among the times of -t that is not a whole number (blanks, a sign, digits with single underscores between them, blanks) the program ends with exit code 2, writes nothing to standard output, and neither creates nor changes a file, also when -o names one.", "quantifier": "all command lines with such a word and neither a mistake in an option nor a request for help before it, all files and standard inputs", "why_tests_cant": "every spelling of the options around it", "anchors": ["src/fpfind/lib/generate_freqcd_testcase.py:main"]}
{"id": "C191", "title": "The times written with a frequency file of any length follow one formula", "statement": "For an event file and a frequency file of complete lines of up to 98 characters, the run ends with exit code 0 and the time of event i in the output is t + floor(floor((t-b)/2^12)*c/2^22) plus what was gained up to b. b is the last event of the block of 1024 events before (the first event, in the first block). c is the value of -f in the first block; in block k it is the one left by the lines that are complete within the bytes taken from the frequency file with the k blocks before, each of which takes 99 bytes less the length of the unfinished line kept so far.", "quantifier": "all event files with non-decreasing times, all such frequency files whose numbers fit an int, all command lines naming separate files, all contents of uninitialised memory", "why_tests_cant": "long frequency files meeting event files of many blocks at every offset", "anchors": ["src/fpfind/freqcd.c:main"]}
{"id": "C192", "title": "What freqcd makes of a frequency file of any content", "statement": "For an event file and any frequency file the run ends with exit code 0 and the times written follow the formula of C191, with these values: with each block freqcd takes 99 bytes of the file less the length of the unfinished line kept; what it takes is forgotten if there is no newline in it; otherwise its lines are used and what follows the last newline is kept. The value in block k is the one left by the lines used with the k blocks before. So an unfinished last line has no effect and a line of 99 characters or more is lost.", "quantifier": "all event files with non-decreasing times, all frequency files whose lines so used contain no NUL and numbers that fit an int, all command lines naming separate files, all contents of uninitialised memory", "why_tests_cant": "every position of the newlines relative to the reads of 99 bytes", "anchors": ["src/fpfind/freqcd.c:main"]}
{"id": "C193", "title": "Values of options which are no numbers are refused", "statement": "fpfind ends with exit code 2 and nothing on standard output when an option for a whole number (-z -k -q -R -r -V) is given a text that is not one for Python's int(), when -V is given a number outside 0 to 15, or when an option for a number (-Z -s -S and the --precomp options) is given a text that is not one for float(). The same holds for fpplot (-n -z, -Z --freq --time --width --duration) and for parse_timestamps (--pfilter-pattern, --tfilter-start, --tfilter-end), which also leaves all files as they are.", "quantifier": "all command lines with such a value anywhere, all spellings of options; for parse_timestamps without a request for help; all files and directories", "why_tests_cant": "the grammar of numbers (blanks, signs, underscores, exponents, inf and nan) has to be compared for every text", "anchors": ["src/fpfind/fpfind.py:main", "src/fpfind/fpplot.py:main", "src/fpfind/lib/parse_timestamps.py:main"]}
{"id": "C194", "title": "The delay at a position is the nearer of its two readings", "statement": "On an axis of n evenly spaced times get_delay_at_index_fft gives for position p the two delays p and p - n in units of the spacing, the one nearer to 0 first; 0 twice for position 0; AssertionError for negative positions and IndexError from n on. get_top_k_delays_fft raises AssertionError for less than one delay and ValueError for more delays than bins.", "quantifier": "all axes, spacings, positions, histograms and numbers of delays", "why_tests_cant": "all lengths, even and odd, with all positions", "anchors": ["src/fpfind/lib/utils.py:get_delay_at_index_fft", "src/fpfind/lib/utils.py:get_top_k_delays_fft"]}
{"id": "C195", "title": "Lines with NUL bytes and numbers of any size in a frequency file", "statement": "The formula of C192 holds for frequency files of any bytes, with the value a line really gives: the number before its first NUL byte, clamped to 64 bits and truncated to 32; it is used if it is below 2^21 in magnitude, and otherwise the line has no effect. So 4294967301 counts as 5. The only lines excluded are those giving -2^31, which is used too. The values are determined by the file.", "quantifier": "all event files with non-decreasing times, all frequency files with no line giving -2^31, all command lines naming separate files, all contents of uninitialised memory", "why_tests_cant": "all contents of the frequency file with all positions of its lines relative to the reads", "anchors": ["src/fpfind/freqcd.c:main", "src/fpfind/freqcd.c:readint"]}
{"id": "C196", "title": "Every number after -f is used or refused safely", "statement": "freqcd -f n on an event file ends without undefined behaviour for every int n: from 2^21 in magnitude on with exit code -5, no output and all files as before, and otherwise with exit code 0 and the times of C184. With -d the limit is 1220703 and the value n * 2^34 / 10^10 rounded towards 0.", "quantifier": "all ints n however written, all event files with non-decreasing times, all contents of uninitialised memory", "why_tests_cant": "all event files with all numbers; overflow shows in particular times only", "anchors": ["src/fpfind/freqcd.c:main"]}
{"id": "C197", "title": "freqcd refuses words after -f which are no numbers", "statement": "freqcd -f t ends with exit code -4 for every word t that is no whole number.", "quantifier": "all words t", "why_tests_cant": "all words, whatever they begin with", "anchors": ["src/fpfind/freqcd.c:main"]}
{"id": "C198", "title": "freqcd refuses unknown options", "statement": "A letter that is no option of freqcd makes it end with an error.", "quantifier": "all letters and all further words; for the actual rule all command lines, files and inputs", "why_tests_cant": "all command lines and all files", "anchors": ["src/fpfind/freqcd.c:main", "src/fpfind/lib/getopt.c:getopt"]}
{"id": "C199", "title": "freqcd uses file names as they are written", "statement": "A file name of up to 199 characters after -i, -o or -F is the name of the file used, whatever characters are in it.", "quantifier": "all names without NUL; for the actual rule all command lines, files and inputs", "why_tests_cant": "all names with all positions of blanks in them", "anchors": ["src/fpfind/freqcd.c:main"]}
{"id": "C200", "title": "Any text typed into generate_freqcd_testcase", "statement": "Without times and input, after the two lines of greeting, every line that is a whole number as Python reads it (blanks, a sign, digits with single underscores between them, blanks) gives one event; other lines are passed over; a negative number ends the program, and so does the end of the text, with exit code 1. The events are in the output file or on standard output; no other file is changed.", "quantifier": "all ASCII texts without carriage returns, with or without a newline at the end, every spelling of the command line, all files", "why_tests_cant": "all texts; the lines which count as numbers are of many forms", "anchors": ["src/fpfind/lib/generate_freqcd_testcase.py:main"]}
{"id": "C201", "title": "Times of generate_freqcd_testcase written in any way", "statement": "With -t, every word being a whole number as Python reads it (blanks, a sign, digits with single underscores between them, blanks), one event for each time is delivered in the new order of words, to the output file or, without one or with an empty name after -o, to standard output, exit code 0; at a negative time the events before it are delivered and the exit code is 1; -h shows the help text. If a word is no such number the exit code is 2 and nothing is written.", "quantifier": "all spellings of the command line, any number of -t, all words of ASCII characters, all files and texts on standard input", "why_tests_cant": "all command lines and all forms of numbers", "anchors": ["src/fpfind/lib/generate_freqcd_testcase.py:main"]}
{"id": "C202", "title": "How a number is written makes no difference", "statement": "Two command lines of fpfind, fpplot or parse_timestamps that differ only in how numbers are written give the same run: whole numbers of the same value, with blanks around them, a plus sign, leading zeros and single underscores between digits; other numbers which, without underscores and the blanks around them, are the same text or decimal numbers with the same nearest float64. So `--precomp-start ' -1e-6'` is `--precomp-start -.000001`, though `-1e-6` without the blank is refused.", "quantifier": "all command lines and ways of spelling them, all numbers, all files", "why_tests_cant": "the forms of numbers and of command lines are unbounded", "anchors": ["src/fpfind/fpfind.py:main", "src/fpfind/fpplot.py:main", "src/fpfind/lib/parse_timestamps.py:main"]}
{"id": "C203", "title": "generate_freqcd_testcase -o also takes the times of events that are read", "statement": "With the input - and a file after -o the times of the events on standard input are in that file, in decimal, one to a line; nothing is printed and no other file is changed.", "quantifier": "all event streams in both word orders, all spellings of the command line, all files", "why_tests_cant": "all event streams, command lines and files", "anchors": ["src/fpfind/lib/generate_freqcd_testcase.py:main"]}
{"id": "C204", "title": "Generated events converted by parse_timestamps", "statement": "After `generate_freqcd_testcase -o a -t WORDS`, with words that are non-negative whole numbers written in any way, `parse_timestamps -A1 ... a b` without filters writes to b, in the format asked for, one event per word in the same order: the time modulo 2^54 with detector pattern 1. The first run prints nothing and leaves every file but a as it was, the second leaves every file but b.", "quantifier": "all command lines of the two programs of these forms, all times, all output formats, in memory or streamed", "why_tests_cant": "both programs take unbounded lists of words and events", "anchors": ["src/fpfind/lib/generate_freqcd_testcase.py:main", "src/fpfind/lib/parse_timestamps.py:main"]}
{"id": "C205", "title": "generate_freqcd_testcase reads back what it writes", "statement": "`generate_freqcd_testcase -t WORDS | generate_freqcd_testcase -`, with -x in both commands or in neither, prints the times given, modulo 2^54, in decimal, one to a line and in the same order. Both exit with 0 and leave all files as they were.", "quantifier": "all times written in any way, all spellings of both command lines, with and without -x, all files", "why_tests_cant": "the list of times and the command lines are unbounded", "anchors": ["src/fpfind/lib/generate_freqcd_testcase.py:main", "src/fpfind/lib/parse_timestamps.py:read_a1"]}
{"id": "C206", "title": "Generated events in the legacy order converted by parse_timestamps", "statement": "After `generate_freqcd_testcase -x -o a -t WORDS`, `parse_timestamps -X -A1 ... a b` without filters writes to b one event per word, in the format asked for: the time modulo 2^54 with detector pattern 1. The same holds without -x and -X.", "quantifier": "all command lines of the two programs of these forms, all times, all output formats, in memory or streamed", "why_tests_cant": "both programs take unbounded lists of words and events", "anchors": ["src/fpfind/lib/generate_freqcd_testcase.py:main", "src/fpfind/lib/parse_timestamps.py:main"]}
{"id": "C207", "title": "The times printed by the chain of the freqcd test, exactly", "statement": "`generate_freqcd_testcase -t WORDS | freqcd -f N | generate_freqcd_testcase -`, with times (modulo 2^54) in order, prints for event i of block k (blocks of 1024 events) t + portion(t - base_k) + the portions between the bases before, modulo 2^54, where the base of a block is the last event of the block before (the first event for block 0) and portion(d) is floor(floor(d / 4096) N / 2^22). All three exit with 0.", "quantifier": "all times written in any way, all corrections and command lines, all files", "why_tests_cant": "the list of times and the command lines are unbounded", "anchors": ["src/fpfind/lib/generate_freqcd_testcase.py:main", "src/fpfind/freqcd.c:main"]}
{"id": "C208", "title": "Times typed into generate_freqcd_testcase can be piped on", "statement": "`generate_freqcd_testcase -x | generate_freqcd_testcase -`, with neither times nor an output file in the first command, prints the numbers typed in, modulo 2^54, in decimal, one to a line; the second command exits with 0.", "quantifier": "all ASCII texts typed in, all spellings of both command lines, all files", "why_tests_cant": "the text typed in is unbounded", "anchors": ["src/fpfind/lib/generate_freqcd_testcase.py:main", "src/fpfind/lib/parse_timestamps.py:read_a1"]}
{"id": "C209", "title": "Generated events corrected by freqcd and converted by parse_timestamps", "statement": "After `generate_freqcd_testcase -t WORDS | freqcd -f N -o a`, with times (modulo 2^54) in order, `parse_timestamps -A1 ... a b` without filters writes to b, in the format asked for, one event of pattern 1 per word with the corrected time of C207, modulo 2^54. All three exit with 0, and the last changes no file but b.", "quantifier": "all times written in any way, all corrections and command lines, all output formats, in memory or streamed, all files", "why_tests_cant": "the lists of times and events and the command lines are unbounded", "anchors": ["src/fpfind/lib/generate_freqcd_testcase.py:main", "src/fpfind/freqcd.c:main", "src/fpfind/lib/parse_timestamps.py:main"]}
{"id": "C210", "title": "The legacy order through all programs, with parse_timestamps making it", "statement": "After `generate_freqcd_testcase -o a -t WORDS` and `parse_timestamps -A1 -x a b`, with times (modulo 2^54) in order, `freqcd -x -f N -i b | generate_freqcd_testcase -x -` prints the same corrected times (C207) as the chain without -x. All four exit with 0.", "quantifier": "all times written in any way, all corrections and command lines, in memory or streamed, all files; with and without the legacy order", "why_tests_cant": "the lists of times and events and the command lines are unbounded", "anchors": ["src/fpfind/lib/generate_freqcd_testcase.py:main", "src/fpfind/freqcd.c:main", "src/fpfind/lib/parse_timestamps.py:main"]}
