#!/usr/bin/env python3
"""Source of /verif/properties.jsonl (one entry per property); run to regenerate."""
import json
P = []
def p(title, statement, quantifier, why, *anchors):
    P.append(dict(id="C%02d" % (len(P)+1), title=title, statement=statement,
                  quantifier=quantifier, why_tests_cant=why, anchors=list(anchors)))

F = "src/fpfind/freqcd.c"
TS = "src/fpfind/lib/parse_timestamps.py"
EP = "src/fpfind/lib/parse_epochs.py"
U = "src/fpfind/lib/utils.py"
FP = "src/fpfind/fpfind.py"
G = "src/fpfind/lib/generate_freqcd_testcase.py"

# ---- freqcd
p("freqcd reassembles the event stream whatever the read sizes",
  "Running freqcd, the 8-byte events that are corrected are exactly the consecutive 8-byte groups of the bytes received on the input, in order, none lost, duplicated or torn, however the bytes are split over read() calls and however those reads are interleaved with select() timeouts and frequency-stream reads.",
  "every input byte stream, every split of it into reads, every interleaving with timeouts and frequency reads",
  "the kernel decides the split; the number of splits is exponential in the stream length",
  F+":main (282-385)")
p("freqcd never touches memory outside its buffers in its main loop",
  "In the main loop of freqcd no read or write of the input, output or frequency buffer is outside the allocated 8192, 8192 and 100 bytes, provided read() never returns more than it was asked for.",
  "every input stream, frequency stream and schedule of reads",
  "an out-of-bounds access needs one particular combination of partial sizes; tests sample few",
  F+":main (282-454)")
p("freqcd emits one event per input event with the detector bits intact",
  "Every event that freqcd writes corresponds to the input event in the same position and carries the same low 10 bits (detector and flag bits); only the 54-bit timestamp may differ.",
  "every event, correction value, schedule, both word orders",
  "2^64 events times every state of the accumulated correction",
  F+":main (347-380)")
p("freqcd with zero correction is the identity",
  "With -f 0 and no frequency updates freqcd's output bytes are the input bytes (up to the last incomplete event), provided every read that precedes the first complete event brings a complete event.",
  "every input byte stream, both word orders, every split into reads",
  "all streams and all splits",
  F+":main (330-385)")
p("freqcd's 64-bit arithmetic never overflows",
  "For input timestamps that never decrease and fit the 54-bit format, and any correction values below 2^21 in magnitude, changing at any time, no signed 64-bit operation of freqcd overflows.",
  "every non-decreasing stream, every sequence of corrections, every split into reads",
  "overflow needs extreme elapsed times combined with extreme corrections and accumulated history",
  F+":main (355-385)")
p("freqcd's correction is accurate to 3/2 unit per batch",
  "For non-decreasing timestamps and a fixed correction f (units 2^-34), after any number n of reads, each written timestamp differs from t + f*(t - t_first)/2^34 by less than 3n/2 timestamp units.",
  "every non-decreasing stream, every f with |f| < 2^21, every split into reads completing at least one event",
  "truncation error accumulates over arbitrarily many batches",
  F+":main (355-385)")
p("freqcd preserves time order",
  "If the input timestamps never decrease then the timestamps written never decrease (as unwrapped values), whatever the corrections and whenever they change, provided every read completes at least one event.",
  "every non-decreasing stream, every sequence of corrections, every split into reads",
  "a reordering would need a particular residue of the truncated products",
  F+":main (355-385)")
p("freqcd's output does not depend on how the input was split",
  "Two runs of freqcd over the same input bytes and the same fixed correction write the same bytes, whatever the read sizes were.",
  "every stream, every f, every pair of splits",
  "pairs of splits cannot be enumerated",
  F+":main (382-384)")
p("A short read does not disturb freqcd's correction state",
  "A read that does not complete any event leaves the reference time and accumulated correction unchanged, so later events are corrected as if those bytes had arrived with the next read.",
  "every state, every short read",
  "needs a read shorter than the bytes missing from the pending event, which pipes rarely produce in tests",
  F+":main (330-385)")
p("freqcd legacy mode is the word-swapped normal mode",
  "freqcd -x on a stream whose events have their 32-bit words swapped writes exactly the word-swapped output of freqcd without -x on the original stream, for the same read sizes and frequency updates.",
  "every stream, schedule, frequency stream",
  "every state and event",
  F+":main (335-341, 353-357, 373-377)")
p("Frequency updates do not depend on how the frequency stream is split",
  "The correction in force after a frequency stream has been delivered is the last valid newline-terminated number in it, however its bytes are split over reads.",
  "every byte stream and every split",
  "exponentially many splits",
  F+":main (387-434)", F+":readint")
p("The correction in force stays within the documented range",
  "At every moment the correction freqcd applies is an integer of magnitude at most 2^21-1, whatever arrives on the frequency stream and whatever was passed with -f/-d.",
  "every frequency byte stream, split and command line",
  "all byte streams",
  F+":main (210-213, 418)", F+":readint")
p("Malformed or out-of-range frequency lines are ignored",
  "A line on the frequency stream that is not a decimal integer of magnitude below 2^21 leaves the correction unchanged.",
  "every line of bytes",
  "infinitely many malformed lines",
  F+":readint", F+":main (412-424)")
p("freqcd -f/-d accept exactly the documented range",
  "freqcd starts with -f n exactly when |n| <= 2097151, and with -d -f n exactly when |n| <= 1220703 (the correction then being n*2^34/10^10 truncated towards zero); otherwise it exits with error 5.",
  "every int-sized n",
  "2^32 values times two modes, with floating-point conversion",
  F+":main (168-213)")
p("freqcd options can be given in any order and clustered",
  "The configuration freqcd runs with is determined by the set of options given (last one wins per letter), whether flags are separate or clustered and option arguments attached or detached.",
  "every argument vector built from the documented options",
  "unboundedly many argument vectors",
  F+":main (173-208)", "src/fpfind/lib/getopt.c:getopt")
p("Filename options never overflow their buffers",
  "Whatever string is passed to -i, -o or -F, freqcd writes at most 200 bytes into the 200-byte name buffer.",
  "every argument string",
  "needs a name of exactly 200 or more characters",
  F+":main (81-83, 174-194)")
p("freqcd's output is a prefix of the corrected stream at every stop",
  "However freqcd stops (input EOF, read error, short write, select error), the bytes written so far are a prefix of the corrected event stream: nothing is written twice, skipped or reordered.",
  "every schedule and every stopping point",
  "every crash/stop point",
  F+":main (282-461)")
p("freqcd survives the 54-bit timestamp rollover",
  "When the 54-bit timestamp counter rolls over (about every 20 hours) the correction applied to the event after the rollover is computed from the true elapsed time.",
  "every pair of consecutive events across the rollover",
  "needs a 20 hour recording",
  F+":main (358-384)")
# ---- parse_timestamps
p("a1 files round-trip",
  "read_a1(write_a1(t,p)) returns exactly the (t,p) written, for either legacy setting, for 54-bit timestamps given in 4ps units or in ns with 1/256 fractions, and 4-bit patterns.",
  "every list of events, both legacy settings",
  "2^58 events and any number of them",
  TS+":read_a1", TS+":write_a1", TS+":_consolidate_events", TS+":_format_timestamps")
p("a2 files round-trip",
  "read_a2(write_a2(t,p)) returns exactly the (t,p) written.",
  "every list of 54-bit timestamps and 4-bit patterns",
  "values straddling 2^63 and list sizes 0 and 1 behave differently",
  TS+":read_a2", TS+":write_a2")
p("a0 files round-trip",
  "read_a0(write_a0(t,p)) returns exactly the (t,p) written.",
  "every list of 54-bit timestamps and 4-bit patterns",
  "numpy's type promotion silently loses the last bit only for large odd timestamps",
  TS+":read_a0", TS+":write_a0")
p("Timestamp formatting is exact",
  "Reading with fractional=False at resolution r yields the floor of the raw time in units of r; with fractional=True it yields the exact raw time in units of r (80-bit floats).",
  "every 54-bit raw timestamp and each of the three resolutions",
  "2^54 values with floating-point rounding",
  TS+":_format_timestamps", "src/fpfind/lib/constants.py:TSRES")
p("Streaming readers agree with in-memory readers",
  "Concatenating the batches of sread_aX gives the result of read_aX, the number of batches yielded is the announced num_batches, and every batch but the last has exactly buffer_size events.",
  "every file of whole events, every positive buffer size, each format",
  "all sizes relative to the buffer size",
  TS+":sread_a0", TS+":sread_a1", TS+":sread_a2")
p("Streaming writers agree with in-memory writers",
  "swrite_aX of any sequence of batches produces the same file as write_aX of the concatenated batches.",
  "every partition of every event list into batches",
  "exponentially many partitions",
  TS+":swrite_a0", TS+":swrite_a1", TS+":swrite_a2")
p("Streaming statistics agree with in-memory statistics",
  "print_statistics_stream reports the same counts, first/last timestamps and pattern set as counting over the whole event list, whatever the batch boundaries, including empty batches.",
  "every event list and every partition into batches",
  "exponentially many partitions",
  TS+":print_statistics", TS+":print_statistics_stream")
p("Pattern filter keeps exactly the specified events",
  "get_pattern_mask selects: without mask, the events whose pattern equals (or with invert differs from) the given one, patterns unchanged; with mask, the events sharing a bit with it, reduced to those bits; with mask and invert, the events that have a bit outside it or had no bit at all, with its bits cleared.",
  "every list of 4-bit patterns, every 4-bit pattern argument, all four modes",
  "all lists; interaction of the dummy marker with the mask",
  TS+":get_pattern_mask")
p("Time filter keeps exactly the events within the bounds",
  "For a sorted timestamp array get_timing_mask is true exactly at the events with start <= t <= end, missing bounds being infinite.",
  "every sorted array (including empty and with duplicates), every bounds",
  "boundary and duplicate combinations for every array size",
  TS+":get_timing_mask")
p("Filtering a stream equals filtering the whole file",
  "For time-ordered events, applying the command-line filters batch by batch and concatenating gives the same events as filtering the whole file at once.",
  "every sorted event list, every batch size, every filter setting",
  "every partition",
  TS+":main.event_filter", TS+":main.inline_filter")
p("parse_timestamps converts losslessly between formats",
  "Converting a well-formed file from any input format/word order to any output format/word order yields the encoding of the same (filtered) events; only flag bits 4-9 are cleared.",
  "every event list, every pair of formats and legacy flags, every filter",
  "all event lists and option combinations",
  TS+":main")
p("Incomplete a1 files are rejected",
  "read_a1 and sread_a1 reject (ValueError) every file whose size is not a multiple of 8 bytes.",
  "every file size",
  "sizes modulo 8",
  TS+":read_a1", TS+":sread_a1")
# ---- parse_epochs
p("T1 epoch files round-trip",
  "read_T1 of the file written by write_T1(dir, epoch, timestamps, detectors) returns for each event the epoch-local time plus the epoch's low 17 bits, and its detector, for timestamps below 2^37 and detectors 1..15.",
  "every event list, every 32-bit epoch",
  "all lists; an all-zero event is the terminator",
  EP+":read_T1", EP+":write_T1")
p("T1 integer timestamps with full epoch are exact",
  "read_T1(full_epoch=True, fractional=False) returns floor((epoch*2^37 + local time)/unit) for each resolution without 64-bit overflow.",
  "every epoch, local time, resolution",
  "2^69 combinations",
  EP+":read_T1 (204-237)")
p("T1 fractional timestamps have the documented precision",
  "read_T1(fractional=True) is exact without full_epoch, and with full_epoch is within half a unit in the last place of a 64-bit significand of the exact time (62.5 ps), preserving order.",
  "every epoch and local time",
  "floating-point rounding over 2^69 values",
  EP+":read_T1 (213-235)")
p("Truncated T1 files are detected",
  "If a T1 file with a non-zero length entry loses any bytes of its event section, read_T1 raises ValueError instead of returning data.",
  "every file and every truncation point",
  "every truncation point of every file",
  EP+":read_T1 (184-206)")
p("extract_bits returns the leading bits of the stream",
  "Successive extract_bits calls of widths up to 32 return consecutive bit fields of the big-endian bit stream formed by the file's little-endian words, losing no bit.",
  "every sequence of widths, every file",
  "all alignments of fields to words",
  EP+":extract_bits")
p("T2 files decode to the encoded events",
  "read_T2 of a file encoding a list of time differences and patterns per the filespec (short/extended fields, terminator) returns the running sums starting at the epoch, with the patterns, exactly.",
  "every list of differences and patterns, every timeorder 2..32 and base width up to 32, every epoch",
  "all event lists and field alignments, numpy scalar promotion to float64",
  EP+":read_T2")
p("read_T2 and read_T4 terminate on every file",
  "For any file contents read_T2 and read_T4 return or raise; they do not loop forever.",
  "every file, including truncated ones",
  "non-termination cannot be observed by a finite test",
  EP+":read_T2", EP+":read_T4", EP+":extract_bits")
p("T2 timestamps are available in every resolution",
  "read_T2 returns, for each resolution and fractional/full_epoch setting, the exact time (or its floor) in that unit.",
  "every event list, the six resolution/fractional settings, both full_epoch settings",
  "combination of dtype paths",
  EP+":read_T2 (353-385)")
p("T4 files decode to the encoded indices",
  "read_T4 of a file encoding index increments and bases returns the running index sums and bases exactly.",
  "every list of increments and bases, every timeorder and base width",
  "all lists and alignments",
  EP+":read_T4")
p("T3 coincidence bookkeeping adds up",
  "read_T3's coincidence matrix counts exactly the entries with one detector on each side, okcount is its sum, the garbage counters count exactly the sides without a single detector, and qber is the error fraction within [0,1] (0.5 if none).",
  "every file whose header length does not exceed its entries",
  "all entry lists",
  EP+":read_T3")
p("Epoch names and numbers correspond",
  "epoch2int(int2epoch(n)) = n for every n >= 0, int2epoch is injective, and write_T1's file name is int2epoch of the 32-bit epoch so that reading it back raises no header warning.",
  "every non-negative integer",
  "infinite domain",
  EP+":epoch2int", EP+":int2epoch", EP+":write_T1")
p("date2epoch gives the epoch containing the instant",
  "date2epoch of an instant with integer unix second s >= 0 is the epoch number floor(s*8e9/2^32) in at least 8 hex digits.",
  "every unix second in the 32-bit epoch range",
  "2^31 seconds with floating point division",
  EP+":date2epoch", EP+":epoch2date")
# ---- utils
p("The first overlapping epoch and run length are right",
  "get_first_overlapping_epoch returns the smallest epoch present in both directories and not below first_epoch, and the number of consecutive common epochs from it; (None, 0) exactly when there is none.",
  "every pair of directory listings, every first_epoch",
  "all set pairs",
  U+":get_first_overlapping_epoch")
p("get_timestamp concatenates consecutive epochs",
  "get_timestamp returns the events of epochs first+skip .. first+skip+n-1 in order, each exactly once, and fails if one is missing; times never decrease across the boundary of consecutive epochs.",
  "every directory, start, skip, count",
  "all epoch numbers including wrap of the 17-bit epoch field",
  U+":get_timestamp")
p("Normalisation keeps relative times",
  "normalize_timestamps subtracts one common start time (latest first event plus skip) from all arrays and drops exactly the events before it; intervals between kept events of all arrays are unchanged.",
  "every non-empty arrays of device timestamps (multiples of 1/256 ns the float format holds), every skip for which the start time is one",
  "all arrays",
  U+":normalize_timestamps", U+":slice_timestamps")
p("slice_timestamps selects the half-open window",
  "slice_timestamps(ts, start, duration) returns, in order, t - start for exactly the events with start <= t < start+duration.",
  "every array of device timestamps with an event at or after start, every such start, every duration",
  "all arrays and boundaries",
  U+":slice_timestamps")
p("get_overlap truncates to the common length",
  "get_overlap returns the minimum length and each array's prefix of that length.",
  "every non-empty collection of arrays",
  "all lengths",
  U+":get_overlap")
p("Binning conserves events",
  "The histogram built for the FFT has num_bins bins, each event falls in exactly the bin floor(t/res) mod num_bins, and the total count is the number of events.",
  "every event list, resolution > 0, number of bins",
  "all lists",
  U+":generate_fft")
p("The cross-correlation peak is the relative shift",
  "If the second histogram is the first one cyclically shifted by s bins and no non-trivial cyclic shift fixes the first one, the correlation is maximal exactly at s and the delay reported is s bins, or s-N bins when that is not longer.",
  "every histogram length, every aperiodic histogram, every shift, any computed correlation less than 1/2 off per bin",
  "all histograms",
  U+":get_xcorr", U+":get_timing_delay_fft")
p("The two delay candidates are consistent",
  "get_timing_delay_fft returns the peak bin position and its alias one full range lower (both zero for bin 0), the one of smaller magnitude first.",
  "every histogram and evenly spaced time axis",
  "all peak positions",
  U+":get_timing_delay_fft", U+":get_delay_at_index_fft")
p("Peak statistics split the histogram without overlap",
  "get_statistics' signal contains the peak bin, its background is disjoint from the signal and contained in the histogram, and a flat background gives significance 0.",
  "every histogram, every window and center",
  "all positions at the edges",
  U+":get_statistics", U+":PeakStatistics")
p("Histogram re-centering keeps bins and times paired",
  "convert_histogram_fft rotates an even-length histogram so that the value at time tau is the original value at tau modulo the range.",
  "every even-length histogram",
  "all lengths",
  U+":convert_histogram_fft")
# ---- fpfind
p("The returned offset composes all refinement steps",
  "time_freq returns (dt, df) such that (T - dt)/(1 + df) equals, for every time T, the successive application of the per-iteration corrections it made to the target timestamps; fpfind likewise including the precompensation.",
  "every sequence of iterations",
  "any number of iterations",
  FP+":time_freq (268-307)", FP+":fpfind (355-387)")
p("The returned frequency offset is within the compensation range",
  "Whenever time_freq returns, |df| < 2^-13.",
  "every input and parameter",
  "every path through the loop",
  FP+":time_freq (251-311)")
p("The refinement loop terminates",
  "time_freq stops for every input whose separation/acquisition ratio exceeds the float64 value of sqrt(2) used, within a number of iterations logarithmic in the ratio of starting and target resolution.",
  "every input and parameter with ratio above sqrt(2); in float64 by a relative 2^-49",
  "non-termination cannot be observed",
  FP+":time_freq (148-307)")
p("fpfind returns the first successful precompensation",
  "fpfind returns the composed result for the first precompensation in the list whose search succeeds and raises ValueError exactly when all fail with ValueError.",
  "every list of precompensations",
  "all success/failure patterns",
  FP+":fpfind")
p("A full precompensation scan still returns a result",
  "With precompensation_fullscan=True fpfind tries every precompensation and returns a found offset if any of them succeeded.",
  "every list with at least one success",
  "all patterns",
  FP+":fpfind (351-384)")
p("Peak search failures surface as ValueError",
  "Whatever the (non-empty, normalised) data, fpfind either returns or raises ValueError; no other exception escapes.",
  "all data and parameters",
  "all data",
  FP+":time_freq", FP+":fpfind", U+":slice_timestamps", U+":PeakStatistics")
p("Precompensation lists cover the scan range",
  "generate_precompensations(start, stop, step) yields start + k*step for k = 0,1,-1,2,-2,... up to |k*step| <= stop, each once; ordered: k = 0,1,.. up to start + k*step <= stop; step 0 yields [0].",
  "every start, stop >= 0, step > 0",
  "all parameter values, floating floor division",
  FP+":generate_precompensations")
p("Inverted output is the inverse compensation",
  "With output bit 0 set, the printed offsets describe the map that undoes the un-inverted one: applying both corrections in turn returns every time to itself.",
  "every dt and df > -1",
  "all offsets",
  FP+":main (661-671)")
p("fpfind's frequency output is accepted by freqcd",
  "The integer printed with output bit 1 set (without precompensation) is within the range freqcd accepts, inverted or not.",
  "every returned df",
  "boundary of two independent programs",
  FP+":main (664-670)", F+":main (213)")
p("Output fields and units follow the flags",
  "The line printed is the frequency field, then unless bit 2 is set a tab and the integer time in ns (or 1/8 ns with bit 3), with no trailing tab.",
  "all 16 flag values, all offsets",
  "all combinations",
  FP+":main (664-677)")
# ---- others
p("Generated test events decode to the requested timestamps",
  "get_event(t) is an a1 event whose timestamp is t modulo 2^54 and whose pattern is the detectors argument, in the module's word order.",
  "every t >= 0, detectors 0..15",
  "all timestamps",
  G+":get_event")
p("The test generator honours its legacy flag",
  "generate_freqcd_testcase -x emits events in legacy word order.",
  "every timestamp list",
  "global/local variable scoping across all inputs",
  G+":main (86-87)")
p("The test generator reads its input file without changing it",
  "generate_freqcd_testcase FILE prints the timestamps stored in FILE and leaves FILE unchanged.",
  "every file and standard input",
  "all file contents",
  G+":main (106-128)")
p("Verbosity always maps to a log level",
  "verbosity2level is defined for every count >= 0, non-increasing, WARNING at 0, INFO at 1, DEBUG from 2 on.",
  "every count",
  "infinite domain",
  "src/fpfind/lib/logging.py:verbosity2level")

# appended later
p("write_T1 accepts numpy arrays",
  "write_T1 called with int64 or uint64 numpy arrays writes the same file as with Python ints.",
  "every epoch and event list, each array type",
  "dtype promotion over all 64-bit values",
  EP+":write_T1")
p("read_T1 terminates on every file",
  "For any bytes read_T1 returns or raises, and what it returns are the words before the first zero word, zeros being supplied at the end of the file.",
  "every file",
  "unbounded file contents",
  EP+":read_T1")
p("The delay of events is found through binning and correlation",
  "If the second party's events are the first party's, each delayed by s bins plus any number of full turns and in any order, then binning both, correlating and get_timing_delay_fft report s bins, or s-N bins when that is not longer, unless the histogram has a period.",
  "every event list, number of bins, resolution and shift",
  "all event lists",
  U+":generate_fft", U+":get_xcorr", U+":get_timing_delay_fft")
p("The k strongest delays come in order",
  "get_top_k_delays_fft returns the delays of k distinct positions of the largest values, strongest first, each with its value; for k = 1 the delay of get_timing_delay_fft.",
  "every histogram, 1 <= k <= its length, whichever way equal values are ordered",
  "all histograms and ties",
  U+":get_top_k_delays_fft")
p("The significance is the distance in standard deviations",
  "PeakStatistics.significance is (max - mean)/stdev of signal and background rounded to three decimals, and total is the sum of the signal above the background mean.",
  "every signal and background, exact arithmetic",
  "all lists",
  U+":PeakStatistics")
p("significance_raw returns a number",
  "PeakStatistics.significance_raw returns a number whenever the signal is not empty and the background varies.",
  "every such signal and background",
  "universally quantified",
  U+":PeakStatistics.significance_raw")
p("generate_precompensations returns its documented examples",
  "The four calls in the docstring of generate_precompensations return the lists shown there.",
  "the four examples",
  "not run by any test",
  FP+":generate_precompensations (399-407)")

L = "src/fpfind/lib/logging.py"
p("Details of a log record are aligned with its message",
  "A record with a list or dict of details is shown in the readable format as its message followed by one line per detail, each made of the message's prefix turned to blanks of the same width, the delimiter and the detail two columns further in than the text; an empty message is replaced by the first detail, and in the plain format details follow after a tab.",
  "every message, delimiter, list of details and notion of whitespace",
  "all strings",
  L+":LoggingOverrideFormatter.format")
p("g2 counts the pairs closer than the maximal delay",
  "g2 counts in bin k exactly the pairs of an event of the second array and a stamp of the first, both in the interval, whose delay is below the maximum and falls in bin k.",
  "every two sorted arrays, interval, maximum and bin width",
  "all arrays",
  "src/fpfind/lib/g2_two_timestamps.py:g2")
p("histogram_fft returns the correlation and keeps its inputs",
  "histogram_fft returns a histogram for any two non-empty arrays and leaves the arrays as they were.",
  "every pair of non-empty arrays",
  "universally quantified",
  U+":histogram_fft")
p("Detuned timestamps are restored by the plotter's correction",
  "The events that generate_freqdetuneg2 keeps, detuned by a ratio and offset, are brought back to their original times by fpplot with that ratio in ppm and the offset less ratio times the first time; fpplot's correction is the one fpfind's result stands for.",
  "every event list, channel, ratio other than -1 and offset, in exact arithmetic",
  "all event lists",
  "src/fpfind/lib/generate_freqdetuneg2.py:detune (28-40)", "src/fpfind/fpplot.py:plotter")
p("The program description is the docstring's first part",
  "parse_docstring_description returns the text before 'Changelog:' with the first run of newlines replaced by an empty line and every other run by a space.",
  "every docstring without a tilde before the changelog",
  "all strings",
  U+":parse_docstring_description")
p("Enough epochs are read for the search",
  "fpfind reads as many epochs as cover (separation + 1) times the acquisition window, and at most one more than the rounded duration requires; with fewer epochs available it prints no result.",
  "every separation >= 0 and window below 2^53 ns; every pair of directories",
  "all options and directories",
  FP+":main (561-600)")
p("A common shift of both clocks does not change the result",
  "fpfind prints the same for two timestamp files and for the files with the same constant added to all times.",
  "every pair of files with times below 2^54, shift keeping them there, option and skipped duration representable in the arrays",
  "all files; rounding of the formats included",
  FP+":main (602-677)", FP+":time_freq")
p("One pass finds the delay and the clock ratio",
  "If in the window and in the separated window the target's events are the reference's, moved by s1 and s2 bins plus full turns and in any order, the histograms have no period and the significance reaches the threshold, then the search at the target resolution returns the delay of s1 bins exactly and a frequency within 2^-52 of (delay of s2 - delay of s1) / separation.",
  "every event list, shifts, number of bins, wraps and integer resolution, the correlation computed to within one half",
  "all event lists; floating point included",
  FP+":time_freq")

p("The statistics of every file of events can be printed",
  "parse_timestamps -p on a file holding at least one event prints the whole report without an exception.",
  "every list of events and format",
  "single events and events at one time are corner cases",
  "src/fpfind/lib/parse_timestamps.py:print_statistics_report", "src/fpfind/lib/parse_timestamps.py:main (758-767)")
p("The counts are printed in one column",
  "The seven count lines of the report hold the number of events, of events per channel, with several and with no channels, right-aligned to the same width.",
  "every non-empty list of events, format and way of reading; any filters",
  "all numbers of events",
  "src/fpfind/lib/parse_timestamps.py:print_statistics_report (500-513)")
p("Printed times are right to the nanosecond",
  "The start, end and duration printed, in seconds with nine decimals, differ from the true values by at most 9/16 ns.",
  "every list of events with times below 2^54, in order or not",
  "all times; rounding of every step included",
  "src/fpfind/lib/parse_timestamps.py:print_statistics_report (514-516)", "src/fpfind/lib/parse_timestamps.py:print_statistics_stream")
p("Event rate and patterns are printed",
  "The event rate printed is the whole part of the number of events divided by a duration that is within 1/16 ns of the true one; the patterns printed are those that occur, in increasing order.",
  "every list of events whose last time is at least 32 units after the first",
  "all event lists",
  "src/fpfind/lib/parse_timestamps.py:print_statistics_report (517-518)")
p("fpfind's frequency given to freqcd brings the clocks in step",
  "The frequency fpfind prints with its values inverted is accepted by freqcd -f, and the events freqcd then writes have the times of the reference clock: elapsed times are off by at most 2^-35 + 2^-49 of the elapsed time and 3/2 units per read, for any true frequency within 2^-51 of the one found.",
  "every frequency found up to the limit, every event stream in order and every split of it into reads",
  "all streams and splits; two programs with different arithmetic",
  FP+":main (668-677)", F+":main (121-385)")
p("The search converges to the delay and clock ratio",
  "If every pair of delays a search finds is true to one bin width at some times of their windows, the frequency returned is off by at most an error that each iteration multiplies by window / separation, plus the drift of two bins over the separation and three roundings, and the delay by one bin (times 1 + 2^-12) plus the frequency error over the window and its rounding.",
  "every number of iterations, event list and option, in float64 or exact arithmetic; ended normally or by giving up",
  "all event lists; any number of iterations",
  FP+":time_freq")
p("fpfind prints the delay and clock ratio of two files of the same events",
  "If, from the time both devices have started, the target file holds the events of the reference file s1 bins later in the first window and s2 bins later in the one after the separation (whole turns and order free), fpfind -t -T prints a line showing that delay and a frequency within 2^-51 of the change of delay over the separation.",
  "every pair of a1 files, output flag, number of bins, wraps, integer resolution and separation that the search handles in one iteration",
  "all files; from the bytes of the files to the digits of the line, rounding included",
  FP+":main (561-677)", FP+":time_freq")
p("Files, fpfind and freqcd together bring the clocks in step",
  "The line printed by fpfind -V 7 for two such files is accepted by freqcd -f, and the events freqcd writes are in step with the reference: elapsed times are off by at most 2^-35 + 2^-49 of the elapsed time and 3/2 units per read.",
  "every pair of such files, every event stream in order and every split of it into reads",
  "two programs and all their inputs",
  FP+":main", F+":main")
p("Epoch directories and timestamp files of the same events give the same result",
  "fpfind -d -D on T2 and T1 files of consecutive epochs prints exactly what fpfind -t -T prints for a1 files of the events of the epochs it needs, starting at the first epoch both directories have plus the epochs skipped; in particular it shows the delay and clock ratio as in C88.",
  "every pair of directories, first epoch, skip, event list, field width of the T2 files and option; errors included",
  "all directories; three file formats decoded and compared through the whole search",
  FP+":main (576-606)", U+":get_first_overlapping_epoch", U+":get_timestamp", EP+":read_T2", EP+":read_T1")
p("fpplot applies the delay and frequency it is given to the target's events",
  "fpplot compares the reference's times since the later of the two first events (plus the time skipped) with the target's, less the delay and divided by 1 + freq/10^6, within the fraction 2^-51; with the target clock's delay and ratio given, coincident events are at zero but for the error of these. Epoch directories give the same as timestamp files.",
  "every pair of a1 files or epoch directories, skip, duration, delay, and frequency up to 1000 ppm",
  "all files and settings; floating point included",
  "src/fpfind/fpplot.py:main", "src/fpfind/fpplot.py:plotter", U+":normalize_timestamps", U+":slice_timestamps")

D = "src/fpfind/lib/generate_freqdetuneg2.py"
p("generate_freqdetuneg2 writes the two channels, the second detuned by the ratio in each file's name",
  "From a legacy a1 recording, c1_a2.dat is the a2 file of the events of channel 1, unchanged, and c4eN.dat the legacy a1 file of the events of channel 8 in order, each at t0 + (t - t0)(1 + 10^-N), t0 the first time of the recording, within 257/256 unit (4 ps) and 2^-52 of t - t0.",
  "every recording with no time before its first and none detuned past 2^54, every longdouble of 64 bits or more",
  "all recordings; floating point and file encodings included",
  D+" (21-49)", TS+":write_a1", TS+":write_a2", TS+":read_a1")
p("freqcd turns an a1 file into an a1 file of the same events at other times",
  "When freqcd has been given a whole a1 file, what it wrote is an a1 file with as many events and the same flag bits in the same order, and read_a1 reads both, with the same patterns. With one frequency f the new times are t + f (t - t0) / 2^34 modulo 2^54, within 3/2 unit per read; with the frequency printed by fpfind they are in step with the corrected times of fpfind as in C86.",
  "every file in both word orders, split into reads, frequency stream, resolution and precision",
  "two programs in different languages have to agree on the format for all files",
  F+":main", TS+":read_a1")
p("freqcd with fpfind's number for the ratio undoes generate_freqdetuneg2",
  "For N = 4...10 fpfind's line for the ratio 10^-N is accepted by freqcd -f, and freqcd -x turns c4eN.dat into a legacy a1 file of the channel 8 events in which times since the first are the original ones, within 2^-34 of the time since the recording's start, 3 units and 3/2 unit per read.",
  "every recording in order, every split of the file into reads",
  "three programs and all recordings",
  D+":detune", F+":main", FP+":main")

p("time_freq measures the most frequent time difference of the pairs of events",
  "A result of time_freq is explained without histograms and transforms: every iteration takes the first of the most frequent differences, in cells of the resolution and around the circle of num_bins cells, among all pairs of events of a window at 0 (in the first iteration in groups of 2^k cells) and of one at the separation; these give the delay and drift that are accumulated, applied to the target times, and refined from until the target resolution is met or the values are more than ten times what was found so far.",
  "every pair of streams, number of bins, resolution, separation, threshold; transforms with any error e on histograms of that many bins and events, which then bounds how far from the maximum the chosen count may be",
  "all pairs of streams and all sequences of refinements",
  FP+":time_freq", FP+":fpfind", U+":histogram_fft", U+":get_xcorr", U+":get_timing_delay_fft")
p("a constant delay is reported with frequency offset 0 when bins had to be merged",
  "When the same delay stands out in both windows, time_freq returns that delay and frequency offset 0, however many times the first iteration merged bins.",
  "every pair of streams with a delay of q cells that stands out, every number of merges",
  "needs low significance together with a delay beyond the range of the first correlation",
  FP+":time_freq (180-241)")

p("the transforms compute the circular correlation",
  "get_xcorr of the rfft of two integer arrays of one even length n >= 2 is, over the real numbers, the array of the n absolute values of their circular correlation sum_i a[i] b[(i+k) mod n]; an odd length gives n - 1 values, a single bin ValueError.",
  "every pair of integer arrays of one length",
  "all arrays and lengths; the sums of roots of unity are proved, not sampled",
  U+":generate_fft (194)", U+":get_xcorr")

p("fpfind finds the clock relation when the coincidences stand out in the data",
  "The target shows D + (1 + F) tau, up to a jitter j, when the reference shows tau. If in every iteration some time difference is shared by more pairs of events (by more than the error of the transforms) than any difference without a coincidence, and the delays left stay within the range of the correlation, then the result of time_freq is D and F within the errors that the bin widths used, widened by the jitter, add up to; fpfind's within the same times 1 + df0 for the precompensation df0 it settled on.",
  "every pair of streams, D, F, j, every number of iterations and of merges, window lengths up to W, transforms with error at most e on histograms of that many bins and events",
  "a statement about all data with a signal; tests use a few simulated streams",
  FP+":time_freq", FP+":fpfind")

p("fpfind finds the clock relation when the coincidences stand out, in floating point",
  "As C98, with the scalars and times rounded as the code rounds them: if in every iteration the coincidences stand out among the pairs of the rounded events, by more than the error of the transforms and of the summed counts, then the result is D and F within the errors that the bin widths used add up to, widened by the jitter and by the rounding of the delays, plus the rounding of the result.",
  "every pair of streams, D, F, j, every number of iterations and of merges, every rounding of times, scalars with relative error at most u <= 2^-50, float64 being one; transforms with error at most e on histograms of that many bins and events",
  "a statement about all data with a signal and all roundings; tests use a few simulated streams",
  FP+":time_freq", U+":get_timing_delay_fft", U+":slice_timestamps")

p("a run of freqcd on a file corrects the file",
  "freqcd with any spelling of -i, -o, -f, -d, -x (no -F), the correction within the documented range, on a file or standard input holding a whole number of events with times in order: exit code 0, the output holds the events of the input with their detector bits and with times in order, event i is within 3(i/1024 + 1)/2 units of t + f (t - t0)/2^34, and no other file changes.",
  "every such command line, file system, input of any length, contents of uninitialised memory",
  "all file lengths and contents; errors add up over blocks of 1024 events",
  F+":main")

p("the correction in a frequency file is applied to the input",
  "freqcd -F with a file of at most 99 bytes with the value g: every event of the input file is corrected by g.",
  "every command line, file system, input and frequency file",
  "files of fewer than 1024 events, as used in tests, never see the frequency file's value",
  F+":main")

p("freqcd without a correction copies its input",
  "freqcd with correction 0 and no -F on any bytes, not fewer than 8: exit code 0, the output is the input without the last length mod 8 bytes, no other file changes.",
  "every command line asking for no correction, every file system and contents, ordered or not",
  "all contents and lengths",
  F+":main")

p("freqcd does not change its input file",
  "After a run of freqcd the file given with -i has the contents it had.",
  "every command line of good options, file system and input",
  "only visible with -i and -o naming one file",
  F+":main (224)")

p("freqcd changes no file when it ends with an error",
  "If freqcd ends with an exit code other than 0 then no file has changed and nothing was written to standard output.",
  "every argument vector and file system",
  "depends on the order in which files are opened",
  F+":main (216-232)")

p("fpfind run on two files prints the clock relation when the coincidences stand out",
  "fpfind -t A -T B without precompensation, any number of iterations: if the events common to the two files (the target's at D + (1 + F) tau, up to j) stand out in all that the search looks at, then the line printed shows offsets within the error bounds of D and F, in the direction, units and form asked for with -V.",
  "every pair of files of events, legacy or not, every D, F, j, options, number of iterations, longdouble of 54 bits or more; transforms with error at most e on histograms of that many bins and events",
  "all recordings with a signal; reading, start times, search, rounding and printing compose",
  FP+":main (-t, -T)", FP+":fpfind", FP+":time_freq", U+":normalize_timestamps", TS+":read_a1")

p("freqcd with the value printed by fpfind brings the target in step with the reference",
  "If fpfind -V 7 printed a line for two files whose common events stand out, then freqcd -f with that line on the target's file ends with exit code 0, keeps all events and their detector bits and order, and any two events common to the files are as far apart in the output as in the reference: up to the jitter, 5/4 of the frequency error of the search over the time since the first event, and 3/2 unit per 1024 events.",
  "every pair of files and options as in C105, every spelling of freqcd's command line and file system",
  "composes both programs over all recordings",
  FP+":main", F+":main")

p("fpfind with precompensation prints the clock relation when the coincidences stand out",
  "fpfind -t A -T B -P: the line printed belongs to one of the frequencies df0 tried; if the common events stand out after the target times are divided by 1 + df0, the offsets shown are D and F within the error bounds of the search for what is left, times 1 + df0, and freqcd with that line brings the target in step with the reference.",
  "every pair of files of events, every list of frequencies of size at most 1/2, ordered or not, and all else as in C105, C106",
  "all recordings with a signal and all frequency lists; failures before the frequency that works must leave no trace",
  FP+":main", FP+":fpfind", FP+":generate_precompensations", F+":main")

p("Times from the test generator come out of freqcd scaled by the frequency asked for",
  "generate_freqcd_testcase -t writes times to standard output; freqcd -f reads them; the generator's decoder reads freqcd's output: as many times come out, ordered, the i-th at t0 + (t - t0)(1 + f/2^34) mod 2^54 up to the rounding per 1024 events; every exit code is 0.",
  "every ordered list of times below 2^54, every f, spelling of the command line, buffer size and time stamp precision of 54 bits or more",
  "the project's own test runs this chain for three times and one f",
  "src/fpfind/lib/generate_freqcd_testcase.py", F+":main")

p("Two runs of freqcd compose; with inverse frequencies the recording is restored",
  "freqcd -f f followed by freqcd -f g on its output keeps the number, order and detector bits of the events and multiplies times since the first by (1 + f/2^34)(1 + g/2^34), up to the rounding of both; if g is f's inverse to the nearest unit then the times are those of the input, up to 2^-35 of the time since the first event and the rounding.",
  "every recording without roll-over, ordered, legacy or not; every f, g, command line, file or pipe",
  "all recordings and pairs of frequencies",
  F+":main", "src/fpfind/lib/generate_freqcd_testcase.py (19)")

p("Exchanging reference and target gives the inverse offsets",
  "If the events common to A and B stand out in both directions, then fpfind(A, B) = (t1, f1) and fpfind(B, A) = (t2, f2) satisfy (1 + f1)(1 + f2) = 1 and t1 (1 + f1) + t2 = 0 up to the errors of the two searches, as the tests expect (10^-9 and 1 ns).",
  "every pair of lists of times, every clock relation D, F, jitter, search parameters and number of iterations, float64 scalars, transforms with error at most e on histograms of that many bins and events",
  "the tests check seven recordings, in which D F is small",
  FP+":fpfind", FP+":time_freq", "tests/test_fpfind_timestamp.py", "tests/test_fpfind_epoch.py")

p("The search finds the clock relation when the coincidences stand out, are significant and within reach",
  "If the events common to A and B stand out in all that the search looks at, the first peak is above the significance threshold, the delay left is below 100 ms and the frequency with its error below 2^-13 in each iteration, then fpfind(A, B) returns, for every sufficiently large bound on the number of iterations, one and the same pair of offsets, which are D and F within the error bounds of the search; it does not raise.",
  "every pair of lists of times, clock relation D, F, jitter, even number of bins, resolutions, separation longer than the data looked at by the refinement factor; float64 scalars, transforms with error at most e on histograms of that many bins and events",
  "all recordings with a signal; no exception on any path of the iteration",
  FP+":fpfind", FP+":time_freq", U+":slice_timestamps", U+":get_timing_delay_fft", U+":get_statistics")

p("fpfind prints the clock relation of two files when the coincidences stand out, are significant and within reach",
  "Under the conditions of C111 on the times since the common start, fpfind -t A -T B on the two files of events prints a line, and that line shows D and F within the error bounds of the search.",
  "every pair of files of events, legacy or not, every D, F, j and options of a search without precompensation, longdouble of 54 bits or more; transforms with error at most e on histograms of that many bins and events",
  "all recordings with a signal; reading, start times, search, rounding and printing compose without exception",
  FP+":main (-t, -T)", FP+":fpfind", FP+":time_freq", U+":normalize_timestamps", TS+":read_a1")

p("fpfind's command line means what it says",
  "For every way of writing options (grouped letters, attached or separate arguments, abbreviated names, any order, repeated) fpfind runs the search with the options last written and the documented defaults on the named directories or files, prints one line and exits with 0, or prints nothing and exits with 1 if there is an exception, a file is missing or nothing is named. Without arguments or with -h it prints nothing on standard output and exits with 1.",
  "every command line written from the documented options (without =, --config, --save, --logging), every number written in decimal, every file system",
  "infinitely many command lines; the tests call the functions, never main",
  FP+":main (424-677)")

p("fpfind on the command line prints the clock relation when coincidences stand out",
  "Under the conditions of C112, every command line which asks for these options and names the two files with -t and -T makes fpfind exit with 0 and print one line, which shows D and F within the error bounds of the search.",
  "every such command line, pair of files of events, clock relation and search options as in C112 and C113",
  "command lines times recordings",
  FP+":main", FP+":fpfind", U+":normalize_timestamps", TS+":read_a1")

p("A command line with an unknown word is refused",
  "If among correctly written requests there is a word which is neither an option nor the argument of one, fpfind prints nothing on standard output and exits with 2, whatever else is asked for.",
  "every command line with any number of such words in any places",
  "infinitely many command lines",
  FP+":main (424-546)")

p("The README's command line for fpfind runs",
  "fpfind -t A -T B -n 1 -q 25 -S 4 is accepted.",
  "every pair of file names",
  "documentation is not tested",
  "README.md (22)", FP+":main (438-540)")

p("Every decimal number can be written in the word after its option",
  "An option which takes a number accepts every decimal number in the next word.",
  "every number option, every decimal numeral, every context on the command line",
  "infinitely many numerals; negative frequencies are usual values of --precomp-start",
  FP+":main (519-527)")

p("The command line of parse_timestamps means what it says",
  "For every way of writing options (grouped letters, attached or separate arguments, abbreviated names, any order, repeated) before or after the file names, parse_timestamps converts the input file to the output file, or prints the statistics, with the formats and filters last written. The exit code is 0, or 1 if there is an exception, the output name or the input file is missing; no other file is touched. Without -A or a file name, or with a format other than 0, 1, 2, it exits with 2; with -h it shows its help.",
  "every command line written from the options (without =), every file system, in memory or streaming",
  "infinitely many command lines; the tests never call main",
  TS+":main (686-773)")

p("parse_timestamps on the command line converts events",
  "If the input file holds events in the format named with -A, the run exits with 0 and the output file holds, in the format named with -a, exactly the events that pass the filters named, with their new patterns; every other file is unchanged.",
  "every command line, every list of events the conversion handles (C29), every filter; the output is not the input unless --inmemory",
  "command lines times files",
  TS+":main", TS+":sread_a1", TS+":swrite_a1")

p("Converting a file onto itself converts it",
  "C119 also if input and output are the same file.",
  "every command line and file",
  "the default differs from --inmemory in the order of opening files",
  TS+":main (769-773)", TS+":swrite_a1 (358)", TS+":sread_a1 (188)")

p("Options and file names can be written in any order",
  "Where the options stand among the file names, and how they are written, makes no difference.",
  "every command line",
  "infinitely many command lines",
  TS+":main (688-707)")

p("Converting to another format and back restores the file",
  "parse_timestamps from format x to y followed by parse_timestamps from y to x, without filters, both exit with 0, and the last file has the bytes of the first.",
  "every pair of command lines and formats, every list of events both conversions handle",
  "command lines times files times formats",
  TS+":main")

p("fpfind on the command line finds the clock relation after the time to be skipped",
  "fpfind -t A -T B -Z s ... exits with 0 and prints the delay and frequency offset of the events from s seconds after the later of the two starts on, if these stand out, are significant and within reach, up to the stated errors; what was recorded before has no influence.",
  "every spelling of the command line, two recordings, legacy or not, every s of whole 1/256 ns",
  "all recordings; the tests use -Z nowhere",
  FP+":main", U+":normalize_timestamps")

p("fpfind on the command line finds the clock relation of epoch directories",
  "fpfind -d A -D B -e E -z n ... exits with 0 and prints delay and frequency offset of the events in the epochs needed, from n epochs after the first common one on, if these stand out, are significant and within reach, up to the stated errors.",
  "every spelling of the command line, all directories with T2 and T1 files of these epochs, any other files",
  "all directories",
  FP+":main", U+":get_first_overlapping_epoch", U+":get_timestamp")

p("fpplot with the values printed by fpfind shows the coincidences at zero",
  "With what fpfind printed, the delay as it is and the frequency in ppm, fpplot on the same files gives histogram the reference's times and the target's times such that those of common events differ by no more than the errors of the search, the rounding of the delay to ns, the jitter, and what the frequency error makes of the time since the start.",
  "every pair of recordings as in C123, every -Z and --duration",
  "needs the agreement of two programs for all recordings",
  "src/fpfind/fpplot.py:main", "src/fpfind/fpplot.py:plotter", FP+":main")

p("The times of a recording and of the T1 files cut from it are the same",
  "read_a1 of a recording and read_T1 (without full epoch) of the files of its consecutive epochs give the same times and patterns, one epoch after another, in every resolution, fractional or not.",
  "every recording and epoch number, also across the clock's turn, any number of epochs, in both word orders",
  "the tests compare two data sets in two settings",
  "src/fpfind/lib/parse_epochs.py:read_T1", TS+":read_a1", "tests/parse_epochs/test_readT1_outputs.py")

p("With full epochs the times are the recording's modulo its clock",
  "read_T1 with full epoch agrees with read_a1 modulo 2^54 in 4 ps units as integers, and modulo 2^46 ns to 1/8 ns as floats.",
  "every recording and epoch number, any number of epochs, in both word orders",
  "the tests compare two data sets, which do not reach the clock's turn",
  "src/fpfind/lib/parse_epochs.py:read_T1", "tests/parse_epochs/test_readT1_outputs.py")

p("parse_timestamps -p on the command line prints the statistics of a recording",
  "parse_timestamps with -p exits with 0, changes no file, and prints name, size, the counts of the channels, duration, first and last time, rate and patterns of the events; so does the README's parse_timestamps -A1 -X -p FILE.",
  "every spelling of the command line, every recording in the formats 0, 1, 1X and 2 whose first and last event are 1/8 ns apart or more, in memory or not",
  "all recordings and command lines; no test covers the statistics",
  TS+":main", TS+":print_statistics", TS+":print_statistics_report", "README.md:22")

p("freqcd -d corrects by units of 1e-10",
  "With -d and -f n the output is the input with the times moved by n * 1e-10 of the time since the first event, to 3/2 time units per batch of 1024 events and one unit per 2^34; so does the README's freqcd -x -df 568.",
  "every spelling of the command line, every event file, |n| <= 1220703",
  "all files and corrections; no test covers -d",
  F+":main", "README.md:22")

p("generate_freqcd_testcase -t delivers the events asked for",
  "With -t and non-negative decimal times the program exits with 0 and writes one event of detector 1 for each time, cut to 54 bits, to the file after -o or to standard output, in the legacy word order with -x. A negative time ends it with exit code 1 after the events before it.",
  "every spelling of the command line, all times, any files present and any standard input",
  "all command lines and lists of times; the test runs one of each",
  G+":main", G+":get_event")

p("generate_freqcd_testcase - prints the times of the events on standard input",
  "With the input - the times of the events on standard input are printed in decimal, one to a line, the exit code is 0 and no file is left behind or changed.",
  "every spelling of the command line with -x or without, all events",
  "all event streams; the test decodes one stream of three",
  G+":main", TS+":read_a1")

p("The examples in the header of generate_freqcd_testcase for reading events",
  "'cat .input | generate_freqcd_testcase.py' and 'generate_freqcd_testcase.py .input' print the times of the events in .input and leave the file as it is.",
  "all events in .input",
  "documentation; no test runs these lines",
  G+":main")

p("generate_freqcd_testcase without times and input writes an event for every number typed",
  "After the two lines of greeting every line with a whole number gives one event, in the output file or on standard output; lines without digits are skipped; at the end of the input the exit code is 1.",
  "every spelling of the command line, every sequence of lines which are numbers or have no digit",
  "interactive input is not tested",
  G+":main")

p("The chain of the freqcd test prints the corrected times",
  "generate_freqcd_testcase -t TIMES | freqcd -f N | generate_freqcd_testcase - : all three exit with 0, and the numbers printed are the times moved by N / 2^34 of the time since the first, to 3/2 time units per batch of 1024, cut to 54 bits. A second freqcd with the inverse correction restores the times.",
  "every spelling of the three command lines, all non-decreasing lists of times below 2^54 (below 2^53 with two freqcd), all corrections",
  "the test has one list of three times and one correction",
  G+":main", F+":main", "tests/freqcd/test_freqcd.py:test_freqcd_onepass")

p("fpfind -P from the command line prints offsets whenever the coincidences stand out for one of the frequencies",
  "When the coincidences left after one of the precompensations stand out, within reach of the limits and significantly enough, and the recordings are long enough for the frequencies tried before it, the command exits with 0 and prints one line. It shows the offsets found with that frequency or one before it, and where the coincidences stand out for the frequency used the offsets are right up to the widths of the bins.",
  "every spelling of the command line with -t and -T, all options of the search and all frequencies up to 1/2, all pairs of files, any accuracy of the correlation of histograms of that many bins and events",
  "all recordings and grids of frequencies; the tests run one pair of files with one grid",
  FP+":main", FP+":fpfind", FP+":generate_precompensations")

p("fpfind and freqcd from their command lines bring the clocks in step",
  "When the coincidences stand out for one of the frequencies tried, fpfind -V 7 prints a line, and freqcd -f with this line exits with 0 and moves the events of the target to times as far apart as in the reference, up to the jitter, the bin widths and 3/2 unit for each batch of 1024.",
  "every spelling of both command lines, all options of the search, all recordings ordered in time, any allocation of the buffers",
  "both programs are only tested separately, each with one stream",
  FP+":main", F+":main")

p("get_xcorr with inexact transforms is off by a bounded number of coincidences",
  "If rfft and irfft have a relative error eps in the euclidean norm and complex products one of mu, every value of the cross-correlation of two histograms differs from the number of pairs of events at that delay by at most 2 d |h| |k| + eps (a b + sqrt(n) 2 d |h| |k|), where d = mu (1+eps)^2 + eps (1+eps) + eps, a and b are the numbers of events and |h|, |k| the norms of the histograms: below 1/128 for a million events on each side, 2^26 bins and errors of 2^-50.",
  "every even number of bins, all histograms, all transforms and products with such errors",
  "errors of floating-point transforms are properties of all inputs; the tests use small histograms",
  U+":get_xcorr", U+":generate_fft")

p("fpfind from the command line finds the offsets with transforms in floating point",
  "With transforms and products of these relative errors, when the coincidences stand out by more than the resulting error of the counts, the command exits with 0 and prints one line showing delay and frequency offset up to the widths of the bins.",
  "every spelling of the command line with -t, -T and -Z, all options of a search without precompensation, all recordings, all transforms with such errors",
  "the accuracy of the transforms and the search are never tested together for large data",
  FP+":main", FP+":fpfind", U+":get_xcorr")

p("fpfind finds the clock relation when common events outnumber accidental coincidences",
  "If in both windows, at each of the bin widths given by the parameters, for every delay v the pairs of different events with delays from v to v plus two bins and the spread of the common delays, modulo the range of the correlation, times the number of bins that the common delays can be spread over, are fewer than the common events well inside the window, then the search succeeds, and delay and frequency are D and F up to bounds given by those bin widths. The conditions are only on the times, D, F, the jitter and the parameters, not on the intermediate results of the search.",
  "all recordings, parameters, delays D and frequency offsets F within the limits of the search, every accuracy of the correlation, first peak significant",
  "a sufficient condition for success on all recordings; tests try some recordings",
  FP+":time_freq", FP+":fpfind")

p("the fpfind command prints the clock relation when common events outnumber accidental coincidences",
  "Under these conditions on the times in the two files, the command exits with 0 and prints one line with delay and frequency offset up to these bounds.",
  "every spelling of the command line with -t, -T and -Z, all options of a search without precompensation, all recordings",
  "no test goes from the contents of arbitrary files to the line printed",
  FP+":main", FP+":fpfind", FP+":time_freq")

p("fpfind goes on to the target resolution on good recordings",
  "On recordings whose common events outnumber the accidental coincidences the search ends with an iteration at the target resolution, and the errors of delay and frequency offset are bounded by what iterations up to the target resolution leave.",
  "all recordings, parameters, delays D and frequency offsets F within the limits of the search, every accuracy of the correlation, first peak significant",
  "the search gives up without an error when a later iteration finds ten times as much as was known; whether it does depends on D, F and the parameters",
  FP+":time_freq", FP+":fpfind")

p("the fpfind command prints the clock relation at the target resolution",
  "If moreover what can be left of delay and frequency offset after each iteration is less than ten times what is certain to have been found by then, or less than 10 ns and 10^-8, the command exits with 0 and prints one line with delay and frequency offset up to the errors of a search that ended at the target resolution.",
  "every spelling of the command line with -t, -T and -Z, all options of a search without precompensation, all recordings",
  "no test goes from the contents of arbitrary files to the line printed",
  FP+":main", FP+":fpfind", FP+":time_freq")

p("fpfind does not follow an iteration that is out of proportion",
  "If an iteration after the first finds a delay of more than 10.01 times the delay known by then (at least 1 ns), or a frequency offset of more than 10.01 times the one known by then (at least 10^-9), then the search ends with the delay and the frequency offset known by then.",
  "all recordings, parameters and states after at least one iteration, delays up to 100 ms",
  "the guard is passed only when a peak is wrong or the first iteration coarse; tests have recordings where it does not matter",
  FP+":time_freq")

p("fpfind takes negative numbers for its options with =",
  "Every option of fpfind that takes a number accepts every decimal number written in the same word after =, like --precomp-start=-1e-6.",
  "all such options, numbers and further options around them",
  "= is what one tries after a negative number has been refused as a word of its own; nobody tests the parser of a library",
  FP+":main")

p("A peak that is high enough over few pairs is accepted",
  "For two recordings whose common events outnumber the accidental coincidences, fpfind returns the delay and the frequency offset within the bounds of the target resolution if, in the first window, there are fewer pairs of events than half the bins, some of them at longer delays of both signs, and the common events are 1 + threshold^2 times the pairs of an average bin, for each of the bins they can be spread over.",
  "all recordings meeting the condition on the times of their events, all parameters and thresholds",
  "that the threshold is passed is seen only by running the correlation; the condition says beforehand for which rates and thresholds it is",
  FP+":time_freq", U+":get_statistics")
p("From the command line, a peak that is high enough over few pairs is accepted",
  "fpfind -t ... -T ... exits with code 0 and prints offsets within the bounds of the target resolution if the recordings in the two files meet the conditions of the property before, which are on the times of their events and the options alone.",
  "all recordings meeting the conditions, all ways to write the options, -V 0 to 7 and skipped durations",
  "whether the default threshold of 6 suits a rate and a buffer is otherwise found out by trying",
  FP+":main", FP+":time_freq")

p("The significance computed in doubles is close to the standard score",
  "Whatever the order in which the background is summed, the significance of a peak above the mean computed in double precision and rounded to three decimals is the exact standard score to one part in a thousand and to 0.001, for up to 2^32 background bins whose standard deviation is at least a quarter of their mean divided by the square root of their number; over a single bin it is 0.",
  "all peaks and backgrounds of doubles within these limits, all orders of summation with up to 1024 additions one after the other",
  "the rounding errors depend on the values, their number and numpy's order of summation; a test sees a few histograms",
  U+":PeakStatistics.significance")
p("Over a constant background the significance is 0",
  "The significance of a peak over a background of equal values is 0. Holds if the values are integers with a sum of at most 2^53; fails otherwise: over three bins of 0.1 the mean is rounded away from 0.1, the standard deviation is not 0, and the significance of a peak of 0.2 exceeds 7e15.",
  "all peaks and constant backgrounds of doubles",
  "histograms of tests have integer counts, over which the guard against a zero deviation works; correlations through the Fourier transform do not",
  U+":PeakStatistics.significance", U+":PeakStatistics.stdev")

p("A value may follow its option after = or as the next word",
  "parse_timestamps reads --option=value and -A=value like --option value and -A value after other options, whatever follows on the command line. Holds for values not beginning with a dash and for plain negative numbers; fails for others: --tfilter-start -1e3 ends with exit code 2, --tfilter-start=-1e3 is taken. Options without a value are refused with exit code 2 if = follows.",
  "all command lines in ASCII without = after a group of letters, all values, all files",
  "argparse decides by the form of the whole word; a test uses a few spellings of a few values",
  TS+":main")

p("Rounding a float to significant figures writes the nearest such number",
  "round(x, sf=p) returns a numeral for the number with at most p significant figures nearest to the float x, the one with an even last figure of two equally near. Holds for every p from 1 except 16; fails for 16: of the float64 after 10^23 it returns 9.999999999999999e+22, not 1e+23, because the text is read as a float and written once more.",
  "all float64 values of a size from 10^-307 on and below 10^308, all p >= 1",
  "the second rounding differs from the first only with 16 figures and few numbers; a test would have to find them",
  U+":round")

p("Rounding a whole number to significant figures gives the nearest such number",
  "round(n, sf=p) returns the whole number with at most p significant figures nearest to n, ties to an even last figure. Holds up to 2^53; fails for larger ones, which pass through float: round(10**23, sf=3) is 99999999999999991611392, and 2**1024 raises OverflowError. Below 10^307 the relative error is at most half a unit of the last figure plus 2^-51.",
  "all whole numbers, all p >= 1",
  "a comment says ints are preserved even when very large; tests of small numbers agree",
  U+":round")

p("round returns a number, like the built-in function it stands in for",
  "round returns an int or a float, rounded as the built-in function does when sf is not given, dp taking precedence over ndigits. Holds without sf, and for whole numbers with sf; fails for floats with sf: the result is a str, for every float and every sf.",
  "all ints and floats, all precisions",
  "the type of the result depends on the combination of arguments; printed, str and float look alike",
  U+":round")

p("A scan of precompensations logs each one tried, with what was found",
  "At level INFO fpfind() writes exactly one line per precompensation tried, in order: 'Peak found' with the target resolution, the delay and the frequency offset (precompensation included) if the search succeeded, 'Peak finding failed' with the description of the failure if it raised ValueError. The numbers are right to half a unit of the last digit printed (and one float64 rounding). A full scan has a line for every precompensation, although it returns nothing; otherwise the last line is that of the result.",
  "all timestamps, parameters and lists of precompensations, full scans or not",
  "which precompensations succeed depends on the data; the columns shift with the size of the numbers",
  FP+":fpfind", "src/fpfind/lib/constants.py:PeakFindingFailed")

p("A failed search gives the true reason",
  "A PeakFindingFailed of time_freq carries one of four messages, each with the quantity that caused it: 'Bin saturation' with significance 0, 'Resolution OOB' with a significance below the threshold and a resolution above 10^4 ns, 'Time delay OOB' with a delay above 10^8 ns, 'Compensation OOB' with an offset of at least 2^-13 and an acceptable delay.",
  "all timestamps and parameters, all iterations",
  "every failure needs data of its own; the messages are only read by people",
  FP+":time_freq")

p("A failed search shows what was measured at the resolution it shows",
  "The significance and the delay in a PeakFindingFailed of time_freq are those of the early cross-correlation with bins of the resolution shown. Holds for 'Bin saturation', 'Time delay OOB' and 'Compensation OOB'; fails for 'Resolution OOB', where both belong to half the resolution shown (it is doubled before the message is made).",
  "all timestamps and parameters, all iterations",
  "both numbers are plausible; only recomputing the correlation shows that they do not belong together",
  FP+":time_freq")

p("With --logging everything logged at the chosen level is in the file",
  "When fpfind is run with -L FILE, every record of at least the level chosen with -v that the program logs is written to FILE, once and in order. Holds for the records of fpfind.py itself, which are also all on standard error; fails for those of parse_epochs.py, for instance the warnings about epoch headers, which only go to standard error.",
  "all sequences of records of the loggers, all verbosities",
  "the records of the other module appear only with damaged files; on the terminal nothing is missing",
  FP+":main (553-557)", "src/fpfind/lib/logging.py:set_logfile")

p("--quiet suppresses errors and does not block logging",
  "When fpfind is run with --quiet, no record of level ERROR appears on standard error, and FILE of -L has the same records as without it. The second half holds; the first fails: the option is never looked at.",
  "all sequences of records, all other options",
  "the promise is in the help text only; a test has to look at standard error of a failing run",
  FP+":main (449-450)")

p("A logger obtained several times writes each record once",
  "After any calls of get_logger for any names, a record given to a logger is written exactly once to standard error if its level is at least that of the last call for the name, and not otherwise, also for names below one another; it is formatted as the last call asked. Holds except for the format, which stays that of the first call for the name.",
  "all sequences of calls of get_logger with labels of levels or none, all records",
  "handlers accumulate over calls in different modules; single calls look right",
  "src/fpfind/lib/logging.py:get_logger")

p("A filter of get_xcorr convolves the correlation",
  "For histograms a and b of an even number n of bins and any filter of n/2 + 1 complex values, get_xcorr(rfft(a), rfft(b), filter) is, at every delay, the absolute value of the circular convolution of the correlation with irfft(filter); the imaginary parts of the filter at the first and the last frequency have no effect. A filter of ones, or none, gives the correlation; one value is used for all frequencies; any other length raises ValueError.",
  "all histograms of even length, all filters; exact arithmetic",
  "no caller passes a filter and the tests do not either",
  U+":get_xcorr")

p("Line endings of text files do not matter",
  "A file of a0 or a2 text with any mixture of LF, CR LF and CR line endings is read like the same file with LF: read_a0 and read_a2 return the same, sread_a0 and sread_a2 produce the same batches and the same exceptions; the number of batches announced is at least as large.",
  "all files of words, all choices of line endings, all resolutions and buffer sizes",
  "the tests only have files written on Linux",
  TS+":read_a0", TS+":read_a2", TS+":sread_a0", TS+":sread_a2")

p("The number of batches announced is the number produced",
  "When a streaming reader ends without an exception, it has produced as many batches as the number it returned. Fails for text with CR LF: the announcement counts bytes, the batches characters after the line endings were converted.",
  "all files, all positive buffer sizes",
  "the number is only used for the progress bar",
  TS+":sread_a0", TS+":sread_a1", TS+":sread_a2")

p("Comments and blanks in text files are ignored by both readers",
  "A file of a0 or a2 text with comment lines, blank lines, comments and blanks after the numbers and blanks before them is read like the file without them, in memory and as a stream. Holds in memory; a stream with a comment always ends in an exception.",
  "all files of words, all remarks of ASCII characters",
  "genfromtxt ignores comments silently; whether the streaming reader does has to be tried with both",
  TS+":read_a0", TS+":read_a2", TS+":sread_a0", TS+":sread_a2")

p("Malformed lines of text files are refused",
  "read_a0 raises an exception if a line is not 8 hexadecimal digits, read_a2 if a line is not 16. Fails: lines are cut to this length, so that a longer number is read as its first digits, and shorter ones, signs, 0x and underscores are accepted. Characters that belong to no number are refused if they are among those first ones.",
  "all files of lines of ASCII characters",
  "the tests only have well-formed files; the cut is in the dtype of genfromtxt",
  TS+":read_a0", TS+":read_a2")

p("The first call of freqcd does what later calls do",
  "The first call of an installed freqcd, which runs the stand-in script and compiles the program, has the same exit code, standard output and effect on files as a call of the compiled program, apart from the file freqcd_path. Fails for relative file names: the script changes to the directory of the package, so -i, -o and -F are looked for there.",
  "all command lines that ask for settings, all directories, all file contents",
  "the tests do not install the package; whoever tries the call a second time sees it work",
  "src/fpfind/freqcd:1", F+":main")

p("freqcd is compiled once",
  "After a call of the stand-in script that could compile the program, a call by the same name in the same directory is a call of the compiled program. Holds for absolute names; by a relative name from another directory the program is compiled again every time, to a file in the directory of the package.",
  "all command lines, directories and program names",
  "the tests do not install the package",
  "src/fpfind/freqcd:1", "src/fpfind/_postinstall:1")

p("A call of freqcd that fails writes nothing to standard output",
  "If the exit code of freqcd is not 0, standard output, which carries the events, is empty. Fails when the program cannot be compiled: the script prints its complaint to standard output.",
  "all command lines, directories and file contents",
  "the tests run where a compiler is installed",
  "src/fpfind/freqcd:1", F+":main")

p("fpplot does what its command line asks for",
  "fpplot called with any spelling of its options reads the epoch directories if both are given, otherwise the two timestamp files, and hands histogram the arrays, the width and the name of the picture asked for, the last value of an option winning and defaults as documented; without arguments, with --help, or if files or options are missing, the exit code is 1.",
  "all command lines spelling requests (grouped letters, abbreviations, = and attached values), all files and directories, all settings but those for which 1 + freq*1e-6 is 0",
  "fpplot has no tests; spellings of options are unbounded",
  "src/fpfind/fpplot.py:main", "src/fpfind/fpplot.py:plotter")

p("fpplot draws the compensated events of two recordings",
  "With two timestamp files in the a1 format, or two directories of T2 and T1 epochs, fpplot calls histogram with the reference's times since the common start and the target's, less the delay and divided by the rate asked for, to within 2^-51 of the time, and only those within the duration asked for.",
  "all command lines naming two files or directories, all recordings, all frequencies to 1000 ppm, all delays, widths and durations",
  "fpplot has no tests; needs every event of every recording",
  "src/fpfind/fpplot.py:main", "src/fpfind/fpplot.py:plotter")

p("fpplot accepts every number for its options",
  "A decimal number after --freq, --time, --width, --duration or -Z, as a word of its own or after =, is accepted. Fails for negative numbers with an exponent, such as fpfind prints them: --freq -1e-3 and --freq=-1e-3 end with exit code 2.",
  "all command lines and all decimal numbers",
  "the range of spellings of numbers is infinite",
  "src/fpfind/fpplot.py:main")

p("fpplot refuses unknown words",
  "A command line of fpplot with a word that is no option and no argument of one, or an unknown option, ends with exit code 2 and draws nothing.",
  "all command lines of requests with such words anywhere",
  "unbounded command lines",
  "src/fpfind/fpplot.py:main")

p("fpfind and fpplot from their command lines show the coincidences at zero",
  "If fpfind, called with some command line, must find the relation of two recordings, then fpplot called for the same files with the delay printed as --time and the frequency printed, times 10^6, as --freq draws times at which every common event of the target is within the stated error of the reference's.",
  "all command lines of both programs asking for this, all recordings for which fpfind must find the relation",
  "composes two programs over all recordings",
  "src/fpfind/fpplot.py:main", FP+":main")

p("The help shows an option's names once, with its value after the last",
  "With ArgparseCustomFormatter an option is shown in the help as its names, separated by comma and blank, followed, if it takes a value, by a blank and what stands for the value: the metavar, the choices in braces or the destination in capitals.",
  "all options: any names, destination, metavar and choices",
  "the formatter is not tested; options are arbitrary",
  U+":ArgparseCustomFormatter")

p("Help texts marked as raw keep their lines",
  "The help text of an option that begins with rawtext| is shown line by line as written, without the mark; any other text is filled as argparse does.",
  "all texts, all widths",
  "the formatter is not tested; texts are arbitrary",
  U+":ArgparseCustomFormatter")

p("Showing help writes nothing to standard output",
  "Formatting an argument for the help, which fpfind prints to standard error, writes nothing to standard output. Fails for arguments without an option name: a print() left in the formatter shows them there. fpfind has none today.",
  "all options and positional arguments",
  "fpfind has no positional argument, so the branch is never taken in a test",
  U+":ArgparseCustomFormatter")

p("significance2 compares the excess with the spread of groups of bins",
  "PeakStatistics.significance2 of a signal of n bins, not more than the background has, is the sum of the signal less n times the background mean, divided by the standard deviation of the sums of consecutive groups of n background bins (an incomplete last group left out), to three decimals. It is None exactly when those sums are all equal or the background is, and a ZeroDivisionError exactly for an empty signal otherwise.",
  "all signals and backgrounds",
  "the property is not tested; the claim is over all lists of any length",
  U+":PeakStatistics.significance2")

p("g2 is the largest signal bin over the background mean",
  "PeakStatistics.g2 is the largest signal bin divided by the background mean, None for a mean of zero, and a TypeError for an empty background, or an empty signal with a mean other than zero.",
  "all signals and backgrounds",
  "the property is not tested; the claim is over all lists of any length",
  U+":PeakStatistics.g2")

p("epoch2date is the start of the epoch to the microsecond",
  "For every epoch e from 0 to 2^32 - 1, under any hexadecimal name of it, epoch2date is less than a microsecond from e * 536870.912 microseconds after the Unix epoch, and a later epoch has a later date.",
  "all epoch names with values below 2^32",
  "four thousand million epochs, each with its own rounding of the float product",
  EP+":epoch2date")

p("An epoch converted to a date and back is the same",
  "date2epoch(epoch2date(e)) is e for every epoch name e below 2^32. Fails: date2epoch drops the fraction of the second, which is up to 1.86 epochs. The result is up to two epochs early, never late, and right only for epochs starting at a whole second or less than a microsecond before one.",
  "all epoch names with values below 2^32",
  "epoch 0 and a few others agree; four thousand million epochs",
  EP+":epoch2date", EP+":date2epoch")

p("A record of a logger below an obtained one is written by that one, once",
  "After any calls of get_logger, a record given to a logger not obtained by it is written exactly as if given to the nearest logger above that was: once, in its form and by its level. With none above, only the message goes to standard error, from level WARNING on.",
  "all sequences of get_logger calls, all names without empty parts, all records",
  "logging is not tested; sequences of calls and names are arbitrary",
  "src/fpfind/lib/logging.py:get_logger")

p("The header readers return the words of the file and warn exactly when they should",
  "read_T1_header to read_T4_header return the first 5, 6, 4 and 5 little-endian 32-bit words of the file (epoch and length unsigned, the others signed, all unsigned for T4). They raise struct.error exactly for shorter files. They warn about the tag exactly when it is neither 0x100 + type nor the type, and about the name exactly when its last part is not the epoch in lower-case hexadecimal.",
  "all files, all names, the four types",
  "the tests read a few well-formed files only",
  EP+":read_T1_header", EP+":read_T2_header", EP+":read_T3_header", EP+":read_T4_header")

p("The warning about a wrong tag names the type of the reader",
  "A file without the tag of its type gives a warning that it is not a header file of that type. Fails for read_T1_header, which says Type2.",
  "all files with another tag, all names, the four types",
  "log messages are not tested",
  EP+":read_T1_header", EP+":read_T2_header", EP+":read_T3_header", EP+":read_T4_header")

p("read_T3 reports no size error for a well-formed file",
  "A T3 file whose header gives the number of its entries, with the entries in reversed words of four bytes padded with zeros, is read without \"size inconsistency\". Fails exactly for files without entries and for those with a zero entry in the last word, as all zeros of that word count as padding.",
  "all entries, all numbers of them below 2^32, all other header fields",
  "the tests have no T3 files",
  EP+":read_T3")

p("profile passes results and exceptions on and its log is well nested",
  "A decorated function returns or raises as the function itself, and logs the same lines of its own. Each call adds a START and an END line of the same function around those of the calls inside, with two blanks per level and the time between entering and leaving, also when exceptions pass through, and the level is afterwards what it was.",
  "all programs calling decorated functions, all clocks, all levels",
  "exceptions through profiled functions are not tested",
  FP+":profile")

p("freqcd's output for a file is given by an exact formula",
  "A run of freqcd on a file of events in order gives every event the time t + p(t - r) + g modulo 2^54, with p(d) = floor(floor(d / 2^12) f / 2^22), r the time of the last event of the previous block of 1024 events (the first event's in the first block) and g the sum of p over the earlier blocks. In particular the table of test_freqcd_overflow.py is right for a file with an event at 0.",
  "all command lines without -F, all files of events in order of any length, both word orders",
  "the table in the test is a comment; the other test has three events",
  F+":main")

p("Events of a T1 file stay apart as far as the tests say",
  "Of two events in a T1 file that are at least one unit of the result apart (integers), 4 ps apart (floats) or 128 ps apart (floats with full epochs), the later one gets the greater time. Fails for floats with full epochs: 192 ps and 320 ps after the start of epoch ffffffff are read as the same time. True there for 132 ps and more.",
  "all events, epochs, resolutions and result types",
  "the test compares each time with 0 only",
  EP+":read_T1")

p("No frequency line is lost when the pipe has the whole text",
  "If the text for -F consists of terminated lines of at most 98 characters and every read takes as much as fits into the buffer, the correction in force after all reads is that of the last acceptable line, also when reads break lines. As in test case 1 of test_freqcd_update.py, where 34000 is left.",
  "all such texts (lines without NUL, numbers that fit an int), all schedules of reads and events",
  "the test case is a comment; the place where reads break lines depends on the text",
  F+":main")

p("After the correction is set to 0 events pass unchanged",
  "Once a frequency line has set the correction to 0, later events are written as they were read (\"Expected output: No change\" in test case 2 of test_freqcd_update.py). Fails: they are moved by what the last event before was moved, so that the clock does not jump.",
  "all runs in which every read brings complete events",
  "the test case is a comment",
  F+":main")

p("The times written with a frequency file follow one formula",
  "For an event file and a frequency file of at most 99 bytes of lines, the time of event i in the output is t + floor(floor((t-b)/2^12)*c/2^22) plus what was gained up to b. b is the last event of the block of 1024 events before (the first event, in the first block), c is the value of -f in the first block and the one left by the frequency file afterwards.",
  "all event files with non-decreasing times, all such frequency files and command lines, all contents of uninitialised memory",
  "one file of 1026 events or more has to be compared with an independent formula for every value of both corrections",
  F+":main")

p("The writers do not pair up times and patterns of different lengths",
  "write_a0, write_a1 and write_a2 write no file when the number of patterns is neither the number of times nor one; ValueError is raised if the times themselves can be written. A single pattern is used for all times.",
  "all formats, resolutions, arrays of times and patterns",
  "every combination of two lengths, and what numpy does with each of them",
  TS+":_consolidate_events", TS+":write_a1")

p("generate_freqcd_testcase refuses times which are no numbers",
  "With a word among the times of -t that is not a whole number (blanks, a sign, digits with single underscores between them, blanks) the program ends with exit code 2, writes nothing to standard output, and neither creates nor changes a file, also when -o names one.",
  "all command lines with such a word and neither a mistake in an option nor a request for help before it, all files and standard inputs",
  "every spelling of the options around it",
  G+":main")

p("The times written with a frequency file of any length follow one formula",
  "For an event file and a frequency file of complete lines of up to 98 characters, the run ends with exit code 0 and the time of event i in the output is t + floor(floor((t-b)/2^12)*c/2^22) plus what was gained up to b. b is the last event of the block of 1024 events before (the first event, in the first block). c is the value of -f in the first block; in block k it is the one left by the lines that are complete within the bytes taken from the frequency file with the k blocks before, each of which takes 99 bytes less the length of the unfinished line kept so far.",
  "all event files with non-decreasing times, all such frequency files whose numbers fit an int, all command lines naming separate files, all contents of uninitialised memory",
  "long frequency files meeting event files of many blocks at every offset",
  F+":main")

p("What freqcd makes of a frequency file of any content",
  "For an event file and any frequency file the run ends with exit code 0 and the times written follow the formula of C191, with these values: with each block freqcd takes 99 bytes of the file less the length of the unfinished line kept; what it takes is forgotten if there is no newline in it; otherwise its lines are used and what follows the last newline is kept. The value in block k is the one left by the lines used with the k blocks before. So an unfinished last line has no effect and a line of 99 characters or more is lost.",
  "all event files with non-decreasing times, all frequency files whose lines so used contain no NUL and numbers that fit an int, all command lines naming separate files, all contents of uninitialised memory",
  "every position of the newlines relative to the reads of 99 bytes",
  F+":main")

p("Values of options which are no numbers are refused",
  "fpfind ends with exit code 2 and nothing on standard output when an option for a whole number (-z -k -q -R -r -V) is given a text that is not one for Python's int(), when -V is given a number outside 0 to 15, or when an option for a number (-Z -s -S and the --precomp options) is given a text that is not one for float(). The same holds for fpplot (-n -z, -Z --freq --time --width --duration) and for parse_timestamps (--pfilter-pattern, --tfilter-start, --tfilter-end), which also leaves all files as they are.",
  "all command lines with such a value anywhere, all spellings of options; for parse_timestamps without a request for help; all files and directories",
  "the grammar of numbers (blanks, signs, underscores, exponents, inf and nan) has to be compared for every text",
  FP+":main", "src/fpfind/fpplot.py:main", TS+":main")

p("The delay at a position is the nearer of its two readings",
  "On an axis of n evenly spaced times get_delay_at_index_fft gives for position p the two delays p and p - n in units of the spacing, the one nearer to 0 first; 0 twice for position 0; AssertionError for negative positions and IndexError from n on. get_top_k_delays_fft raises AssertionError for less than one delay and ValueError for more delays than bins.",
  "all axes, spacings, positions, histograms and numbers of delays",
  "all lengths, even and odd, with all positions",
  U+":get_delay_at_index_fft", U+":get_top_k_delays_fft")

p("Lines with NUL bytes and numbers of any size in a frequency file",
  "The formula of C192 holds for frequency files of any bytes, with the value a line really gives: the number before its first NUL byte, clamped to 64 bits and truncated to 32; it is used if it is below 2^21 in magnitude, and otherwise the line has no effect. So 4294967301 counts as 5. The only lines excluded are those giving -2^31, which is used too. The values are determined by the file.",
  "all event files with non-decreasing times, all frequency files with no line giving -2^31, all command lines naming separate files, all contents of uninitialised memory",
  "all contents of the frequency file with all positions of its lines relative to the reads",
  F+":main", F+":readint")

p("Every number after -f is used or refused safely",
  "freqcd -f n on an event file ends without undefined behaviour for every int n: from 2^21 in magnitude on with exit code -5, no output and all files as before, and otherwise with exit code 0 and the times of C184. With -d the limit is 1220703 and the value n * 2^34 / 10^10 rounded towards 0.",
  "all ints n however written, all event files with non-decreasing times, all contents of uninitialised memory",
  "all event files with all numbers; overflow shows in particular times only",
  F+":main")

p("freqcd refuses words after -f which are no numbers",
  "freqcd -f t ends with exit code -4 for every word t that is no whole number.",
  "all words t",
  "all words, whatever they begin with",
  F+":main")

p("freqcd refuses unknown options",
  "A letter that is no option of freqcd makes it end with an error.",
  "all letters and all further words; for the actual rule all command lines, files and inputs",
  "all command lines and all files",
  F+":main", "src/fpfind/lib/getopt.c:getopt")

p("freqcd uses file names as they are written",
  "A file name of up to 199 characters after -i, -o or -F is the name of the file used, whatever characters are in it.",
  "all names without NUL; for the actual rule all command lines, files and inputs",
  "all names with all positions of blanks in them",
  F+":main")

p("Any text typed into generate_freqcd_testcase",
  "Without times and input, after the two lines of greeting, every line that is a whole number as Python reads it (blanks, a sign, digits with single underscores between them, blanks) gives one event; other lines are passed over; a negative number ends the program, and so does the end of the text, with exit code 1. The events are in the output file or on standard output; no other file is changed.",
  "all ASCII texts without carriage returns, with or without a newline at the end, every spelling of the command line, all files",
  "all texts; the lines which count as numbers are of many forms",
  G+":main")

p("Times of generate_freqcd_testcase written in any way",
  "With -t, every word being a whole number as Python reads it (blanks, a sign, digits with single underscores between them, blanks), one event for each time is delivered in the new order of words, to the output file or, without one or with an empty name after -o, to standard output, exit code 0; at a negative time the events before it are delivered and the exit code is 1; -h shows the help text. If a word is no such number the exit code is 2 and nothing is written.",
  "all spellings of the command line, any number of -t, all words of ASCII characters, all files and texts on standard input",
  "all command lines and all forms of numbers",
  G+":main")

p("How a number is written makes no difference",
  "Two command lines of fpfind, fpplot or parse_timestamps that differ only in how numbers are written give the same run: whole numbers of the same value, with blanks around them, a plus sign, leading zeros and single underscores between digits; other numbers which, without underscores and the blanks around them, are the same text or decimal numbers with the same nearest float64. So `--precomp-start ' -1e-6'` is `--precomp-start -.000001`, though `-1e-6` without the blank is refused.",
  "all command lines and ways of spelling them, all numbers, all files",
  "the forms of numbers and of command lines are unbounded",
  FP+":main", "src/fpfind/fpplot.py:main", "src/fpfind/lib/parse_timestamps.py:main")

p("generate_freqcd_testcase -o also takes the times of events that are read",
  "With the input - and a file after -o the times of the events on standard input are in that file, in decimal, one to a line; nothing is printed and no other file is changed.",
  "all event streams in both word orders, all spellings of the command line, all files",
  "all event streams, command lines and files",
  G+":main")

p("Generated events converted by parse_timestamps",
  "After `generate_freqcd_testcase -o a -t WORDS`, with words that are non-negative whole numbers written in any way, `parse_timestamps -A1 ... a b` without filters writes to b, in the format asked for, one event per word in the same order: the time modulo 2^54 with detector pattern 1. The first run prints nothing and leaves every file but a as it was, the second leaves every file but b.",
  "all command lines of the two programs of these forms, all times, all output formats, in memory or streamed",
  "both programs take unbounded lists of words and events",
  G+":main", TS+":main")

p("generate_freqcd_testcase reads back what it writes",
  "`generate_freqcd_testcase -t WORDS | generate_freqcd_testcase -`, with -x in both commands or in neither, prints the times given, modulo 2^54, in decimal, one to a line and in the same order. Both exit with 0 and leave all files as they were.",
  "all times written in any way, all spellings of both command lines, with and without -x, all files",
  "the list of times and the command lines are unbounded",
  G+":main", TS+":read_a1")

p("Generated events in the legacy order converted by parse_timestamps",
  "After `generate_freqcd_testcase -x -o a -t WORDS`, `parse_timestamps -X -A1 ... a b` without filters writes to b one event per word, in the format asked for: the time modulo 2^54 with detector pattern 1. The same holds without -x and -X.",
  "all command lines of the two programs of these forms, all times, all output formats, in memory or streamed",
  "both programs take unbounded lists of words and events",
  G+":main", TS+":main")

p("The times printed by the chain of the freqcd test, exactly",
  "`generate_freqcd_testcase -t WORDS | freqcd -f N | generate_freqcd_testcase -`, with times (modulo 2^54) in order, prints for event i of block k (blocks of 1024 events) t + portion(t - base_k) + the portions between the bases before, modulo 2^54, where the base of a block is the last event of the block before (the first event for block 0) and portion(d) is floor(floor(d / 4096) N / 2^22). All three exit with 0.",
  "all times written in any way, all corrections and command lines, all files",
  "the list of times and the command lines are unbounded",
  G+":main", "src/fpfind/freqcd.c:main")

p("Times typed into generate_freqcd_testcase can be piped on",
  "`generate_freqcd_testcase -x | generate_freqcd_testcase -`, with neither times nor an output file in the first command, prints the numbers typed in, modulo 2^54, in decimal, one to a line; the second command exits with 0.",
  "all ASCII texts typed in, all spellings of both command lines, all files",
  "the text typed in is unbounded",
  G+":main", TS+":read_a1")

p("Generated events corrected by freqcd and converted by parse_timestamps",
  "After `generate_freqcd_testcase -t WORDS | freqcd -f N -o a`, with times (modulo 2^54) in order, `parse_timestamps -A1 ... a b` without filters writes to b, in the format asked for, one event of pattern 1 per word with the corrected time of C207, modulo 2^54. All three exit with 0, and the last changes no file but b.",
  "all times written in any way, all corrections and command lines, all output formats, in memory or streamed, all files",
  "the lists of times and events and the command lines are unbounded",
  G+":main", F+":main", TS+":main")

p("The legacy order through all programs, with parse_timestamps making it",
  "After `generate_freqcd_testcase -o a -t WORDS` and `parse_timestamps -A1 -x a b`, with times (modulo 2^54) in order, `freqcd -x -f N -i b | generate_freqcd_testcase -x -` prints the same corrected times (C207) as the chain without -x. All four exit with 0.",
  "all times written in any way, all corrections and command lines, in memory or streamed, all files; with and without the legacy order",
  "the lists of times and events and the command lines are unbounded",
  G+":main", F+":main", TS+":main")

if __name__ == "__main__":
    import os
    out = os.path.join(os.path.dirname(__file__), "..", "properties.jsonl")
    with open(out, "w") as f:
        for x in P: f.write(json.dumps(x) + "\n")
    print(len(P))
