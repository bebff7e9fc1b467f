# Formal model of yeqown/go-qrcode in Rocq (Coq 8.16.1)

## 1. Layout

`rocq/theories/`

| kind | files | content |
|---|---|---|
| model | `Model*.v`, `VersionTable.v` | executable Gallina transcription of the Go code, one definition per Go function, each citing file:lines; no proofs |
| spec | `Spec*.v` | small specifications: what a statement's words mean. `SpecIso`/`SpecReader`/`SpecSegment` (ISO/IEC 18004 layout, a reader), `SpecRS`/`SpecRecovery` (GF(256) code words, recovery), `SpecPenalty` (mask rules), `SpecAPI` (options, outcomes), `SpecSymbol`, `SpecMatrix`, `SpecSave`, `SpecText` (half-block text), `SpecImage`/`SpecStandard` (pixels), `SpecSearch`, `SpecConcurrent` (conflicting accesses), `SpecTerminal` (cells). They use the model's data types but none of its functions that compute the answer |
| tests of the spec | `SpecKnown.v` | the ISO/IEC 18004 specifications against the tables and worked examples printed in the standard (format and version words, alignment centres, code words, blocks, capacities, the 01234567 code word, segments), by computation |
| proof | `Proof*.v` | lemmas connecting model and spec |
| properties | `Props*.v` | the theorems `Cnn_*`, non-vacuity `Example`s beside them, and `Print Assumptions` |

Suffix `_partial`: a true part of a property whose full statement is false or unproved; suffix `_refuted`: the full statement is
false of the code, with a witness. `MANIFEST.json` maps properties to theorems.

## 2. Modelling conventions

* Go `int`, `byte`, `rune`, `uint32`, `qrvalue` are `Z`; wrap-around is written explicitly where the code
  relies on it (`uint8`, `uint16`, `uint32` conversions). `int` is unbounded, which C88 justifies for the core (ModelInt wraps every int operation to w bits, w ≥ 32), except in ModelIntBits (C78), which models the image writers with ints of w ≥ 32 bits that wrap.
* A user text is `list byte` (`Coq.Init.Byte`, exactly the 256 byte values), so no well-formedness hypothesis on texts is needed.
* A call yields `outcome A := Ok a | Err e | Panic p | Pending`; Go errors and panics are different constructors, `Pending` is a call
  that has not returned in the part of the schedule given.
* `*Matrix` mutation becomes state passing over `list (list Z)` (column-major as in the code). Aliasing
  (`Matrix.Col`) is modelled separately with an explicit heap (`ModelHeap.v`).
* Loops become structural recursion or fuel; running out of fuel is its own `Panic OutOfFuel` outcome, which the
  theorems exclude (it is proved unreachable).
* The eight mask goroutines and the collecting main goroutine are a small-step machine; a schedule is a list of actors
  (`Main`, `Goroutine k`) and every list is allowed. `ModelCache` puts any number of such calls next to each other, with the package-level state they share.

## 3. Per property

| id | modelled | proof |
|---|---|---|
| C01 | whole New pipeline to `Bitmap` | independent ISO reader `SpecReader`; per-version layout facts by `vm_compute` over the 40 versions, data symbolic; induction over payload, blocks, zig-zag |
| C02 | Kanji path, `sjis` a parameter | as C01, payload lemma for 13-bit packing |
| C03 | `analyzeEncodeModeFromRaw` with Go UTF-8 decoding | exact characterisation; refuted (alphanumeric prefix followed by kanji) |
| C04 | all panic points as `Panic` | unreachability from C07/C15-type facts |
| C05 | `newEncoder` panic | refutation witness; exact characterisation of the panicking calls (PropsPanic) |
| C06 | `toBytes` type switch over a universe of Go types | refutation witness + positive half |
| C07-C10 | `calcVersion`, `analyzeVersion`, `loadVersion` | table facts by finite sweep, lengths symbolic |
| C11 | option list application | induction over the list |
| C12-C16 | `prefillMatrix`, `fillDataBinary`, `fillFormatInfo`, `fillVersionInfo`, tables | spec geometry vs model, sweep over versions lifted to all data |
| C17 | capacity table | sweep + monotonicity lemma |
| C18-C19 | RS contract model | GF(256) field laws, generator roots, elimination argument for the minimum distance |
| C20-C21 | `arrangeBits`, `Encode` | induction |
| C22-C23 | goroutine machine | invariants over schedules; determinism refuted by a tie; the set of possible results is characterised exactly (the candidates of lowest penalty), determinism iff one mask is strictly best; the goroutine that reports first wins a tie, so eight runs decide it (C23_decided_by_eight_runs, with an example) |
| C24 | `mask`, `xorMask` | pointwise lemma |
| C25-C28 | `mask_evaluation.go` | induction for rule 1; rules 2-4 refuted, with exact characterisation of what is computed |
| C29 | `kmp`, `kmpGetNext` generic | KMP invariant, fuel bound |
| C30 | `matrix.go` | lemmas on nested lists |
| C31 | heap model | refutation for `Col`, frame theorem for the rest |
| C32 | `Save` as effect trace | case analysis |
| C33 | file writer | round trip, prefix lemma |
| C34-C35 | compressed writer, file overwrite semantics | pixel lemma; refutations (negative padding, overwriting without truncation) |
| C36-C41, C47, C48 | standard writer (plan of fills, then painting) | rectangle algebra; refutations for the transposed safe zone, `parseFromColor`, writer state; pixels for arbitrary (also translucent) colours in PropsColours |
| C42 | terminal cell map | three groups of `SetCell` calls, exact cell contents |
| C43 | package cache state machine | simulation by the call alone; log of shared accesses |
| C44 | `loadVersion`, `binarySearchVersion` | invariant of the search; termination refuted for the helper |
| C49-C50 | the four writers behind the `Writer` interface (`ModelWriters`), `Save` on them | composition of C01-C03 with C33, C34, C37, C42; induction over the encoder's writes |
| C51 | flag values to writer options (`ModelCli`) | inversion of `strings.Split`, `ParseUint`, `filepath.Ext`; refuted for block sizes above 255 |
| C52 | `genqrcode` on JavaScript values (`ModelWasm`) | case analysis on the fields; base64 round trip; composition with C49/C50; refutations against the README |
| C53 | layout specification | every module is fixed, format, version or data; uniqueness |
| C54-C55 | whole New pipeline; Go's UTF-8 | composition of C01-C03; UTF-8 round trips by division lemmas; refuted by two texts with one symbol |
| C56-C57 | shapes as a contract; SpecMostly: shapes that cover most of the sampled pixel (circles of 2 pixels); rectangle with freetype's 26.6 coverage, circle up to its edge pixels; halftone sub-blocks | painting induction over the calls with a sampling invariant; coverage arithmetic; ModelHalftone64: the same loop in float64 (W/3, +, FMA allowed), error at most 1e-5 and no 26.6 rounding crosses |
| C58 | `imgkit` pixel loops, `Save` as writes that may fail | loop invariant; `filepath.Ext` lemma |
| C59 | `gradient.go` over rational numbers (ModelGradient) and in float64 arithmetic (ModelGradient64: rounding after every operation, optional fused multiply-add; ModelFloat: IEEE 754 round-to-nearest-even on rationals), direction vector instead of the angle | first-index invariant of the search loop; closed form of the projection range; plan is independent of the gradient; error bounds from four properties of the rounding (values, fixed points, monotonicity, relative error), which `round64` is proved to have |
| C60 | `shapes/blocks.go`, `finders.go`, `constructor.go` as lists of path calls over rational numbers; a pixel is inside, outside, or covered by an arbitrary amount; ModelShapes64: the same calls with every operation rounded to float64, optionally fusing the multiply-add of the chain width | painting as a relation `tinted`; per shape, separation of each piece from the sampled pixels of light neighbours (linear arithmetic); in float64 half-integer coordinates are exact, the others stay on the right side because rounding is nearest and monotone (ProofFloatNear) |
| C61 | the standard writer with an encoder/decoder pair that keeps each channel within t; JPEG refuses sides of 2^16 and more, PNG empty images and sides of 2^32 and more (`encoder_refuses`, after Go's image/jpeg and image/png) | from the canvas theorems of C56 and C60: thresholding at the mean brightness undoes an error below a sixth of the contrast |
| C62 | the standard writer with a logo, the reader with error correction of C19 | a sweep by `vm_compute` over the 40 versions and levels M, Q, H of the code words that meet the middle fifth of the module grid, per interleaved block (this finite table is the whole domain: there are 40 versions); the rest by lists that agree outside flagged positions |
| C63 | the three file writers under any history of Save, Write and Close (SpecHistory.v) | induction over the history with the invariant "the file is closed" (or, for the file writer, "content = old content + texts so far") |
| C64 | the type part of the matrix values, for all 40 versions (SpecTypes.v) | sweep over the versions for the prefilled matrix, then every later write keeps the type; draw plan of the standard writer for DrawFinder |
| C65 | ModelFs.v: files by identity, paths resolve to files; options that read files; standard.New truncates, then applies the options | equalities between the two runs of New for arbitrary option lists before and after |
| C66 | ModelFs.cli_action: app.go's action on files and terminal, over the models of New, Save and the writers | composition of C49, C56, C57, C61 with the option list of C51; case analysis for the error paths |
| C67 | ModelFs.imgkit_Save, imgkit_Read | filepath.Ext characterised by suffix; codecs as parameters with a contract |
| C68 | ModelDebug.v: the switch, debugDrawTo's grey picture, the mask search with its four drawings per goroutine as extra steps, other goroutines throwing the switch | simulation: dropping the drawing steps from a schedule gives a schedule of the plain search; invariant over drawings; picture geometry as in C34 |
| C69 | ModelStandard.apply_option, NewWithWriter, circle_draw | SpecOptions.last_set: induction over the option list; pictures from C37 and from the calls of the circle |
| C70 | pixels of the standard and compressed writers, corners of the finder patterns | SpecLocate.margins from C37/C34 and C12 |
| C71 | a reader that sees only the picture (SpecLocate.locate: first row with a dark pixel, first run, last dark pixel) | generic lemma on pictures made of squares; finder patterns from C12; with gradient, halftone and logo: only the first row and the margins have to be whole squares (ProofFrame), types from C64, samples from C72 |
| C72 | all drawing options of ModelStandard together (SpecCombine: ink, readable_style, tells_apart) | linking argument of C60 repeated with a safe zone (a neighbour bit that is set means a dark module, even where C40 is wrong), then gradient and logo; recovery from C62; under a halftone picture a shape has to do the sub-blocks right (halftone_shape), proved for squares, circles and the shapes package (ProofHalftone) |
| C73 | ModelQRCode.NewWith; SpecMonotone: level_rank, appended | from C03/C07/C10 (promised mode and version) and arithmetic on the bit counts of SpecIso; refuted by 100 letters and a kanji |
| C74 | SpecOrient: quarter turns, mirror images, a reader that tries eight views | from version 2 an alignment pattern contradicts a fourth finder pattern; in version 1 the mode indicator, count and terminator do, for every mask; a mirrored format word is never a format word |
| C75 | ModelShare: n Writers over one heap, a log of reads and writes | a renaming of addresses relates each Writer in the crowd to the Writer alone; the objects of different Writers stay disjoint |
| C76 | ModelFine: the search on a heap, goroutines as programs of single module reads and writes | simulation: a goroutine that has not sent yet corresponds to the unstarted goroutine of ModelQRCode, because what it still computes alone from its own memory does not change; matrices lie in disjoint regions |
| C77 | no new model; SpecDirt counts misread modules | a wrong module spoils at most one code word, so each block has at most as many wrong words as there are wrong modules; then as C62; locating uses only the rows down to the first dark one, which a stain below leaves alone |
| C78 | ModelIntBits: the writers with every sum and product taken modulo 2^w, for every w ≥ 32 | bounds on every intermediate value, so wrapping is the identity; the fold of the plan module by module |
| C79 | SpecSheet: enlarging, pasting, turning, mirroring of pictures; a reader that takes the bounding box, the gcd of the colour changes, and tries eight views | every change keeps the picture made of equal squares of a turned symbol; the finder ring gives a change exactly one module from the edge in every orientation, so the gcd is the module size; then C74 |
| C80 | ModelFine and ModelQRCode: the wait group | the counter equals started minus finished goroutines, so once Wait has returned every goroutine is at its end and the state is a fixed point |
| C81 | ModelExample: the shape of example/with-custom-shape with its field, float64 radius (ModelFloat), reads and writes of two goroutines | rounding is monotone and exact on integers, so the radius is at least the integer bound; then C56; concrete schedules refute sharing |
| C82 | ModelCrash: the system calls (create, truncate, write at an offset, close) of standard.New + Save, compressed, file and the command line tool; SpecCrash: a crash between or inside them | the whole trace leaves what the functional models leave (trace theorems); induction over the crash relation; C49 for what decodes |
| C83 | ModelAlias: options holding addresses in the caller's memory, read when New applies them or when a picture is drawn; SpecAlias: the same options with copies | drawing commutes with copying (case analysis on options, induction on the option list and on the history), then C49 |
| C84 | ModelOnce: goroutines stepping through debugEnabled and SetDebugMode, sync.Once by its contract, a trace of accesses; SpecOnce: happens-before of the Go memory model, data races | invariant on the shape of the trace; a decreasing measure for termination; a concrete racing trace |
| C85 | ModelCrash: the system calls of a Save; SpecMany: interleavings of lists of system calls | an interleaving filtered to one file is its writer's list; for one file an invariant on the last one who truncated it |
| C86 | ModelShared: goroutines that draw, make one Write call or close, one step each, on one sink | an invariant: the content is an interleaving of what each goroutine has written; by induction on the schedule |
| C87 | SpecJisTable: the ideographs of Shift-JIS; any conversion that agrees with it | the table is checked by computation (codes rising, characters distinct, trail bytes); the rest from C03, C07, C54 |
| C88 | ModelInt: qrcode.go, version.go, encoder.go, mask*.go, kmp_variant.go with every int operation wrapped to w bits | bounds on every intermediate value (dimension ≤ 177, blocks, bit counts, penalty scores, KMP indices) carried through the whole of New; the wrapped model equals the unbounded one |
| C89 | ModelPaint: the loads and stores of the shared background colour as steps of goroutines, the picture as a function of the bytes loaded | invariant over all schedules: a channel has its first value or 0, and 0 once the goroutine itself has stored it; the modules are then those of the sequential drawing; C89_alone ties it to the model of Write; PropsTransparent: with transparent backgrounds all rectangle calls, gradients and logos without translucent pixels keep "equal or both fully transparent" |
| C90 | ModelExamples: every program of /repo/example as calls of the API on a file system, each with its own way of dealing with errors | a run that saves is Save on the new file (run_saved); then C72 for the options used; the versions of the fixed texts from C07, C19 (fixed_text); the eight functions in turn by induction (all_turns); the logo of with-logosize-multiplier by ProofHidden, which generalises C62 to any set of hidden modules |
| C91 | as C62 and C72 | the positions of the code words of a block from the interleaving order (hits_count, any8_nth); agreement off the hidden modules gives few wrong code words per block (check_blocks), hence recovery (C10); the middle m-th of every version computed by check_version (a faster zigzag, fast_path_eq) and monotone in m and z (words_more); the geometry of the logo in touched_mid |
| C92 | gg's DrawImage with the bounds of the logo as they are | as C39 with the place of the logo displaced by the corner of its bounds; refutations by explicit logos; unreadability from C74: a finder pattern with a light centre, and no symbol has one in the fourth corner |
| C93 | ModelIssues: the two programs of /repo/.issues as calls of the API on a file system (issue 69 up to encodeWithSkip2, which calls another module) | Save through the compressed writer on any old content (C34, C35, with a decoder that stops at the end of the picture); the symbols from C07, C19 and C04 (fixed_mode); Shift-JIS by the table of C87 |
| C94 | ModelArgs: the flag table of app.go with the parsing of Go's flag package and urfave/cli v2.3.0 as documented (trusted: those packages are not in /repo) | one setting in any spelling is one step of the parser (parse_setting), then induction over the settings; what the action does is C66; the README's commands are instances |
| C45-C46 | format and version words | distance sweep, lifted to every error pattern |

## 4. Trusted base

1. Coq's kernel (with `vm_compute`) and the reading of the Go source recorded in the comments.
2. `Print Assumptions` under every property theorem says "Closed under the global context". `coqchk` lists seven library
   constants `Coq.ssr.ssrunder.Under_rel.*` (from `Coq.ssr`, loaded by the standard library); no theorem uses them.
3. Contracts of packages whose source is not in /repo:
   * `reedsolomon/binary`: a bit list; `reedsolomon.Encode`: systematic RS over GF(256)/0x11D, roots alpha^0.. ;
   * `x/text` Shift-JIS encoder: the parameter `sjis : rune -> option bytes`;
   * `gg`/freetype: a filled axis-aligned rectangle with integer corners sets exactly its pixels, with source-over blending; `DrawImage(i, x, y)`
     draws point p of i at p + (x, y), also when the bounds of i do not start at the origin (C92);
   * `image`: `NewPaletted`, `SetColorIndex` index arithmetic (slice bounds panic);
   * `os.File`: `Write`/`WriteString` append at the offset, may fail after a prefix; `OpenFile` without `O_TRUNC` keeps the contents;
     In `ModelFs` a path names a file (several may name the same); which paths can be opened or created is fixed during a run, and no other
     process writes; `image.Decode` recognises PNG and JPEG by their first bytes; the decoders themselves are parameters.
     A crash (C82) is the end of the process: what was written stays written, in order; power failures are not modelled.
   * `termbox`: `SetCell` sets the one cell, outside the buffer nothing; `runewidth` of ASCII is 1;
   * `fmt.Sscanf` of `%02x`-like formats, only on strings of hexadecimal digits (other strings: a parameter).
   * `urfave/cli`: the flag values; `syscall/js`: `Get`/`Int`/`Bool`/`String` on a universe of values (numbers by their integer part);
     `base64.StdEncoding`, `strings.Split`, `strconv.ParseUint`, `filepath.Ext` (transcribed from their documentation).
4. Package-level mutable state: only `alignPatternLocationCache` is taken to be shared between calls; the debug switch is modelled for one call at a time (C68), asked and set by many goroutines by itself (C84), and off elsewhere.

Evidence that the model is this program (`Conformance.v`; tests, not proofs): the expected values of the repository's own unit tests
(`chardet_test`, `encoder_test`, `kmp_variant_test`, `utilities_test`, `matrix_test`, `matrix_type_test`, `version_test`, `qrcode_test`,
`image_option_test`, `image_option_api_test`) are what the model computes, and the model's symbol for the text of `example/example.go` equals, module
for module (so with the same mask), the one in the lossless picture `assets/example/qrcode_with_bgtransparent.png`; `published_picture` gives all its 740 x 740 pixels.
The published JPEGs were decoded outside Coq with a small decoder: the same 33 x 33 modules in `_borderwidth`, `_circleshape`, `_qrwidth`, `_halftone` and
`repository_qrcode.png`, the logo at (320, 320), the 45 degree gradient within JPEG noise, the halftone sub-blocks of `halftone-qr-transparent.png` uniform
7 x 7 squares, dark where the scaled picture is at most 60 (6451 of 6456 sub-blocks; the 5 others are at the threshold).

Not modelled: PNG/JPEG encoders and decoders, anti-aliasing of non-rectangular shapes, floating-point rounding outside gradients (ModelGradient64), shapes (ModelShapes64), halftone sub-blocks (ModelHalftone64) and the example's radius (ModelExample), infinities and NaN, math.Cos and math.Sin, what the example programs print (but for C90_minimum_version_prints), v1() of migrating-from-v1 (another module), log lines, `int` overflow (no value in the core exceeds 2^31), memory and time.

## 5. Tests of the theorems against wrong programs

`seeded/LOG.jsonl`: edits of the model in a scratch copy, each with the claim it breaks and the lemmas and theorems that failed. About 500 were
written by hand as realistic bugs; the others are automatic (a constant, comparison, operator, argument or channel changed, at most five per
definition, in every model module). Edits that survived were looked at one by one: either a theorem was tightened (`tightened`; C44, C52 and C68
for instance), or the edited value is never reached, the definition is equivalent where the program uses it (17 for 18 in the alignment thresholds),
or no claim speaks about it (the exact outline of a liquid block, the colours of an example's gradient).
`seeded/run_seeds.py` applies such edits to a fresh copy and builds it.
