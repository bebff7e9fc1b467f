{"id": "C01", "title": "Scannable output: decode(New(text)) = text (numeric, alphanumeric, byte)", "statement": "Whenever NewWith(text, opts...) returns a QRCode whose data was encoded in numeric, alphanumeric or byte mode, a reader that follows ISO/IEC 18004 (read format info, unmask, walk the zig-zag, de-interleave, parse the segment) applied to the Bitmap of the matrix handed to the Writer returns exactly the bytes of text.", "quantifier": "all byte strings, all option lists, all goroutine schedules of the mask search", "why_tests_cant": "The input space is every byte string up to 7089 characters x 40 versions x 4 levels x 8 masks; a test samples a handful and needs an external decoder.", "anchors": ["qrcode.go:NewWith", "qrcode.go:build", "qrcode.go:QRCode.init", "qrcode.go:QRCode.masking", "encoder.go:encoder.Encode", "matrix.go:Matrix.Bitmap"]}
{"id": "C02", "title": "Scannable output in explicitly requested Kanji mode", "statement": "Whenever NewWith(text, WithEncodingMode(EncModeKanji), ...) succeeds, an ISO reader applied to the Bitmap recovers the sequence of Shift-JIS double-byte codes of the characters of text, hence (Shift-JIS being a code) the text itself.", "quantifier": "all texts, all option lists that end in Kanji mode being requested, all schedules, all Shift-JIS tables satisfying the code contract", "why_tests_cant": "Thousands of kanji and all their sequences; the 13-bit packing must be injective on all of them.", "anchors": ["encoder.go:toShiftJIS", "encoder.go:encodeShiftJIS", "encoder.go:encoder.encodeKanji", "chardet.go:analyzeJP", "qrcode.go:validateEncodingMode"]}
{"id": "C03", "title": "Automatic mode selection picks a mode that can represent every character", "statement": "New(text) without an explicit mode selects the first of numeric, alphanumeric, kanji, byte whose character set contains every character of text.", "quantifier": "all texts", "why_tests_cant": "The failure needs a particular order of characters; unit tests list a few strings.", "anchors": ["chardet.go:analyzeEncodeModeFromRaw", "docs/", "encoder.go:toShiftJIS"]}
{"id": "C04", "title": "NewWith never panics for supported modes", "statement": "For every text given as string or []byte and every option list whose effective mode is Auto, Numeric, Alphanumeric, Kanji or Byte, NewWith returns either a QRCode or an error; it does not panic.", "quantifier": "all texts, all option lists with a supported effective mode, all schedules", "why_tests_cant": "Panics sit on data-dependent slice bounds and table lookups that have to be unreachable for all inputs.", "anchors": ["qrcode.go:NewWith", "qrcode.go:QRCode.dataEncoding", "qrcode.go:QRCode.errorCorrectionEncoding", "qrcode.go:QRCode.arrangeBits", "encoder.go:encodeAlphanumericCharacter", "version.go:loadVersion"]}
{"id": "C05", "title": "NewWith never panics for any mode value", "statement": "For every mode value accepted by WithEncodingMode (including EncModeNone) NewWith returns a value or an error, never a panic.", "quantifier": "all mode values, all option lists, all texts", "why_tests_cant": "Requires a combination of options (unsupported mode and explicit version) nobody writes in a unit test.", "anchors": ["encoder_option.go:WithEncodingMode", "encoder.go:newEncoder", "qrcode.go:QRCode.calcVersion"]}
{"id": "C06", "title": "New accepts every type its constraint allows", "statement": "New and NewWith work for every type in the constraint ~string | ~[]byte, including defined types such as `type Token string`.", "quantifier": "all types satisfying the constraint, all values", "why_tests_cant": "Every test instantiates with string.", "anchors": ["qrcode.go:New", "qrcode.go:toBytes"]}
{"id": "C07", "title": "NewWith succeeds exactly when the text fits", "statement": "NewWith returns an error if and only if (a) an explicit mode was requested that cannot represent some character, or (b) the text is longer than the ISO capacity of the selected version (explicit WithVersion) or of version 40 (automatic) for the effective mode and level; in all other cases it succeeds.", "quantifier": "all texts, all option lists with a supported effective mode", "why_tests_cant": "The boundary is a length per (version, level, mode): 640 boundaries, each over all texts of that length.", "anchors": ["qrcode.go:QRCode.calcVersion", "version.go:analyzeVersion", "encoder.go:encoder.breakUpInto8bit", "version_cfg.go:versions"]}
{"id": "C08", "title": "Automatic version is the smallest that fits", "statement": "Without WithVersion and WithMinimumVersion the chosen version is the least version in 1..40 whose ISO capacity for the mode and level is at least the text length.", "quantifier": "all texts, levels and modes", "why_tests_cant": "160 table rows times all lengths.", "anchors": ["version.go:analyzeVersion", "qrcode.go:QRCode.calcVersion"]}
{"id": "C09", "title": "WithVersion is honoured exactly", "statement": "If WithVersion(v) with 1<=v<=40 is the last valid version option and NewWith succeeds, the symbol has version v, Dimension() = 4v+17 and the matrix is square of that size.", "quantifier": "all texts, option lists, schedules", "why_tests_cant": "Every version and every interaction with other options.", "anchors": ["encoder_option.go:WithVersion", "qrcode.go:QRCode.Dimension", "qrcode.go:QRCode.calcVersion"]}
{"id": "C10", "title": "WithMinimumVersion yields max(minimal fitting version, minimum)", "statement": "With WithMinimumVersion(m) valid and no WithVersion the symbol's version is max(least fitting version, m); construction succeeds exactly when it would without the option.", "quantifier": "all texts, all m", "why_tests_cant": "Needs capacity monotonicity over the whole table.", "anchors": ["encoder_option.go:WithMinimumVersion", "qrcode.go:QRCode.calcVersion"]}
{"id": "C11", "title": "Options: invalid values are ignored, the last valid value wins, other settings are untouched", "statement": "After applying any list of options the effective version, minimum version, level and mode each equal the last valid value given for it, or the default (0, 0, Quart, Auto) if there is none.", "quantifier": "all option lists of any length, all argument values", "why_tests_cant": "Lists of arbitrary length and order.", "anchors": ["encoder_option.go:WithVersion", "encoder_option.go:WithMinimumVersion", "encoder_option.go:WithErrorCorrectionLevel", "encoder_option.go:WithEncodingMode", "encoder_option.go:DefaultEncodingOption"]}
{"id": "C12", "title": "Function patterns conform to ISO 18004 for every version", "statement": "In every produced symbol the finder patterns, separators, timing patterns, alignment patterns and the dark module are at the ISO positions with the ISO colours.", "quantifier": "all 40 versions, all texts, levels, masks, schedules, all module coordinates", "why_tests_cant": "Every module of every version; tests look at pictures.", "anchors": ["qrcode.go:QRCode.prefillMatrix", "qrcode.go:addFinder", "qrcode.go:addSplitter", "qrcode.go:addAlignment", "qrcode.go:addTimingLine", "qrcode.go:addDarkBlock", "version.go:alignPatternLocation", "version.go:valid"]}
{"id": "C13", "title": "Format information is correct in both copies", "statement": "Both format-information areas contain the BCH(15,5) code word, XORed with 101010000010010, of the error-correction level that was requested and of the mask that was actually applied to the data modules.", "quantifier": "all texts, options, schedules", "why_tests_cant": "32 values x 40 versions x position; agreement with the mask chosen at run time.", "anchors": ["qrcode.go:QRCode.fillFormatInfo", "version.go:version.formatInfo", "version.go:formatBitSequence"]}
{"id": "C14", "title": "Version information is correct for versions 7 and up", "statement": "Symbols of version >= 7 carry the BCH(18,6) version code word at both ISO positions; symbols below 7 have data there.", "quantifier": "all versions, texts, schedules", "why_tests_cant": "34 versions x 36 modules.", "anchors": ["qrcode.go:QRCode.fillVersionInfo", "version.go:version.verInfo", "version.go:versionBitSequence"]}
{"id": "C15", "title": "Every non-function module carries exactly one bit of the message", "statement": "The code-word stream plus remainder bits is exactly as long as the number of non-function modules, bit k is placed in the k-th module of the ISO zig-zag order (XOR mask) and no module is left uninitialised.", "quantifier": "all versions, texts, levels, masks", "why_tests_cant": "The zig-zag loop's correctness depends on every function pattern of every version.", "anchors": ["qrcode.go:QRCode.fillDataBinary", "qrcode.go:QRCode.xorMask", "mask.go:mask.masking"]}
{"id": "C16", "title": "Block structure and remainder bits match ISO 18004", "statement": "For each version and level the number of blocks, data and EC code words per block, total code words and remainder bits equal those derived from the ISO tables and the free-module count.", "quantifier": "all 160 (version, level) rows", "why_tests_cant": "3500 lines of literals; a test compares one row.", "anchors": ["version_cfg.go:versions", "version.go:version.NumTotalCodewords", "version.go:version.TotalNumBlocks"]}
{"id": "C17", "title": "Capacity table is exact", "statement": "For each version, level and mode the capacity entry is the largest character count whose encoded bits (header, counter, payload) fit in the data code words.", "quantifier": "all 640 entries, all lengths", "why_tests_cant": "Literals; an off-by-one only shows at one exact length.", "anchors": ["version_cfg.go:versions", "version.go:capacity"]}
{"id": "C18", "title": "Every block is a Reed-Solomon code word", "statement": "For every produced symbol each block read back from the matrix (data code words followed by EC code words) vanishes at alpha^0..alpha^(n-1) in GF(256)/0x11D.", "quantifier": "all symbols", "why_tests_cant": "All data values; a test compares one polynomial division.", "anchors": ["qrcode.go:QRCode.errorCorrectionEncoding", "qrcode.go:QRCode.arrangeBits"]}
{"id": "C19", "title": "Error-recovery guarantee of the EC level", "statement": "If at most floor(n/2) code words of a block with n EC code words are damaged, the original block is the unique block code word within that distance; the damage tolerated is at least 7% / 15% / 25% / 30% of the code words of each block for levels L / M / Q / H.", "quantifier": "all data, all damage patterns up to the bound, all versions and levels", "why_tests_cant": "Exponentially many error patterns.", "anchors": ["version.go:ErrorCorrectionLow", "version.go:ErrorCorrectionHighest", "qrcode.go:QRCode.errorCorrectionEncoding", "version_cfg.go:versions"]}
{"id": "C20", "title": "Interleaving is a lossless permutation", "statement": "The interleaved stream contains each data code word of each block once, column by column, then each EC code word, and ISO de-interleaving recovers the blocks.", "quantifier": "all block contents, all block structures whose block lengths differ by at most one (every ISO structure does, C16)", "why_tests_cant": "Blocks of unequal length, all contents.", "anchors": ["qrcode.go:QRCode.arrangeBits", "qrcode.go:QRCode.dataEncoding"]}
{"id": "C21", "title": "Segment framing, terminator and padding conform to ISO", "statement": "The data code words are mode indicator, character count of the ISO width, payload, up to 4 terminator zeros, zero bits to a byte boundary, then alternating 0xEC 0x11, filling the version's data capacity exactly.", "quantifier": "all texts, modes, versions, levels for which the text fits", "why_tests_cant": "The 0..3-bit terminator corner cases appear only at exact lengths.", "anchors": ["encoder.go:encoder.Encode", "encoder.go:encoder.breakUpInto8bit", "encoder.go:encoder.charCountBits", "encoder.go:encoder.encodeNumeric", "encoder.go:encoder.encodeAlphanumeric"]}
{"id": "C22", "title": "The mask with the lowest penalty is used, under every schedule", "statement": "Whatever the order in which the eight mask goroutines run and report, New terminates without deadlock and the returned matrix is the candidate of a mask whose penalty is minimal among the eight.", "quantifier": "all interleavings of the eight goroutines, all symbols", "why_tests_cant": "Schedules cannot be enumerated by a test.", "anchors": ["qrcode.go:QRCode.masking"]}
{"id": "C23", "title": "New is deterministic", "statement": "Two calls of New with the same text and options return the same matrix.", "quantifier": "all texts, options, all pairs of schedules", "why_tests_cant": "Depends on goroutine arrival order; a test passes on most runs.", "anchors": ["qrcode.go:QRCode.masking"]}
{"id": "C24", "title": "Masking changes only data modules and is the ISO mask pattern", "statement": "For each of the eight patterns the candidate matrix differs from the unmasked one, apart from format and version areas, exactly in the non-function modules where the ISO condition on (row, column) holds; masking twice restores the modules.", "quantifier": "all masks, versions, data, module positions", "why_tests_cant": "All positions of all versions.", "anchors": ["mask.go:newMask", "mask.go:getModuloFunc", "qrcode.go:QRCode.xorMask"]}
{"id": "C25", "title": "Penalty rule 1 equals the ISO run penalty", "statement": "The run-length part of the mask score is, over all rows and columns, 3+(len-5) for every maximal same-colour run of length >= 5.", "quantifier": "all square matrices", "why_tests_cant": "All lines.", "anchors": ["mask_evaluation.go:rule1"]}
{"id": "C26", "title": "Penalty rule 2 counts 2x2 blocks of one colour", "statement": "The block part of the mask score is 3 times the number of 2x2 windows whose four modules have the same colour.", "quantifier": "all matrices", "why_tests_cant": "Tests check timing only.", "anchors": ["mask_evaluation.go:rule2"]}
{"id": "C27", "title": "Penalty rule 3 counts finder-like patterns", "statement": "The pattern part of the mask score is 40 times the number of occurrences of dark-light-dark-dark-dark-light-dark with four light modules on one side, in all rows and columns.", "quantifier": "all matrices", "why_tests_cant": "Same.", "anchors": ["mask_evaluation.go:rule3"]}
{"id": "C28", "title": "Penalty rule 4 follows the documented dark-ratio formula", "statement": "The balance part of the mask score is 10 times the smaller of |prev-50|/5 and |next-50|/5, prev/next being the multiples of five around the dark percentage.", "quantifier": "all matrices", "why_tests_cant": "Boundary percentages.", "anchors": ["mask_evaluation.go:rule4"]}
{"id": "C29", "title": "Pattern counting finds every (overlapping) occurrence and terminates", "statement": "The KMP variant terminates and returns the number of positions at which the non-empty pattern occurs in the source, overlaps included.", "quantifier": "all sources and all non-empty patterns over any comparable type", "why_tests_cant": "KMP failure links have to be right for all patterns.", "anchors": ["kmp_variant.go:kmp", "kmp_variant.go:kmpGetNext"]}
{"id": "C30", "title": "Matrix views agree", "statement": "Bitmap()[y][x], Row(y)[x], Col(x)[y] and the value Iterate passes for (x,y) describe the same module; Iterate visits every module exactly once in the documented order; out-of-range Row/Col give nil.", "quantifier": "all matrices produced by the library, all coordinates, both directions", "why_tests_cant": "All coordinates; x/y swaps are invisible on symmetric samples.", "anchors": ["matrix.go:Matrix.Bitmap", "matrix.go:Matrix.Row", "matrix.go:Matrix.Col", "matrix.go:Matrix.Iterate", "matrix.go:Matrix.Copy"]}
{"id": "C31", "title": "A Writer cannot alter the QRCode it is given", "statement": "Whatever a Writer does with the exported methods of the Matrix it receives, a second Save of the same QRCode delivers the same matrix.", "quantifier": "all writers (sequences of exported Matrix operations and writes to the slices they return)", "why_tests_cant": "Aliasing needs a malicious or careless writer.", "anchors": ["qrcode.go:QRCode.Save", "matrix.go:Matrix.Col", "matrix.go:Matrix.Row", "matrix.go:Matrix.Copy", "matrix.go:Matrix.Bitmap"]}
{"id": "C32", "title": "Save closes the writer exactly once, after writing, and reports the write error", "statement": "Save calls Write once with the final matrix and then Close once, also when Write fails or panics; it returns Write's error and never Close's; Save(nil) does nothing and returns nil.", "quantifier": "all writers and all outcomes of Write and Close", "why_tests_cant": "All combinations of failures including panics.", "anchors": ["qrcode.go:QRCode.Save", "writer.go:nonWriter"]}
{"id": "C33", "title": "The file writer's text output determines the symbol", "statement": "The half-block text written by writer/file is ceil(n/2) lines of n characters from which the Bitmap can be read back exactly; on an I/O error what was written is a prefix of that text and the error is returned.", "quantifier": "all bitmaps (odd and even heights), all failure points of the underlying file", "why_tests_cant": "All module patterns, all failure points.", "anchors": ["writer/file/writer.go:Writer.Write"]}
{"id": "C34", "title": "The compressed writer's image is a pixel-exact scaling of the symbol", "statement": "For padding >= 0 and block size >= 1 pixel (px,py) of the image is foreground iff it lies in the padded area and the module at ((px-padding)/block, (py-padding)/block) is dark; no drawing goes out of the image.", "quantifier": "all matrices, paddings, block sizes, pixels", "why_tests_cant": "All pixels of all sizes.", "anchors": ["writer/compressed/writer.go:compressedWriter.Write"]}
{"id": "C35", "title": "compressed.New leaves exactly the image in the file", "statement": "After compressed.New(filename), Save, the file contains exactly the encoded image.", "quantifier": "all previous file contents, all images", "why_tests_cant": "Only shows when a longer file already exists.", "anchors": ["writer/compressed/writer.go:New"]}
{"id": "C36", "title": "The standard writer's image size is what Attribute predicts", "statement": "For every option list Writer.Attribute(dimension) has the width, height, borders and block width of the image Write draws for a symbol of that dimension; block width is in 1..255.", "quantifier": "all option lists, all dimensions", "why_tests_cant": "All option combinations.", "anchors": ["writer/standard/writer.go:draw", "writer/standard/image_option.go:outputImageOptions.preCalculateAttribute", "writer/standard/image_option.go:outputImageOptions.qrBlockWidth"]}
{"id": "C37", "title": "The standard writer paints every module in the right place and colour", "statement": "With the rectangle shape, no logo, halftone or gradient, and non-negative borders each pixel inside the symbol area has the foreground colour iff its module is dark and otherwise the background colour; border pixels have the background colour; with WithBgTransparent light pixels are fully transparent and dark ones keep the foreground colour.", "quantifier": "all matrices, borders, block widths, colours, pixels", "why_tests_cant": "All pixels and option combinations.", "anchors": ["writer/standard/writer.go:draw", "writer/standard/image_option.go:outputImageOptions.translateToRGBA", "writer/standard/image_option.go:outputImageOptions.backgroundColor", "writer/standard/image_qr_shape.go:rectangle.Draw"]}
{"id": "C38", "title": "WithBorderWidth argument forms", "statement": "WithBorderWidth() restores the default 40s, (a) sets all four, (a,b) and (a,b,_) set top/bottom=a and left/right=b, (a,b,c,d,...) set top,right,bottom,left.", "quantifier": "all argument lists of any length", "why_tests_cant": "Variadic.", "anchors": ["writer/standard/image_option_api.go:WithBorderWidth"]}
{"id": "C39", "title": "Logo size limit and safe zone", "statement": "A logo is drawn iff multiplier*width and multiplier*height do not exceed the image size; with WithLogoSafeZone a dark module is skipped iff its square intersects the centred logo rectangle. An opaque pixel of a drawn logo keeps its colour, whatever gradient, halftone picture or background lies below it.", "quantifier": "all sizes, multipliers, borders, module positions", "why_tests_cant": "Integer-division centring and all overlaps.", "anchors": ["writer/standard/writer.go:validLogoImage", "writer/standard/writer.go:blockOverlapsLogo", "writer/standard/writer.go:draw"]}
{"id": "C40", "title": "Neighbour information given to shapes is right, also inside the logo safe zone", "statement": "The neighbour mask passed to IShape.Draw for module (x,y) has the bit of a direction set iff the module in that direction exists, is dark and is not cleared by the logo safe zone.", "quantifier": "all matrices, positions, borders, logo sizes", "why_tests_cant": "Asymmetric borders or logos are needed to see a row/column swap.", "anchors": ["writer/standard/writer.go:getNeighbours", "writer/standard/writer.go:draw", "writer/standard/image_qr_shape.go:NTopLeft"]}
{"id": "C41", "title": "WithFgColor / WithBgColor use the colour they are given", "statement": "For every color.Color c the option stores the 8-bit RGBA value of c (color.RGBAModel conversion).", "quantifier": "all colours of all colour types", "why_tests_cant": "Only 8-bit opaque colours are tested.", "anchors": ["writer/standard/image_option.go:parseFromColor", "writer/standard/image_option_api.go:WithFgColor"]}
{"id": "C42", "title": "Terminal writer draws every module once in its own two cells", "statement": "Module (x,y) occupies exactly cells (2x+2, y+1) and (2x+3, y+1), black iff dark; a white frame of one module surrounds the symbol; the tip is printed below it.", "quantifier": "all matrices, all cells", "why_tests_cant": "All cells.", "anchors": ["writer/terminal/writer.go:Writer.Write", "writer/terminal/writer.go:Writer.drawBlock"]}
{"id": "C43", "title": "Concurrent New calls do not interfere", "statement": "After package initialisation no call of New writes package-level state, so every interleaving of any number of concurrent calls returns what the calls return alone.", "quantifier": "all numbers of callers, texts, interleavings", "why_tests_cant": "Race windows.", "anchors": ["version.go:loadAlignmentPatternLocV2", "version.go:precalculateAlignPatternLocs", "version.go:calcAlignPatternLocs", "encoder_option.go:DefaultEncodingOption"]}
{"id": "C44", "title": "Version lookup terminates and finds the row", "statement": "Looking up a row by version and level returns the row with that version and level; the binary search helper terminates for every range and comparison that is consistent with the table order.", "quantifier": "all versions, levels, ranges", "why_tests_cant": "Non-termination cannot be observed by a passing test.", "anchors": ["version.go:loadVersion", "version.go:binarySearchVersion", "version.go:defaultBinaryCompare"]}
{"id": "C45", "title": "Format information survives three wrong bits", "statement": "The format information drawn by the library identifies level and mask uniquely even if up to three of its fifteen modules are misread.", "quantifier": "all levels, masks and damage patterns", "why_tests_cant": "32 words times all damage patterns, pairwise.", "anchors": ["version.go:formatInfo", "qrcode.go:QRCode.fillFormatInfo"]}
{"id": "C46", "title": "Version information survives three wrong bits", "statement": "The version information drawn by the library (version >= 7) identifies the version uniquely even if up to three of its eighteen modules are misread.", "quantifier": "all versions from 7 and damage patterns", "why_tests_cant": "34 words times all damage patterns, pairwise.", "anchors": ["version.go:version.verInfo", "qrcode.go:QRCode.fillVersionInfo"]}
{"id": "C47", "title": "Writing twice with the same writer gives the same image", "statement": "A standard Writer is not changed by Write: a second Write of the same matrix with the same Writer draws the same image as the first.", "quantifier": "all matrices, option lists, pixels", "why_tests_cant": "The tests write once per Writer; the state change shows only in a later call.", "anchors": ["writer/standard/writer.go:Writer.Write", "writer/standard/image_option.go:outputImageOptions.backgroundColor", "writer/standard/image_option.go:outputImageOptions.translateToRGBA"]}
{"id": "C48", "title": "Hex colours", "statement": "WithFgColorRGBHex/WithBgColorRGBHex set exactly the opaque colour written as #rrggbb or #rgb (each digit doubled), in either case; a string of another length panics, except that WithBgColorRGBHex(\"\") is ignored.", "quantifier": "all strings of '#' and hexadecimal digits, all lengths", "why_tests_cant": "2^24 colours in both notations and cases.", "anchors": ["writer/standard/image_option.go:parseFromHex", "writer/standard/image_option_api.go:WithFgColorRGBHex", "writer/standard/image_option_api.go:WithBgColorRGBHex"]}
{"id": "C49", "title": "A symbol saved through any of the four writers reads back as its text", "statement": "After New succeeds and Save is called with the file, terminal, compressed or standard writer (no I/O failure; standard writer with rectangles, no logo/halftone/gradient, distinguishable colours, non-negative borders; lossless encoder), an ISO reader applied to the modules sampled from the medium returns the original text.", "quantifier": "all texts, options, schedules, initial file/terminal contents, paddings, block sizes, borders, colours", "why_tests_cant": "Composition of encoder, symbol layout, drawing and I/O over all inputs.", "anchors": ["qrcode.go:QRCode.Save", "writer/file/writer.go:Write", "writer/terminal/writer.go:Write", "writer/compressed/writer.go:Write", "writer/standard/writer.go:Write"]}
{"id": "C50", "title": "Save never reports success for an incompletely written image", "statement": "With the compressed and standard writers Save returns nil exactly when every write of the encoder succeeded, and then the file holds the complete image; the file is closed in any case.", "quantifier": "all matrices, options, failure points", "why_tests_cant": "All failure points.", "anchors": ["qrcode.go:QRCode.Save", "writer/compressed/writer.go:Write", "writer/standard/writer.go:drawTo", "writer/standard/writer.go:Close"]}
{"id": "C51", "title": "The command line does what its flags say", "statement": "The qrcode command accepts exactly --borders values of four decimal numbers of at most 255 and draws those borders; --block is the block width; the file is PNG exactly if the output name ends in .png and JPEG otherwise; --circle, --transparent and --halftone set shape, background and halftone; nothing else differs from the default.", "quantifier": "all flag values", "why_tests_cant": "All strings and numbers; the command has no tests.", "anchors": ["cmd/qrcode/app.go:parseGenerateContextFrom", "cmd/qrcode/app.go:fileOutputOptions.applyOptions"]}
{"id": "C52", "title": "generateQRCode (WebAssembly) obeys its option object and returns the image", "statement": "Called with a content and an object holding the documented fields, generateQRCode draws the symbol with that version, mode, level, colours, transparency, block width, shape, format and margin and returns success with the base64 of the image; if the symbol cannot be made it returns the error; fields that are left out take their default.", "quantifier": "all contents, option objects, schedules, image encoders", "why_tests_cant": "All JavaScript values; the code only runs in a browser and has no tests.", "anchors": ["cmd/wasm/main.go:genqrcode", "cmd/wasm/types.go:optionFromJSValue", "cmd/wasm/types.go:genOption.encodeOptions", "cmd/wasm/types.go:genOption.outputOptions"]}
{"id": "C53", "title": "A symbol is determined by version, level, mask and message", "statement": "Two bitmaps that both are the ISO symbol of the same version, level, mask and bit stream agree on every module: nothing in a symbol the library draws is left to chance.", "quantifier": "all versions, levels, masks, bit streams, pairs of bitmaps", "why_tests_cant": "All bitmaps and messages of all forty sizes.", "anchors": ["qrcode.go:prefillMatrix", "qrcode.go:masking", "qrcode.go:fillDataBinary", "matrix.go:Set"]}
{"id": "C54", "title": "Different texts give different symbols", "statement": "If two texts differ byte for byte, the bitmaps New returns for them differ, whatever options and schedules; and from a Kanji symbol a reader with a Shift-JIS table gets back every byte of the text.", "quantifier": "all pairs of texts, options, schedules, Shift-JIS tables that satisfy the contract and are injective", "why_tests_cant": "All pairs of texts.", "anchors": ["qrcode.go:New", "qrcode.go:NewWith", "encoder.go:encodeKanji", "chardet.go"]}
{"id": "C55", "title": "Characters of a text", "statement": "Decoding a text yields only Unicode scalar values, whatever its bytes; decoding inverts encoding; and valid UTF-8 is determined by its characters.", "quantifier": "all byte strings, all lists of scalar values", "why_tests_cant": "All byte strings.", "anchors": ["qrcode.go:analyzeEncodeModeFromRaw", "encoder.go:encodeKanji", "writer/file"]}
{"id": "C56", "title": "Block shapes keep the symbol readable", "statement": "Whatever shape modules are drawn with, if it keeps to its box and paints one fixed pixel of it, then that pixel of every module of the saved picture shows whether the module is dark and the text can be read back; rectangles and circles of at least 3 pixels are such shapes.", "quantifier": "all shapes with that contract, symbols, block widths, borders, colours, logos, texts, schedules", "why_tests_cant": "All user-defined shapes and all symbols.", "anchors": ["writer/standard/writer.go:drawTo", "writer/standard/image_qr_shape.go:rectangle.Draw", "writer/standard/image_qr_shape.go:circle.Draw"]}
{"id": "C57", "title": "Halftone pictures keep the symbol readable", "statement": "With WithHalftone, function patterns are drawn in full (alignment patterns are not: they are treated like data), the middle third of every data module shows whether the module is dark, and the other eight ninths show the picture; so sampling the middles gives the symbol back.", "quantifier": "all symbols, pictures, block widths, borders, texts", "why_tests_cant": "All pictures and block widths; the widths at which it fails are found by the proof.", "anchors": ["writer/standard/writer.go:drawTo", "writer/standard/image_option_api.go:WithHalftone"]}
{"id": "C58", "title": "Image helpers", "statement": "Gray keeps bounds and gives the luminance of each pixel, Binaryzation black or white by the threshold; Save returns nil exactly if the whole encoded picture was written to a file of a supported extension.", "quantifier": "all images and bounds, thresholds, file names, write failures", "why_tests_cant": "All images, bounds and failure points.", "anchors": ["writer/standard/imgkit/process.go:Gray", "writer/standard/imgkit/process.go:Binaryzation", "writer/standard/imgkit/io.go:Save", "writer/standard/imgkit/process.go:Scale"]}
{"id": "C59", "title": "Foreground gradients", "statement": "A gradient recolours exactly the pixels of the foreground colour. The colour at a place is the first stop's before it, the last stop's after it, and in between the straight-line mixture of the two neighbouring stops; places run from 0 to 1 along the angle. A symbol with a gradient whose stops contrast with the background reads back.", "quantifier": "all lists of stops (in order or not), places, angles, image sizes, symbols, shapes, texts", "why_tests_cant": "All stops, angles and symbols.", "anchors": ["writer/standard/gradient.go:NewGradient", "writer/standard/gradient.go:applyGradient", "writer/standard/gradient.go:interpolateColor", "writer/standard/gradient.go:blendColors", "writer/standard/image_option_api.go:WithFgGradient"]}
{"id": "C60", "title": "Linking shapes", "statement": "A symbol drawn with any finder and any block of the shapes package (liquid, chains, stripes, squares, circles) shows in the middle pixel of each module whether it is dark, so the saved picture reads back, although these shapes paint parts of neighbouring modules; they reach at most half a block into neighbours, most of them not at all, and light modules never leave their box. The ratio and size parameters mean what is documented.", "quantifier": "all symbols, neighbour masks, block widths, parameters, and all amounts of paint the rasterizer puts on pixels at an edge", "why_tests_cant": "512 neighbour masks, every width and parameter, every symbol, every edge coverage.", "anchors": ["writer/standard/shapes/blocks.go:LiquidBlock", "writer/standard/shapes/blocks.go:ChainBlock", "writer/standard/shapes/blocks.go:HStripeBlock", "writer/standard/shapes/blocks.go:VStripeBlock", "writer/standard/shapes/finders.go:RoundedFinder", "writer/standard/shapes/constructor.go:Assemble"]}
{"id": "C61", "title": "Lossy image formats", "statement": "A symbol saved as JPEG (the default) reads back as long as the format changes each colour channel by at most t, six times t being less than the difference in brightness of the two colours: with black on white, at most 127 per channel; this bound is the best possible. Images larger than the format allows are refused instead of written.", "quantifier": "all texts, options, sizes, block shapes, and all encoders and decoders with that error bound", "why_tests_cant": "Every text, size, shape and every admissible encoding error.", "anchors": ["writer/standard/writer.go:Write", "writer/standard/writer.go:drawTo", "writer/standard/image_format.go:jpegEncoder.Encode"]}
{"id": "C62", "title": "Logos do not make the symbol unreadable", "statement": "A logo of at most a fifth of the picture (the writer's default limit) hides so little that a reader with error correction still returns the text, and nothing else, whatever the logo looks like, with or without safe zone: for levels Medium and up without borders, for Quart (the default) and Highest with borders of up to two modules (the default). At level Low, and with wide borders, this is false.", "quantifier": "all texts, versions 1 to 40, logo sizes up to the limit and logo contents, block widths, shapes, image formats", "why_tests_cant": "Every logo picture, size and position relative to the module grid, every version and text; error correction works per interleaved block.", "anchors": ["writer/standard/writer.go:validLogoImage", "writer/standard/writer.go:blockOverlapsLogo", "writer/standard/writer.go:draw", "writer/standard/image_option_api.go:WithLogoImage"]}
{"id": "C63", "title": "Using a writer more than once", "statement": "After the first Save (or Close) on a standard or compressed file writer the file never changes again: every further Save or Write returns an error, never success, and a further Close returns nil (standard) or reports the closed file (compressed). Before that, every Write appends its picture to the file. The file writer is not closed by Save: every Save or Write appends a text from which its symbol can be read, or, if it returns an error, a proper prefix of one.", "quantifier": "all histories of Save, Write and Close calls of any length with any symbols, all patterns of failing writes", "why_tests_cant": "Histories are unbounded and interleave three calls with failures at any point.", "anchors": ["writer/standard/writer.go:Close", "writer/standard/writer.go:Write", "writer/compressed/writer.go:Close", "writer/file/writer.go:Write", "qrcode.go:Save"]}
{"id": "C64", "title": "Module types tell the regions", "statement": "In a symbol made by New, QRValue.Type of the module at (x, y) as seen by Matrix.Iterate is the one of the region the place belongs to in the QR standard: FINDER exactly in the three 7x7 corner squares, SPLITTER around them, TIMING, DARK, FORMAT, VERSION, and DATA elsewhere (modules of alignment patterns off the timing lines count as DATA); no module keeps the type INIT. The standard writer calls DrawFinder for exactly the modules of the corner squares.", "quantifier": "all texts, options, schedules; all modules; all writer options", "why_tests_cant": "All symbols of all 40 versions, whatever their data and mask.", "anchors": ["matrix_type.go:qrvalue", "matrix.go:Iterate", "qrcode.go:prefillMatrix", "writer/standard/writer.go:drawTo"]}
{"id": "C65", "title": "Options that take file names", "statement": "WithLogoImageFilePNG, WithLogoImageFileJPEG and WithHalftone with the name of a readable picture file of the right format do exactly what the options that take the picture itself do; WithHalftone tells PNG and JPEG apart by the first bytes. If the file cannot be opened or decoded, the option is skipped and everything else is as without it. standard.New touches no file but the output file: if it returns an error nothing has changed, otherwise the output file is empty. Since the output is truncated before the options are applied, a picture kept in the output file itself is never used.", "quantifier": "all file systems, paths (also several for one file), option lists and decoders", "why_tests_cant": "All file contents and option orders; errors are dropped silently, so a test sees only missing pictures.", "anchors": ["writer/standard/writer.go:New", "writer/standard/image_option_api.go:WithLogoImageFilePNG", "writer/standard/image_option_api.go:WithHalftone", "writer/standard/imgkit/io.go:Read"]}
{"id": "C66", "title": "The command line program, end to end", "statement": "qrcode <text> with valid flags leaves in the output file a picture (PNG or, for other extensions, JPEG) that decodes to an image of the right size from which the text is read back, and changes no other file; --terminal shows it on the screen and changes no file. If the text cannot be encoded, the borders are malformed or the file cannot be created, nothing changes. The action succeeds only if the whole picture has been written. The exit status, however, is 0 even after an error.", "quantifier": "all texts, flags, file systems, block sizes, picture formats within their error bounds, write faults, schedules", "why_tests_cant": "The program has no tests; texts, flags and faults are unbounded.", "anchors": ["cmd/qrcode/app.go:generate", "cmd/qrcode/app.go:newApp", "cmd/qrcode/main.go:main", "writer/standard/writer.go:New"]}
{"id": "C67", "title": "imgkit files round trip", "statement": "A picture saved with imgkit.Save under a name ending in .png is read back by imgkit.Read with the same size and pixels; under .jpg or .jpeg, with the same size and pixels up to the losses of JPEG. Save returns the error 'unsupported' exactly for other endings (upper case included), touches no other file, and reports success only if the file holds exactly the encoded picture. A failing Save may have emptied an existing file.", "quantifier": "all pictures, paths, file systems, codecs and write faults", "why_tests_cant": "All pictures, names and faults.", "anchors": ["writer/standard/imgkit/io.go:Save", "writer/standard/imgkit/io.go:Read"]}
{"id": "C68", "title": "Debug mode changes no result", "statement": "With SetDebugMode or QRCODE_DEBUG, New returns a result it could also have returned without, whenever the switch is thrown, and it still returns. When it does, 32 pictures are complete: for each mask pattern i, draft/qrcode_mask_i.jpeg is a picture from which the text is read back with mask i and the chosen level, one of the eight is the returned symbol, and draft/mats_mask_i.jpeg is draft/mats_i.jpeg inverted where draft/mask_i.jpeg is dark. No other file is touched, and none if debug mode is off. Debug mode is on exactly if SetDebugMode has been called or the variable was 1, true, TRUE, enabled or ENABLED when first looked at; later changes of the variable do not count.", "quantifier": "all texts, options, schedules of the eight goroutines, moments of SetDebugMode, file systems, write faults", "why_tests_cant": "Interleavings of eight goroutines that draw and search; histories of the switch.", "anchors": ["debug.go:debugEnabled", "debug.go:SetDebugMode", "debug.go:debugDraw", "debug.go:debugDrawTo", "qrcode.go:masking"]}
{"id": "C69", "title": "Drawing options do what they say", "statement": "Every setting of a standard writer (colours, transparency, block width, borders, shape, encoder, gradient, logo, logo limit, safe zone, halftone) is what the last option that sets it sets it to, and the documented default if none does; nil arguments set nothing; one malformed colour or unknown format panics. So the picture without logo, halftone, gradient or other shape is told pixel by pixel by the option list, and without options it is black squares of 20 pixels on white with borders of 40. With the circle shape the middle of a module shows it and its four corners are ground.", "quantifier": "all option lists, symbols and pixels", "why_tests_cant": "Option lists are unbounded and options interact by order.", "anchors": ["writer/standard/image_option_api.go", "writer/standard/image_option.go:defaultOutputImageOption", "writer/standard/image_option.go:qrBlockWidth", "writer/standard/image_option.go:getShape", "writer/standard/writer.go:NewWithWriter", "writer/standard/image_qr_shape.go:circle.Draw"]}
{"id": "C70", "title": "Quiet zone", "statement": "With square modules, with or without gradient, halftone picture, transparency and logo, the light margins of a saved picture are exactly the borders asked for (standard writer: WithBorderWidth; compressed writer: Padding), on each side, for every symbol; so the picture has the four-module quiet zone of ISO 18004 exactly if every border is at least four block widths. Without options the margins are two modules wide, so the default picture never has that quiet zone.", "quantifier": "all texts, encoder options, block widths, borders and colours", "why_tests_cant": "All symbols and option values.", "anchors": ["writer/standard/writer.go:draw", "writer/standard/image_option_api.go:WithBorderWidth", "writer/standard/image_option.go:defaultOutputImageOption", "writer/compressed/writer.go:Write"]}
{"id": "C71", "title": "A picture is readable by itself", "statement": "A reader that is given only a saved picture finds the place, module size and dimension of the symbol from the finder patterns and reads the text back: for the standard writer with square modules, any block width and borders, with or without gradient, halftone picture or transparent background, with any encoder after which the ink can still be told from the background (the default writer: changes of up to 127 per channel), and with a logo (as in C62) after error correction; for the compressed writer with any padding and block size.", "quantifier": "all texts, encoder options, drawing options of the kind, and image coders", "why_tests_cant": "All texts, sizes and coders.", "anchors": ["writer/standard/writer.go:draw", "writer/compressed/writer.go:Write", "matrix.go:Iterate", "qrcode.go:Save"]}
{"id": "C72", "title": "Drawing options combine", "statement": "Shapes (squares, circles, the shapes package), halftone pictures, foreground gradients, transparent backgrounds, borders, and logos with or without a safe zone can be combined: the saved picture gives the text back to any pixel reader that can tell the dark colours from the background after the image format has changed them. Without a logo the modules themselves are read back; with a logo of the accepted size (level Medium without borders, Quart or Highest with borders of up to two modules) error correction recovers the text. Under a halftone picture the blocks have to be wide enough for the shape (squares 3 or from 6 pixels, circles 9 or from 12, the shapes of the package from about 15); circles in blocks of up to 5 pixels show nothing of the data.", "quantifier": "all texts, encoder options, schedules and combinations of drawing options of the kinds named; all logos, gradients and halftone pictures; all image coders with an error within what the reader tolerates", "why_tests_cant": "The number of combinations, of pictures and of coders is unbounded.", "anchors": ["writer/standard/writer.go:draw", "writer/standard/image_option_api.go:WithLogoSafeZone", "writer/standard/gradient.go:applyGradient", "writer/standard/shapes/blocks.go", "writer/standard/image_qr_shape.go:circle"]}
{"id": "C73", "title": "Size and acceptance are monotone", "statement": "With the version left to the library: a weaker error correction level never gives a larger symbol; characters appended to a text never give a smaller symbol; the automatic choice of the mode never gives a larger symbol than a mode the user asks for. Whatever is accepted at some level and in some mode is accepted at every weaker level and in automatic mode, and so is every beginning of it. (False for texts of alphanumeric characters followed by kanji: appending a letter can shrink the symbol, and asking for byte mode can, too.)", "quantifier": "all pairs of texts, options and schedules", "why_tests_cant": "It compares all pairs of inputs.", "anchors": ["version.go:analyzeVersion", "chardet.go:analyzeEncodeModeFromRaw", "qrcode.go:NewWith", "encoder_option.go:WithErrorCorrectionLevel"]}
{"id": "C74", "title": "Readable in every orientation", "statement": "However a symbol is turned (by quarter turns) and mirrored, a reader can tell: exactly one of the eight views has finder patterns in the three right corners and valid format information, namely the upright one, and reading that view gives the text. In particular no text, mask or version produces a finder pattern in the fourth corner.", "quantifier": "all texts, encoder options, schedules and sequences of turns and reflections", "why_tests_cant": "The fourth corner holds message bits, so every text matters.", "anchors": ["qrcode.go:addFinder", "qrcode.go:fillDataBinary", "qrcode.go:fillFormatInfo", "mask.go:newMask"]}
{"id": "C75", "title": "One QRCode may be saved from several goroutines", "statement": "When several goroutines call Save of the same QRCode at the same time, each with its own Writer, there is no data race on the symbol, each Writer sees exactly what it would see alone, and the symbol stays what it was at every moment, provided no Writer assigns to a slice that Col returned for the matrix it was given. Writers that do are not safe.", "quantifier": "all symbols, numbers of goroutines, Writers and interleavings of their operations", "why_tests_cant": "A race needs a particular interleaving, and Writers are arbitrary user code.", "anchors": ["qrcode.go:Save", "matrix.go:Copy", "matrix.go:Row", "matrix.go:Col", "matrix.go:Bitmap", "matrix.go:Iterate"]}
{"id": "C76", "title": "The mask search is free of data races down to single modules", "statement": "While New tries the eight masks in eight goroutines, each of which reads and writes single modules of matrices in shared memory in any interleaving, no array that one goroutine writes is read or written by another, memory that existed before is not changed, New is never stuck, and its result is one that New gives when each of the four stages of a goroutine is one indivisible step.", "quantifier": "all texts, options, prior memory contents, interleavings of single module reads and writes, and orders in which the scoring reads its matrix", "why_tests_cant": "The number of interleavings of some hundred thousand module accesses by eight goroutines cannot be enumerated, and a race shows only under some of them.", "anchors": ["qrcode.go:masking", "qrcode.go:xorMask", "qrcode.go:fillFormatInfo", "qrcode.go:fillVersionInfo", "matrix.go:Copy", "matrix.go:at", "matrix.go:set", "mask.go:newMask"]}
{"id": "C77", "title": "A few misread modules do not change the text", "statement": "If, of a symbol that New returned, at most half as many data modules are read wrongly as a block of its version and level has error-correction code words, wherever they are, and at most three of the format modules around the upper left finder pattern, then a reader with error correction returns the text and nothing else. In particular any three modules may be wrong, and so may a rectangle of w x h modules off the format information with 2wh at most that number; and a saved picture may be blotted over a rectangle of that size, whatever the blot's colours; also if the reader has to find the symbol in the blotted picture by itself, provided the blot is below the first row of pixels of the symbol.", "quantifier": "all texts, options, levels, versions, bitmaps and pictures that differ from the symbol in so few modules, image options without logo, halftone and gradient, and image formats within the error bound of C61", "why_tests_cant": "There are more sets of misread modules than can be tried even for one symbol of version 1.", "anchors": ["qrcode.go:New", "qrcode.go:NewWith", "encoder.go:Encode", "writer/standard/writer.go:draw"]}
{"id": "C78", "title": "The image writers do not depend on the width of int for sensible options", "statement": "With Go's int of w bits, which wraps round, for every width w from 32 on (64 on amd64, arm64 and wasm; 32 on 386 and arm), the standard and the compressed writer draw the same picture as with unbounded integers and report the same attributes, as long as the picture is less than 2^25 pixels wide and high and its bytes can be counted by an int, borders and logo corners lie within 2^(w-4) of 0 and the products of multiplier and logo size are ints; in particular for every symbol of the library with the default options. A picture with more bytes than an int can count makes Write panic. A logo larger than the picture divided by the multiplier is never drawn.", "quantifier": "all symbols, options within the bounds, shapes, allocators; for the last sentence all multipliers; all widths of int from 32 bits on", "why_tests_cant": "Overflow happens at particular values out of 2^32 or 2^64; tests with ordinary options never come near them, and whether they are out of reach of ordinary options is a claim about all of those.", "anchors": ["writer/standard/writer.go:draw", "writer/standard/writer.go:validLogoImage", "writer/standard/writer.go:blockOverlapsLogo", "writer/standard/image_option.go:preCalculateAttribute", "writer/compressed/writer.go:Write"]}
{"id": "C79", "title": "A saved picture stays readable however it is enlarged, re-framed, turned or mirrored", "statement": "Take the picture that Save leaves in the file (standard writer with square modules, PNG or a JPEG coder that changes no channel too much, any block width and borders; or the compressed writer) and enlarge it by whole factors, paste it on larger or smaller sheets without cutting dark pixels, turn it by quarter turns and mirror it, any number of times in any order. A reader that is given only the result - no module size, margin, version or orientation - still reads the text.", "quantifier": "all texts, options, schedules, writer options of the kind named, coders within the bound, and all finite sequences of such changes", "why_tests_cant": "The sequences of changes and the factors are unbounded, and whether a reader can tell the module size and the orientation from the picture alone depends on the bits of every symbol.", "anchors": ["qrcode.go:New", "qrcode.go:Save", "writer/standard/writer.go:draw", "writer/standard/writer.go:Write", "writer/compressed/writer.go:Write"]}
{"id": "C80", "title": "When New returns, everything it started is over", "statement": "After New or NewWith has returned, none of the goroutines it started reads or writes memory any more, in particular not the modules of the returned code; the result does not change however the program is scheduled afterwards.", "quantifier": "all texts, options, interleavings of the goroutines' single reads and writes before the return and all continuations after it", "why_tests_cant": "A goroutine that is still writing after the return shows only under rare schedules; the claim is about all of them and all continuations.", "anchors": ["qrcode.go:QRCode.masking", "qrcode.go:NewWith"]}
{"id": "C81", "title": "The documented custom shape keeps symbols readable", "statement": "A shape that draws smaller discs, as the documentation of WithCustomShape explains it (example/with-custom-shape), paints only inside the module it is asked to draw and covers its middle pixel, so a symbol drawn with it and saved reads back as its text; drawing finder modules at full size does not change how later modules are drawn.", "quantifier": "all texts, options, radius percentages in [0,1], block widths, sequences of drawn modules, and interleavings of two goroutines sharing the shape", "why_tests_cant": "The radius is a rounded float64 product cut to an integer; whether the middle pixel is covered depends on every combination of width and percentage, and the shared field on the schedule.", "anchors": ["example/with-custom-shape/main.go:smallerCircle.Draw", "example/with-custom-shape/main.go:smallerCircle.DrawFinder", "writer/standard/how-to-use-custom-shape.md", "writer/standard/image_option_api.go:WithCustomShape"]}
{"id": "C82", "title": "A process that ends while saving leaves the old file or the beginning of the new one", "statement": "If the process ends at any moment of creating a standard writer, saving to it and closing it, or of running the command line tool, then no file but the named one is changed, and the named one is as it was or holds the beginning of what the whole run would have left in it; if what it holds can be decoded at all by a decoder that notices a missing end, it is the old file or reads back as the text. The text file writer leaves what the file held followed by a beginning of the text, whose complete lines are right. If no symbol can be made, the tool changes no file.", "quantifier": "all crash points (between any two system calls and inside every write), texts, options, file system contents, write failures and schedules", "why_tests_cant": "A test can kill the process at a few moments only; the claim ranges over every point of every execution and every earlier content of the file.", "anchors": ["writer/standard/writer.go:New", "writer/standard/writer.go:drawTo", "writer/compressed/writer.go:New", "writer/compressed/writer.go:Write", "writer/file/writer.go:Write", "cmd/qrcode/app.go", "qrcode.go:Save"]}
{"id": "C83", "title": "Arguments the caller changes afterwards", "statement": "Once a standard writer is made, changing the slice given to WithBorderWidth or the colours given to WithFgColor and WithBgColor has no effect on what it draws, whatever was drawn before: symbols saved through it read back. The image given to WithLogoImage or WithHalftoneImage and the gradient given to WithFgGradient are not copied: each Save uses them as they are then, and so does the compressed writer with its Option. New accepts and rejects exactly what it would with copies.", "quantifier": "all option lists, contents of the caller's memory, histories of changes and of pictures drawn in between, texts and write failures", "why_tests_cant": "The effect shows only in histories that change memory between making an option, making the writer and saving; there are unboundedly many.", "anchors": ["writer/standard/image_option_api.go:WithBorderWidth", "writer/standard/image_option_api.go:WithFgGradient", "writer/standard/image_option_api.go:WithLogoImage", "writer/standard/image_option_api.go:WithHalftoneImage", "writer/standard/writer.go:NewWithWriter", "writer/compressed/writer.go:New"]}
{"id": "C84", "title": "The debug switch asked by many goroutines", "statement": "Any number of goroutines may call New (which asks whether debug mode is on) at the same time without a data race; they all get the same answer: on if SetDebugMode was called before they started or QRCODE_DEBUG said so at the one moment it is looked at. None waits for ever, the environment is looked at at most once, and the switch is never turned off again. SetDebugMode may be called at any time.", "quantifier": "all numbers of goroutines and calls, all schedules, all values the environment variable takes over time", "why_tests_cant": "Data races depend on the happens-before order of every interleaving, which the race detector checks only for the runs it sees.", "anchors": ["debug.go:debugEnabled", "debug.go:SetDebugMode", "debug.go:_debugOnce"]}
{"id": "C85", "title": "Saving at the same time", "statement": "Goroutines or programs may save pictures through the standard writer at the same time. If each has a file of its own, every file ends as if its Save had been alone (also if all of them are killed at some moment), and no other file changes. If they all save the same picture to the same file, the file holds that picture when all are done. If they save different pictures to the same file, the file holds one of them.", "quantifier": "all numbers of writers, all symbols and options that read no files, all ways to cut the encodings into writes, all interleavings of the system calls, all moments at which the processes end", "why_tests_cant": "The interleaving of system calls of several processes is up to the operating system, and the number of interleavings grows without bound with the number of writes.", "anchors": ["writer/standard/writer.go:New", "writer/standard/writer.go:Write", "qrcode.go:Save"]}
{"id": "C86", "title": "One Writer used by several goroutines", "statement": "Several goroutines may pass the same standard Writer to Save. The file then holds whole Write calls of the goroutines, each goroutine's in its order; of a Save that returns nil everything is there. Once one of them has closed the file its content does not change any more, and whoever has still something to write gets an error. A Save that reports success has left exactly its picture in the file.", "quantifier": "all numbers of goroutines, all symbols, all options without WithBgTransparent, all encoders and ways to cut the encodings into Write calls, all failures of Write calls, all schedules", "why_tests_cant": "Which goroutine runs when is up to the scheduler; the number of schedules grows without bound with the number of Write calls.", "anchors": ["qrcode.go:Save", "writer/standard/writer.go:Write", "writer/standard/writer.go:Close"]}
{"id": "C87", "title": "Japanese texts", "statement": "Each of the ideographs of JIS X 0208 (6356 of them) and no other character is kanji for the library. A text of only such characters is encoded in Kanji mode by automatic selection, is accepted up to 1817, 1435, 1024 and 784 characters at the four levels, and a reader with the Shift-JIS table shows exactly the bytes of the text; different texts give different symbols.", "quantifier": "all texts of ideographs of the table, of every length, all option lists with automatic mode, all schedules, all conversions that treat ideographs as the table says", "why_tests_cant": "There are 6356^1817 texts of 1817 characters; a test can at most try every single character.", "anchors": ["chardet.go:analyzeJP", "chardet.go:analyzeEncodeModeFromRaw", "encoder.go:toShiftJIS", "encoder.go:encodeShiftJIS", "encoder.go:encodeKanji"]}
{"id": "C88", "title": "The symbol does not depend on the width of int", "statement": "With ints of 32 bits, of 64 bits or of any larger width, New and NewWith return the same symbol or the same error for the same text, options and schedule: no addition, subtraction or multiplication of ints in encoding, placement, masking or penalty scoring overflows in a way that changes the result.", "quantifier": "all widths of at least 32 bits, all texts shorter than 2^(w-1) bytes (and, if the caller forces the version, whose bit count fits an int), all option lists, all schedules", "why_tests_cant": "Tests run on the width of the machine that runs them, on a few texts; an overflow shows only for particular texts, versions or penalty scores.", "anchors": ["qrcode.go:NewWith", "qrcode.go:init", "qrcode.go:masking", "version.go:loadVersion", "encoder.go:breakUpInto8bit", "mask_evaluation.go:evaluation", "kmp_variant.go:kmp"]}
{"id": "C89", "title": "Drawing at once with shared options", "statement": "Goroutines that draw at once with the same options (one Writer used by all of them) each draw the picture they would draw on their own, for every interleaving of their accesses to the options, and without data races.", "quantifier": "any number of goroutines and matrices, all options, all interleavings of single loads and stores of the shared background colour", "why_tests_cant": "The interleavings cannot be enumerated by tests, and the race detector sees only those that happen.", "anchors": ["writer/standard/writer.go:draw", "writer/standard/writer.go:Write", "writer/standard/image_option.go:backgroundColor", "writer/standard/image_option.go:translateToRGBA", "writer/standard/image_option_api.go:WithBgTransparent"]}
{"id": "C90", "title": "The example programs make readable files", "statement": "The programs in /repo/example, run as they are, finish without an error and leave, in the files they name and in no others, pictures from which a reader of single pixels gets the content (with error correction where there is a logo); they complain and change nothing if they cannot.", "quantifier": "the functions of example.go: every content that New accepts; all programs: every file system (files that exist, that may be read or created, links between names), every fair schedule of the goroutines of New, every JPEG codec within the stated bound per channel and every PNG codec, any logo and halftone picture, every rasterizer of circles", "why_tests_cant": "The examples are not tests: CI does not run them, and nobody reads their pictures back; their files depend on the file system, on the schedule and on the codec.", "anchors": ["example/example.go:main", "example/simple/main.go:main", "example/migrating-from-v1/main.go:v2", "example/with-custom-shape/main.go:main", "example/with-gradient-color/main.go:main", "example/with-halftone/main.go:main", "example/with-logosize-multiplier/main.go:main", "example/with-minimum-version/main.go:main", "example/assemble-shape/main.go:main", "example/use-file-writer/main.go:main", "example/use-terminal-writer/main.go:main"]}
{"id": "C91", "title": "How large a logo may be", "statement": "A picture may be covered wherever error correction makes up for it: if in no block more than half as many code words as it has error-correction code words have a hidden module, and at most three modules of the first copy of the format word are hidden, the text is read and nothing else. In particular, with borders of up to two modules, every logo that WithLogoSizeMultiplier(m) lets through leaves the text readable if m is at least: 10 at level Low (7 from version 3 on), 6 at Medium (5 without borders, and but for versions 2 and 4), 5 at Quart (4 from version 3 on), 5 at Highest (4 from version 3 on, 3 from version 4 on but for 13).", "quantifier": "all texts, versions 1 to 40, all sets of hidden modules; all logos (size, contents, with or without safe zone), block widths, shapes, gradients, halftone pictures, codecs within the stated bound", "why_tests_cant": "Which modules a logo hides depends on its size, the version and the borders, and what is left of a block on the interleaving of that version and level; tests read back a few pictures.", "anchors": ["writer/standard/image_option.go:WithLogoSizeMultiplier", "writer/standard/image_option.go:WithLogoSafeZone", "writer/standard/writer.go:validLogoImage", "writer/standard/writer.go:draw", "encoder.go:Encode"]}
{"id": "C92", "title": "Logos cut out of a bigger picture", "statement": "A logo given to WithLogoImage need not have bounds that start at the origin (image.Image: a part of a picture taken with SubImage): it is shown in the middle like any other, inside the picture, away from the finder patterns.", "quantifier": "all logos with any bounds, all symbols, all option settings", "why_tests_cant": "Tests use decoded files, whose bounds start at the origin; where a logo lands depends on its bounds, the version and the borders.", "anchors": ["writer/standard/writer.go:draw", "writer/standard/image_option.go:WithLogoImage", "writer/standard/writer.go:validLogoImage"]}
{"id": "C93", "title": "The programs of the issues make readable files", "statement": "The programs kept in .issues, run as they are, finish without an error and leave readable pictures through the compressed writer, whatever was in the files before: issue 69's text of 158 characters (as the program says) as one alphanumeric segment of a version 10 symbol in two files, issue 106's three ideographs as one kanji segment with their Shift-JIS codes in a version 1 symbol; each module is one pixel and the quiet zone four. No other file changes. If a file cannot be created the program panics, and what was written before is there.", "quantifier": "every file system (including longer old files and links between names, as long as issue 69's two names are two files), every fair schedule of the goroutines of New, every PNG codec whose decoder stops at the end of the picture, every Shift-JIS conversion that agrees with the table of C87", "why_tests_cant": "The programs are not tests: nobody runs them in CI or reads their pictures back, and their files depend on what was there before, on the schedule and on the codec.", "anchors": [".issues/69/issue.go:main", ".issues/69/issue.go:encodeWithYeqown", ".issues/69/issue.go:encodeWithYeqownCompression", ".issues/106/issue.go:main"]}
{"id": "C94", "title": "The arguments of the command line program", "statement": "The qrcode command understands every documented flag with one minus or two, with its value after an equals sign or as the next word, with its long or its short name, in any order; the last setting of a flag counts and the others have their documented defaults. The first other word is the text, whatever it is, and the three commands of cmd/qrcode/README.md leave a readable picture (or show one in the terminal). An unknown flag, or both names of one flag, is an error and no file changes.", "quantifier": "every sequence of settings in every spelling, every text and every word after it; for the README's commands every file system, fair schedule, codec within the stated bound and terminal that is large enough", "why_tests_cant": "newApp has no tests; the spellings and orders of flags, and the texts, are unbounded, and whether a word is a flag or the text depends on all words before it.", "anchors": ["cmd/qrcode/app.go:newApp", "cmd/qrcode/app.go:prepareFlags", "cmd/qrcode/app.go:parseGenerateContextFrom", "cmd/qrcode/main.go:main", "cmd/qrcode/README.md"]}
