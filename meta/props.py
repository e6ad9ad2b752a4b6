# Source of properties.jsonl and MANIFEST.json (run: python3 meta/gen.py).
# P(id, title, statement, quantifier, why, anchors, status, theorems, note)
PROPS = []
def P(id, title, statement, quantifier, why, anchors, status="planned", theorems=(), note=""):
    PROPS.append(dict(id=id, title=title, statement=statement, quantifier=quantifier,
                      why_tests_cant=why, anchors=list(anchors), status=status,
                      theorems=list(theorems), note=note))

BF = "h800/bitfield.py:BitField"

# ---------------------------------------------------------------- BitField
P("C01", "BitField constructor accepts exactly the documented configurations",
  "BitField(value, width, numbering, order) (width >= 0) raises ValueError exactly when width > 64, value > 2^width-1, numbering is not one of the four schemes or order is not one of the two orders; otherwise the new object reports back exactly that value, width, numbering and order and maxval = 2^width-1.",
  "every integer value, width >= 0, numbering and order",
  "the argument space is infinite; tests try two rejected and a handful of accepted constructions",
  [BF+".__init__", BF+".value", BF+".maxval"])
P("C02", "BitField constructor admits only representable values",
  "A BitField can be constructed only with an initial value between 0 and 2^width-1.",
  "every integer initial value and width", "needs a universally quantified rejection; a passing test only shows one rejected value",
  [BF+".__init__"])
P("C03", "Single-bit read is the documented bit, in all eight layouts",
  "For each bit ordering and numbering scheme, reading b[i] returns the bit of the stored value that the layout tables at the top of bitfield.py give to index i, for exactly the indices shown there (0..N-1 or 1..N), and raises ValueError for every other index.",
  "all 8 order/numbering combinations, all widths, all stored values, all integer indices",
  "8 layouts x unbounded widths/values/indices; tests use two layouts and a few indices",
  [BF+".__getitem__", BF+"._rindex", BF+"._shift", BF+"._checkIndex"])
P("C04", "Single-bit write changes exactly that bit",
  "For a valid index i, b[i]=1 sets and b[i]=0 clears the bit that b[i] reads and leaves every other bit of the value as it was; an invalid index raises ValueError and changes nothing.",
  "all 8 layouts, widths, in-range values, indices", "frame condition over all other bits and all values",
  [BF+".__setitem__"])
P("C05", "Slice read on MSB-left fields is the inclusive bit range",
  "On an MSB-left field of any numbering scheme, b[start:end] (inclusive, most significant first) is the unsigned number formed by exactly those bits; ranges with an invalid end point or written in the wrong direction raise ValueError.",
  "all widths, values, numbering schemes, start/end pairs", "unbounded number of ranges/values",
  [BF+".__getitem__", BF+"._checkRange", BF+"._bitmask"])
P("C06", "Slice write on MSB-left fields stores the value and preserves all other bits",
  "On an MSB-left field, assigning a fitting value v (0 <= v < 2^n) to an n-bit range makes the range read back v, and no bit outside the range changes.",
  "all widths, values, numbering schemes, ranges, fitting v", "frame property over all values and ranges",
  [BF+".__setitem__"])
P("C07", "Slices work the same on LSB-left fields (the default order)",
  "On an LSB-left (MSB-right) field - the constructor default - b[start:end] reads exactly the bits of the range and assignment to it reads back and preserves the other bits.",
  "all widths, values, numbering schemes, ranges of LSB-left fields",
  "the one existing LSB-left slice test passes although almost all ranges are wrong: the sampled data hides the fault",
  [BF+"._bitmask", BF+".__getitem__", BF+".__setitem__"])
P("C08", "A value that does not fit its bit range is rejected",
  "Assigning to an n-bit range, to a single bit or to .value raises ValueError whenever the assigned number is negative or >= 2^n.",
  "all integers, ranges, fields", "a boundary (exactly 2^n) and sign claim over all n",
  [BF+"._checkValue", BF+".__setitem__", BF+".value"])
P("C09", "Field value stays within its width over every history of fitting operations",
  "Starting from a representable value, after any sequence of bit writes, slice writes, value writes, set and clear calls (whatever indices and ranges they use, failing or not) whose assigned numbers fit, in either order and any numbering, 0 <= value <= maxval.",
  "all finite operation histories, all layouts", "unbounded histories",
  [BF])
P("C10", "A rejected BitField operation has no effect",
  "Every BitField operation that raises leaves value, width, numbering and order exactly as before.",
  "all operations, arguments and states (including out-of-range states)", "all failing inputs",
  [BF+".__setitem__", BF+".set", BF+".clear", BF+".value"])
P("C11", "set()/clear() without index and with a non-zero index",
  "set() makes every bit 1, clear() every bit 0; set(i)/clear(i) for a valid i other than 0 changes exactly bit i.",
  "all layouts, widths, values, indices != 0", "frame property over all values", [BF+".set", BF+".clear"])
P("C12", "set(i)/clear(i) touch only bit i for every valid index",
  "For every valid index i, including 0, set(i) and clear(i) change bit i only.",
  "all layouts, widths, values, valid indices", "universal frame claim", [BF+".set", BF+".clear"])
P("C13", "indices, lsb and msb describe the field",
  "indices lists every valid index exactly once, left to right as in the layout table; b[b.lsb] is the units bit and b[b.msb] the most significant bit of the value.",
  "all layouts, widths >= 1, values", "all widths", [BF+".indices", BF+".lsb", BF+".msb", BF+"._vindex"])
P("C14", "isBit / isBitSet / isBitClr agree with the bit",
  "isBitSet(i) is true iff bit i is 1, isBitClr(i) iff it is 0, isBit(i,v) iff it equals v; all three raise ValueError exactly for invalid indices; none changes the field.",
  "all layouts, values, indices", "universal", [BF+".isBit", BF+".isBitSet", BF+".isBitClr"])
P("C15", "isRangeSet is true exactly when every bit of the range is 1",
  "isRangeSet(start,end) (and isRange(start,end,1)) returns True iff all bits of the range are 1.",
  "all MSB-left fields, values, ranges", "the only tested range ends at the LSB, where the fault is invisible", [BF+".isRange", BF+".isRangeSet"])
P("C16", "isRangeClr is true exactly when every bit of the range is 0",
  "isRangeClr(start,end) returns True iff all bits of the range are 0 (isRange(start,end,0) likewise).",
  "all MSB-left fields, values, ranges", "needs mixed ranges; universal", [BF+".isRange", BF+".isRangeClr"])
P("C17", "Geometry of a field is immutable",
  "width, len(), maxval, numbering, order, indices, lsb and msb are the same after any history of operations.",
  "all histories", "unbounded histories", [BF])
P("C18", "repr is the binary numeral of the value",
  "repr(b) of a field of width >= 1 holding a representable value is exactly width characters, all '0' or '1', whose base-2 value is b.value.",
  "all widths >= 1 and values", "all values", [BF+".__repr__"])
P("C19", "An MSB-left field behaves as an array of bits over any history",
  "For any sequence of fitting operations on an MSB-left field (set/clear with an explicit index 0 excluded, see C12), every read (bit, slice, value) returns what an array of width booleans updated by the same operations would return, and operations raise exactly when the array's indices/ranges are invalid.",
  "all histories, widths, numbering schemes", "refinement over unbounded histories", [BF])

# ---------------------------------------------------------------- Word
W = "h800/word.py"
P("C20", "Word stores exactly the 48-bit integers",
  "Word(v) and w.value = v raise ValueError iff v < 0 or v >= 2^48 (leaving the word unchanged); otherwise w.value is v.",
  "all integers", "2^48 values", [W+":Word.__init__", W+":Word.value"])
P("C21", "InstructionWord packs command/A/B/C at bits 1-12/13-24/25-36/37-48",
  "For fields in 0..4095, InstructionWord(command,a,b,c).value = command*2^36 + a*2^24 + b*2^12 + c and the four properties read the fields back; conversely, after w.value = v the four properties are the base-4096 digits of v.",
  "all 2^48 field combinations", "too many combinations to enumerate", [W+":InstructionWord"])
P("C22", "InstructionWord field setters are independent",
  "Setting one field to a value in 0..4095 changes that field only; over any history of fitting setter and value writes each property reads the last value written to it.",
  "all histories of field and value writes", "unbounded histories", [W+":InstructionWord.a", W+":InstructionWord.command"])
P("C23", "InstructionWord rejects field values that do not fit 12 bits",
  "The constructor and the field setters raise ValueError for every field value outside 0..4095, so that one field can never alter another.",
  "all integers", "universal rejection; boundary 4096", [W+":InstructionWord.__init__"])
P("C24", "A rejected InstructionWord write is not observable",
  "If a field or value assignment raises, value, command, a, b and c all read as before.",
  "all states and arguments", "all failing inputs", [W+":InstructionWord"])

# ---------------------------------------------------------------- Memory
M = "h800/memory.py"
P("C25", "MemoryBank is 2048 independent 48-bit cells",
  "A new bank reads 0 everywhere; after any history of bank[i]=v, bank[i:j]=v, clear() and writes through words obtained by iteration, bank[i] is the last value written to cell i (0 if none), for every i in 0..2047.",
  "all operation histories and addresses", "unbounded histories over 2048 cells", [M+":MemoryBank"])
P("C26", "Bad memory addresses and values are rejected without effect",
  "bank[i] and bank[i]=v raise KeyError iff i is not in 0..2047; for a good address bank[i]=v raises ValueError iff v is not in 0..2^48-1; a raising single-cell assignment changes no cell.",
  "all integers i, v, all states", "infinite rejection set", [M+":MemoryBank.__getitem__", M+":MemoryBank.__setitem__"])
P("C27", "Bank slices are half-open and read/write every listed cell",
  "bank[i:j] returns the values of cells i..j-1 in order, bank[i:j]=v stores v in exactly those cells, when 0<=i, j<=2048.",
  "all bounds, states, values", "all ranges", [M+":MemoryBank.__getitem__", M+":MemoryBank.__setitem__"])
P("C28", "A failing bank slice assignment has no effect",
  "If bank[i:j]=v raises, no cell has changed.", "all bounds and values", "partial effects appear only for ranges that cross the end of the bank",
  [M+":MemoryBank.__setitem__"])
P("C29", "Iterating a bank visits all 2048 words, every time",
  "Each `for w in bank` loop visits the 2048 words in address order.", "all histories of loops and writes",
  "the existing test's second loop silently iterates over nothing", [M+":MemoryBank.__iter__", M+":MemoryBank.__next__"])
P("C30", "Modules hold independent banks and report their capacity",
  "MemoryModule has 4 and ExpansionMemoryModule 8 banks, size() is 8192 / 16384 after any history, and writes through m[i] change no other bank; m[i] raises KeyError outside the bank range; m[a:b] is the banks a to b-1, empty if b <= a, a KeyError if one of them does not exist, a TypeError if a or b is missing.",
  "all histories over all banks, all slices", "unbounded histories", [M+":MemoryModule", M+":ExpansionMemoryModule"])
P("C31", "MemoryBank.value gives access to a cell",
  "The value property of MemoryBank can be read and assigned.", "all states", "no test touches it; it can never work", [M+":MemoryBank.value"])

# ---------------------------------------------------------------- Registers
R = "h800/registers.py"
P("C32", "Register names and numbers correspond one to one",
  "registerNumber/registerName are inverse bijections between the 32 register names and 0..31; registerNumber also maps the four aliases, registerAlias is a right inverse of it that prefers aliases; everything else raises ValueError.",
  "all integers and all strings", "rejection is over all strings/integers", [R+":registerName", R+":registerAlias", R+":registerNumber"])
P("C33", "Register stores exactly the integers of its width",
  "Register(data,name,width) raises ValueError iff data is outside 0..2^width-1, or a non-empty name is not a register name or alias, or width is not 16 or 24; r.value=v likewise accepts exactly 0..2^width-1 and a rejected write changes nothing; value reads back.",
  "all integers, names, widths", "all values", [R+":Register.__init__", R+":Register.value"])
P("C34", "Register bits are numbered 1..width from the left and independent",
  "r[i] is the i-th most significant bit, r[i:j] the inclusive range; fitting writes to them change only those bits.",
  "all registers, values, indices, ranges", "all values", [R+":Register.__getitem__", R+":Register.__setitem__"])
P("C35", "RegisterGroup lookup by name and by number is the same register",
  "In a new group, g[name] and g[number] are the same object for each of the 32 registers; any other number or string raises ValueError.",
  "all keys", "rejection over all keys", [R+":RegisterGroup.__getitem__"])
P("C36", "Every name a Register may carry can be used to look it up in a group",
  "g[name] works for every name accepted by Register(), aliases included, giving the register registerNumber(name).",
  "all register names", "universal", [R+":RegisterGroup.__getitem__", R+":REGISTER_NAMES"])
P("C37", "Assigning a register into a group replaces it",
  "After g[key] = r, with key a register name or number, g[key] is r and len(g) is unchanged.",
  "all keys, groups and registers", "no test assigns; universal", [R+":RegisterGroup.__setitem__"])
P("C38", "clear() zeroes every register",
  "After g.clear() (or regs.clear()) all registers of the group (of all groups) read 0, whatever was done before.",
  "all prior histories", "depends on hidden iterator position left by earlier loops; the tests' checks after clear() run zero times", [R+":RegisterGroup.clear", R+":Registers.clear"])
P("C39", "The 8x32 registers are independent cells over any history",
  "Starting from Registers(width), after any history of value/bit/range writes, per-register clears, iteration steps and lookups, each regs[k][i] reads what an 8x32 array of cells would.",
  "all histories", "unbounded histories; aliasing", [R+":Registers", R+":RegisterGroup", R+":Register"])
P("C40", "Iterating registers visits all of them, every time",
  "Each loop over a RegisterGroup visits 32 registers in number order and each loop over Registers visits 8 groups.",
  "all histories of loops", "second loops are vacuous", [R+":RegisterGroup.__next__", R+":Registers.__next__"])
P("C41", "regs[k]=g only accepts the eight group numbers",
  "Assigning a group raises ValueError unless the key is in 0..7, and len(regs) stays 8.",
  "all integers k", "universal rejection", [R+":Registers.__setitem__"])

# ---------------------------------------------------------------- Instructions
I = "h800/instruction.py"
J = "h800/instructions.py"
P("C42", "Masked instruction encoding",
  "Each maskable class called with sequence and mask (and no A/B/C) succeeds iff sequence in {0,1} and mask in 0..31, and its value is sequence*0o4000 + mask*0o100 + 0o40 + opcode = make_masked_opcode.",
  "15 classes, all integer arguments", "rejections over all integers", [I+":Instruction.__init__", I+":Instruction._check", J+":make_masked_opcode"])
P("C43", "Unmasked instruction encoding",
  "Each maskable, general-unmasked, inherent-mask or scientific class called with sequence,a,b,c succeeds iff all four are in {0,1}, and its value is sequence*0o4000 + b23*0o1000 + a*0o400 + b*0o200 + c*0o100 + opcode = make_unmasked_opcode.",
  "all such classes, all integer arguments", "rejections over all integers", [I+":GeneralUnmasked", I+":Scientific", J+":make_unmasked_opcode"])
P("C44", "Peripheral, print and simulator encoding",
  "Peripheral classes accept exactly 0..63 and give paddr*0o100+0o40+op = make_peripheral_opcode; print classes accept exactly bits and give make_print_opcode; Simulator gives 7 + sequence*0o4000.",
  "all integer arguments", "rejections over all integers", [I+":Peripheral", I+":Simulator", J+":make_peripheral_opcode", J+":make_print_opcode"])
P("C45", "Every constructed instruction is a 12-bit command code with its opcode in bits 8-12",
  "For any opcode record and any arguments for which the Instruction constructor succeeds, 0 <= value < 4096, bits 8-12 are the opcode's op, bit 1 is the sequence if given, and every other supplied field reads back from its documented bit positions.",
  "all opcode records and all argument combinations", "all combinations incl. omitted arguments", [I+":Instruction"])
P("C46", "Invalid instruction arguments always raise ValueError",
  "The Instruction constructor raises ValueError exactly when an argument is out of range or a forbidden combination (mask with non-maskable/A/B/C/paddr, paddr with any other) is supplied.",
  "all opcode records and argument combinations", "combination space", [I+":Instruction._check"])
P("C47", "A peripheral address is only accepted by peripheral instructions",
  "Constructing an Instruction with a peripheral address and a non-peripheral opcode raises ValueError.",
  "all opcodes and addresses", "universal rejection", [I+":Instruction._check", I+":Peripheral"])
P("C48", "Distinct instructions have distinct command codes",
  "Two constructible instructions of different mnemonics (other than PRA/PRD/PRO, which share codes by design) never have the same value.",
  "all pairs of mnemonics and arguments", "test_machine_instructions leaves out the unmasked form of maskable instructions", [J+":OPCODES", J+":print_instructions"])
P("C49", "Different arguments give different codes",
  "For one mnemonic and form, the encoding is injective in its arguments.", "all argument pairs", "pairs", [I+":Instruction"])
P("C50", "Mnemonic tables are disjoint and INSTRUCTIONS lists each mnemonic once",
  "No mnemonic occurs in two of the instruction tables and INSTRUCTIONS has no duplicates; the `m` field of every opcode equals its key; op, b7, b23 are within their bit widths.",
  "all table entries", "finite, but nothing checks it", [J+":INSTRUCTIONS", J+":OPCODES"])
P("C51", "Every opcode names an existing instruction class",
  "For each entry of OPCODES the class name in its c field is a class defined in instructions.py that builds that opcode.", "all entries", "finite, untested", [J+":OPCODES"])
P("C52", "The opcode listing is sound, complete and sorted",
  "print_instructions lists each code once in increasing order; a code is listed iff some mnemonic's generator produces it, and the listed mnemonic is one of those; the output is byte for byte h800/opcodes.txt.",
  "all 4096 command codes", "relates a generated artefact with the encoder", [J+":print_instructions", "h800/opcodes.txt"])
P("C53", "Assembly-control pseudo-instructions can be constructed",
  "AssignTag, End, Equals, ... can be instantiated with (mnemonic, a, b, c).", "all arguments", "no test constructs one", [I+":PseudoInstruction", I+":AssemblyControl"])
P("C54", "Constants hold exactly the 48-bit integers",
  "Each constant class (ALF, DEC, ...) raises ValueError iff data is outside 0..2^48-1, otherwise value is data.", "all integers", "2^48 values", [I+":Constant"])
P("C55", "Assembled words decode to their instruction",
  "For any constructible instruction i and 12-bit addresses, InstructionWord(i.value,a,b,c) has command i.value, and the instruction's fields can be recovered from the 48-bit value.",
  "all instructions and addresses", "combination space", [W+":InstructionWord", I+":Instruction"])

P("C96", "Every encoding is the documented bit diagram",
  "For every instruction class, the value of a successfully constructed instruction is the 12-bit diagram printed for its mnemonic in the table at the top of instructions.py (s, mask, a, b, c and peripheral-address columns filled in, x columns zero), for the masked, unmasked, print, peripheral, simulator (direct/indexed) and Proceed forms.",
  "all classes of the table, all accepted arguments", "80 diagrams times all operand values; nothing compares the table with the encoder",
  [J+":OPCODES", I+":Instruction.__init__"])

# ---------------------------------------------------------------- Cards
K = "h800/punchcard.py"
A = "h800/arguscard.py"
P("C56", "Card fields partition the card columns",
  "For a non-comment line and any strictly increasing field list starting at column 1 and staying within the card width, the raw fields concatenate to the first `width` characters of the line, and field k consists of columns fields[k]..fields[k+1]-1.",
  "all lines, widths, layouts", "all lines and layouts", [K+":PunchCard.__init__"])
P("C57", "Stripped fields and record mirror the raw fields",
  "strippedFields[k] is fields[k] without surrounding white space, or None if blank; record maps each field name to it, plus linenum iff nonzero.",
  "all lines, layouts, names", "all lines", [K+":PunchCard.__init__", K+":PunchCard.record"])
P("C58", "Line terminators do not matter to the record",
  "A card made from line+'\\n' has the same record, stripped fields and line as the card made from line.", "all newline-free lines, both card classes", "all lines", [K+":PunchCard", A+":Card"])
P("C59", "Comment cards carry no record",
  "PunchCard of a line starting with '#' is a comment: comment returns the line, and fields/strippedFields/record raise AttributeError; ARGUS Card cannot be constructed from such a line.", "all '#' lines", "all lines", [K+":PunchCard.isComment", A+":Card.__init__"])
P("C60", "Remark cards keep the whole remark text",
  "For an ARGUS card with P, R or L in column 1, remarks is the text from column 9 to the end of the line, stripped.", "all lines", "universal over texts", [A+":Card.__init__"])
P("C61", "Remark cards have no label, operation or operands",
  "For an ARGUS card with P, R or L in column 1: label, operation, instruction, operands and misc are None; lognum, column1 and column8 are unaffected. On all other cards these are the stripped fields.", "all lines", "all lines", [A+":Card.__init__"])
P("C62", "instruction is the operation up to the first comma",
  "card.instruction is None iff operation is None; otherwise the operation text before its first comma, stripped.", "all lines", "all lines", [A+":Card.instruction"])
P("C63", "A deck built from lines has one card per non-comment line",
  "Deck(lines).cards are the cards of the lines not starting with '#', in order, each with its 1-based position in lines; fields, strippedFields and records are parallel to cards.", "all line lists", "all lists", [K+":Deck.__init__"])
P("C64", "A deck built from a file is the in-order expansion of its includes",
  "If reading succeeds, the cards are the file's lines in order, '#' lines dropped, each '$' line replaced by the expansion of the named file; every card carries the name and 1-based line number of the file it came from. With an acyclic, complete include structure reading succeeds.", "all file systems and include trees", "arbitrary nesting", [K+":Deck._readSource"])
P("C65", "Reading a source file always terminates",
  "Deck(file=f) terminates with a deck or an error message for every file system, including cyclic includes.", "all file systems", "cycles of any length", [K+":Deck._readSource"])
P("C66", "Missing files stop the run",
  "A missing source file, or a missing include reached during reading, exits; no deck is produced.", "all file systems", "position of the include in any nesting", [K+":Deck._readSource"])
P("C67", "File mode and line mode agree",
  "For a file without '$' lines, Deck(file=f) and Deck(lines of f) have the same records, fields and cards up to the file name.", "all file contents", "all contents", [K+":Deck"])
P("C68", "The log section is that of the first L card",
  "log_section / log_section_col8 come from the first card with L in column 1 (columns 9-81 stripped, column 8), None if there is no such card.", "all decks", "all decks", [A+":Deck.__init__"])
P("C69", "str(deck) reproduces the card lines",
  "str(deck) is the cards' lines joined by newlines.", "all decks", "all decks", [K+":Deck.__str__"])

# ---------------------------------------------------------------- Symbols
S = "h800/symbol_table.py"
P("C70", "SymbolTable keeps the first definition",
  "After any history of add calls, lookup(name) is the entry of the first add with that non-empty name (None if there was none), getNumSymbols counts the distinct names.", "all histories", "unbounded histories", [S+":SymbolTable.add", S+":SymbolTable.lookup"])
P("C71", "undefines lists exactly the symbols added without a value",
  "After any history of add/resolve/prune/lookup calls, undefines are the names whose first add had value None, each once, in order of definition.", "all histories", "unbounded histories", [S+":SymbolTable.undefines"])
P("C72", "SymbolTable.update changes a defined symbol",
  "update(name, value, symtype) on a defined symbol stores the new value.", "all tables and values", "no test; can never work", [S+":SymbolTable.update", S+":SymbolTableEntry.value"])
P("C73", "resolve terminates and keeps the table",
  "resolve(maxPasses) always terminates, after at most maxPasses passes, never touches the symbol entries; in every table reached through add it stops after one pass reporting the number of undefined symbols.", "all histories and maxPasses", "unbounded", [S+":SymbolTable.resolve"])
P("C74", "pruneUndefines removes every defined symbol from the undefined list",
  "After pruneUndefines no symbol with a value remains in undefines (and no other symbol was removed).", "all tables", "list mutation while iterating skips elements only for adjacent entries", [S+":SymbolTable.pruneUndefines"])
P("C75", "Entry kinds are exclusive",
  "No SymbolTableEntry is ever both absolute and complex (isMultiple is always False); isValid iff a value was given.", "all constructor arguments", "universal", [S+":SymbolTableEntry"])
P("C76", "buildSymbolTable records every well-formed label",
  "After building a file whose segment name is not simple or complex (into a table without such segments, e.g. one built from such files), each non-'*' card with a well-formed label and an operation is found in the table under its tag, the file's segment, the current subsegment and its kind (complex for ASSIGN, simple otherwise); the entry stored is that of the last such card.", "all decks and prior tables", "all decks", [S+":buildSymbolTable"])
P("C77", "The error count counts exactly the ill-formed labels",
  "For a segment name other than simple/complex, the returned error count is the number of labelled non-'*' cards whose label has lower-case letters, more than one comma, an unknown or unsupported prefix, or which have no operation.", "all decks", "all decks", [S+":buildSymbolTable"])
P("C78", "Multiply-defined symbols are reported",
  "If two cards of the same subsegment define the same tag with the same kind (and are not equivalent EQUALS), the error count is positive.", "all decks", "universal; no test", [S+":buildSymbolTable"])
P("C79", "Building never loses or alters unrelated definitions",
  "Definitions for other tags, segments, subsegments or kinds in the table passed in are unchanged by building another file.", "all tables and decks", "frame property", [S+":buildSymbolTable"])
P("C80", "Subsegment tracking",
  "Every definition in the table for the file's segment was there before or comes from the last card defining it, and the subsegment it is stored under is determined by the last non-'*' SETLOC card at or before it: the text after its first comma up to the next, '0' if none, '1' before any SETLOC.", "all decks", "all decks", [S+":buildSymbolTable"])
P("C81", "checkSymbolTable reports exactly the complex-only symbols",
  "With complexOnlyError it returns, sorted, exactly the symbols having a complex but no simple definition; without it, none.", "all tables", "all tables", [S+":checkSymbolTable"])
P("C82", "getAbsoluteSymbols lists every symbol with a simple definition",
  "It returns, sorted and without duplicates, exactly the symbols that have a simple definition in some segment.", "all tables", "a sticky flag only shows with several segments", [S+":getAbsoluteSymbols"])
P("C83", "findSymbolDef matching",
  "Exact search returns the symbol's definitions or None; begin/end search returns, sorted, exactly the symbols having that prefix/suffix; fuzzy search only proposes symbols with a simple definition.", "all tables and names", "all tables", [S+":findSymbolDef"])
P("C84", "buildSymbolTable never aborts",
  "For every readable deck buildSymbolTable returns a table and an error count.", "all decks and file names", "depends on the file's own name", [S+":buildSymbolTable"])

P("C97", "Printed symbol tables are complete and ordered",
  "After any history printTable prints every defined symbol's entry exactly once in ascending name order and then the entries of the undefined ones, if any; printUndefs prints their number and their entries.", "all histories", "all histories", [S+":SymbolTable.printTable", S+":SymbolTable.printUndefs"])

# ---------------------------------------------------------------- Tools
P("C85", "genlines prints equally spaced, equally wide line numbers",
  "For step >= 1, the printed numbers are start, start+step, ..., each zero-filled to the common width in columns startcol.., and every printed line has length endcol+1 when the number fits.", "all arguments", "all arguments", ["tools/genlines.py:main"])
P("C86", "genlines never prints a number beyond end",
  "No printed number exceeds `end`.", "all arguments", "needs step not dividing the span", ["tools/genlines.py:main"])
P("C87", "check-instructions accounts for every instruction card",
  "instruction cards = skipped '*' cards + invalid cards + the sum of the per-mnemonic counts; errors = invalid cards; the --invalid option never changes the error count.", "all decks", "all decks", ["tools/check-instructions.py:main"])
P("C88", "list-instructions prints exactly the matching cards",
  "With opcode X it prints the non-'*' cards whose operation (blanks removed) is X, X with a mask when X has no comma, or begins with X when X ends in a comma, in order.", "all decks and opcodes", "all decks", ["tools/list-instructions.py:main"])
P("C89", "parse reports the total number of errors",
  "The error total printed by parse.py is the sum of the symbol errors of all files and the invalid instructions.", "all file lists", "needs several files", ["tools/parse.py:main"])
P("C90", "listing writes one line per card to a file derived from the source name",
  "The listing has exactly one line per card in order, and different sources get different listing files.", "all sources", "all names", ["tools/listing.py:main"])
P("C91", "genpages appends one numbered block per page",
  "The appended text has one L line and one block per page of the range, with page numbers start..end and own page numbers 1..n. It fails exactly when the file has no section header or no pages, the range is empty, or a header or page line is malformed.", "all inputs", "all ranges, all malformed files", ["tools/genpages.py:main"])
P("C92", "CHARSET covers all six-bit codes",
  "CHARSET has exactly the keys 0..63; digits and letters are in order; only the blank is the image of more than one code.", "all codes", "finite, untested", ["h800/charset.py:CHARSET"])
P("C93", "Context.save then load restores the assembler position",
  "Loading a record just saved restores linenum, global_linenum, code, srcline, loc, coloc, bank and messages, and touches nothing else; reset clears position but keeps error counts.", "all contexts and records", "all states", ["h800/context.py:Context"])
P("C94", "Context can be created",
  "Context(listfile, binfile, options) returns an object.", "all arguments", "no test", ["h800/context.py:Context.__init__"])
P("C95", "Assembler.resolve terminates within maxPasses",
  "resolve stops after at most maxPasses passes, reports success only when no parseable record is incomplete.", "all record lists", "unbounded", ["h800/assembler.py:Assembler.resolve"])
P("C98", "The section card appended by genpages reads back unchanged",
  "Reading genpages' output finds the same section name and the same column 8 as the source it was made from.", "all sources genpages accepts", "needs a section card with a blank column 8", ["tools/genpages.py:main"])
P("C99", "check-instructions --count reports the frequency of every mnemonic",
  "For every deck --count prints the number of source lines, the total and one row per known mnemonic with the number of instruction cards that carry it; --sort orders the rows by falling count, otherwise they are in name order; --unused lists exactly the mnemonics with count 0.", "all readable file lists, all options", "all decks, including the empty one", ["tools/check-instructions.py:main"])
P("C100", "check-symbols reports the total number of errors",
  "The total is the sum over the files of their ill-formed labels plus the number of symbols listed, and with --complex-only the listed symbols are exactly those with a complex and no simple definition, each once, in ascending order.", "all readable file lists whose names do not begin with simple. or complex.", "needs several files", ["tools/check-symbols.py:main"])
P("C101", "find-symbols finds partial matches by default",
  "Without options find-symbols finds the symbols that contain the text (--exact asks for an exact match instead); --begin and --end find exactly the symbols that begin or end with it; conflicting options are refused.", "all readable file lists and all texts", "all tables", ["tools/find-symbols.py:main"])
P("C102", "list-symbols prints every definition exactly once, in order",
  "The listing has one line for each definition in force (symbol, segment, subsegment, kind), ordered by these four names, under one heading per symbol, per segment of a symbol and per subsegment of a segment.", "all readable file lists whose names do not begin with simple. or complex.", "unbounded tables with four levels of nesting", ["tools/list-symbols.py:main"])
P("C103", "Context.save works on every context",
  "After reset (or on a context that was never loaded) save stores the position into any record without raising.", "all contexts and records", "needs a context on which coloc was never set", ["h800/context.py:Context.save", "h800/context.py:Context.reset"])
P("C104", "setLoc and setCoLoc move the location counter",
  "setLoc(address) sets loc and setCoLoc(address) sets coloc to a valid address unless the context is reparsing, and changes nothing else.", "all contexts and addresses", "all states", ["h800/context.py:Context.setLoc", "h800/context.py:Context.setCoLoc"])
P("C105", "A saved record is a snapshot",
  "What the context does after save does not change the saved record.", "all contexts, records and later actions", "needs aliasing between context and record", ["h800/context.py:Context.save"])
P("C106", "createSymbolTable accumulates the definitions of several files",
  "After createSymbolTable for a list of files the table holds exactly the definitions in force of all of them, and nothing else of the assembler changed.", "all readable file lists whose names do not begin with simple. or complex.", "unbounded file lists", ["h800/assembler.py:Assembler.createSymbolTable"])
P("C107", "assemble leaves symbols, records and errors alone",
  "assemble(srcfile) returns exactly when the file can be read and changes nothing but the source name and the line number.", "all assemblers and files", "all states", ["h800/assembler.py:Assembler.assemble"])
P("C108", "A field can be iterated like a sequence",
  "list(field), 'for bit in field', 'x in field' and reversed(field) go over the bits of a BitField (or a Register) in index order and end normally.",
  "all fields of every width, numbering, order and value", "the outcome depends on the layout and on every bit; a test fixes one field",
  ["h800/bitfield.py:BitField.__getitem__", "h800/bitfield.py:BitField.__len__", "h800/registers.py:Register.__getitem__"])
P("C109", "Registers and memory print as octal numerals of their values",
  "repr of a register is 0o and its value in octal with at least six characters (a minus sign first, should the value be negative) and no superfluous leading zero; repr of a bank is the 2048 cells in address order, sixteen digits each, followed by blanks; repr of a group is its 32 registers in number order; repr of the register file is one line [k] per group. The text determines the values.",
  "all registers, all banks and register files after any history of calls", "all values and histories; the text of a whole bank is 38912 characters",
  ["h800/registers.py:Register.__repr__", "h800/registers.py:RegisterGroup.__repr__", "h800/registers.py:Registers.__repr__", "h800/memory.py:MemoryBank.__repr__"])
P("C110", "len, int and truth value of a field",
  "len(field) is its width, int(field) and its use as an index are its value, and bool(field) tells whether the value is non-zero.",
  "all fields after any history of calls", "all values and histories",
  ["h800/bitfield.py:BitField.__len__", "h800/bitfield.py:BitField.__int__", "h800/bitfield.py:BitField.__index__"])
P("C111", "Memory modules can be iterated and banks searched",
  "list(module) gives its banks in order; 'v in bank' tells whether a cell of the bank holds v and leaves the bank as it was; reversed works on modules, banks and register groups.",
  "all modules, banks and groups after any history of calls", "unbounded histories; depends on the hidden iteration cursor",
  ["h800/memory.py:MemoryModule.__getitem__", "h800/memory.py:MemoryBank.__next__", "h800/registers.py:RegisterGroup.__getitem__"])
P("C112", "buildSymbolTable says what is wrong with every faulty label",
  "For every card with a faulty label buildSymbolTable prints, in card order, one error line that names the symbol and the reason that applies (case, too many commas, tag prefix, unsupported prefix, no operation), and none for other cards; the number of error lines is the returned error count.",
  "all source files, tables and label texts; the wording for file names that do not begin with simple. or complex.", "unbounded card lists and label texts; the reasons overlap and their priority matters",
  ["h800/symbol_table.py:buildSymbolTable"])
P("C113", "A failing buildSymbolTable leaves the caller's table alone",
  "When buildSymbolTable (or Assembler.createSymbolTable) raises an exception the symbol table is what it was before the call.",
  "all source files and tables", "needs a failure in the middle of a file; unbounded tables",
  ["h800/symbol_table.py:buildSymbolTable", "h800/assembler.py:Assembler.createSymbolTable"])
P("C114", "The check-symbols report is complete",
  "check-symbols prints the error lines of each file followed by their number, then one line for each complex-only symbol, then for each of these symbols the suggestions (symbols with a simple definition) or that there are none, then their number, and with more than one file the total of all error lines.",
  "all readable file lists whose names do not begin with simple. or complex., every behaviour of the fuzzy matcher", "needs several files; the counts depend on all cards",
  ["tools/check-symbols.py:main", "h800/symbol_table.py:checkSymbolTable", "h800/symbol_table.py:findSymbolDef"])
P("C115", "str(context) describes the context",
  "str(context) returns a text for every context.", "all contexts, whatever attributes have been set", "all attribute states",
  ["h800/context.py:Context.__str__"])
P("C116", "find-symbols says whether it found the symbol",
  "find-symbols prints the definitions or matching names it found, and an error line when there are none.", "all readable file lists whose names do not begin with simple. or complex., all texts and options", "all tables",
  ["tools/find-symbols.py:main", "h800/symbol_table.py:findSymbolDef"])
P("C117", "--verbose changes nothing but the progress messages",
  "Running a tool (or building a deck) with verbose gives the same result, the same files written and the same output with some progress messages added: Reading FILE..., Skipping meta-comment, Skipping card with * in column 8 (with the card) and Wrote listing file. No other line appears, disappears or moves, also when the run fails.",
  "all tools, options, file systems and file lists", "a relation between two runs over every input; a test compares a few outputs",
  ["h800/punchcard.py:Deck._readSource", "tools/check-instructions.py:main", "tools/list-instructions.py:main", "tools/parse.py:main", "tools/check-symbols.py:main", "tools/find-symbols.py:main", "tools/list-symbols.py:main", "tools/listing.py:main"])
P("C118", "A missing source or include file is named",
  "Reading a source file from which a missing file is reached by $ lines ends the program with one message on stderr that names the first file (in reading order) that does not exist; without verbose nothing else is printed, and with verbose exactly the progress messages up to that point. The program ends in this way in no other case.",
  "all file systems, include trees and source files", "unbounded include trees; the file named depends on reading order",
  ["h800/punchcard.py:Deck._readSource"])
P("C119", "The progress messages describe what was read",
  "With verbose, reading a source prints one Reading line for the file and for every included file when it is opened, and one Skipping meta-comment line with file and line number for every # line, in reading order; nothing is printed without verbose.",
  "all readable sources, all line lists", "unbounded include trees and files",
  ["h800/punchcard.py:Deck._readSource", "h800/punchcard.py:Deck.__init__"])
P("C120", "The output of parse is determined by the cards",
  "parse prints for each file the faults of its labels and their number, then file by file and card by card each instruction card when debugging, a note for each card with an asterisk when verbose, and the error lines for each unknown mnemonic, then the number of cards and the number of errors: those of the last file's table plus the unknown mnemonics. If a file is missing, the output is that of the files before it, and the message.",
  "all file lists whose names do not begin with simple. or complex., all options", "the whole transcript for unbounded inputs",
  ["tools/parse.py:main"])
P("C121", "The output of check-instructions is determined by the cards",
  "check-instructions prints, file by file and card by card, each instruction card when asked, a note for each card with an asterisk when verbose and the error lines for each unknown mnemonic; then, when asked, the number of cards, the total and one line per mnemonic with its frequency, and the unused mnemonics in order; then the number of errors. If a file is missing, the output is that of the files before it, and the message; if frequencies are asked for without the unused mnemonics and no card has an instruction, it ends after the total with ZeroDivisionError.",
  "all file lists and options", "the whole transcript for unbounded inputs",
  ["tools/check-instructions.py:main"])
P("C122", "Making an instruction prints nothing",
  "Calling an instruction class (BinaryAdd(...), ReadForward(...), ...) makes an object and has no other effect.",
  "all classes and arguments", "all arguments; the unit tests ignore stdout",
  ["h800/instruction.py:Instruction.__init__", "h800/instructions.py:BinaryAdd.__init__"])
P("C123", "What a command line means",
  "The command line of a tool is understood exactly when every word before -- is an argument, a group of declared letters (-vd) or a declared name or unambiguous beginning of one (--verb); then the options turned on and the arguments are those of the words in order. It prints the help exactly when -h or --help (or an unambiguous beginning) is reached before anything wrong, and is a usage error in all other cases.",
  "all command lines and option tables", "unbounded word lists; abbreviations and letter groups interact with every option declared",
  ["tools/check-instructions.py:main", "tools/parse.py:main", "tools/find-symbols.py:main"])
P("C124", "Options can stand anywhere",
  "Putting an option word at any place before -- in a command line adds exactly its options and changes nothing about the arguments; a command line without words that begin with a dash turns nothing on and passes all words as arguments, and -- passes everything after it.",
  "all command lines, positions and option tables", "all positions in unbounded word lists",
  ["tools/check-instructions.py:main", "tools/parse.py:main"])
P("C125", "A tool's options turn on what they are called after",
  "Each tool runs with exactly the switches whose options occur on its command line (in any spelling, order or number) and with the arguments in order; two command lines with the same options and arguments do the same.",
  "all tools, command lines and file systems", "all spellings and orders of all options",
  ["tools/check-instructions.py:main", "tools/check-symbols.py:main", "tools/find-symbols.py:main", "tools/list-instructions.py:main", "tools/list-symbols.py:main", "tools/listing.py:main", "tools/parse.py:main", "tools/genlines.py:main", "tools/genpages.py:main"])
P("C126", "genlines accepts every step that range accepts",
  "genlines START END STEP prints START, START+STEP, ... for every non-zero step, also for a negative one.",
  "all starts, ends and steps", "all numbers; needs the option parser",
  ["tools/genlines.py:main"])
P("C127", "genpages only appends, and only on success",
  "A run of genpages either succeeds and appends to the named file, keeping its old content and all other files, or fails and changes no file.",
  "all file systems and argument lists", "all contents, successful and failing",
  ["tools/genpages.py:main"])
P("C128", "Which numbers the tools accept",
  "A number on the command line of genlines, or in the page lines read by genpages, is a decimal literal: optional white space, an optional sign, digits with single underscores allowed between digits, optional white space. It stands for the number written. Every other text raises ValueError.",
  "all texts", "all texts; signs, blanks and underscores combine freely",
  ["tools/genlines.py:main", "tools/genpages.py:main"])
P("C129", "genlines for every argument list",
  "genlines START END [STEP [FIRST [LAST]]] with numbers of at most six characters and a non-zero step prints exactly START, START+STEP, ... as long as the number lies before END+STEP (in the direction of the step), each in its columns and zero-padded to at least four digits or the length of END; with fewer than two arguments or longer numbers it exits with the usage, with a text that is not a number or step 0 it raises ValueError, and nothing else can happen.",
  "all argument lists", "all numbers of any size and sign",
  ["tools/genlines.py:main"])
P("C130", "Wrong use ends the program before anything is read",
  "A tool called without the arguments it needs, find-symbols with two kinds of match at once, and list-instructions with an unknown mnemonic exit at once, print nothing on the way, and change no file, whatever options are given.",
  "all command lines and file systems", "all spellings and orders of the options",
  ["tools/check-instructions.py:main", "tools/check-symbols.py:main", "tools/find-symbols.py:main", "tools/list-instructions.py:main", "tools/list-symbols.py:main", "tools/listing.py:main", "tools/parse.py:main", "tools/genlines.py:main", "tools/genpages.py:main"])
P("C131", "Without --verbose a tool prints its report and nothing else",
  "A run of a tool without --verbose whose files all exist prints the faults of the labels, if the tool reads labels, and exactly the lines of its report on stdout, in order; if the report cannot be made, the run ends with the same exception.",
  "all file lists, options and file systems", "unbounded inputs; every message of the code has to be excluded",
  ["tools/check-instructions.py:main", "tools/check-symbols.py:main", "tools/find-symbols.py:main", "tools/list-instructions.py:main", "tools/list-symbols.py:main", "tools/listing.py:main", "tools/parse.py:main"])
P("C132", "What a symbol table prints",
  "Any sequence of calls of add, update, lookup, pruneUndefines and resolve on a new SymbolTable prints exactly: one error line for each add of a name added before; for each pruning the number of undefined names and that none was removed; for each resolve with a positive limit either that all symbols are resolved or one attempt for each undefined name in order of addition and that there is no progress; and nothing else. On a table changed by hand pruning prints one line for each name it removes, in order, and their number.",
  "all sequences of calls, all tables", "unbounded sequences of calls; the unit tests do not look at the output",
  ["h800/symbol_table.py:SymbolTable.add", "h800/symbol_table.py:SymbolTable.pruneUndefines", "h800/symbol_table.py:SymbolTable.resolve"])
P("C133", "Which input a deck uses",
  "A Deck given both lines and the name of a file is the deck of the file: the lines have no effect. An empty file name counts as no file: with lines the deck has the same cards, fields and records as without a file name, apart from the name of the file kept in the cards, and without lines the constructor raises TypeError instead of reporting that there is no input.",
  "all lines, file names, file systems, layouts and both card classes", "unbounded inputs; the two arguments are only tested one at a time",
  ["h800/punchcard.py:Deck.__init__", "h800/arguscard.py:Deck.__init__"])
P("C134", "Running genpages again changes nothing",
  "A file that genpages has already annotated with its section card and page headings is not changed by running genpages on it again, however often.",
  "all file contents genpages accepts, any number of runs", "the effect of one run is the input of the next; needs every content and every number of runs",
  ["tools/genpages.py:main"])
P("C135", "Every complaint about a symbol shows the definition it is about",
  "After each complaint buildSymbolTable prints the definition that the card would have made: its file, line, log number and tag type (None for a label with small letters, as the tag type is not known yet); for a multiply defined symbol it prints all definitions already in the same segment and subsegment before it, and the operation after it. The table and the error count do not depend on this output.",
  "all source files, tables and ways to show strings and cards", "the text depends on the whole table and on every way a label can be wrong; the unit tests do not look at the output",
  ["h800/symbol_table.py:buildSymbolTable"])
P("C136", "The classes for the forms of instructions check and encode their own arguments",
  "GeneralMasked, GeneralUnmasked, Scientific, Peripheral and Simulator accept, for every opcode description, exactly the arguments in range for their form (a mask only with a maskable opcode) and raise ValueError otherwise. The value of an accepted instruction has the sequence bit, mask or address bits, peripheral address and opcode of its form in the documented columns and zeros elsewhere.",
  "all opcode descriptions and all arguments, present or None", "five classes times all opcode descriptions and arguments, including ones no table entry has",
  ["h800/instruction.py:GeneralMasked.__init__", "h800/instruction.py:GeneralUnmasked.__init__", "h800/instruction.py:Peripheral.__init__", "h800/instruction.py:Simulator.__init__", "h800/instruction.py:Scientific.__init__"])
P("C137", "The rates printed by check-instructions are correctly rounded",
  "In the table that check-instructions --count prints, the rate of each instruction is a number of percent with two decimals, right-aligned in six columns, and no such number is closer to its count divided by the total (for up to 2^35 instructions; beyond that the error exceeds half a hundredth by at most 1e-11 hundredths). A larger count never prints a smaller rate, no instruction prints 0.00 and all of them print 100.00.",
  "all sources, all options with --count, all counts and totals", "the rate is computed with rounded floating-point operations and rounded again to two decimals; an error shows only for particular pairs of numbers, out of unboundedly many",
  ["tools/check-instructions.py:main"])
P("C138", "What list-instructions prints is determined by the cards",
  "With --verbose the tool reports how each file is read, and for each card with an operation and an asterisk in column 8 it says that the card is skipped and shows where it is and its text. Every other card whose operation matches the opcode asked for is printed, with its position if --details is given. Nothing else is printed, in the order of files and cards. If a file cannot be read, everything about the files before it has been printed, then the message about it. An unknown opcode prints nothing but the usage message.",
  "all sources, opcodes, options and lists of files, read completely or not", "the output is a function of all cards of all files and their includes; tests can compare only the outputs of given files",
  ["tools/list-instructions.py:main", "h800/punchcard.py:Deck._readSource"])
P("C139", "Listings are written one after the other, each from the files as they are then",
  "For each file in turn, listing reads it (with the listings written before in place), writes the listing under the name with the extension replaced, one line per card, and changes no other file. With --verbose it reports how the file is read and then where the listing is; otherwise it prints nothing. When a file cannot be read it prints the message about it and stops, and the listings of the files before it stay.",
  "all file systems, all lists of files, including ones that include or overwrite listings", "a listing written for one argument can be read again for a later one, so the result depends on the order of all arguments and on all contents",
  ["tools/listing.py:main", "h800/punchcard.py:Deck._readSource"])
P("C140", "What the symbol tools print is determined by the cards, with and without --verbose",
  "check-symbols, find-symbols (without --begin, --end and --fuzzy) and list-symbols first say for each file how it is read (with --verbose), then the complaints about it, each with the definition it is about, then (not list-symbols) their number. After that follow: for check-symbols the symbols with only complex definitions, the suggestions for them and the totals; for find-symbols the answer, or a message if the symbol is not defined; for list-symbols all definitions, sorted, and the number of errors if there were any. If a file cannot be read, the report about the files before it and the message about that file are all that is printed.",
  "all sources whose segments are not named like kinds of symbols, all lists of files, all options", "the output depends on all cards of all files, on the order of the complaints, and on which files can be read; tests can compare only the outputs of given files",
  ["tools/check-symbols.py:main", "tools/find-symbols.py:main", "tools/list-symbols.py:main", "h800/symbol_table.py:buildSymbolTable"])

P("C141", "find-symbols prints the definitions of the symbol, or the names found",
  "Without --begin, --end and --fuzzy, find-symbols prints one line for a symbol that is defined: a dictionary with the segments in the order in which the files define the symbol, for each the subsegments in order, for each the kinds in order, with the last definition of that kind; nothing else is in it, and the text is determined by the cards. With --begin or --end it prints the sorted list of the defined names that begin or end with the symbol, and with --fuzzy the list of the matches that the matcher finds among the candidates; nothing is printed for an empty list.",
  "all sources whose segments are not named like kinds of symbols, all lists of files, all symbols, all matchers", "the order of the definitions depends on all cards of all files; the repository has no test of the tool",
  ["tools/find-symbols.py:main", "h800/symbol_table.py:findSymbolDef", "h800/symbol_table.py:buildSymbolTable"])

P("C142", "A wrong command line is refused with its reason, and only that",
  "Every tool answers a wrong command line with exit status 2 and three lines on stderr (how to call it, an empty line, and the tool's name with the reason), having read and written nothing: an unknown letter or name, an ambiguous abbreviation (with the sorted candidates), a value for an option that takes none, no file, conflicting ways to match, an invalid opcode, numbers of more than six digits, a missing file, an unknown section or page numbers that decrease. The first wrong option counts, a request for help before it prints the help with status 0, and status 2 has no other cause. Reasons written by the tools keep the characters %prog. For every other command line the tool runs with exactly the options and arguments that were given.",
  "all nine tools, all command lines, all programme names, all file systems", "the set of command lines is infinite; the repository has no tests of the tools",
  ["tools/check-instructions.py:main", "tools/check-symbols.py:main", "tools/find-symbols.py:main", "tools/list-instructions.py:main", "tools/list-symbols.py:main", "tools/listing.py:main", "tools/parse.py:main", "tools/genlines.py:main", "tools/genpages.py:main"])
P("C143", "The exit status tells whether errors were found",
  "A tool that finds errors in the sources ends with an exit status other than 0, and a tool that finds none with 0.",
  "all tools that read sources, all command lines that are not wrong, all file systems", "the status depends on all cards of all files; the repository has no tests of the tools",
  ["tools/check-instructions.py:main", "tools/check-symbols.py:main", "tools/find-symbols.py:main", "tools/list-instructions.py:main", "tools/list-symbols.py:main", "tools/listing.py:main", "tools/parse.py:main"])

P("C144", "Line ends do not matter",
  "A text file is read as the same lines whether they end with a line feed, a carriage return or both, and the last line may lack its end. Files that differ in their line ends only make every tool print the same lines and end with the same status; the files they leave behind have the same lines again, and genpages appends the same text to both.",
  "all texts; all tools, all command lines and all pairs of file systems, includes at any depth", "line ends may be mixed in any order in any file that is included anywhere; the repository has files of one kind only",
  ["h800/punchcard.py:Deck._readSource", "tools/genpages.py:main", "tools/listing.py:main", "tools/check-instructions.py:main", "tools/parse.py:main"])

P("C145", "The exception tells what was wrong",
  "Calls on bit fields and registers that are refused raise ValueError for bits, ranges, values, names and numbers that do not exist or do not fit, TypeError only for a range with an end left out, and StopIteration only from next() after the last register or group. isRange accepts no value but 0 and 1. After any history of calls on a register file, the exception is that of the first thing on the way that is not there.",
  "all fields, layouts and keys; all histories of a register file", "all histories and keys; errors come from five layers below the call, and a caller that catches ValueError relies on none of them leaking a KeyError",
  ["h800/bitfield.py:BitField._checkRange", "h800/bitfield.py:BitField.isRange", "h800/bitfield.py:BitField.__setitem__", "h800/registers.py:Registers.__getitem__", "h800/registers.py:RegisterGroup.__getitem__", "h800/registers.py:RegisterGroup.__next__"])

P("C146", "The order of the files does not matter to the report of check-instructions",
  "Given the same files in another order, check-instructions ends with the same report, line by line, frequencies, order of the rows, unused mnemonics and number of errors included, and with the same status; what is printed while the files are read is what each file gives, in the new order.",
  "all options, all lists of readable files, all permutations", "all permutations of any number of files; a dictionary whose order depends on what was met first would break it",
  ["tools/check-instructions.py:main"])

P("C147", "check-instructions reports exactly the wrong mnemonics of the text",
  "Said of the text alone: take the lines of the files with the included files in place of their $ lines, without the # lines. "
  "The command check-instructions FILE... prints, in the order of the lines, one complaint of two lines for every line without an "
  "asterisk in column 8 and without P, R or L in column 1 whose columns 20-32, up to a comma, are not empty and not a mnemonic of the machine, naming the file and "
  "the number of the line where it stands and its text; then the number of complaints; nothing else. It ends with status 0 and changes no file. "
  "With --count the number of lines and the frequencies of all mnemonics of the machine, counted over the same lines, come in between, "
  "by descending frequency with --sort and by name without.",
  "all command lines, all file systems in which the sources and their includes exist, all texts, all depths of includes",
  "The output depends on every line of every file through option parsing, include expansion, column slicing and the table; tests see some texts.",
  ["tools/check-instructions.py:main", "h800/arguscard.py:Card.__init__", "h800/punchcard.py:Deck._readSource", "h800/instructions.py:INSTRUCTIONS"])
P("C148", "list-instructions prints exactly the lines of the text with the operation",
  "Said of the text alone: list-instructions OPCODE FILE... with the mnemonic of OPCODE in the table prints, in order, the text of every line "
  "of the files and their includes without an asterisk in column 8 and without P, R or L in column 1 whose columns 20-32, without blanks, match the opcode, with the file and line number in front with --details, "
  "and nothing else; status 0, no file is changed.",
  "all command lines, opcodes, file systems and texts",
  "As for check-instructions; tests see some texts.",
  ["tools/list-instructions.py:main", "h800/arguscard.py:Card.__init__", "h800/punchcard.py:Deck._readSource"])
P("C149", "listing writes exactly the lines of the text",
  "Said of the text alone: the command listing FILE prints nothing, ends with status 0 and leaves in the listing file one line per line "
  "of the source and its includes: the file padded to 64, the number padded to 6 and the text. Every other file is unchanged.",
  "all file systems in which the source and its includes exist, all texts",
  "The content depends on every line of every included file; tests see some.",
  ["tools/listing.py:main", "h800/punchcard.py:Deck._readSource"])
P("C150", "The symbol table is exactly what the columns of the text define",
  "Said of the text alone: a line without an asterisk in column 8 and without P, R or L in column 1 defines the label in its columns 9-19 "
  "(blanks taken out, upper case, at most one comma and then a tag type B, F, S or Z before it) if its columns 20-32 are not blank: a complex definition for "
  "ASSIGN, otherwise a simple one, in the subsegment of the last SETLOC line up to that line, or 1. Building the table of a file gives for each label, subsegment and kind "
  "an entry exactly if a line defines it, made from the last such line: its file, its number, the log number in columns 2-7, the tag type and its text; all in the segment named after the file; "
  "and the number of errors is the number of lines without an asterisk whose label is malformed or stands without an operation.",
  "all file systems in which the source and its includes exist, all texts; segments not named simple or complex",
  "The table depends on the whole text through columns, SETLOC history and overwriting; tests see some texts.",
  ["h800/symbol_table.py:buildSymbolTable", "h800/arguscard.py:Card.__init__", "h800/punchcard.py:Deck._readSource"])
P("C151", "parse counts the lines and the mistakes of the text",
  "Said of the text alone: the command parse FILE ends its output with the number of lines of the source and its includes and with the number of "
  "mistakes, which is the number of lines with a label mistake plus the number of lines with an unknown mnemonic; status 0, no file is changed.",
  "all file systems in which the source and its includes exist, all texts; one file",
  "The counts depend on every line; tests see some texts.",
  ["tools/parse.py:main", "h800/symbol_table.py:buildSymbolTable"])

P("C152", "The attributes of a card are the columns of its line",
  "On the 120-column ARGUS form, for a line of code column1, lognum, column8, label and location, operation, operand1 and addressa, operand2 and addressb, operand3 and addressc, sequence "
  "and remarks are the texts of columns 1, 2-7, 8, 9-19, 20-32, 33-46, 47-60, 61-75, 76-80 and 81-120 without surrounding white space, None if blank, and "
  "instruction is the operation up to a comma. For a line with P, R or L in column 1 the attributes of code are None and remarks is the text from column 10 on. "
  "There are no other such attributes, and parse() changes nothing.",
  "all lines, file names and line numbers",
  "Columns interact with trimming, short lines and commas; tests see some lines.",
  ["h800/arguscard.py:Card", "h800/punchcard.py:PunchCard.__init__"])
P("C153", "A step in a subscript is honoured or refused",
  "x[a:b:t] of a field, a register, a bank or a module selects every t-th position of a..b, or is refused with an exception; an assignment leaves the other positions alone.",
  "all fields, banks, ranges, steps and values",
  "All three numbers of a slice matter; tests use no steps.",
  ["h800/bitfield.py:BitField.__getitem__", "h800/bitfield.py:BitField.__setitem__", "h800/memory.py:MemoryBank.__setitem__", "h800/registers.py:Register.__getitem__", "h800/registers.py:RegisterGroup.__getitem__"])

P("C154", "The symbol tools report what the source text defines",
  "Given the text of the sources (files, with their includes put in place, line by line), list-symbols shows one row for each symbol, segment, subsegment and kind that some line defines: that of the latest definition in the last of the files of that segment, with the file and line it stands in and its text, sorted, under the names of the symbol, the segment and the subsegment. check-symbols -c names, in order, the labels that an ASSIGN line defines and no other line does. find-symbols shows a definition exactly when a line defines the label, and with -b or -e the sorted list of the labels some line defines that begin or end with the given text. Before that each tool complains of each line whose label is faulty, in the order of the lines, with what is wrong, the file and the number of the line, and counts the complaints.",
  "all sources (any number of files, lines and includes, any text), all command lines with the option -v off; for the tables of list-symbols and find-symbols segments not named simple or complex; find-symbols without -f",
  "The claim joins the reading of the files, the cutting of the lines into columns, the tables of symbols and the printing; tests use a few decks",
  ["tools/list-symbols.py:main", "tools/check-symbols.py:main", "tools/find-symbols.py:main", "h800/symbol_table.py:buildSymbolTable"])
P("C155", "genlines and genpages as commands",
  "Run as a command with two numbers of at most six characters and three optional ones, genlines prints start, start+step, ... below end+step (above it for a negative step), each padded with zeros to the width of the end number and at least 4, between blanks up to the given columns, exits with 0 and leaves all files alone; if one of the numbers is not a number, or the step is 0, it prints nothing and dies of a ValueError. Run on a file with a log section and page numbers, genpages prints nothing, exits with 0, and has appended one L card and one block per page to that file and changed no other file.",
  "all command lines, all file systems, all contents of the file",
  "The claim is about the process as a whole: what is printed, the exit status and the files afterwards, for every argument and file",
  ["tools/genlines.py:main", "tools/genpages.py:main"])
P("C156", "The pages added by genpages change nothing that the other tools find",
  "After genpages has appended its pages to a source, every source (also one that includes that file) has the same lines in the same order with the same file names and line numbers, and between them only remarks and blank lines. So list-instructions and check-instructions (without -c, -p, -u and -v) print exactly what they printed before, list-symbols writes the same lines to its standard output, and check-symbols makes the same complaints, up to the text of the card itself, with the same suggestions and totals.",
  "all command lines of genpages that succeed, all sources with any includes, all options of list-instructions and list-symbols but -v",
  "A relation between the runs of different tools on the files before and after, for every source text",
  ["tools/genpages.py:main", "tools/list-instructions.py:main", "tools/check-instructions.py:main", "tools/list-symbols.py:main"])
P("C157", "Where a line stands matters only to the places reported",
  "If two sets of sources have the same lines in the same order, however they are divided into files and includes, whatever comments stand between them and whatever ends the lines, then list-instructions (without -d) prints the same lines for both, check-instructions finds the same number of mistakes, and with -c it prints the same table of frequencies, the same number of source lines and the same totals. If moreover each named file keeps its lines, then list-symbols shows the same symbols, segments, subsegments, kinds and lines, only with other places, check-symbols gives the same report, find-symbols --begin and --end the same names, and parse the same source lines and errors.",
  "all pairs of file systems, all divisions into files and includes; check-instructions without -p, -u and -v",
  "A relation between runs on arbitrarily different layouts of the same text",
  ["tools/list-instructions.py:main", "tools/check-instructions.py:main", "h800/punchcard.py:Deck._readSource"])
P("C158", "In ASCII sources the case of a label is the case of its letters",
  "For sources in ASCII the rules for labels need no reference to a case mapping: a label (columns 9-19, blanks taken out) is a mistake exactly if it contains one of the letters a-z, "
  "or two commas, or a comma with something other than B, F, S or Z before it, or if the operation is blank. Building the table counts exactly these lines, every other label defines its symbol "
  "- the text after the comma if there is one - and the total that parse prints is the number of these lines plus the number of lines with an unknown mnemonic.",
  "all ASCII sources; all case mappings that agree with the usual one on ASCII texts",
  "Which labels are accepted is decided by several tests in a row on the upper-cased and split label; tests see some labels.",
  ["h800/symbol_table.py:buildSymbolTable", "tools/parse.py:main"])

P("C159", "A complaint about a label identifies its line",
  "With repr() of strings as Python defines it, the names shown in the dumps are string literals that read back as the names, names of ordinary characters standing between apostrophes; "
  "no literal is the beginning of another, so that the text after it can be told apart. Hence two complaints about labels (the message and the current definition after it) that consist of the same two lines are about the same label in the same "
  "line of the same file with the same log number, and the list of names that find-symbols prints determines the names.",
  "all file names, line numbers and texts; whatever characters outside ASCII are printable",
  "The claim compares all pairs of complaints; tests look at single ones.",
  ["h800/symbol_table.py:buildSymbolTable", "tools/find-symbols.py:main"])

P("C160", "A listing determines the lines it lists",
  "Two runs of listing on sources whose names contain no blanks write the same text exactly if the sources, with their includes put in place, have the same lines with the same "
  "files and line numbers (up to the ends of the lines). For names of at most 64 characters and numbers of at most 6 digits the name, the number and the text stand in columns 1-64, 66-71 and from 73 on.",
  "all file systems and sources, all lengths of names and numbers (for the first part)",
  "A statement about all pairs of sources.",
  ["tools/listing.py:main", "h800/punchcard.py:Deck._readSource"])

P("C161", "With every option the tools print exactly what the text calls for",
  "Said of the text of the sources alone, for every setting of the options, and for any number of files: what each tool that reads sources prints, line by line, "
  "and that it ends with status 0 and changes no file. check-instructions and parse show the lines with a mnemonic if asked to (-p, -d), note skipped lines (-v), complain of unknown "
  "mnemonics, in the order of the lines, and end with the numbers of lines and of mistakes (for parse the label mistakes of the last file and the unknown mnemonics of all files); -c adds the frequencies, -u the mnemonics "
  "that do not occur, and with -c but not -u and no instruction at all check-instructions dies of a ZeroDivisionError after the heading. list-instructions prints the lines found. "
  "list-symbols, check-symbols and find-symbols first complain of the faulty labels; then come the table, the labels with only an ASSIGN definition, or the definitions of the symbol "
  "asked for, by segment, subsegment and kind, or the names with the given beginning or ending, or those the matcher picks among labels defined in the text. With -v the "
  "progress of the reading precedes what is said about each file.",
  "all sources, all command lines without mistakes, all settings of all options; segments not named simple or complex for the tools with a symbol table",
  "The claim joins reading, cutting into columns, tables and printing for all texts and all combinations of options",
  ["tools/parse.py:main", "tools/check-instructions.py:main", "tools/list-instructions.py:main", "tools/list-symbols.py:main", "tools/check-symbols.py:main", "tools/find-symbols.py:main"])
P("C162", "A source that cannot be read stops the run after the files before it",
  "For every command line without mistakes of a tool that reads sources, and every state of the files: either all the sources can be read and the tool ends with status 0 "
  "(except for check-instructions -c without any instruction, a ZeroDivisionError), or everything up to the first source that cannot be read is reported as usual, after it "
  "nothing, and no file changes. A missing file or include is named on stderr and the status is 1; an include line without a name ends in an IndexError, includes nested too deep in a RecursionError, an empty "
  "name in a TypeError. With -v the progress until then is told. If reading reaches the limit of nesting before it comes to a missing file or an include line without a name, it is the RecursionError that ends it. Reading a file comes to at most one of these ends, whatever depth is allowed once it is large enough. listing keeps the listings written "
  "before, and writes none for the file that cannot be read; a later file may read a listing just written.",
  "all file contents, including cyclic includes; any number of files; all options; segments not named simple or complex for the tools with a symbol table",
  "A test tries some broken files; the claim says what is left behind by every one, at every position among the files, and that nothing else can happen",
  ["h800/punchcard.py:Deck._readSource", "h800/punchcard.py:Deck.__init__", "tools/check-instructions.py:main", "tools/list-instructions.py:main", "tools/check-symbols.py:main",
   "tools/find-symbols.py:main", "tools/list-symbols.py:main", "tools/parse.py:main", "tools/listing.py:main"])
P("C163", "resolve blames exactly the incomplete records",
  "When resolve makes no progress it reports 'undefined symbol' once on every parseable record that is incomplete, and on no other record.",
  "all lists of records, contexts and limits", "needs an assembler with at least two incomplete records and a look at which of them is told; the record list is overwritten during the first pass",
  ["h800/assembler.py:Assembler.resolve"])
P("C164", "The log of the assembler says what it did",
  "createSymbolTable logs the file and prints what reading it prints and the complaints about its labels, and when the file cannot be read the reason; assemble logs the file and how many lines it has, or only the file when it cannot be opened; parse logs label, opcode and operands and changes nothing; resolve logs the number of records, in every pass the line of each parseable record in order and the number of incomplete ones, and then success, or an error on each record still incomplete and a summary; with verbose it prints the time at the end of every run that does not raise.",
  "all assemblers, files, records and limits", "the log depends on every record in every pass and on every line of every file; nothing looks at it",
  ["h800/assembler.py:Assembler.createSymbolTable", "h800/assembler.py:Assembler.assemble", "h800/assembler.py:Assembler.parse", "h800/assembler.py:Assembler.parseRecord", "h800/assembler.py:Assembler.resolve"])
P("C165", "The order of the files does not matter to the symbol tools",
  "Naming the same files in another order leaves the report of list-symbols as it was when no two of them have the same segment, and leaves the names found by find-symbols --begin, --end and --fuzzy as they were, and the whole report of check-symbols (undefined symbols, suggestions, totals); only the complaints made while reading, which come file by file, change places. (Two files of one segment share their definitions and the later one wins, so there the order does matter.)",
  "all files, texts, options and permutations of the files", "it compares two runs for every permutation of any number of files; the repository has no test of the tools",
  ["tools/list-symbols.py:main", "tools/check-symbols.py:main", "tools/find-symbols.py:main", "h800/symbol_table.py:buildSymbolTable"])
P("C166", "A word is the same word by every route",
  "A word handed out by iterating over a bank is the word in the bank: every operation on its field data shows at its address and nowhere else, has the effect and raises the exceptions that it would on a 48-bit field of its own holding that number, and reading through the field sees what was stored through the bank; the four groups of an instruction word are always the four groups of twelve bits of its value, whichever of field, value or group was assigned.",
  "all banks after all histories mixing calls on the bank and on the fields of its words, all operations, all addresses; all instruction words after all histories",
  "it relates two routes to the same object over histories of any length; a test follows one history and looks at a few cells",
  ["h800/word.py:Word.__init__", "h800/memory.py:MemoryBank.__next__", "h800/memory.py:MemoryBank.__getitem__", "h800/word.py:InstructionWord", "h800/bitfield.py:BitField.__setitem__"])
P("C167", "A memory cell holds a 48-bit number whatever is done",
  "Reading a cell of a bank gives a number from 0 to 2**48 - 1, after any use of the bank and of its words.",
  "all histories of calls on the bank and on the fields of its words", "an invariant of histories of any length; a test cannot try all numbers on all routes",
  ["h800/word.py:Word.value", "h800/memory.py:MemoryBank.__getitem__", "h800/bitfield.py:BitField.value", "h800/bitfield.py:BitField._checkValue"])
P("C168", "A field cannot have a negative number of bits",
  "BitField rejects a negative width.",
  "all negative widths, values, numberings and orders", "the widths are unbounded; no test uses a negative one",
  ["h800/bitfield.py:BitField.__init__", "h800/bitfield.py:BitField._checkIndex", "h800/bitfield.py:BitField.set", "h800/bitfield.py:BitField.clear"])

P("C169", "The tools agree with each other",
  "For the same readable files: find-symbols --begin P (or --end P) prints exactly the names of list-symbols' report that begin (end) with P, in order; find-symbols S calls S undefined exactly if S is not in "
  "that report; check-symbols --complex complains about exactly the symbols all of whose lines in the report are <complex>; list-symbols' total is the sum of the numbers check-symbols and find-symbols give for "
  "the files; and for one file parse's number of errors is the sum of those of check-symbols (building the table) and check-instructions.",
  "all files with their includes and of any names for which list-symbols (parse for the last part) ends with status 0, all prefixes, suffixes and symbols, all other options", "it relates several programmes on the same unbounded input, each with its own code for the question",
  ["tools/list-symbols.py:main", "tools/find-symbols.py:main", "tools/check-symbols.py:main", "tools/parse.py:main", "tools/check-instructions.py:main",
   "h800/symbol_table.py:findSymbolDef", "h800/symbol_table.py:checkSymbolTable"])
P("C170", "list-instructions finds what check-instructions counts",
  "For every mnemonic and the same files, list-instructions prints as many lines as check-instructions --count counts, and none exactly if --unused lists the mnemonic.",
  "all mnemonics, files and other options", "the two programmes take the operation apart in different ways; only particular texts show the difference",
  ["tools/list-instructions.py:main", "tools/check-instructions.py:main"])
P("C171", "Similar names are looked for among all symbols with a simple definition",
  "find-symbols --fuzzy and the suggestions of check-symbols --complex choose among all symbols of the files that have a simple definition.",
  "all files, segments and symbols, whatever the matcher does", "the order of symbols and segments decides which are left out; the number of files is unbounded",
  ["h800/symbol_table.py:getAbsoluteSymbols", "h800/symbol_table.py:findSymbolDef", "tools/find-symbols.py:main", "tools/check-symbols.py:main"])

P("C172", "Only the type, the star, the label and the operation of a line matter to the tools",
  "Changing the log numbers, addresses, remarks and sequence numbers of any lines of the sources (everything but whether column 1 is P, R or L, whether column 8 is *, and the texts of columns 9-19 and 20-32; on remarks these texts too; in a label also the blanks anywhere in it), moving lines to included files or back, and adding or removing comments, leaves the reports as they were: the counts and frequencies of check-instructions, the source lines and errors counted by parse, the report of check-symbols with its suggestions, the names found by find-symbols and whether a symbol is defined. list-instructions finds the corresponding lines and list-symbols shows the same symbols, segments, subsegments and kinds from the corresponding lines; only the texts and places of the lines they show differ. In particular the addresses of an EQUALS that repeats a definition do not matter.",
  "all pairs of sources of any length that agree in these columns, all options", "it compares two runs on every pair of sources; no finite set of edits to the other columns settles it",
  ["h800/arguscard.py:ArgusCard", "h800/symbol_table.py:buildSymbolTable", "tools/check-instructions.py:main", "tools/list-instructions.py:main", "tools/list-symbols.py:main", "tools/check-symbols.py:main", "tools/find-symbols.py:main", "tools/parse.py:main"])

P("C173", "Several files together give what they give one after the other, put together",
  "Running a tool on two groups of files together gives: for list-instructions the two outputs one after the other; for check-instructions both sets of complaints and the sums of the errors, source lines, totals and of the frequency of every mnemonic, and as unused the mnemonics unused in both; for list-symbols the definitions of both, where those of the later files replace those of the earlier ones with the same symbol, segment, subsegment and kind, and the sum of the errors; for find-symbols --begin and --end the union of the names; for check-symbols the sum of the complaints, and as undefined those symbols reported by either run that have a simple definition in none of the files.",
  "all groups of files of any number and length, all options", "it compares three runs for arbitrary splits of any number of files",
  ["tools/list-instructions.py:main", "tools/check-instructions.py:main", "tools/list-symbols.py:main", "tools/find-symbols.py:main", "tools/check-symbols.py:main", "h800/symbol_table.py:buildSymbolTable"])

P("C174", "The operation code tells the instruction, in the number of bits the manual gives it",
  "The operation code of an instruction word - three bits of a simulator instruction, six bits of an instruction with a mask, of a print and of a peripheral instruction, eight bits of the others, at the positions section III of the reference manual gives - is the same for two instructions exactly if they have the same mnemonic and both or neither have a mask, or both print, or are the unmasked NA and the FNN, which the assembler manual says are one instruction; operands do not change it.",
  "all instruction classes, all ways to call them, all operands", "pairs of classes times all operand values; a wrong entry of the table is seen only by comparing it with all others",
  ["h800/instructions.py:OPCODES", "h800/instruction.py:Instruction.__init__", "docs/prm/Honeywell-1800-PRM.md"])

P("C175", "The character set is the one of the reference manual",
  "Each six-bit code stands for the character that Table I of the reference manual gives it in the high-speed printer column, and codes without a character there have none.",
  "all codes and characters", "it compares a table with a document, in both directions",
  ["h800/charset.py:CHARSET", "docs/prm/images/table_I.png"])

P("C176", "An instruction class takes a mask exactly if the manual lets the instruction be masked",
  "For every instruction class some arguments with a mask are accepted if the mnemonic is one of the field instructions of figure 8 of the ARGUS manual (note 2), and if it is not, every call with a mask is refused.",
  "all instruction classes, all ways to call them, all operands", "that no arguments with a mask are accepted by the other classes is about all calls",
  ["h800/instructions.py", "h800/instruction.py:Instruction.__init__", "docs/argus/ARGUS_Manual_of_Assembly_Language.md"])

P("C177", "The tags of the ARGUS manual, and only they, are taken for symbols",
  "A line whose location field holds a tag as section IV of the ARGUS manual describes it (symbolic, mask, special register, link and out-of-sequence tags) and which has a command code is accepted and the name in the tag becomes a symbol; a location field that holds anything else is reported as an error.",
  "all sources of any length in ASCII, all tags", "the tags form an infinite language given by the document and not by the code",
  ["h800/symbol_table.py:buildSymbolTable", "docs/argus/ARGUS_Manual_of_Assembly_Language.md"])

P("C178", "Symbols are recorded in the subsegment the manual puts them in",
  "A symbol is recorded in the subsegment 1 to 7 given by the last SETLOC,n or SETLOC,nC before or on its line that gives one (section VIII of the ARGUS manual; blanks do not matter, a SETLOC without a number stays in the same subsegment), or in subsegment 1 without any.",
  "all sources of any length", "the place depends on any number of earlier lines",
  ["h800/symbol_table.py:buildSymbolTable", "docs/argus/ARGUS_Manual_of_Assembly_Language.md"])

P("C179", "Tags assigned to complex addresses are recorded as complex",
  "A symbol is recorded as complex exactly if it is the tag of a line with one of the operations that assign a tag to a complex address in the ARGUS manual, ASSIGN and TAS, and as simple exactly if it is the tag of another line.",
  "all sources of any length, all symbols", "an if-and-only-if about the table made from any number of lines",
  ["h800/symbol_table.py:buildSymbolTable", "docs/argus/ARGUS_Manual_of_Assembly_Language.md"])

P("C180", "Blanks in the command code do not matter",
  "As section VII of the ARGUS manual says, spaces in the command code field are ignored: two sources whose lines differ in blanks within the operations only are the same to check-instructions and list-instructions.",
  "all pairs of sources of any length, all operations", "it compares two runs on every pair of sources",
  ["tools/check-instructions.py:main", "tools/list-instructions.py:main", "h800/arguscard.py:ArgusCard", "docs/argus/ARGUS_Manual_of_Assembly_Language.md"])

P("C181", "check-instructions knows the operation codes of the manual",
  "A source whose command codes are operations the ARGUS manual describes has no invalid instruction: machine instructions, control and assembly instructions, constants, extended instructions, the calls of library and programmer macro routines, test data words and the LAMP codes; a source with any other command code has one.",
  "all sources of any length, all sets of files", "it compares a table with a document in both directions, for sources of any length",
  ["tools/check-instructions.py:main", "h800/instructions.py:INSTRUCTIONS", "docs/argus/ARGUS_Manual_of_Assembly_Language.md"])
P("C182", "Naming a file twice or in another order does not matter to the symbol tools",
  "Two runs of list-symbols, check-symbols or find-symbols (--begin, --end or fuzzy) over the same set of files, whatever the order in which they are named and however often, show the same symbols with the same lines, report the same undefined symbols with the same suggestions, and find the same names. For list-symbols no two of the files may be the same segment; only the complaints about faulty labels and the totals may differ.",
  "all file systems, all lists of files with the same members, all options", "it relates two runs over unboundedly many orders and repetitions of files",
  ["tools/list-symbols.py:main", "tools/check-symbols.py:main", "tools/find-symbols.py:main", "h800/symbol_table.py:buildSymbolTable"])
P("C183", "A program stored in memory reads back and decodes",
  "Instructions of any classes, packed into instruction words and stored at different places of a memory module of 4 or 8 banks, after any history and before any calls that do not assign to those places, are read back as the same 48 bits; setting an instruction word to these bits gives back the command code and the three address groups. Two instructions with the same 48 bits have the same groups and are the same machine instruction.",
  "all programs of any length, all histories of calls, all operands and groups", "programs and call histories are unbounded; it composes the instruction table, the packing of words and the memory",
  ["h800/memory.py:MemoryModule", "h800/memory.py:MemoryBank", "h800/word.py:InstructionWord", "h800/instructions.py:OPCODES", "h800/instruction.py:Instruction.__init__"])
P("C184", "The S/C column is not part of the operation",
  "In the coding form of the ARGUS manual the last column of the command code field (column 32 of a line) names the counter of the next instruction by an S, a C or a blank and does not belong to the operation: check-instructions accepts, and list-instructions finds, an instruction whatever this column says.",
  "all sources of any length, all mnemonics", "it compares the reports on every pair of sources that differ in this column; for single lines the tests never use the column",
  ["h800/arguscard.py:ArgusCard", "tools/check-instructions.py:main", "tools/list-instructions.py:main", "docs/argus/ARGUS_Manual_of_Assembly_Language.md"])
P("C185", "A memory module is one array of words",
  "Reading and assigning module[a // 2048][a % 2048] for any addresses a and any values behaves, over every history of such accesses, like one array of 8192 (4 banks) or 16384 (8 banks) words: each read gives the last value assigned to that address or 0; addresses outside the array raise KeyError and values that are not 48-bit numbers ValueError, without effect.",
  "all histories of reads and assignments, all integer addresses and values", "histories are unbounded, and the cells are spread over several dictionaries of objects",
  ["h800/memory.py:MemoryModule", "h800/memory.py:MemoryBank", "docs/prm/Honeywell-1800-PRM.md"])
P("C186", "A special register holds an address and is stored in the low-order bits of a word",
  "As sections IV and V and appendix F of the reference manual say: in a register of 16 or 24 bits, after any history, the last 11 bits are a subaddress, the four before them a bank indicator, and the bit before these the sign, so that r[W-14:W-11] and r[W-10:W] lead to the word the last 15 bits number. A word made from the value of a register has its bits, in order, as its last W bits and zeros before them; a register set to the last W bits of any word has these bits and ignores the others.",
  "all histories of fitting operations on a register, all words", "it ranges over all register histories and all 2^48 words",
  ["h800/registers.py:Register", "h800/word.py:Word", "h800/bitfield.py:BitField.__getitem__", "docs/prm/Honeywell-1800-PRM.md"])
P("C187", "The instruction classes make exactly the command codes of the reference manual",
  "Every command code an instruction class makes has the zeros and ones of a line of table II of appendix E of the reference manual with the mnemonic of the class, a masked line exactly if a mask was given, with zeros at the irrelevant places; and every code of 12 bits that shows a line of the table, the address bits of simulator instructions included, is made by the class of that mnemonic for some arguments.",
  "all classes, all arguments they accept, all 12-bit codes", "an equality of two sets of codes, one given by a transcribed table, over all arguments",
  ["h800/instructions.py:OPCODES", "h800/instructions.py:Simulator", "h800/instruction.py:Instruction.__init__", "docs/prm/Honeywell-1800-PRM.md"])
P("C188", "The control memory is one array of 256 special registers with the mnemonic addresses of the manual",
  "Reading and assigning registers[a // 32][a % 32].value for any 8-bit address a, or registers[g][name].value for a group and a mnemonic address, behaves over every history like one array of 256 registers of W bits, with the subaddresses of figure V-1 of the reference manual; other addresses, groups and names, and values that do not fit, raise ValueError without effect. registerName and registerNumber give exactly the mnemonics and subaddresses of the figure, and registerNumber and registerAlias those of the read-write counters.",
  "all histories of reads and assignments, all integers, all texts as names", "histories are unbounded; each access goes through cursors and shared objects that a previous access has changed",
  ["h800/registers.py:Registers", "h800/registers.py:RegisterGroup", "h800/registers.py:registerNumber", "docs/prm/Honeywell-1800-PRM.md"])
P("C189", "Reading a file without following its includes",
  "Reading a source with recurse=False gives one card for each line of that file but the # lines, in order and with its number, the lines beginning with $ among them, whatever the files they name contain; verbose reports are those of this file alone. The file and every file named after a $ met on the way must exist, else the message names the first that does not and the programme exits; a $ without a name raises IndexError. A file without $ lines reads exactly as with recurse=True.",
  "all file systems, file names, usable layouts, card classes, with and without verbose", "texts are unbounded and the order of checks, messages and cards matters",
  ["h800/punchcard.py:Deck._readSource"])
P("C190", "The helpers of bit-fields that nothing calls",
  "_getBitValue(i, v, w) is the bit of weight 2^i of v, whatever the numbering and order of the field, for every v up to and including 2^w and every width w from 0 to the largest value of the field; any other width or value, and a negative i, raise ValueError; without w the width of the field counts. Of two positions, _msbIndex gives the one of the more significant bit and _lsbIndex that of the other, in all eight layouts.",
  "all layouts, widths, integers as values and positions", "unbounded integers in eight layouts, and nothing in the package exercises them",
  ["h800/bitfield.py:BitField._getBitValue", "h800/bitfield.py:BitField._msbIndex", "h800/bitfield.py:BitField._lsbIndex"])

P("C191", "Tuple classes with default values",
  "namedtuple_defaults(name, fields, defaults) makes a class whose tuples have exactly the fields, in order: a field gets the value given by position, else the one given by name, else its default, else None, and can be read back under its name. A call with too many values, with a name that is no field or with a field given twice raises TypeError, as do more defaults than fields; invalid or repeated names raise ValueError. Each row of OPCODES, as written, is the tuple of that kind, with its six values under their names and type \"unmasked\" where none is written.",
  "all lists of fields, defaults and positional and keyword arguments; all rows of the table", "calls and field lists are unbounded, and what a field gets depends on four sources at once",
  ["h800/instructions.py:namedtuple_defaults", "h800/instructions.py:Opcode", "h800/instructions.py:OPCODES"])
P("C192", "Every register of a register file lives a life of its own, whatever numbers are assigned",
  "After any history of calls on Registers(width), also one that assigns numbers that do not fit, a call that leads to register i of group k (by number, by name, or by iteration) answers exactly what it answers on a fresh Register with that name and width on which only those calls of the history were made that led to it, where a clear() counts for the registers not yet passed by an iteration; a call that leads to no register raises ValueError, or StopIteration at the end of an iteration. In particular a call on one register never shows in another one, and registers made before are untouched.",
  "all histories, all paths to a register, all actions", "aliasing between 256 objects after unbounded histories; the refusal of numbers that do not fit is incomplete (C08), so one must know where such a number can show", [R+":Registers", R+":RegisterGroup", R+":Register"])

P("C193", "Assigning a group or a register shares it and copies nothing",
  "Over any history of calls on Registers(width) that may also assign groups (regs[k] = regs[j], regs[k] = RegisterGroup(w)) and registers (regs[g][k] = r), every call answers as in a store in which the places 0-7 point to groups: an assignment makes no copy, so what is done through one place is seen through every place that holds the same group, iteration included, and through no other place. A new group reads zero everywhere and has its own width. Assigning under a key other than the integers 0-7 changes only len(regs) and the printed text. A register assigned in a group under a string is found by no lookup, but len and print count it; under an integer it raises KeyError. Registers made before are untouched.",
  "all histories with assignments, all keys, all widths", "aliasing: which of 256 and more objects is reached depends on the whole history of assignments", [R+":Registers.__setitem__", R+":RegisterGroup.__setitem__", R+":Registers.__getitem__"])

P("C194", "Which definitions a symbol table built from files of any names ends up holding",
  "Take the definitions of the files in order: symbol, segment (from the file's name), subsegment, kind (simple or complex), type of the tag and card. A definition is refused, and counted as an error, exactly if the symbol has an earlier definition in the same segment and subsegment and also one in a segment that is called like the kind of the new definition; so refusals need files called simple.x or complex.x, and other duplicates replace silently. The table holds, for each symbol, segment, subsegment and kind, the last definition that was not refused. The first refused EQUALS ends the program: with AttributeError if the symbol has a subsegment card in the segment simple, with KeyError otherwise. list-symbols, check-symbols and find-symbols show exactly the table so described, with the label errors plus the refusals as total (check-symbols adds the symbols it reports), or end in exactly that exception.",
  "all file systems without missing sources, all lists of one or more files (their names included), all begin/end/exact settings without ambiguous", "depends on the whole sequence of earlier definitions and on the names of the files; the examples in the repository have no such name", ["h800/symbol_table.py:buildSymbolTable", "tools/list-symbols.py:main", "tools/check-symbols.py:main", "tools/find-symbols.py:main"])

P("C195", "Everything the symbol tools print for files of any names",
  "For files of any names, also simple.x and complex.x, list-symbols, check-symbols, find-symbols (exact, --begin, --end, --fuzzy) and parse print exactly this. For each file in order: the lines about reading it (with --verbose); then, card by card, two lines for a faulty label (the complaint and the definition), four lines for a refused definition (see C194: multiply-defined, the definitions of the same symbol, segment and subsegment that are held at that moment, by kind in the order of the first of each kind and each the last one not refused, the definition, the command), and nothing else; then its number of complaints (all but list-symbols). After that the answer of the tool, taken from the definitions in force. If an EQUALS is refused the output stops before it and the program ends in the exception of C194. The lines are determined by the files.",
  "all file systems without missing sources, all lists of one or more files (their names included), all symbols, options and fuzzy matchers, all printing functions for strings and cards",
  "each line about a refused definition shows the state of the table after all cards before it; the number of histories is unbounded and no example in the repository has a refused definition",
  ["h800/symbol_table.py:buildSymbolTable", "tools/list-symbols.py:main", "tools/check-symbols.py:main", "tools/find-symbols.py:main", "tools/parse.py:main"])

P("C196", "The symbol tools as commands, for sources of any names and in any state",
  "For every command line without mistakes of check-symbols, find-symbols, list-symbols and parse, whatever the names of the sources and whether they can be read, exactly one of three things happens, and no file changes. (1) All sources can be read and no EQUALS is refused with a clash: the output is that of C195 (the lines about the table and then the answer of the tool) and the status is 0. (2) Before any source that cannot be read there is an EQUALS that clashes: the output stops before it, the program ends in a KeyError, or in an AttributeError in the one case of C194, whatever the sources after it are. (3) Otherwise the run stops at the first source that cannot be read, after the lines about the sources before it and the progress of reading it, as in C162. Each case determines the output and the status, and the status tells which one it was. No exception but these and those of C162 can end these tools.",
  "all file systems and states of the sources (missing, with missing includes, nested too deep, without an include name), all lists of sources including simple.x and complex.x, all options and symbols, all printing functions and fuzzy matchers",
  "which of several faults decides the run depends on the order of unboundedly many cards and files; the repository has no test that runs a tool, and none with a file called simple or complex",
  ["h800/symbol_table.py:buildSymbolTable", "tools/list-symbols.py:main", "tools/check-symbols.py:main", "tools/find-symbols.py:main", "tools/parse.py:main", "h800/punchcard.py:Deck._readSource"])

P("C197", "A tool looks only at its sources and what they include, needs each of them, and writes nothing else",
  "A tool looks only at the files named on its command line and at the files these include, directly or through others (genpages at the one file, genlines at none): in two file systems that agree on those files it prints the same, ends the same way and writes the same files with the same contents, whatever else is there. The only files that can differ afterwards are the listings of the files named to listing and the file named to genpages. Each file looked at is needed: if the run ends with status 0, the same run without one of these files ends with status 1 (2 for genpages).",
  "all pairs of file systems, all tools, all command lines, also wrong ones; for listing, listings that do not take the place of a file looked at",
  "a frame condition over all other files and over includes of any depth",
  ["h800/punchcard.py:Deck._readSource", "tools/listing.py:main", "tools/genpages.py:main", "tools/parse.py:main", "tools/list-symbols.py:main"])

P("C198", "Commands that keep out of each other's way give the same in any order, and again",
  "In a session of commands of which none writes a file that another one reads or writes (and no listing takes the place of its own sources), every command prints and ends exactly as it would alone on the files at the beginning, whatever the order; afterwards every file that a command writes is as that command alone would leave it, and every other file is untouched. A command other than genpages, repeated any number of times, prints the same each time and leaves the files as after the first time.",
  "all sessions of any number of commands of all tools, all command lines, all file systems",
  "all orders of any number of commands on one file system",
  ["tools/listing.py:main", "tools/genpages.py:main", "h800/punchcard.py:Deck._readSource", "tools/list-symbols.py:main"])

P("C199", "Arguments that are not integers are refused and change nothing",
  "A field, or a word, made with or given an argument that is not an integer (a float, a text, None, a list) refuses it: the call raises an exception and changes nothing. In particular a field always holds an integer, after any history of calls with arguments of any type, and reading with an index or a range that is not made of integers raises TypeError or ValueError.",
  "all histories of calls, all arguments of the built-in types but complex (floats with infinities and NaN and arbitrary rounding), all fields and layouts; only a width that is a float is left out",
  "the type of every argument is a further dimension of every call; where the wrong type is noticed, if at all, depends on which operator meets it first, and histories are unbounded",
  ["h800/bitfield.py:BitField.__init__", "h800/bitfield.py:BitField.__getitem__", "h800/bitfield.py:BitField.__setitem__", "h800/bitfield.py:BitField.value", "h800/bitfield.py:BitField.set", "h800/bitfield.py:BitField.clear", "h800/bitfield.py:BitField.isRange", "h800/word.py:Word.value", "h800/word.py:Word.__init__"])

P("C200", "Keys and values that are not integers do not reach the memory",
  "A memory bank is read and written with integers only: a call with a key or a value that is not an integer (a float, a text, None, a list) raises an exception and changes no word, so that after any history of calls with arguments of any type every word holds an integer of 48 bits. A memory module gives a bank for an integer only.",
  "all histories of calls on a bank, all keys of a module, all keys and values of the built-in types but complex (floats with infinities and NaN)",
  "the type of every argument is a further dimension of every call, and a dictionary finds a key that is merely equal; histories are unbounded",
  ["h800/memory.py:MemoryBank.__getitem__", "h800/memory.py:MemoryBank.__setitem__", "h800/memory.py:MemoryBank.__next__", "h800/memory.py:MemoryBank.clear", "h800/memory.py:MemoryModule.__getitem__", "h800/memory.py:ExpansionMemoryModule.__getitem__", "h800/word.py:Word.value"])

P("C201", "Only integers become the value of a register",
  "Creating a register, or assigning to its value, with anything but an integer (a float, a text, None, a list) raises an exception and changes nothing, and so does a width that is not an integer: after any assignments of any type the register is what the integers among them made it. A register group finds for a float only the register of the number it is equal to and refuses every other object that is not a text; a register file refuses every key that is not an integer. Slices are refused by both.",
  "all registers, all lists of assignments, all values, widths and keys of the built-in types but tuples and complex (floats with infinities and NaN)",
  "the type of every argument is a further dimension of every call: a float in range passes the range test and is only stopped by a shift deep inside the bit field; histories are unbounded",
  ["h800/registers.py:Register.__init__", "h800/registers.py:Register.value", "h800/registers.py:RegisterGroup.__getitem__", "h800/registers.py:Registers.__getitem__"])

P("C202", "Only numbers equal to the integers encoded make an instruction",
  "An instruction made with arguments of any type either raises an exception or has the value of the instruction made with the integers its arguments are equal to: a float equal to 0 or 1 does for A, B and C, and one equal to 0 for the sequence bit; every other argument that is not an integer (a float as mask or peripheral address, a text, a list) is refused.",
  "all rows of an opcode table with integers or None, all combinations of arguments of the built-in types but complex (floats with infinities and NaN and arbitrary rounding)",
  "six arguments of any type, any of them absent; a float passes the tests of range and membership and is only noticed, if at all, by a shift inside the bit field",
  ["h800/instruction.py:Instruction.__init__", "h800/instruction.py:Instruction._check"])

P("C203", "Nothing but integers gets into an instruction word or a constant",
  "An instruction word or constant made with arguments of any type either raises an exception or has the value of the one made with those integers. Assigning anything but an integer to the command or to an address group raises an exception and changes no bit, so after any sequence of assignments of any types the word is what the integers among them made it.",
  "all arguments of the built-in types but complex (floats with infinities and NaN and arbitrary rounding), all sequences of assignments to the four fields",
  "four arguments of any type, and histories of any length that mix good and refused assignments",
  ["h800/word.py:InstructionWord", "h800/instruction.py:Constant"])

P("C204", "A bit field has a whole number of bits",
  "A width that is not an integer is refused by the constructor of a bit field.",
  "all floats as width, numberings and orders, all keys and values of the built-in types but complex, all histories of calls, with arbitrary float arithmetic",
  "fractional widths, infinities and NaN, histories of any length; the constructor accepts them and the failure shows only at a later call, which one depending on the layout",
  ["h800/bitfield.py:BitField.__init__", "h800/bitfield.py:BitField.__setitem__"])

# ---------------------------------------------------------------- longer texts
# W(id, quantifier or None, why): replaces the short texts given above
def W(id, quantifier, why):
    for p in PROPS:
        if p["id"] == id:
            p["why_tests_cant"] = why
            if quantifier: p["quantifier"] = quantifier
W("C04", "all 8 layouts, all widths, all in-range values, all integer indices",
  "it is a frame condition: every other bit must stay as it was, for each value and index; a test compares one value before and after")
W("C05", None, "ranges and values are unbounded in number; the tests use a dozen ranges of two fields and no invalid ones")
W("C06", None, "a frame property over all bits outside the range, for every value stored before and every value written")
W("C08", "all integers assigned, all ranges and single bits, all fields", "the boundary is 2^n for each n, and every negative number must be rejected too; a test can only try some numbers near some boundaries")
W("C09", "all finite histories of operations, failing or not, all layouts and widths", "histories are unbounded, and an overflow needs a particular earlier state; needs an invariant")
W("C10", None, "quantifies over every failing call in every state, including states that no test sets up")
W("C11", None, "the frame part is about all values of the other bits")
W("C12", None, "fails at one index only (0, which is taken for a missing argument), a case the tests leave out")
W("C13", None, "the list depends on the width, which is unbounded, and on the layout; the tests print the list and check nothing about it")
W("C14", "all layouts, widths, values and integer indices", "three predicates must agree with the bit at every index of every value and reject all other indices")
W("C15", None, "the only range tested ends at the units bit, where the fault does not show")
W("C16", None, "needs ranges of mixed bits, over all positions and values")
W("C17", "all histories of operations on all fields", "unbounded histories; a test checks the geometry of a new object")
W("C18", None, "the numeral must be right for each of 2^width values and each width, with leading zeros")
W("C19", None, "a refinement statement over unbounded histories: each read depends on all earlier writes")
W("C20", "all integers, as constructor argument and as assigned value", "2^48 accepted values and infinitely many rejected ones")
W("C21", "all 2^48 combinations of the four fields", "the combinations cannot be enumerated; a swap or overlap of fields shows only for some of them")
W("C22", None, "unbounded histories of writes; independence is a statement about each field after writes to the others")
W("C23", "all integers, all four fields", "all integers outside 0..4095, in the constructor and in every setter")
W("C24", "all states and all arguments of failing assignments", "the state before the failure is arbitrary; a test can only fix one state and one bad value")
W("C25", None, "unbounded histories over 2048 cells, with aliases (words obtained by iteration) writing to the same cells")
W("C26", "all integers i and v, all banks reachable by any history", "the rejected addresses and values are infinitely many, and the frame part is about 2048 cells")
W("C27", "all bounds, all banks reachable by any history, all values", "the number of ranges is over two million, each with a frame condition on the other cells")
W("C30", "all histories of operations over all banks of a module", "independence of the banks needs histories that interleave them without bound")
W("C31", "all banks and assigned values", "no test touches the property; that it can never work is a statement about every state")
W("C32", None, "the rejection is of all other strings and integers, and the inverse laws range over both tables at once")
W("C33", None, "all integers are candidates for the value, and every string for the name")
W("C34", "all registers of both widths, all values, indices and ranges", "a frame property for every value and every range")
W("C35", None, "that everything else is rejected is about all integers and all strings")
W("C36", "all 36 names and aliases, all groups", "the tests look registers up by their own names; the four aliases are accepted by Register but not by a group")
W("C37", None, "no test assigns a register into a group; the claim is about every key and every group")
W("C39", "all histories of operations on all 256 registers", "unbounded histories over 256 cells that can be reached through aliases (lookups, iteration, groups)")
W("C40", "all histories of complete and broken-off loops", "a second loop in a test runs zero times and so passes whatever it asserts")
W("C41", None, "all integers outside 0..7 must be rejected, in every state")
W("C42", "the 15 maskable classes, all integer arguments", "the rejections are over all integers, and the code must be right for all 64 accepted pairs in 15 classes")
W("C43", "all maskable, unmasked, inherent-mask and scientific classes, all integer arguments", "the rejections are over all integers in four positions")
W("C44", "all peripheral, print and simulator classes, all integer arguments", "the rejections are over all integers")
W("C45", None, "each argument may be missing or any integer, and the opcode record is arbitrary; tests use some records with some arguments")
W("C46", None, "six arguments, each missing, valid or invalid, for each kind of opcode: the combinations and the integers are unbounded")
W("C47", None, "a rejection over all non-peripheral opcodes and all addresses; no test passes an address to another instruction")
W("C49", "all pairs of argument lists of all mnemonics and forms", "a statement about pairs of constructions; tests look at one instruction at a time")
W("C50", "all entries of all instruction tables", "a relation between separately maintained tables that no test compares")
W("C51", "all entries of OPCODES", "relates the text of a table with the names of classes; the tests call the classes directly and never use the c field")
W("C52", None, "relates a generated file with the encoder for all 4096 codes; the tests do not run the listing")
W("C53", "all pseudo-instruction classes and all arguments", "no test constructs one; that none can be constructed is a statement about all arguments")
W("C54", "all constant classes, all integers", "2^48 accepted values and infinitely many rejected ones")
W("C55", "all constructible instructions and all 12-bit addresses", "the product of all instructions and 2^36 address triples")
W("C56", None, "lines, widths and layouts are all unbounded; tests use the default layout on a few lines")
W("C57", None, "any text can stand in any field, blanks of all kinds included")
W("C58", None, "holds for every line, whatever its length; the terminator could become part of the last field")
W("C59", "all lines that begin with '#'", "universal over texts, and the failure of the ARGUS class on such lines is not tested")
W("C60", "all lines with P, R or L in column 1", "the text is arbitrary; the missing column shows only if it is not blank")
W("C61", "all lines, with any letter in column 1", "universal over the texts of ten fields")
W("C62", "all lines and layouts", "the text of the operation is arbitrary: several commas, blanks around them, none at all")
W("C63", "all lists of lines", "the numbering of the cards depends on all comment lines before them, in lists of any length")
W("C64", None, "include trees have arbitrary width and depth, and the order of cards depends on all of them")
W("C65", None, "cycles of includes of any length; a test of a cycle would have to wait for the recursion limit")
W("C66", None, "the missing include can be at any position in any nesting, after any number of cards")
W("C67", "all contents of files without '$' lines", "contents are arbitrary: line ends, blank lines, a missing last newline")
W("C68", "all decks", "depends on the order of all cards of a deck of any size")
W("C69", "all decks", "any number of cards with any text")
W("C70", None, "unbounded histories of additions with repeated names")
W("C71", None, "unbounded histories; the list is changed by four different methods")
W("C72", None, "no test calls update on a defined name; that it never stores the value is a statement about all tables and values")
W("C73", None, "termination for every table and every limit; no test resolves a table")
W("C75", None, "every combination of type and value, None included")
W("C76", None, "the entry depends on all cards before and after it, in decks of any size and with any table passed in")
W("C77", None, "the count sums over decks of any size, and each label can be wrong in several ways at once")
W("C78", "all decks and tables passed in", "no test defines a symbol twice; the claim is about all pairs of cards in a deck")
W("C79", None, "a frame property over everything already in an arbitrary table")
W("C80", "all decks and tables passed in", "depends on the position of each card relative to all SETLOC cards before it")
W("C81", None, "tables with any number of symbols, segments and subsegments")
W("C82", None, "the flag that is never reset shows only with several symbols of several segments")
W("C83", None, "all tables and texts, including the empty text; order and completeness of the matches are universal statements")
W("C84", "all decks and file names", "the crash depends on the name of the file (simple. or complex.) and on a repeated symbol together")
W("C97", "all histories of additions", "order and completeness of the output after unbounded histories")
W("C85", "all starts, ends, steps, columns and numbers of digits", "the width of each printed line depends on five numbers; no test runs the tool")
W("C86", "all starts, ends and steps", "fails only when the step does not divide the span")
W("C87", "all decks and options", "an accounting identity over decks of any size")
W("C88", "all decks and opcodes", "matching depends on commas and blanks in both texts; completeness is about every card")
W("C89", "all lists of files", "needs at least two files of which an earlier one has errors")
W("C90", "all sources and file names", "two names can be mapped to one listing file; the number of lines is unbounded")
W("C91", "all contents of the file", "all page ranges, and every way the file can be malformed")
W("C92", "all 64 codes and all other integers", "a finite table, but nothing checks it")
W("C93", "all contexts and records, whatever attributes have been set", "a frame property over all attributes and all other objects")
W("C94", None, "no test makes a Context; that none can be made is a statement about all arguments")
W("C95", "all lists of records and all limits", "the number of passes depends on the behaviour of every record in every pass")
W("C98", None, "needs a section card with a blank in column 8, and then a second run over the output")
W("C99", None, "all decks, including one without instructions, for which the rates cannot be computed")
W("C100", None, "needs several files with errors in each; the total depends on every card")
W("C101", None, "the default depends on how three options are combined; completeness of the matches is about all tables")
W("C103", None, "needs a context on which coloc was never set, which no test makes")
W("C104", "all contexts and addresses", "a frame property over all attributes; the second counter is easily taken for the first")
W("C105", None, "needs aliasing between context and record and a later action of any kind")
W("C106", None, "unbounded lists of files whose definitions interact")
W("C107", "all assemblers and source files", "a frame property over everything an assembler holds")
W("C110", None, "all values and histories; int and bool are used implicitly all over the code")
W("C115", "all contexts, whatever attributes have been set", "depends on which attributes exist at the time of the call")
W("C116", None, "the answer depends on the whole table and on three options; an empty answer is printed like a found one")
W("C122", "all instruction classes and all arguments, accepted or not", "the unit tests ignore what is printed; the claim is about every construction")
W("C124", None, "options may stand at any position among any number of words")
W("C126", "all starts, ends and steps, written as options", "needs the option parser together with all integers, negative steps included")
W("C127", None, "success depends on the whole content of the file; a failing run must leave every file alone")
W("C129", "all argument lists of the tool", "numbers of any size and sign, in all five positions")

# the theorems about the symbol table leave out files whose segment has the name of a kind of symbol (C78, C84)
for p in PROPS:
    if p["id"] in ["C80", "C89", "C101", "C135", "C143", "C151", "C156", "C157", "C158", "C164", "C165", "C171", "C172", "C173", "C177", "C178", "C179", "C182"]:
        p["quantifier"] += "; where a symbol table is built, of files whose names do not begin with simple. or complex."
