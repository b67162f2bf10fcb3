{"id": "C01", "title": "Integer text round trip", "statement": "Writing an Integer and reading the text back gives the same integer: Integer.from_mcnp(Integer(n).to_mcnp()) has value n.", "quantifier": "every integer n of either sign with at most 10^18 digits, the range of decimal.Decimal, through which it is read", "why_tests_cant": "There are infinitely many integers; tests try a handful, and the parser rewrites its input with regular expressions before converting it, so a sign or digit pattern nobody tried could be rewritten.", "anchors": ["src/pymcnp/types/Integer.py:Integer.from_mcnp", "src/pymcnp/types/Integer.py:Integer.to_mcnp", "src/pymcnp/types/Horizontal.py"]}
{"id": "C02", "title": "Real text round trip is exact", "statement": "Writing a Real and reading it back gives a Decimal with exactly the same sign, digits and exponent (not merely a nearby number).", "quantifier": "every finite Decimal: any sign, any digit string, any exponent", "why_tests_cant": "Infinitely many decimals; the printed form switches between plain and scientific notation depending on the exponent and each form passes through two rewriting regular expressions.", "anchors": ["src/pymcnp/types/Real.py:Real.from_mcnp", "src/pymcnp/types/Real.py:Real.to_mcnp"]}
{"id": "C03", "title": "Fortran exponent forms mean the same number", "statement": "A number written with a Fortran exponent (1.5+3, 1.5d3, 1.5D+3, 1.5-3) parses to the same Decimal as with e notation (1.5e3, 1.5e-3).", "quantifier": "every mantissa (optional sign, digits, optional point) and every exponent digit string and sign", "why_tests_cant": "The rewriting is a regular expression substitution over the whole text; only a proof over all mantissas and exponents excludes a misplaced split.", "anchors": ["src/pymcnp/types/Real.py:Real.from_mcnp", "src/pymcnp/types/Integer.py:Integer.from_mcnp"]}
{"id": "C04", "title": "Integer parser rejects what is not an integer", "statement": "Integer.from_mcnp either returns an integer numerically equal to its source or raises a library error; it never silently changes the number.", "quantifier": "every source string", "why_tests_cant": "Tests list a few invalid strings; the claim is about all of them (fractions, huge exponents, special words).", "anchors": ["src/pymcnp/types/Integer.py:Integer.from_mcnp"]}
{"id": "C05", "title": "Malformed scalar text raises only library errors", "statement": "Reading malformed text as a scalar (Integer, Real, Zaid, Distribution, Index, Substance, ...) raises a pymcnp error, never a bare IndexError, ValueError, OverflowError or AssertionError.", "quantifier": "every source string", "why_tests_cant": "Exception escape is a universally quantified claim over all inputs; tests only see the inputs they list.", "anchors": ["src/pymcnp/types/Integer.py", "src/pymcnp/types/Real.py", "src/pymcnp/types/Zaid.py", "src/pymcnp/types/Distribution.py", "src/pymcnp/types/Index.py", "src/pymcnp/types/Substance.py", "src/pymcnp/errors"]}
{"id": "C06", "title": "Repeat/insert/multiply/jump/log round trip", "statement": "Horizontal shorthand values (nR, nI, xM, nJ, nLOG, nILOG) survive writing and reading back with the same kind and count.", "quantifier": "every count n >= 0 or absent, every kind", "why_tests_cant": "Counts are unbounded and 0 is special-cased by truthiness.", "anchors": ["src/pymcnp/types/Horizontal.py"]}
{"id": "C07", "title": "Distribution number round trip", "statement": "Distribution(n) is written as dN and read back as the same n.", "quantifier": "every n from 0 to 999 and every longer digit string", "why_tests_cant": "The reader uses an alternation whose first branch is one digit; only checking all n shows which are damaged.", "anchors": ["src/pymcnp/types/Distribution.py"]}
{"id": "C08", "title": "Zaid round trip", "statement": "Zaid(z, a, abx) survives writing and reading back; and reading any accepted text then writing gives text that reads to the same Zaid.", "quantifier": "every z, a in 0..999 and every non-blank library suffix without whitespace; every accepted source text", "why_tests_cant": "A million (z, a) pairs times unboundedly many suffixes.", "anchors": ["src/pymcnp/types/Zaid.py"]}
{"id": "C09", "title": "Index and Substance round trip", "statement": "Index (lower:upper) and Substance (zaid fraction) survive writing and reading back.", "quantifier": "every pair of integers; every Zaid and finite Decimal", "why_tests_cant": "Unbounded numbers; the splitting pattern is greedy.", "anchors": ["src/pymcnp/types/Index.py", "src/pymcnp/types/Substance.py"]}
{"id": "C10", "title": "Designator accepts exactly comma lists of particle symbols", "statement": "Designator.from_mcnp accepts a text iff it is a non-empty comma-separated list of single particle characters, and keeps it unchanged.", "quantifier": "every source string", "why_tests_cant": "Acceptance of all strings cannot be enumerated; the character class hides a range.", "anchors": ["src/pymcnp/types/Designator.py"]}
{"id": "C11", "title": "Transformation round trip", "statement": "A Transformation_k (displacement, rotation, optional m) survives writing and reading back.", "quantifier": "every list of finite decimals of the right length, m in {-1, 1} or absent", "why_tests_cant": "Real-valued fields, optional trailing field.", "anchors": ["src/pymcnp/types/Transformation.py"]}
{"id": "C12", "title": "Sequence values keep every element in order", "statement": "Tuple(T) of values is written as a space-separated text that reads back to the same sequence; nothing is dropped, merged or reordered.", "quantifier": "every non-empty list of elements of any length", "why_tests_cant": "Unbounded list length.", "anchors": ["src/pymcnp/types/Tuple.py"]}
{"id": "C13", "title": "Sequence reader does not skip text", "statement": "Tuple(T).from_mcnp never silently ignores part of its input: every non-blank character of an accepted source belongs to some element.", "quantifier": "every source string", "why_tests_cant": "Claim about all inputs; the reader searches for matches instead of consuming.", "anchors": ["src/pymcnp/types/Tuple.py"]}
{"id": "C14", "title": "Lazy sequences can be iterated again", "statement": "Every iteration of a Generator value yields the full sequence in order however many other iterations of it are in progress or finished; a parse error met once is met again.", "quantifier": "every interleaving of next() calls on any number of iterators", "why_tests_cant": "Interleavings of iterators are unbounded; hidden shared state (itertools.tee) is history dependent.", "anchors": ["src/pymcnp/types/Generator.py"]}
{"id": "C15", "title": "Geometry text round trip", "statement": "Reading a cell geometry, writing it and reading it again gives the same expression tree.", "quantifier": "every geometry text the reader accepts", "why_tests_cant": "Recursive grammar with unbounded nesting.", "anchors": ["src/pymcnp/types/Geometry.py"]}
{"id": "C16", "title": "Geometry reader implements MCNP precedence", "statement": "A geometry text denotes the point set MCNP defines: # and sense first, then intersection (blank), then union (colon).", "quantifier": "every geometry text and every assignment of point sets to surfaces", "why_tests_cant": "Semantic equivalence over all expressions and all points.", "anchors": ["src/pymcnp/types/Geometry.py:Geometry.from_mcnp", "src/pymcnp/types/Geometry.py:Geometry.to_show"]}
{"id": "C17", "title": "Geometry operators build what they say", "statement": "Combining geometries with &, |, -, +, ~ gives a geometry whose written text denotes the corresponding combination of the operands.", "quantifier": "every pair of geometries", "why_tests_cant": "Operands are arbitrary trees; printing does not insert parentheses.", "anchors": ["src/pymcnp/types/Geometry.py:Geometry.__and__", "src/pymcnp/inp/Surface.py:Surface.__and__"]}
{"id": "C18", "title": "Geometry reader fails only with library errors", "statement": "Geometry.from_mcnp on any text returns or raises TypesError.", "quantifier": "every source string", "why_tests_cant": "All malformed inputs.", "anchors": ["src/pymcnp/types/Geometry.py:Geometry.from_mcnp"]}
{"id": "C19", "title": "Drawing a geometry complements what must be complemented", "statement": "The displayed shape of #n is the complement of cell n, of -s the inside of surface s, of a blank the intersection and of a colon the union.", "quantifier": "every geometry tree and every shape assignment", "why_tests_cant": "Semantic homomorphism over all trees and points.", "anchors": ["src/pymcnp/types/Geometry.py:to_show", "src/pymcnp/_show/PyvistaShape.py"]}
{"id": "C20", "title": "Lattice text round trip", "statement": "Reading a lattice tally specification, writing it and reading it again gives the same specification with the same meaning.", "quantifier": "every accepted lattice text", "why_tests_cant": "Recursive grammar.", "anchors": ["src/pymcnp/types/Lattice.py"]}
{"id": "C21", "title": "Written card lines fit the MCNP column limit", "statement": "No line of a written card is longer than 80 columns when every word is short enough to fit.", "quantifier": "every card text: any number of words of any lengths up to 72", "why_tests_cant": "Depends on the exact accumulation of word lengths over unbounded text.", "anchors": ["src/pymcnp/inp/_card.py:Card._postprocess"]}
{"id": "C22", "title": "Line wrapping is undone by the reader", "statement": "Reading the wrapped text of a card recovers exactly the words that were wrapped, in order.", "quantifier": "every list of clean words of any length", "why_tests_cant": "Unbounded word lists; wrap positions depend on all earlier lengths.", "anchors": ["src/pymcnp/inp/_card.py:Card._postprocess", "src/pymcnp/inp/_symbol.py:InpNonterminal._preprocess"]}
{"id": "C23", "title": "Run compression and expansion cancel", "statement": "Compressing runs of j, r, i, log, ilog on writing and expanding nJ, nR, nI, nLOG, nILOG on reading restores the original entries.", "quantifier": "every list of entries", "why_tests_cant": "Runs of any length at any position, adjacent runs of different kinds.", "anchors": ["src/pymcnp/inp/_card.py:Card._postprocess", "src/pymcnp/inp/_symbol.py:InpNonterminal._preprocess"]}
{"id": "C24", "title": "Shorthand expansion is complete", "statement": "Every nR, nI, nJ, nLOG, nILOG word of a card is expanded to n entries wherever it stands.", "quantifier": "every list of words", "why_tests_cant": "Adjacent shorthand words share a separator the substitution consumes.", "anchors": ["src/pymcnp/inp/_symbol.py:InpNonterminal._preprocess"]}
{"id": "C25", "title": "Card and option round trip", "statement": "For every card and option class of the regular form (keyword, suffix, designator, then value fields), an object written and read back has the same attributes.", "quantifier": "every regular class in the library and every valid attribute assignment with values of any size and any sequence length", "why_tests_cant": "Hundreds of classes times unbounded attribute values; tests use one or two examples per class.", "anchors": ["src/pymcnp/inp/_card.py:Card.from_mcnp", "src/pymcnp/inp/_card.py:Card.to_mcnp", "src/pymcnp/inp/_option.py:Option.from_mcnp", "src/pymcnp/inp/*.py:_REGEX,_ATTRS"]}
{"id": "C26", "title": "Unset positional fields do not shift later ones", "statement": "A card with an optional positional field left unset and a later one set is read back with the later field still in its place.", "quantifier": "every class with two or more optional positional fields and every assignment", "why_tests_cant": "Requires all subsets of set fields.", "anchors": ["src/pymcnp/inp/_card.py:Card.to_mcnp", "src/pymcnp/inp/Phys_0.py"]}
{"id": "C27", "title": "Each attribute is read from its own text", "statement": "from_mcnp fills each attribute from the part of the text written for that attribute.", "quantifier": "every card and option class and every accepted text", "why_tests_cant": "Depends on counting capture groups through nested patterns for every class.", "anchors": ["src/pymcnp/inp/M_0.py:_REGEX", "src/pymcnp/inp/Fmult.py:_REGEX", "src/pymcnp/inp/_card.py:Card.from_mcnp"]}
{"id": "C28", "title": "Attribute constraints always hold", "statement": "After any sequence of constructor and setter calls, successful or rejected, every attribute still satisfies its documented constraint (e.g. nps > 0, odd seed, numbers in range).", "quantifier": "every class with independent attribute checks; every history of assignments", "why_tests_cant": "Histories are unbounded.", "anchors": ["src/pymcnp/inp/*.py setters", "src/pymcnp/inp/Nps.py", "src/pymcnp/inp/rand/Seed.py"]}
{"id": "C29", "title": "A rejected assignment changes nothing", "statement": "When a setter raises, the object keeps all its previous attribute values.", "quantifier": "every class, state and rejected value", "why_tests_cant": "All states and values.", "anchors": ["src/pymcnp/inp/*.py setters"]}
{"id": "C30", "title": "Cell density is present iff the cell is not void", "statement": "Along any history of edits a cell has a density exactly when its material is non-zero.", "quantifier": "every history of assignments to material and density", "why_tests_cant": "Cross-attribute invariant over histories.", "anchors": ["src/pymcnp/inp/Cell.py"]}
{"id": "C31", "title": "Surface numbers stay in range", "statement": "Surface numbers are within 1..99999999, and within 1..999 when the surface has a transformation.", "quantifier": "every number, transformation and history", "why_tests_cant": "Conditional expression precedence; all numbers.", "anchors": ["src/pymcnp/inp/Surface.py:number.setter"]}
{"id": "C32", "title": "Automatic numbering never collides", "statement": "Numbers given automatically to cells, surfaces and materials are pairwise distinct and never equal a number the user chose.", "quantifier": "every creation history", "why_tests_cant": "Unbounded histories mixing automatic and explicit numbers.", "anchors": ["src/pymcnp/inp/Cell.py:NUMBER", "src/pymcnp/inp/Surface.py:NUMBER", "src/pymcnp/inp/M_0.py:NUMBER"]}
{"id": "C33", "title": "nps get after set", "statement": "After inp.nps = n (n > 0) reading inp.nps gives n, all other cards are unchanged and in order, and at most one card is added.", "quantifier": "every problem, every n and every history of edits", "why_tests_cant": "All problems and histories.", "anchors": ["src/pymcnp/Inp.py:nps"]}
{"id": "C34", "title": "seed get after set", "statement": "After inp.seed = s (s odd) reading inp.seed gives s and everything else in the problem is unchanged.", "quantifier": "every problem and odd s", "why_tests_cant": "All problems.", "anchors": ["src/pymcnp/Inp.py:seed"]}
{"id": "C35", "title": "INP block structure round trip", "statement": "A written problem splits again into the same message, title, cell, surface, data and other blocks.", "quantifier": "every problem whose block texts contain no blank line", "why_tests_cant": "Unbounded block contents; regular expression split on blank lines with lazy quantifiers.", "anchors": ["src/pymcnp/Inp.py:_REGEX", "src/pymcnp/Inp.py:to_mcnp", "src/pymcnp/Inp.py:from_mcnp"]}
{"id": "C36", "title": "Comments survive a rewrite", "statement": "A comment written in an INP file is still present after reading and writing the file.", "quantifier": "every INP text", "why_tests_cant": "All texts.", "anchors": ["src/pymcnp/inp/_card.py:Card.from_mcnp", "src/pymcnp/inp/Comment.py", "src/pymcnp/Inp.py:_preprocess"]}
{"id": "C37", "title": "PTRAC fixed-width fields round trip byte for byte", "statement": "A J, P, I, N, V or L line that was read is written back as the same bytes.", "quantifier": "every line made of fixed-width Fortran fields", "why_tests_cant": "Field contents unbounded in number; line filling depends on counts modulo 10, 20 and 30.", "anchors": ["src/pymcnp/ptrac"]}
{"id": "C38", "title": "PTRAC event filter keeps exactly the accepted events", "statement": "PtracFilter yields, in file order, exactly the events its category predicate accepts, classifying each event by the type announced by the line before it.", "quantifier": "every history, every event list and every predicate", "why_tests_cant": "Unbounded event lists and arbitrary predicates.", "anchors": ["src/pymcnp/PtracFilter.py", "src/pymcnp/PtracProcessor.py"]}
{"id": "C39", "title": "Processor hooks run once, in order", "statement": "PtracProcessor and MeshtalProcessor call the pre-hook first, then each item once in order, then the post-hook.", "quantifier": "every file", "why_tests_cant": "Unbounded item lists.", "anchors": ["src/pymcnp/PtracProcessor.py", "src/pymcnp/MeshtalProcessor.py"]}
{"id": "C40", "title": "MESHTAL tally line round trip", "statement": "A mesh tally line that was read is written back as the same bytes.", "quantifier": "every line of fixed-width fields with any subset of optional columns", "why_tests_cant": "Optional fixed-width columns make the split ambiguous.", "anchors": ["src/pymcnp/meshtal/Tally.py"]}
{"id": "C41", "title": "OUTP keeps every block it recognises", "statement": "Outp.from_mcnp keeps every recognised block in order; two blocks for the same tally number are both reachable.", "quantifier": "every output file", "why_tests_cant": "Unbounded files.", "anchors": ["src/pymcnp/Outp.py"]}
{"id": "C42", "title": "Run isolates and orders jobs", "statement": "Run gives each input its own directory, starts every job after its pre-hook, calls each post-hook only after that job ended, and the batch post-hook after all of them, whatever order the jobs finish in.", "quantifier": "every list of inputs and every completion schedule", "why_tests_cant": "Scheduling of external processes.", "anchors": ["src/pymcnp/Run.py"]}
{"id": "C43", "title": "Fixing a file never loses it", "statement": "Check.fix leaves either the old or the new text in the file whatever point it is interrupted at, and leaves the file untouched when it does not parse.", "quantifier": "every file content and every crash point", "why_tests_cant": "Crash points cannot be enumerated by unit tests.", "anchors": ["src/pymcnp/Check.py:fix", "src/pymcnp/_file.py:to_file"]}
{"id": "C44", "title": "Output files of different tallies are different", "statement": "The command line writes the results of different tally numbers to different files.", "quantifier": "every path and every pair of tally numbers", "why_tests_cant": "All pairs.", "anchors": ["src/pymcnp/_cli/_io.py:get_outfile"]}
{"id": "C45", "title": "Error messages are bounded", "statement": "The text of an error shows at most a fixed number of lines of the offending source.", "quantifier": "every error and source", "why_tests_cant": "All sources.", "anchors": ["src/pymcnp/errors/_error.py"]}
{"id": "C46", "title": "Equality agrees with text", "statement": "Two elements are equal iff they are written the same way; equality is reflexive, symmetric and transitive.", "quantifier": "every pair and triple of elements", "why_tests_cant": "All pairs.", "anchors": ["src/pymcnp/_symbol.py:__eq__"]}
{"id": "C47", "title": "Shape operators are set operations", "statement": "Combining displayed shapes with &, |, +, ~ combines their point sets by intersection, union, union, complement, at every point.", "quantifier": "every shape expression and every point", "why_tests_cant": "Infinitely many points and expressions.", "anchors": ["src/pymcnp/_show/PyvistaShape.py"]}
{"id": "C48", "title": "Isotope table is consistent", "statement": "Every natural isotope listed for an element has a mass entry, a valid ZAID, fractions in (0, 1] summing to 1 within rounding, and from_formula never raises because of it.", "quantifier": "every element and isotope in the table", "why_tests_cant": "The table is data; the claim about from_formula ranges over all formulas and fractions.", "anchors": ["src/pymcnp/_elements.py", "src/pymcnp/inp/M_0.py:from_formula"]}
{"id": "C49", "title": "Every accepted cell can be written", "statement": "A cell that was built, and then edited by accepted assignments, can be written as text.", "quantifier": "every constructor call and every history of assignments, geometry given as text, geometry or surface", "why_tests_cant": "All histories and all ways to give a geometry.", "anchors": ["src/pymcnp/inp/Cell.py:geometry.setter", "src/pymcnp/inp/Cell.py:to_mcnp"]}
{"id": "C50", "title": "Cell numbers and materials stay in range", "statement": "Along any history the number of a cell is within 1..99999999 and its material within 0..99999999.", "quantifier": "every constructor call and every history of assignments, accepted or refused", "why_tests_cant": "Unbounded histories and all argument values.", "anchors": ["src/pymcnp/inp/Cell.py:number.setter", "src/pymcnp/inp/Cell.py:material.setter"]}
{"id": "C51", "title": "Output files lie beside their input", "statement": "The command line writes the result for an input file into the directory of that file, under the name of that file without its extension.", "quantifier": "every path and every tally number", "why_tests_cant": "All paths.", "anchors": ["src/pymcnp/_cli/_io.py:get_outfile", "src/pymcnp/_cli/convert.py", "src/pymcnp/_cli/plot.py"]}
{"id": "C52", "title": "A failed batch leaves no job unattended", "statement": "When a batch stops because an input cannot be written, every job started before has ended and had its post-hook.", "quantifier": "every list of inputs of which one cannot be written, every completion schedule", "why_tests_cant": "Scheduling of external processes.", "anchors": ["src/pymcnp/Run.py:run"]}
{"id": "C53", "title": "Inequality is the opposite of equality", "statement": "For two elements exactly one of a == b and a != b is true.", "quantifier": "every pair of elements", "why_tests_cant": "All pairs.", "anchors": ["src/pymcnp/_symbol.py:__eq__", "src/pymcnp/types/Integer.py:__ne__", "src/pymcnp/types/Real.py:__ne__", "src/pymcnp/types/String.py:__ne__"]}
{"id": "C54", "title": "PTRAC readers raise only library errors", "statement": "Reading any text as a PTRAC line, event, history, header or file either succeeds or raises one of the library's errors.", "quantifier": "every text", "why_tests_cant": "All texts.", "anchors": ["src/pymcnp/ptrac", "src/pymcnp/Ptrac.py"]}
{"id": "C55", "title": "PTRAC files with directions are read", "statement": "A PTRAC file whose events carry position, direction, energy, weight and time is read, and every history of it is kept.", "quantifier": "every well-formed file, any number of histories and events", "why_tests_cant": "The number of histories and events is unbounded.", "anchors": ["src/pymcnp/Ptrac.py:_REGEX", "src/pymcnp/ptrac/history/event/P_1.py"]}
{"id": "C56", "title": "MESHTAL columns are attributed correctly", "statement": "Reading a mesh tally line stores each column, by its place in the layout, under its own attribute: energy, time, x, y, z, result, error.", "quantifier": "every line of fixed-width columns, with or without the energy and time columns", "why_tests_cant": "The columns hold any text; which optional columns a fixed-width pattern takes depends on all the widths together.", "anchors": ["src/pymcnp/meshtal/Tally.py:_REGEX", "src/pymcnp/meshtal/Tally.py:from_mcnp"]}
{"id": "C57", "title": "MESHTAL file round trip", "statement": "Reading a MESHTAL file and writing it gives the same text: the header, the bins and every line.", "quantifier": "every file in MCNP's layout, any number of lines", "why_tests_cant": "The number of lines and the header texts are unbounded.", "anchors": ["src/pymcnp/Meshtal.py", "src/pymcnp/meshtal/Header.py", "src/pymcnp/types/Generator.py"]}
{"id": "C58", "title": "MESHTAL readers raise only library errors", "statement": "Whatever the text, reading a mesh tally line or a MESHTAL header returns an object or raises the library's own error.", "quantifier": "every text", "why_tests_cant": "All texts.", "anchors": ["src/pymcnp/meshtal/Tally.py:from_mcnp", "src/pymcnp/meshtal/Header.py:from_mcnp"]}
{"id": "C59", "title": "A surface is drawn as its positive side", "statement": "The shape a surface is drawn with contains exactly the points with positive sense: in front of the plane, outside the sphere, cylinder, cone or body, after the surface's transformation.", "quantifier": "every surface card and every point", "why_tests_cant": "Infinitely many points; the claim is about real inequalities for all parameters.", "anchors": ["src/pymcnp/inp/surface/*.py:to_show", "src/pymcnp/_show/pyvista/*.py", "src/pymcnp/inp/Surface.py:to_show"]}
{"id": "C60", "title": "The cells drawn are the cells of the problem", "statement": "Drawing a problem draws every cell, in order, as the point set of its geometry over the surfaces and cells of the problem; a LIKE cell as the cell it is like.", "quantifier": "every problem, any number of cells, every point", "why_tests_cant": "Unbounded problems and all points; the result of one cell depends on the cells before it.", "anchors": ["src/pymcnp/Visualize.py:to_show_cells", "src/pymcnp/inp/Cell.py:to_show", "src/pymcnp/types/Geometry.py:to_show"]}
{"id": "C61", "title": "A material made from formulas keeps the whole mixture", "statement": "The fractions of the nuclides in the material from_formula makes add up to the fractions asked for: nothing is lost and nothing is added.", "quantifier": "every list of formulas, mixture fractions and cutoff", "why_tests_cant": "All formulas, fractions and cutoffs; sums over unbounded lists.", "anchors": ["src/pymcnp/inp/M_0.py:from_formula"]}
{"id": "C62", "title": "from_formula writes the kind of fraction it is asked for", "statement": "With is_weight false every ratio is the nuclide's atom fraction of the mixture; with is_weight true it is minus its weight fraction.", "quantifier": "every list of formulas, mixture fractions and cutoff", "why_tests_cant": "All formulas and fractions.", "anchors": ["src/pymcnp/inp/M_0.py:from_formula"]}
{"id": "C63", "title": "What is read from an OUTP table is written back", "statement": "Writing the block read from the text of an MCNP, activity, problem-summary, analysis, density, header or run-start page gives that text again.", "quantifier": "every text any of these readers accepts", "why_tests_cant": "All texts the patterns accept; the patterns have dozens of groups.", "anchors": ["src/pymcnp/outp/*.py:from_mcnp", "src/pymcnp/outp/*.py:to_mcnp"]}
{"id": "C64", "title": "An OUTP file is written back page by page", "statement": "Writing the OUTP object read from a file of a header and pages gives the file again.", "quantifier": "every header and any number of pages", "why_tests_cant": "Unbounded files.", "anchors": ["src/pymcnp/Outp.py:from_mcnp", "src/pymcnp/Outp.py:to_mcnp"]}
{"id": "C65", "title": "Every line of a subtally is read and written back", "statement": "A subtally of a cell, a surface or an angle bin is read with all its lines in order, and written as it was.", "quantifier": "any number of lines, every text in each column", "why_tests_cant": "Unbounded numbers of lines.", "anchors": ["src/pymcnp/outp/tally/*.py:from_mcnp"]}
{"id": "C66", "title": "Every subtally of a tally page is read and written back", "statement": "A tally page is read with all its subtallies in order, and written as it was.", "quantifier": "any number of subtallies and lines, every text in each field", "why_tests_cant": "Unbounded numbers of subtallies; several look-alike layouts.", "anchors": ["src/pymcnp/outp/Tally_1A.py", "src/pymcnp/outp/Tally_1B.py", "src/pymcnp/outp/Tally_2.py", "src/pymcnp/outp/Tally_4.py", "src/pymcnp/outp/Tally_8A.py", "src/pymcnp/outp/Tally_8B.py"]}
{"id": "C67", "title": "A problem whose cards are all accepted is accepted", "statement": "If every card of an INP file is read by itself, the file is read, given a title below eighty characters and importances on the cells or on an IMP card.", "quantifier": "every INP file of any number of lines and continuation lines", "why_tests_cant": "Unbounded files; the order in which the attributes are set matters.", "anchors": ["src/pymcnp/Inp.py:Inp.__init__", "src/pymcnp/Inp.py:from_mcnp", "src/pymcnp/Inp.py:cells"]}
{"id": "C68", "title": "A problem written and read again is the same problem", "statement": "Writing an Inp object to INP and reading the text gives an equal object.", "quantifier": "every problem of any number of cells, surfaces and data cards, every class of card and every value", "why_tests_cant": "Unbounded numbers of cards and values; every pair of card classes.", "anchors": ["src/pymcnp/Inp.py:to_mcnp", "src/pymcnp/Inp.py:from_mcnp", "src/pymcnp/inp/_card.py"]}
{"id": "C69", "title": "A card is read as a card of its own class", "statement": "A text that a data card class (or an option class of a card) reads is read, among all classes, as an object of that class.", "quantifier": "every class and every text, of any length", "why_tests_cant": "All pairs of more than a hundred and fifty classes and all texts.", "anchors": ["src/pymcnp/types/Union.py:from_mcnp", "src/pymcnp/Inp.py:Data", "src/pymcnp/inp/_option.py:from_mcnp"]}
{"id": "C70", "title": "The options of a card come back one by one, whole", "statement": "A card with a list of options, written and read again, has the same options with the same values in the same order: none is lost, joined with another or cut.", "quantifier": "every card class with a list of options, every number of options, every class of option and every value", "why_tests_cant": "Unbounded lists of options of some four hundred classes, in every order; whether an option is cut depends on what follows it.", "anchors": ["src/pymcnp/types/Tuple.py:from_mcnp", "src/pymcnp/types/Union.py:from_mcnp", "src/pymcnp/inp/_option.py:from_mcnp", "src/pymcnp/inp/Cell.py"]}
{"id": "C71", "title": "A written problem has its blocks and no others, as MCNP counts them", "statement": "The text of a card has no blank line, so the text of a problem, cut at its blank lines as MCNP cuts it, has the title and the cells, the surfaces, the data cards, and what comes after, in this order.", "quantifier": "every problem of any number of cards, each of any length and any number of continuation lines", "why_tests_cant": "Where a line is broken depends on the lengths of all words before; the blank line appears at one length only.", "anchors": ["src/pymcnp/Inp.py:to_mcnp", "src/pymcnp/inp/Cell.py:to_mcnp", "src/pymcnp/inp/_card.py:_postprocess"]}
{"id": "C72", "title": "Reading raises only errors of the library", "statement": "from_mcnp of a card, an option, an entry, or a whole problem either gives an object or raises an error of the library (InpError, TypesError); no text makes it raise a bare TypeError, ValueError, AttributeError, IndexError or AssertionError of Python.", "quantifier": "every class of card, option and entry, and every text of any length", "why_tests_cant": "The error depends on which of the alternatives of a pattern a field took (a shorthand instead of a number, nan instead of digits) and on which comparisons follow; there are unboundedly many texts for each of the 675 classes.", "anchors": ["src/pymcnp/inp/_card.py:from_mcnp", "src/pymcnp/inp/_option.py:from_mcnp", "src/pymcnp/types/Integer.py:from_mcnp", "src/pymcnp/Inp.py:from_mcnp"]}
{"id": "C73", "title": "A command says it is done exactly if it did its work", "statement": "Each command of the command line ends in one of two ways: it prints Done! and returns 0 if all it was asked to do was done, or it prints the message of an error of the library and returns 1, 2 or 3, the number of that sort of error. No exception is left uncaught, and what a command could not do does not cost an existing file.", "quantifier": "every content of the files, every number of input files, every tally number, every file name", "why_tests_cant": "The status depends on the content of the files and of the environment; tests try a few of them.", "anchors": ["src/pymcnp/_cli/check.py:main", "src/pymcnp/_cli/run.py:main", "src/pymcnp/_cli/convert.py:main", "src/pymcnp/_cli/plot.py:main", "src/pymcnp/Check.py:check", "src/pymcnp/Convert.py:to_csv"]}
{"id": "C74", "title": "The MESHTAL filter keeps exactly the accepted tallies", "statement": "MeshtalFilter applied to a file yields the tallies that check accepts, each once, in the order of the file, and no others; if check raises, what came before was yielded in the same way.", "quantifier": "every list of tallies of any length and every check", "why_tests_cant": "Lists have any length, and check is any function of the user.", "anchors": ["src/pymcnp/MeshtalFilter.py:__call__"]}
{"id": "C75", "title": "visualize shows exactly what it is asked for", "statement": "pymcnp visualize shows one picture for each thing it is asked for, in order: all cells, all surfaces, all but the listed ones, or the listed ones, and all cells and all surfaces if it is asked for nothing. Each picture has exactly the cells (as their point sets) or surfaces of those numbers, in the order of the problem. With --pdf the same pictures are in files. Then it says it is done; otherwise it says what went wrong.", "quantifier": "every problem with any number of cells and surfaces, every combination and number of options, every list of numbers", "why_tests_cant": "The options combine freely, the lists and problems have any length, and the tests skip the lines that show and save pictures.", "anchors": ["src/pymcnp/_cli/visualize.py:main", "src/pymcnp/Visualize.py:to_show_cells", "src/pymcnp/Visualize.py:to_show_cell", "src/pymcnp/Visualize.py:to_show_surfaces", "src/pymcnp/Visualize.py:to_show_surface", "src/pymcnp/Visualize.py:to_pdf_cells"]}
{"id": "C76", "title": "The case of letters makes no difference to a card", "statement": "Two texts of a card, option, entry or whole INP file that differ only in the case of their letters are both read or both refused, and if they are read they give the same card or problem, apart from the case of the letters in the texts it keeps and in its comments; if they are refused, it is with the same error. The blanks, continuation lines and shorthands of both are treated alike.", "quantifier": "every card, option and entry class of the library and whole INP files, every text of every length, every spelling of it in capital and small letters", "why_tests_cant": "A text of n letters has 2^n spellings, and the library has hundreds of classes with their own patterns and tests; the tests try one spelling of each.", "anchors": ["src/pymcnp/inp/_card.py:Card.from_mcnp", "src/pymcnp/inp/_option.py:Option.from_mcnp", "src/pymcnp/inp/_entry.py:Entry.from_mcnp", "src/pymcnp/inp/_symbol.py:InpNonterminal._preprocess", "src/pymcnp/types/Integer.py:Integer.from_mcnp", "src/pymcnp/types/Real.py:Real.from_mcnp", "src/pymcnp/inp/Totnu.py:Totnu.no", "src/pymcnp/inp/F_1.py:F_1.nd", "src/pymcnp/Inp.py:Inp.from_mcnp"]}
{"id": "C77", "title": "Preparing a text a second time changes nothing", "statement": "The reader prepares the text of a card (continuation lines, blanks, equal signs, shorthand) and hands parts of it to the readers of options and entries, which prepare it again. Preparing a text that has been prepared gives the same text, so a card or option is read from it exactly as from the text it came from: as the same object of the same class, or with the same error.", "quantifier": "every text of every length; every card class and every family of options and entries", "why_tests_cant": "The shorthand can be repeated and mixed in unboundedly many ways, and each rule of the preparation feeds the next; the tests prepare a few texts once.", "anchors": ["src/pymcnp/inp/_symbol.py:InpNonterminal._preprocess", "src/pymcnp/inp/_option.py:Option.from_mcnp", "src/pymcnp/inp/_entry.py:Entry.from_mcnp"]}
