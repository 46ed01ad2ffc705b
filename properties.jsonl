{"id": "C01", "title": "unique() keeps first occurrences", "statement": "unique(l) has no repeated element, has exactly the elements of l, and lists them in the order of their first occurrence; applying it twice changes nothing.", "quantifier": "every list over every type with a decidable equality", "why_tests_cant": "infinitely many lists; order and multiplicity must hold at any length", "anchors": ["x4i3/exfor_utilities.py:unique"]}
{"id": "C02", "title": "parseFORTRANNumber: blank is None, everything else is a float or BrokenNumberError", "statement": "parseFORTRANNumber(s) returns None exactly when s is all whitespace; otherwise it returns a float or raises BrokenNumberError, and never any other exception; blanks around s (the ones float() ignores: space, tab, line ends, 133, 160) do not change the answer, while the control separators 28..31 can.", "quantifier": "every string over the latin-1 alphabet", "why_tests_cant": "unbounded space of malformed cells", "anchors": ["x4i3/exfor_utilities.py:parseFORTRANNumber", "x4i3/exfor_exceptions.py:BrokenNumberError"]}
{"id": "C03", "title": "parseFORTRANNumber agrees with float() on ordinary literals", "statement": "whenever Python's float(s) accepts s and s is not blank, parseFORTRANNumber(s) is that same float.", "quantifier": "every string", "why_tests_cant": "unbounded", "anchors": ["x4i3/exfor_utilities.py:parseFORTRANNumber"]}
{"id": "C04", "title": "Missing-E exponents are repaired to the right value", "statement": "a FORTRAN literal 'm\u00b1d' or 'm\u00b1dd' (mantissa m, any number of blanks before the sign, no letter E) is read as the correctly rounded value of m * 10^(\u00b1d), for every mantissa; the same holds for literals with blanks inside. Three-digit exponents ('1.0+100') and D exponents are NOT read: they raise BrokenNumberError.", "quantifier": "every sign, digit string, fraction, number of blanks, exponent sign and digits", "why_tests_cant": "unbounded set of literals; the repair works on a 3-character tail window so boundary cases matter", "anchors": ["x4i3/exfor_utilities.py:parseFORTRANNumber"]}
{"id": "C05", "title": "chunkifyX4Request cuts a request into exactly its entries", "statement": "for a request made of entries (from an ENTRY line to its ENDENTRY line) separated by any other lines, chunkifyX4Request returns exactly those entries, in order and line for line, and an unterminated last entry is dropped.", "quantifier": "every list of lines", "why_tests_cant": "arbitrary number and layout of entries", "anchors": ["x4i3/exfor_utilities.py:chunkifyX4Request"]}
{"id": "C06", "title": "list_of_dicts_to_table is a faithful table", "statement": "the table has one row per dict and one cell per column; cell (i,k) is dict i's value for column k or None; without explicit columns every key of every dict is a column exactly once.", "quantifier": "every list of dicts and every optional column list", "why_tests_cant": "unbounded sizes", "anchors": ["x4i3/exfor_utilities.py:list_of_dicts_to_table"]}
{"id": "C07", "title": "withinXPercent is a tolerance test", "statement": "withinXPercent(a,b) is symmetric and accepts equal finite numbers; it should reject numbers that differ by more than the tolerance. (The last clause is false: any a and -a compare equal.)", "quantifier": "every pair of IEEE doubles and every tolerance", "why_tests_cant": "needs all doubles including signs, zeros, infinities, NaN", "anchors": ["x4i3/exfor_utilities.py:withinXPercent", "x4i3/exfor_utilities.py:allWithinXPercent"]}
{"id": "C08", "title": "Accession keys are exactly 5 or 8 characters", "statement": "db[k] and (k in db) raise KeyError exactly when str(k) is not 5 or 8 characters long; 5-character keys look up entries and 8-character keys subentries; assignment always fails and changes nothing.", "quantifier": "every string or integer key", "why_tests_cant": "all keys", "anchors": ["x4i3/exfor_manager.py:X4DBManager.__fixkey__", "x4i3/exfor_manager.py:X4DBManager.__getitem__", "x4i3/exfor_manager.py:X4DBManager.__setitem__"]}
{"id": "C09", "title": "query() groups matching subentries under their entry", "statement": "query() returns a dict whose keys are the 5-character prefixes of the matching subentry numbers in increasing order; each value starts with the documentation subentry <entry>001, then lists every matching subentry of that entry exactly once in increasing order, and nothing else.", "quantifier": "every index table and every criteria", "why_tests_cant": "any set of matches in any row order with duplicates", "anchors": ["x4i3/exfor_manager.py:X4DBManagerPlainFS.query"]}
{"id": "C10", "title": "query() selects exactly the rows matching all criteria", "statement": "for criteria without quote characters the selected rows are exactly those equal to every given criterion after the documented case folding (author capitalised, target/reaction/projectile/quantity upper-cased, CS meaning SIG).", "quantifier": "every index table, every combination of criteria, every string without a quote", "why_tests_cant": "all tables and all criteria strings; depends on SQL text assembled by string pasting", "anchors": ["x4i3/exfor_manager.py:X4DBManagerPlainFS.query", "x4i3/exfor_manager.py:X4DBManager.run_sql_query"]}
{"id": "C11", "title": "query() treats criteria as data, not as SQL", "statement": "for EVERY criteria string the rows selected are those equal to the string. (False: quotes are not escaped, so a quote in an author's name raises a syntax error or widens the query to the whole table.)", "quantifier": "every criteria string", "why_tests_cant": "adversarial strings", "anchors": ["x4i3/exfor_manager.py:X4DBManagerPlainFS.query"]}
{"id": "C12", "title": "'*' in a reaction is a wildcard for any text", "statement": "query(reaction=pat) with '*' matches exactly the reactions obtained by replacing each '*' by some text, ignoring case. (Holds for patterns without '_' and '%'; false otherwise, since those are SQL wildcards too.)", "quantifier": "every pattern and reaction string", "why_tests_cant": "all patterns", "anchors": ["x4i3/exfor_manager.py:X4DBManagerPlainFS.query"]}
{"id": "C13", "title": "Criteria combine by intersection and unknown criteria are ignored", "statement": "adding a criterion never adds a match; the criteria product, MF, MT, C, S, I never change the result; a query with none of the supported criteria returns the empty dict.", "quantifier": "every table, every criteria", "why_tests_cant": "all combinations", "anchors": ["x4i3/exfor_manager.py:X4DBManagerPlainFS.query"]}
{"id": "C14", "title": "'in' agrees with query()", "statement": "for a 5-character key (k in db) is True exactly when some row of the index has that entry; for an 8-character key it should be True exactly when the subentry is in the index. (False: raises TypeError for every 8-character key.)", "quantifier": "every table and key", "why_tests_cant": "all keys", "anchors": ["x4i3/exfor_manager.py:X4DBManager.__contains__"]}
{"id": "C15", "title": "retrieve() of an absent key returns an empty dict", "statement": "db[k] for a well-formed key without matches is {} (not a KeyError), whatever is on disk.", "quantifier": "every table, key and file system", "why_tests_cant": "all states", "anchors": ["x4i3/exfor_manager.py:X4DBManager.__getitem__", "x4i3/exfor_manager.py:X4DBManagerPlainFS.retrieve"]}
{"id": "C16", "title": "retrieve(rawEntry=True) returns the stored text verbatim", "statement": "for an entry file consisting of an ENTRY line, SUBENT...ENDSUBENT blocks, NOSUBENT lines and an ENDENTRY line, the result is exactly the blocks whose accession number was selected, in file order, character for character; NOSUBENT/ENTRY/ENDENTRY lines are left out.", "quantifier": "every such file and every selection", "why_tests_cant": "files of any length and content", "anchors": ["x4i3/exfor_entry.py:x4EntryFactory", "x4i3/exfor_manager.py:X4DBManagerPlainFS.retrieve"]}
{"id": "C17", "title": "The in-memory database gives the same answers as the file system", "statement": "X4DBManagerMemoryCached.retrieve returns what X4DBManagerPlainFS.retrieve returns. (False: the cache stores bytes and every non-empty entry raises TypeError; a custom datapath is ignored.)", "quantifier": "every database content and query", "why_tests_cant": "all contents", "anchors": ["x4i3/exfor_entry.py:x4DictionaryEntryFactory", "x4i3/__init__.py:DataBaseCache", "x4i3/exfor_manager.py:X4DBManagerMemoryCached"]}
{"id": "C18", "title": "The lazy cache is transparent", "statement": "after any history of lookups, database_dict[k] returns the content of file k as it was when the cache was (successfully) first loaded, or KeyError; a failed load is retried by the next lookup and never leaves a permanently truncated cache.", "quantifier": "every history of lookups, file changes and load failures", "why_tests_cant": "unbounded histories with failures at any point", "anchors": ["x4i3/__init__.py:DataBaseCache"]}
{"id": "C19", "title": "Entry letter tables are mutually inverse", "statement": "EntryLetterConversion and revEntryLetterConversion are inverse bijections.", "quantifier": "every key and value", "why_tests_cant": "finite; proved by exhaustive computation over the tables", "anchors": ["x4i3/exfor_manager.py:EntryLetterConversion", "x4i3/exfor_manager.py:revEntryLetterConversion"]}
{"id": "C20", "title": "X4Entry finds a subentry by int, short string or full number", "statement": "entry[n], entry['n'], entry['00n'] and entry['<acc>00n'] denote the same subentry for every n from 0 to 999; any other length raises KeyError.", "quantifier": "every entry, integer and string", "why_tests_cant": "all keys", "anchors": ["x4i3/exfor_entry.py:X4Entry.__getitem__"]}
{"id": "C21", "title": "X4Entry.chunkify cuts an entry into exactly its subentries", "statement": "the chunks are exactly the line ranges from a SUBENT line to the next ENDSUBENT line, in order; nothing outside leaks in and nothing inside is lost.", "quantifier": "every list of lines", "why_tests_cant": "unbounded", "anchors": ["x4i3/exfor_entry.py:X4Entry.chunkify"]}
{"id": "C22", "title": "Deleted entries are recognised", "statement": "entry.deleted() is True when the HISTORY of subentry 001 says ENTRY DELETED. (False: it can never be True for a parsed entry.)", "quantifier": "every entry", "why_tests_cant": "no test fixture has a deleted entry; needs all entries", "anchors": ["x4i3/exfor_entry.py:X4Entry.deleted"]}
{"id": "C23", "title": "getDataSets has one key per reaction pointer of each data-carrying subentry", "statement": "every key of getDataSets() is (accession, subentry, pointer) where the subentry has a DATA section and pointer belongs to the REACTION field of the subentry or of subentry 001, and every such triple is either a key of the result or of entry.errors.", "quantifier": "every parsed entry", "why_tests_cant": "any number of subentries/pointers and any pattern of per-dataset failures", "anchors": ["x4i3/exfor_entry.py:X4Entry.getDataSets"]}
{"id": "C24", "title": "One bad data set does not spoil the others", "statement": "a NotImplementedError or IndexError in one data set (and any of the six listed errors while simplifying) leaves every other data set exactly as it would have been, and is recorded under its own key.", "quantifier": "every entry, every failure pattern", "why_tests_cant": "failure patterns are unbounded", "anchors": ["x4i3/exfor_entry.py:X4Entry.getDataSets", "x4i3/exfor_entry.py:X4Entry.getSimplifiedDataSets"]}
{"id": "C25", "title": "getSimplifiedDataSets keeps the key set", "statement": "it returns exactly the keys of getDataSets(); each value is the simplified data set, or the unsimplified one if its error was recorded.", "quantifier": "every entry", "why_tests_cant": "unbounded", "anchors": ["x4i3/exfor_entry.py:X4Entry.getSimplifiedDataSets"]}
{"id": "C26", "title": "Reading metadata does not change an entry", "statement": "meta() and getDataSets() leave repr(entry) unchanged. (False: asking for the metadata of a BIB without TITLE inserts a None field, after which repr() raises AttributeError.)", "quantifier": "every entry", "why_tests_cant": "history dependent", "anchors": ["x4i3/exfor_section.py:X4BibMetaData.__init__", "x4i3/exfor_section.py:X4BibSection.totalLen"]}
{"id": "C27", "title": "X4SubEntry.chunkify isolates exactly the BIB, COMMON and DATA sections", "statement": "for a subentry laid out as SUBENT, sections each closed by an END line, ENDSUBENT, with arbitrary lines between, the chunks are exactly the sections in order.", "quantifier": "every list of lines", "why_tests_cant": "unbounded", "anchors": ["x4i3/exfor_subentry.py:X4SubEntry.chunkify", "x4i3/exfor_subentry.py:extractX4SectionType", "x4i3/exfor_subentry.py:extractX4SubEntryIndex"]}
{"id": "C28", "title": "BIB chunkify loses no line", "statement": "the concatenation of the fields is the section without its BIB/ENDBIB lines, and every field except possibly the first starts with a keyword line and contains no other keyword line.", "quantifier": "every section", "why_tests_cant": "unbounded", "anchors": ["x4i3/exfor_section.py:X4BibSection.chunkify"]}
{"id": "C29", "title": "Every keyword of a BIB section is kept", "statement": "bib[k] holds all the text given under keyword k. (Holds when keywords are distinct; false for a repeated keyword, whose earlier text is silently lost while repr prints the last one twice; an empty BIB section raises IndexError.)", "quantifier": "every section", "why_tests_cant": "unbounded", "anchors": ["x4i3/exfor_section.py:X4BibSection.__init__", "x4i3/exfor_section.py:X4BibSection.__repr__"]}
{"id": "C30", "title": "Plain fields keep every line under its pointer", "statement": "in X4PlainField each input line is stored exactly once, as its columns 12-66 right-stripped, under the most recent non-blank pointer in column 11 (blank if none yet), in input order; total_len() is the number of input lines.", "quantifier": "every list of lines", "why_tests_cant": "unbounded", "anchors": ["x4i3/exfor_field.py:X4PlainField.__init__", "x4i3/exfor_field.py:X4PlainField.total_len"]}
{"id": "C31", "title": "repr of a plain field parses back to the same field", "statement": "X4PlainField(repr(f).split('\\n')) has the same tag, pointers and text as f, for fields whose blank-pointer text (if any) comes first and whose tag fits 10 columns. (False when a pointer is met before the blank one; and repr of an AUTHOR field in which no author is found raises AttributeError.)", "quantifier": "every parsed field", "why_tests_cant": "unbounded text", "anchors": ["x4i3/exfor_field.py:X4PlainField.__repr__", "x4i3/exfor_field.py:X4SubField.__repr__"]}
{"id": "C32", "title": "repr of a BIB section announces its own size", "statement": "the counts in the BIB and ENDBIB lines of repr(bib) equal the number of fields and the number of text lines that follow, when keywords are distinct.", "quantifier": "every BIB section", "why_tests_cant": "unbounded", "anchors": ["x4i3/exfor_section.py:X4BibSection.__repr__", "x4i3/exfor_section.py:X4BibSection.totalLen"]}
{"id": "C33", "title": "DATA sections have the announced shape", "statement": "after X4DataSection(tag, lines) there are numcols labels, numcols units, and numrows rows of numcols cells; len(section) is numrows.", "quantifier": "every accepted list of lines", "why_tests_cant": "all headers", "anchors": ["x4i3/exfor_section.py:X4DataSection.__init__", "x4i3/exfor_section.py:X4DataSection.__len__"]}
{"id": "C34", "title": "Each DATA cell comes from its own 11 columns", "statement": "cell (i,j) is the number written in columns 11*(j mod 6)+1..11*(j mod 6)+11 of the (j div 6)-th physical line of row i, and labels/units likewise. (Holds when no line is longer than 66 characters; false for longer lines of multi-line rows, because 67 characters are kept.)", "quantifier": "every accepted list of lines, row and column", "why_tests_cant": "any number of rows/columns/line lengths", "anchors": ["x4i3/exfor_section.py:X4DataSection.__init__"]}
{"id": "C35", "title": "No DATA row is silently dropped", "statement": "the rows delivered account for every physical line of the section, otherwise IndexError is raised. (Holds for the first two counting conventions; false for the third when the line count is not a multiple of the lines per row.)", "quantifier": "every list of lines", "why_tests_cant": "all headers and line counts", "anchors": ["x4i3/exfor_section.py:X4DataSection.__init__"]}
{"id": "C36", "title": "DATA pointers map to their columns", "statement": "pointers[p] is exactly the increasing list of columns whose heading carries pointer p. (Holds when headings are distinct; false when two columns have the same heading and pointer.)", "quantifier": "every section", "why_tests_cant": "all headings", "anchors": ["x4i3/exfor_section.py:X4DataSection.__init__"]}
{"id": "C37", "title": "repr of a DATA section parses back to the same section", "statement": "for sections of at most six columns, X4DataSection(tag, repr(s).split('\\n')) has the same labels, units, pointers and cells as s. (False for seven or more columns.)", "quantifier": "every parsed section", "why_tests_cant": "unbounded tables", "anchors": ["x4i3/exfor_section.py:X4DataSection.__repr__"]}
{"id": "C38", "title": "Column parsers do not remember previous data sets", "statement": "the value, error and match a shared column parser returns for a data set depend only on that data set, whatever data sets were processed before in the same thread.", "quantifier": "every parser, data set and history of previous calls", "why_tests_cant": "the parser objects are mutable module globals; histories are unbounded", "anchors": ["x4i3/exfor_column_parsing.py:X4ColumnParser", "x4i3/exfor_column_parsing.py:X4ColumnPairParser"]}
{"id": "C39", "title": "Column parsers are safe to share between threads", "statement": "two threads simplifying data sets concurrently get the results they would get alone. (False: an interleaving inside getValue mixes the column indices of the two data sets.)", "quantifier": "every interleaving", "why_tests_cant": "scheduling", "anchors": ["x4i3/exfor_column_parsing.py:X4ColumnPairParser.set_icols"]}
{"id": "C40", "title": "Unit conversion multiplies by the factor of the source unit", "statement": "a converted column has the canonical unit as its unit, and every value is the original times the factor of the source unit times the parser's scale, plus its offset, None staying None; converting twice changes nothing because canonical units have factor one.", "quantifier": "every column, unit and value", "why_tests_cant": "all doubles and tables", "anchors": ["x4i3/exfor_column_parsing.py:X4ColumnParser.getConversion", "x4i3/exfor_column_parsing.py:X4ColumnParser.getColumn"]}
{"id": "C41", "title": "Uncertainties are never negative", "statement": "every uncertainty column produced by getSimplified contains only None and numbers that are not negative.", "quantifier": "every data set and every parser table", "why_tests_cant": "all doubles", "anchors": ["x4i3/exfor_column_parsing.py:absOrNone", "x4i3/exfor_dataset.py:X4DataSet.getSimplified"]}
{"id": "C42", "title": "Every column parser returns a full column", "statement": "getValue, getError and the average/condense helpers return a heading, a unit and exactly one cell per row, so no row is ever misaligned.", "quantifier": "every parser and data set", "why_tests_cant": "unbounded", "anchors": ["x4i3/exfor_column_parsing.py:X4ColumnParser.getColumn", "x4i3/exfor_column_parsing.py:condenseColumn", "x4i3/exfor_column_parsing.py:averageColumns"]}
{"id": "C43", "title": "The first matching column with a value wins", "statement": "condenseColumn gives, row by row, the first non-None cell in the order of the parser table.", "quantifier": "every list of columns", "why_tests_cant": "unbounded", "anchors": ["x4i3/exfor_column_parsing.py:condenseColumn"]}
{"id": "C44", "title": "Percent errors scale the value", "statement": "a PER-CENT error column is converted to value*percent/100 in the unit of the value.", "quantifier": "every data set", "why_tests_cant": "all doubles", "anchors": ["x4i3/exfor_column_parsing.py:X4IndependentColumnPairParser", "x4i3/exfor_column_parsing.py:X4ConstantPercentColumnPairParser"]}
{"id": "C45", "title": "B*RT-EV data can be converted to barns", "statement": "cross sections in B*RT-EV are divided by sqrt(E). (False: the energy parser list consulted is always empty, so conversion raises TypeError.)", "quantifier": "every data set", "why_tests_cant": "untested code path", "anchors": ["x4i3/exfor_column_parsing.py:X4BarnsSqrtEColumnParser"]}
{"id": "C46", "title": "A data row is COMMON values followed by its own cells", "statement": "setData gives labels = labels(COMMON 001) + labels(COMMON sub) + selected DATA labels, same for units, and each row carries the COMMON values then the DATA cells of that row whose column has no pointer or the requested pointer. A COMMON section of several rows gives row i its row i, and zeros when it runs out. (Holds when the COMMON sections carry no foreign pointer and are two different sections; false otherwise: with pointers in COMMON the measured value is replaced by another number, and the COMMON of a subentry 001 that has DATA counts twice, the second time as zeros.)", "quantifier": "every pair of COMMON sections and DATA section and pointer", "why_tests_cant": "unbounded tables", "anchors": ["x4i3/exfor_dataset.py:X4DataSet.setData"]}
{"id": "C47", "title": "getSimplified does not change the data set", "statement": "after ds.getSimplified(...) ds is unchanged, and the result is rectangular: as many labels as units as cells in each row, with exactly the rows of ds.", "quantifier": "every data set and option", "why_tests_cant": "unbounded", "anchors": ["x4i3/exfor_dataset.py:X4DataSet.getSimplified"]}
{"id": "C48", "title": "append concatenates only compatible data sets", "statement": "append(other) either leaves self unchanged (labels, units or reaction differ), or keeps self's labels and units and puts other's rows after self's rows; an empty data set takes over the table, reaction, monitor and simplified flag of other, but keeps its own class and metadata.", "quantifier": "every pair of data sets", "why_tests_cant": "unbounded", "anchors": ["x4i3/exfor_dataset.py:X4DataSet.append"]}
{"id": "C49", "title": "The quantity decides the kind of data set", "statement": "X4DataSetFactory picks the same class for the same quantity whatever the data; every non-empty quantity yields exactly one class.", "quantifier": "every quantity", "why_tests_cant": "unbounded lists of quantity codes", "anchors": ["x4i3/exfor_dataset.py:X4DataSetFactory"]}
{"id": "C50", "title": "Subentry metadata override entry metadata", "statement": "for each metadata slot the value is that of the last BIB that has one (subentry over 001), and a missing value never overrides a present one.", "quantifier": "every list of metadata objects", "why_tests_cant": "unbounded", "anchors": ["x4i3/exfor_dataset.py:X4DataSet.__init__"]}
{"id": "C51", "title": "The residual nucleus conserves charge and baryon number", "statement": "whenever a reaction's residual is computed from target, projectile and products, Z and A of residual plus products equal Z and A of target plus projectile.", "quantifier": "every target, projectile and product list", "why_tests_cant": "unbounded product lists", "anchors": ["x4i3/exfor_reactions.py:X4Process.setResidual"]}
{"id": "C52", "title": "Elastic and inelastic processes leave the target", "statement": "for EL, INL, SCT and THS the residual is the target.", "quantifier": "every reaction", "why_tests_cant": "all targets/projectiles", "anchors": ["x4i3/exfor_reactions.py:X4Process.setResidual"]}
{"id": "C53", "title": "A simple capture reaction gets its compound nucleus as residual", "statement": "for target(p,G) the residual is the nucleus (Zt+Zp, At+Ap). (False for light targets: 1-H-1(P,G)0 leaves no residual because of a guard A > Z.)", "quantifier": "every target and projectile", "why_tests_cant": "all nuclei", "anchors": ["x4i3/exfor_reactions.py:X4Process.setResidual"]}
{"id": "C54", "title": "A reaction combination lists its reactions in order", "statement": "getX4ReactionList gives the reactions in the order of occurrence and getEquation(schematic=True) has the placeholder 'rxn i' exactly where reaction i stood.", "quantifier": "every parsed combination", "why_tests_cant": "unbounded expressions", "anchors": ["x4i3/exfor_field.py:X4ReactionField.getEquation", "x4i3/exfor_field.py:X4ReactionField.getX4ReactionList", "x4i3/exfor_reactions.py:X4ReactionCombination"]}
{"id": "C55", "title": "endlZA style names are unambiguous", "statement": "X4Nucleus.endlZAStyle of two nuclei with Z and A below 1000 is equal only if Z and A are equal.", "quantifier": "every pair of nuclei", "why_tests_cant": "all pairs", "anchors": ["x4i3/exfor_particle.py:X4Nucleus"]}
{"id": "C56", "title": "Element symbols and charges are inverse", "statement": "endl_SymbolZ(endl_ZSymbol(Z)) == Z for every tabulated Z, and unknown Z or symbols give None.", "quantifier": "every integer and every string", "why_tests_cant": "all integers", "anchors": ["x4i3/endl_Z.py:endl_ZSymbol", "x4i3/endl_Z.py:endl_SymbolZ"]}
{"id": "C57", "title": "Dictionary names and numbers are mutually inverse", "statement": "X4DictionaryServer looks up the same dictionary by name and by number, for every advertised name.", "quantifier": "every name and number", "why_tests_cant": "finite tables", "anchors": ["x4i3/exfor_dicts.py:X4DictionaryServer"]}
{"id": "C58", "title": "getDictionary slices every line at the field breaks", "statement": "for each non-blank body line the stored key and fields are the stripped pieces between the field breaks, which together cover the line; the last definition of a key wins.", "quantifier": "every file content and list of breaks", "why_tests_cant": "unbounded", "anchors": ["x4i3/exfor_dicts.py:getDictionary"]}
{"id": "C59", "title": "Reference years are four digits", "statement": "parseX4Year yields a four-digit year starting with 19 or 20 for every 2, 4, 6 or 8 digit date: yyyy, yyyymm and yyyymmdd give yyyy; yy, yymm and yymmdd give 19yy, or 20yy when yy <= 10. (False for other lengths, which are returned as they are.)", "quantifier": "every string", "why_tests_cant": "all dates", "anchors": ["x4i3/exfor_reference.py:parseX4Year"]}
{"id": "C60", "title": "Monitor continuation lines are joined to their reaction", "statement": "a MONITOR reaction that spans several lines is read as one reaction. (False: the second line is added one character at a time, and a missing second line raises IndexError.)", "quantifier": "every field", "why_tests_cant": "unbounded", "anchors": ["x4i3/exfor_field.py:X4MonitorField.__init__"]}
{"id": "C61", "title": "An interrupted database download is never taken for a complete one", "statement": "at every point where the download/unpack may be interrupted, if check_if_exists finds all database files then either nothing has been touched yet or every file belongs to the new, complete database; after any number of interrupted attempts starting from an incomplete installation, finding all files means the new database is complete; the tag file alone does not imply this.", "quantifier": "every crash point and every previous state", "why_tests_cant": "crash points", "anchors": ["x4i3/__init__.py:_download_and_unpack_file", "x4i3/__init__.py:check_if_exists"]}
{"id": "C62", "title": "repr of a subentry can be read back", "statement": "X4SubEntry(repr(s).split('\\n')) is a subentry with the same accession number, and the lines of repr(entry) are accepted as an entry (the docstrings promise text suitable for parsing with x4i). (False: the accession number is printed from column 12 but read from columns 15-22, so a subentry comes back with another number and the lines of every printed entry are refused with KeyError.)", "quantifier": "every subentry and entry", "why_tests_cant": "unbounded", "anchors": ["x4i3/exfor_entry.py:X4SubEntry.__repr__", "x4i3/exfor_entry.py:X4Entry.__repr__"]}
{"id": "C63", "title": "Simplification fails only in the documented ways", "statement": "for a rectangular data set whose cosines have inverse cosines and whose data are not in B*RT-EV, getSimplified returns a data set, or raises NoValuesGivenError, or (only with failIfMissingErrors and without makeAllColumns) NoUncertaintyGivenError. (False for cosines outside [-1, 1]: ValueError, which getSimplifiedDataSets does not catch either.)", "quantifier": "every rectangular data set and option", "why_tests_cant": "the exceptions depend on every combination of columns, units and missing cells", "anchors": ["x4i3/exfor_dataset.py:182-246", "x4i3/exfor_column_parsing.py:182-617", "x4i3/exfor_entry.py:298-340"]}
{"id": "C64", "title": "Systematic and statistical errors add in quadrature", "statement": "when both ERR and ERR-S are given, the uncertainty is sqrt(sys^2 + stat^2), percentages being converted with the value first, a missing one counting as zero. (Holds when both or neither are in PER-CENT; false when one is: the absolute one is then also taken for a percentage.)", "quantifier": "every data set", "why_tests_cant": "needs all values, units and patterns of missing cells", "anchors": ["x4i3/exfor_column_parsing.py:495-547"]}
{"id": "C65", "title": "All cells of a simplified column are in the unit of its heading", "statement": "every value of a simplified column is in the unit given for the column. (Holds when all columns it is drawn from convert to the same unit; false otherwise: energies in MeV and momenta in GeV/c end up in one column.)", "quantifier": "every simplified data set", "why_tests_cant": "needs every combination of columns that can feed one simplified column", "anchors": ["x4i3/exfor_column_parsing.py:115-122", "x4i3/exfor_column_parsing.py:631-665", "x4i3/exfor_dataset.py:205-245"]}
{"id": "C66", "title": "getDataSets can be asked again", "statement": "a second call of getDataSets() on the same entry returns the same data sets and records the same errors, although the first call may have added an empty TITLE to BIB sections.", "quantifier": "every parsed entry", "why_tests_cant": "needs every entry; the first call changes the entry", "anchors": ["x4i3/exfor_entry.py:221-296", "x4i3/exfor_section.py:127-149"]}
{"id": "C67", "title": "Reaction codes are read whatever blanks and line ends stand between their parts", "statement": "for a reaction code (a nuclide target with or without isomer codes, a projectile, products separated by plus signs, possibly a residual, then quantities after commas), alone or combined with other codes by + - * / // = and parentheses, the grammar delivers exactly the parts as written, in order, however many blanks and line breaks stand before each part, and whatever free text follows; with the shipped dictionaries too. (Restricted to codes without a nuclide before a plus sign, without products B, X... followed by letters: 2-HE-4+G, B+N and XN are misread.)", "quantifier": "every reaction code, every layout of blanks and line breaks, every free text", "why_tests_cant": "needs every code and layout", "anchors": ["x4i3/exfor_grammers.py:70-259"]}
{"id": "C68", "title": "The residual nucleus of a REACTION text is the one written, or else the one left over", "statement": "reading the text of a REACTION field gives target, projectile, products and quantities as written; a residual that is written and balances charge and mass is the residual, and when none is written the residual has the charge and mass left by target + projectile - products. Holds for a nuclide target without isomer code, any projectile and products among G N P D T HE3 A E, their multiples and nuclides; false for natural elements, for the product X, and for isomers after INL, where the written residual is lost.", "quantifier": "every such reaction code in every layout, followed by any free text", "why_tests_cant": "needs all nuclides, product lists and layouts", "anchors": ["x4i3/exfor_field.py:148-165", "x4i3/exfor_reactions.py:78-204", "x4i3/exfor_particle.py:179-318"]}
{"id": "C69", "title": "A combination of reactions is read as its reactions and operators in order", "statement": "a parenthesised expression of reactions, as deeply nested as one likes, is read as a combination whose data are the operators, parentheses and reactions in the order of the text, each reaction being the one written.", "quantifier": "every expression of reactions and every layout", "why_tests_cant": "unbounded nesting", "anchors": ["x4i3/exfor_field.py:148-165", "x4i3/exfor_reactions.py:266-296", "x4i3/exfor_grammers.py:106-111"]}
{"id": "C70", "title": "A printed reaction reads back as the same reaction", "statement": "the repr of a reaction read from a REACTION field is itself a valid REACTION text, and reading it gives the same reaction. Holds for the reactions of the previous property with Z < 113; false for isomers T, which print as M, and for three-letter element symbols.", "quantifier": "every such reaction", "why_tests_cant": "needs all nuclides and product lists", "anchors": ["x4i3/exfor_reactions.py:99-104", "x4i3/exfor_reactions.py:223-241", "x4i3/exfor_particle.py:244-341"]}
{"id": "C71", "title": "The authors of an entry are the names of its AUTHOR list, in order", "statement": "for an AUTHOR field whose text is a list of names in parentheses, separated by commas (blanks before names allowed, wrapped over lines as one likes) and any comment, or such a list without its closing parenthesis, the authors are exactly these names in title case, in order, and each family name is what follows the last dot; a field that says there is no author gives none. Holds for names of visible ASCII characters with at most one apostrophe in the field; false for other letters, which cut the list off silently, and for two apostrophes, which put blanks into names.", "quantifier": "every such field, any number of names, lines and pointers", "why_tests_cant": "needs all lists and layouts", "anchors": ["x4i3/exfor_field.py:436-478", "x4i3/exfor_grammers.py:150-153"]}
{"id": "C72", "title": "Every institute code is an institute, named by the dictionary, with its comment", "statement": "for an INSTITUTE field made of codes in parentheses, each followed by a comment of words, every code gives one institute in order: the code, the dictionary's name for its last three characters (or the code itself) and the comment in title case. Of words in one parenthesis the first is the code; from the first character that no comment can have on nothing is read. Holds for one code per parenthesis and comments without parentheses; false for several codes in one parenthesis (only the last is named), for remarks in parentheses, which become institutes, and for codes after a character such as =, which are lost.", "quantifier": "every such field, any number of codes and words", "why_tests_cant": "needs all texts and dictionaries", "anchors": ["x4i3/exfor_field.py:481-511", "x4i3/exfor_grammers.py:131-148"]}
{"id": "C73", "title": "Every reference of a REFERENCE field is read and the first one describes the field", "statement": "for a REFERENCE field whose references are codes in parentheses (type, name, details, date; blanks anywhere, simple parentheses inside) followed by a comment that may go on over further lines, or several such codes of the same work ((...)=(...)), the references of each pointer are read in order with type, name, details, date, year, dictionary name and comment as written, and the type, name, details, year and publication type of the field are those of the first. Holds when dates are digits and parentheses are balanced; and when no comment has an equals sign beside a reference with several codes; false otherwise: one bad date or such an equals sign turns the whole field into 'Parsing failed', an unbalanced parenthesis is an uncaught ParseException, and a first reference of type 0, 3 or 4 a KeyError.", "quantifier": "every such field, any number of references, lines and pointers", "why_tests_cant": "needs all codes, layouts and dictionaries", "anchors": ["x4i3/exfor_field.py:311-419", "x4i3/exfor_reference.py:39-126", "x4i3/exfor_grammers.py:153-155"]}
{"id": "C74", "title": "A simplified data set is independent of the original", "statement": "the data set returned by getSimplified() has lists of its own: whatever is done to it afterwards (append, sort, assigning to cells or labels), no other data set changes, and it does not change with them. Holds for data sets of the kinds that have a simplification and were not simplified before; false otherwise: then the answer shares labels, units and data with the original, and sorting one sorts the other.", "quantifier": "every history of operations on any number of data sets", "why_tests_cant": "needs every later use of every object", "anchors": ["x4i3/exfor_dataset.py:182-246", "x4i3/exfor_dataset.py:248-260", "x4i3/exfor_dataset.py:365-367"]}
{"id": "C75", "title": "append changes only the data set it is called on, and returns", "statement": "a.append(b) adds copies of the rows of b to a and changes no other data set. Holds for different data sets read from entries, whatever appends, sorts and assignments came before; false for a.append(a), and for a data set that shares its list with getSimplified's answer: the call never returns. After appending to an empty data set both have the same row objects.", "quantifier": "every history of operations on any number of data sets", "why_tests_cant": "non-termination and sharing show up only for particular histories", "anchors": ["x4i3/exfor_dataset.py:248-260"]}
{"id": "C76", "title": "The file written by csv() contains the data set", "statement": "reading the file that csv(name) writes with csv.reader gives the labels, the units (empty where there is none) and one row per data point, the cells being empty where there is no value and repr of the value elsewhere - whatever commas, quotes or line ends the headings contain and even if a row has only one, empty cell. The same holds for csv() of a DATA or COMMON section. Restricted to headings without carriage returns.", "quantifier": "every data set and data section", "why_tests_cant": "needs all texts and tables", "anchors": ["x4i3/exfor_dataset.py:279-288", "x4i3/exfor_section.py:311-320"]}
{"id": "C77", "title": "getAbundance gives the tabulated natural abundance, and nothing for other nuclides", "statement": "for every isotope of the table, getAbundance(Z, A) is the abundance and uncertainty written in its line, and (0.0, 0.0) for any other integers Z, A; in the shipped table no isotope occurs twice, the symbols are those of endl_Z and the abundances of each element add up to 100 % within 0.004 %.", "quantifier": "every table of isotopes and every Z, A; the shipped table", "why_tests_cant": "needs every line and every argument", "anchors": ["x4i3/abundance.py:39-348"]}
{"id": "C78", "title": "A simplified cross section has the energies, values and uncertainties written in the entry", "statement": "for an entry given as text, whose subentry 001 and one other subentry have their sections under the usual names, whose REACTION field has a reaction code with charge and mass balance and quantity of a cross section, and whose COMMON and DATA tables together have one energy column EN, one value column DATA and at most one uncertainty column DATA-ERR (absolute or in percent), getSimplifiedDataSets gives, under the key of that subentry, a cross section with that reaction, and one row for every row of the DATA table, with the energy in MeV, the value in barns and the uncertainty in barns, computed from the numbers as they are written; empty cells stay empty. Likewise getDataSets gives all columns in order, for every kind of data set.", "quantifier": "every such entry: any layout of the reaction code, number of columns, rows, COMMON columns, units, other subentries and other headings", "why_tests_cant": "an end-to-end statement over all entry texts", "anchors": ["x4i3/exfor_entry.py:53-364", "x4i3/exfor_section.py:44-277", "x4i3/exfor_field.py:148-165", "x4i3/exfor_dataset.py:46-246", "x4i3/exfor_column_parsing.py:35-700"]}
{"id": "C79", "title": "A simplified data set is read from its columns as the table of readings says", "statement": "getSimplified() of a cross section, nubar, spectrum average, angular or energy distribution gives, row by row, for every quantity (Energy, E', Angle, Data) the number of the first reading that yields one, and likewise its uncertainty; the readings (values with errors, with half or full widths, limits, uncertainties down and up, two error bars added in quadrature, values alone) and the headings and units that each takes are those listed, the first matching column counts, numbers are converted to canonical units and full widths halved, cosines and their uncertainties are turned into angles by the inverse cosine. It raises NoValuesGivenError exactly when some quantity has no number in any row, and NoUncertaintyGivenError exactly when failIfMissingErrors is set, makeAllColumns is not and some quantity has no uncertainty. Restricted to rectangular tables whose cosines have inverse cosines, without barns times root of energy.", "quantifier": "every table: any columns in any order, any cells, any number of rows", "why_tests_cant": "the listed readings interact in all combinations of columns present and cells missing", "anchors": ["x4i3/exfor_column_parsing.py:35-874", "x4i3/exfor_dataset.py:182-246", "x4i3/exfor_dataset.py:307-432"]}
{"id": "C80", "title": "A number in a table is read as the double nearest to the number written", "statement": "for every numeral (digits with or without a decimal point, signed or not, followed by nothing, by E and a signed exponent, or by a signed exponent of one or two digits alone with blanks before it) parseFORTRANNumber returns the IEEE double nearest to the real number it denotes, the even one of two equally near, and an infinity of the right sign beyond the range; the same number written in different ways is read as the same double.", "quantifier": "every numeral, any number of digits", "why_tests_cant": "infinitely many numerals; rounding errors show only near halfway cases", "anchors": ["x4i3/exfor_utilities.py:88-135"]}
{"id": "C81", "title": "Numbers written by csv() read back as exactly the same numbers", "statement": "repr of any double, read by float(), is that double; so the numbers in the files that csv() writes for a data set or a DATA or COMMON section are, read back, exactly the numbers of the object.", "quantifier": "every double, every table", "why_tests_cant": "2^64 doubles", "anchors": ["x4i3/exfor_dataset.py:279-288", "x4i3/exfor_section.py:311-320"]}
{"id": "C82", "title": "The printed table of a data set can be read back", "statement": "str() of a data set consists of comment lines, one line per data point and a blank line; splitting the line of a data point at blanks gives as many words as there are columns, None for a missing value and otherwise a number that float() reads as the value up to the twelfth digit - exactly, for values of at most seven digits between 1e-99 and 1e10. Holds when no printed number has 14 or more characters and no heading or metadata contains a line end; false otherwise: an energy of 12.3456789 eV is printed as 1.23456789e-05 and runs into the next column.", "quantifier": "every data set", "why_tests_cant": "needs every number and table; the columns run together only for long numbers", "anchors": ["x4i3/exfor_dataset.py:119-168", "x4i3/exfor_section.py:159-166"]}
{"id": "C83", "title": "The printed table of a DATA or COMMON section can be read back", "statement": "str() of a DATA or COMMON section gives, after the first line, the headings and the units, one line per row; splitting it at blanks gives as many words as there are columns, None for an empty cell and otherwise a number that float() reads as exactly the number of the section. Holds when no number takes eleven or more characters, as with numbers of at most four digits; false otherwise: 1.23456-05 is printed as 1.23456e-05 and runs into the next column.", "quantifier": "every DATA or COMMON section that is read", "why_tests_cant": "needs every number and table", "anchors": ["x4i3/exfor_section.py:278-292"]}
{"id": "C84", "title": "Energies, cross sections and uncertainties are what is written, to fifteen digits", "statement": "the energies (MeV), cross sections and uncertainties (barns) of a simplified cross section differ from the real numbers written in the entry, multiplied by what their units are worth (and, for uncertainties in percent, by the cross section and 1/100), by at most one part in 2^50; likewise a column of any data set, read in canonical units and halved for full widths, is what is written up to one part in 2^50. Restricted to numbers that are zero or between 1e-100 and 1e100 in absolute value and to units worth a power of ten.", "quantifier": "every entry as in the end-to-end property, every number and unit", "why_tests_cant": "rounding errors over all doubles; the exact product is not computable in the language of the tests", "anchors": ["x4i3/exfor_utilities.py:88-135", "x4i3/exfor_column_parsing.py:35-260", "x4i3/exfor_column_parsing.py:300-700", "x4i3/exfor_dataset.py:182-246"]}
{"id": "C85", "title": "The frame of reference of a distribution is the one its headings state", "statement": "for every data set of an entry that is an angular or energy distribution, referenceFrame is 'Center of mass' if some heading of the data set (from either COMMON section or DATA, for its pointer) contains '-CM', and 'Lab' otherwise; data sets of other kinds have none. Simplifying keeps the frame that the headings stated before, and str() prints it. Any column counts, so that laboratory angles and cross sections with incident energies EN-CM are said to be in the center-of-mass system; and a distribution made without data and filled by append() says 'Lab' whatever was appended.", "quantifier": "every entry, data set and heading", "why_tests_cant": "needs every combination of headings from three sections and both kinds", "anchors": ["x4i3/exfor_dataset.py:373-422", "x4i3/exfor_dataset.py:248-260"]}
{"id": "C86", "title": "A reaction whose codes are all known is read", "statement": "A REACTION text whose target, projectile, products and residual are nuclides (isotope, natural element or one isomer) or codes of the particle and process tables (TOT, EL, INL, F, X, ... as process) is read without an exception, provided that a process code is among the products or the charge left over is that of an element; the object has the target, projectile and quantities that are written, and without a process code exactly the products and residual that are written. One process code and no residual: the process is the only product, the residual is the target for EL, INL, SCT and THS and none otherwise, and str() is target(projectile,Process)residual. Combinations of such reactions keep every reaction and operator in order. Not for antiprotons on hydrogen: 1-H-1(AP,TOT) has the process as residual and no products.", "quantifier": "every reaction of known codes, with any blanks, line ends and free text, any dictionaries of simple codes", "why_tests_cant": "the codes combine freely, and blanks and line ends may be anywhere", "anchors": ["x4i3/exfor_field.py:148-165", "x4i3/exfor_reactions.py:75-296", "x4i3/exfor_particle.py:176-352", "x4i3/exfor_grammers.py:60-111"]}
{"id": "C87", "title": "An entry that keeps to the format is read without an exception", "statement": "Let every subentry of an entry be made of BIB, COMMON and DATA sections, with numbers (or blanks) in the tables, known reaction codes (C86, C90) in REACTION and MONITOR, and lists of names, institutes and references as the format has them in AUTHOR, INSTITUTE and REFERENCE; other fields may say anything, and any lines may have pointers. Let 001 have a BIB section. Then X4Entry(...) and getDataSets() return, and the accession number is that of the first line. If the cosines are between -1 and 1, no unit is barns times the root of an energy and COMMON has no pointers, getSimplifiedDataSets() returns as well, whatever the column parsers have seen before; what cannot be simplified is recorded, not raised. A cross section of such an entry then has the table that is written, in MeV and barns, without supposing that anything succeeds.", "quantifier": "every entry that keeps to the format, with any number of subentries, fields, pointers, columns and rows; any dictionaries whose rows are not empty", "why_tests_cant": "one exception in one field of one subentry loses the whole entry; no sample of entries excludes that", "anchors": ["x4i3/exfor_entry.py:150-163", "x4i3/exfor_entry.py:221-340", "x4i3/exfor_subentry.py:40-123", "x4i3/exfor_section.py:56-156", "x4i3/exfor_section.py:201-276", "x4i3/exfor_field.py:100-511", "x4i3/exfor_dataset.py:60-130"]}
{"id": "C88", "title": "What has been read can be printed, except two forms of reaction", "statement": "If a REACTION text is read, then str of the measurement succeeds exactly if what follows the commas of each reaction in it are words and neither target, projectile nor residual is a particle of unknown multiplicity, and then repr succeeds too. Every data set that getDataSets or getSimplifiedDataSets returns for any entry can be printed by str and repr if its reactions and those of its monitors are of this kind. In an entry that keeps to the format (C87) all of them are, so every data set of it is printed. A second process in the place of the quantity, or a projectile XN, is read without complaint and raises TypeError when it is printed.", "quantifier": "for all reaction texts, entries, dictionaries whose compounds are named and whose rows are not empty, and parser states", "why_tests_cant": "Printing walks over nested combinations, monitors, units and dictionary rows that reading has let through; that no text gets through which printing then trips over, apart from two forms, concerns all texts and all nestings.", "anchors": ["x4i3/exfor_reactions.py:92-104", "x4i3/exfor_reactions.py:223-263", "x4i3/exfor_reactions.py:316-329", "x4i3/exfor_dataset.py:119-180", "x4i3/exfor_particle.py:158-232", "x4i3/exfor_entry.py:221-330"]}
{"id": "C89", "title": "The grammars know the particles and compounds of the dictionary files, and the shipped files serve every well-written entry", "statement": "For any directory of dictionary files that x4i3 can be imported with, the grammars know exactly the particles and compounds that the files list, and str of every compound they accept finds its row. The shipped files load; with them every entry that keeps to the format of C87 is read without an exception, and every data set of it, as given or simplified, is printed by str and repr.", "quantifier": "for all directories of dictionary files; for the shipped files all entries of the format, parser states and inverse cosines", "why_tests_cant": "The grammars are built from text by eval over all keys of two files while names are looked up in a third way; that no accepted code lacks a row and no row lacks a column for any entry whatsoever cannot be sampled.", "anchors": ["x4i3/exfor_dicts.py:36-202", "x4i3/exfor_grammers.py:79-87", "x4i3/exfor_utilities.py:38", "x4i3/exfor_reactions.py:71-72", "x4i3/exfor_particle.py:407-408", "x4i3/exfor_field.py:486"]}
{"id": "C90", "title": "Reactions on compounds, with sums of nuclei, X products or quantities in parentheses are read", "statement": "A REACTION text whose target or residual is a compound of dictionary 09 (26-FE-OXI) or a sum (ELEM/MASS, MASS, ELEM, NPART as residual), whose products may be X and a particle (XN), and whose quantities may stand in parentheses ((CUM)), is read without an exception whatever blanks and line ends are between its parts: target, projectile and quantities are those written, a compound is of the charge number and element of its code; with EL, INL, SCT or THS that process is the only product and the target is left; otherwise the products and the residual are the parts written in order (unless a process is last and is taken for what is left). str() is target(projectile,products)residual with the name of the dictionary for a compound and the capitalised code for a sum. Combinations of such reactions keep every reaction and operator in order.", "quantifier": "every such reaction code over any pair of dictionaries, every layout, every combination, any free text after it", "why_tests_cant": "needs all compounds, codes and layouts; the tests have a dozen codes", "anchors": ["x4i3/exfor_grammers.py", "x4i3/exfor_reactions.py:78-204", "x4i3/exfor_particle.py:372-408", "x4i3/exfor_field.py:148-165"]}
{"id": "C91", "title": "Isomer ratios and sums are taken apart into one reaction per state", "statement": "A REACTION code whose residual nucleus is given in several states (79-AU-196-M/G, -G+M1/M2) is read as a combination in parentheses: one reaction for each state, in the order of the code, with the operators written between them; each of these reactions has the target, the projectile, the products and the first quantity of the code, and its residual is the nuclide in that state alone. The same holds for such codes inside combinations. What is lost: quantities after the first one; the states, when the process is scattering; the difference between T (all states) and M in print; and codes with a state above the fifth are refused.", "quantifier": "for all REACTION texts with a code of known particles, compounds and states M, M0-M5, G, T with + - / between them, whatever blanks and line ends are between the tokens and whatever free text follows, and for all dictionaries with proper keys", "why_tests_cant": "The code rebuilds a text from the pieces and parses it again; that the rebuilt text is read as what was meant depends on every combination of target, projectile, products and states, on which a few examples are silent.", "anchors": ["x4i3/exfor_reactions.py:331-399", "x4i3/exfor_reactions.py:269-296", "x4i3/exfor_particle.py:294-318", "x4i3/exfor_field.py:158-165"]}
{"id": "C92", "title": "What a search finds is read, is what was asked for, and can be printed", "statement": "X4DBManager.retrieve(**criteria) with rawEntry=False, run on an index and on entry files that keep to the EXFOR format (every subentry starts with a SUBENT line with its number, its sections and fields are well written, subentry 001 has a BIB section), returns without an exception, with the dictionaries that are shipped.  The answer has, in increasing order, exactly the entries that have a matching row in the index; each of them has subentry 001 and exactly the matching subentries that are in its file, each as read from its own lines.  getDataSets() of every one of them returns, its keys name only these subentries, and str() and repr() of every data set give a text.  The same holds for x4EntryFactory(number) and all subentries of the file.", "quantifier": "for all indexes, criteria without quotes or SQL wildcards, directories of entry files that keep to the format, and dictionaries that fulfil C87 and C88 (among them the shipped ones)", "why_tests_cant": "The claim goes through the SQL query, the selection of lines in the file, the grammars, the data sets and the printing, over all files and criteria; tests run a few entries of a small test database.", "anchors": ["x4i3/exfor_manager.py:216-313", "x4i3/exfor_entry.py:58-92", "x4i3/exfor_entry.py:150-163", "x4i3/exfor_entry.py:192-300", "x4i3/exfor_subentry.py:67-123"]}
{"id": "C93", "title": "Every text is parsed to one answer, whatever its length and depth", "statement": "each of the grammars with which reactions, particles, institutes, authors and references are parsed comes to exactly one answer (the pieces, or a ParseException) for every text: no text makes a parser run for ever, and the answer is that of the grammar's rules (longest or first alternative, greedy repetition, recursion for nested parentheses) without any bound on length, repetitions or nesting. (Python's limit on the depth of recursion excepted.)", "quantifier": "every text, every grammar of exfor_grammers.py in use, every content of the dictionaries of particles and compounds", "why_tests_cant": "termination and the answer for all texts, of any length and depth of nesting", "anchors": ["x4i3/exfor_grammers.py:48-155", "x4i3/pyparsing3.py:1622-1708", "x4i3/pyparsing3.py:4032-4258", "x4i3/pyparsing3.py:4669-4843", "x4i3/pyparsing3.py:6106-6208", "x4i3/pyparsing3.py:6370-6373"]}
{"id": "C94", "title": "The data set of a pointer has the reaction and the columns of that pointer", "statement": "For every well-written entry (C87), every subentry other than 001 with a DATA section, and every pointer p: if the text of p in the subentry's REACTION field (or, if the subentry states none under p, in that of subentry 001) is a reaction, a reaction to several states of the residual, or a combination of reactions that all have the same quantity, then getDataSets has an item (accession number, subentry, p). Its reaction is what the text says, its class is that of the quantity, and its table has the columns of the COMMON sections of 001 and of the subentry and, of DATA, exactly those whose heading carries p (in the eleventh character) or no pointer, with their units and with the numbers that are written, in their order, a row for every row of DATA. With getSimplifiedDataSets the table is what C79 reads off these columns; if one of the quantities has no values the item is left as it is and NoValuesGivenError is recorded under its key. A combination of reactions of different quantities gives no item, and NotImplementedError is recorded under its key. (The columns of the COMMON sections carry p or no pointer. With a column of another pointer there it is false, of an entry of the library: for pointer 1 of 13150002, a ratio of 0.403 +- 0.015, the data set says 55.3 +- 15.51.)", "quantifier": "all entries, subentries, pointers, reactions, COMMON sections and DATA sections of any number of columns and rows in the format, all dictionaries with the rows that are used, any number of previous simplifications", "why_tests_cant": "Needs every assignment of pointers to headings and reactions, every number of columns, rows and lines per row, and every reaction; tests read a few entries.", "anchors": ["x4i3/exfor_entry.py:X4Entry.getDataSets", "x4i3/exfor_entry.py:X4Entry.getSimplifiedDataSets", "x4i3/exfor_dataset.py:X4DataSetFactory", "x4i3/exfor_dataset.py:X4DataSet.setData", "x4i3/exfor_section.py:X4DataSection"]}
{"id": "C95", "title": "From a search to the numbers of the file", "statement": "retrieve(**criteria) on an index and on entry files that keep to the format (C92), then getDataSets() or getSimplifiedDataSets() of what it returns: every key names subentry 001 or a subentry with a matching row; and for every matching subentry that is in its file, and every pointer under which a reaction is stated there (C94), the data set is there, its reaction is the one that is written in the file, and its table has the columns and numbers of the file; simplified, the energies, angles and values read from them in MeV, degrees and barns as C79 says, or, if there are none, the table as it is and NoValuesGivenError in the errors. The same holds for db[number of a subentry], which returns exactly that one entry, and for x4EntryFactory(number) with all subentries of the file. retrieve(rawEntry=True) returns the texts from which X4Entry makes the same entries. X4Entry of an entry that retrieve() returned raises KeyError (examples/plotX4.py does this).", "quantifier": "for all indexes, criteria without quotes or SQL wildcards, directories of entry files that keep to the format, pointers, reactions and tables of any size, and dictionaries that fulfil C87 and C88 (among them the shipped ones)", "why_tests_cant": "The claim goes from the SQL query through the lines of the file, the grammars and the merging of columns to the numbers, over all files; tests compare the printed text of a few data sets.", "anchors": ["x4i3/exfor_manager.py:289-313", "x4i3/exfor_manager.py:129-139", "x4i3/exfor_entry.py:58-92", "x4i3/exfor_entry.py:X4Entry.getDataSets", "x4i3/exfor_entry.py:X4Entry.getSimplifiedDataSets", "x4i3/exfor_dataset.py:X4DataSetFactory", "examples/plotX4.py:52-60"]}
{"id": "C96", "title": "What str(entry) shows, and when repr(entry) raises", "statement": "For an entry that keeps to the format (C87) and whose subentries have numbers of eight characters, str(entry) raises nothing. It shows the subentries in the order of their numbers, of several with the same number the last, and in each of them the BIB, COMMON and DATA sections in this order, as far as there are. A BIB section is shown as a header with the number of different keywords and the number of lines of the fields, and for every field, in order, a line of its own without its keyword: reactions as str() of what their texts are read as (with the remark after the reaction only if there is a pointer), monitors, references as publication, details and year, authors and titles in title case, institutes with the names from the dictionary, everything else as the text of its pointers; a keyword that stands twice is shown twice as the field that stands last. The docstring says the text is suitable for parsing: it is not (keywords are missing; values not given are shown as None). repr(entry) raises AttributeError if and only if some subentry has an AUTHOR field that says there is no author.", "quantifier": "for all entries that keep to the format, of any size, and dictionaries that fulfil C87 and C88 (among them the shipped ones)", "why_tests_cant": "Totality over all entries needs that every grammar result can be printed; the tests print a few entries, none without authors, and do not compare the parts with the text they come from.", "anchors": ["x4i3/exfor_entry.py:165-179", "x4i3/exfor_subentry.py:80-97", "x4i3/exfor_section.py:77-91", "x4i3/exfor_field.py:123-139", "x4i3/exfor_field.py:216-227", "x4i3/exfor_field.py:439-478"]}
{"id": "C97", "title": "Headers, legends and citations say what stands in the BIB sections", "statement": "For an entry that keeps to the format (C87), entry.meta() raises nothing and lists the numbers of the subentries in order. Its xmgraceHeader() and legend() show the authors (in title case, in order), the title, the year of the first reference, the institutes and the references that stand in the BIB section of subentry 001; a legend or citation names the first two of more than two authors and 'et al.'. For every data set of the entry, simplified or not, they are those of the BIB section of the subentry and, where it has no such field, of that of subentry 001, followed by str() of the reaction with its remark, the monitors and (of angular and energy distributions) the frame; the number shown is that of the subentry, or that of 001 if the subentry has no BIB section. Where neither section has the field the text None is shown, of the authors letter by letter (N, o, n, e), and citation() raises AttributeError if and only if there is no REFERENCE. The citation says 'file EXFOR n dated d': d is the date of the first reference, not the one that stands in the file.", "quantifier": "for all entries that keep to the format, of any size, and dictionaries that fulfil C87 and C88 (among them the shipped ones)", "why_tests_cant": "The texts are put together from two BIB sections of which any fields may be missing; the tests compare the header of a few entries that have all of them.", "anchors": ["x4i3/exfor_section.py:118-193", "x4i3/exfor_entry.py:352-382", "x4i3/exfor_dataset.py:46-72", "x4i3/exfor_dataset.py:119-135", "x4i3/exfor_dataset.py:384-387"]}
{"id": "C98", "title": "get-entry.py prints the data of the subentry that is asked for", "statement": "For a subentry that stands in the index and whose entry is stored in a file that keeps to the format (with -f: that stands in that file), examples/get-entry.py --data -s num prints, without raising anything, the data sets that db[num].getDataSets() has: of subentries num and 001 only, each with the authors, title, year, institute, references and number of C97, the reaction, the monitors and the table as a list of lists; every pointer that is written in full in subentry num (C95) is among them, with the reaction and the numbers that stand in the file. --rawdata prints the DATA section of num, or raises KeyError if there is none. -e acc prints the numbers of the subentries that the index has of the entry, and 001, in the order of the file. A number ending in 001 with --data or --rawdata is a ValueError; another number that is not in the index, with --data, --rawdata, --doc or --rawdoc, and an entry that is not, with -e, an IndexError. Against their help texts, --doc and --rawdoc print subentry 001 whichever subentry is asked for (--rawdoc raises AttributeError exactly if its authors are not given), --raw prints the two numbers instead of the file, and with -f --raw the texts of all subentries; with -c it always raises TypeError.", "quantifier": "for all databases, subentry numbers and files that keep to the format, of any size, and dictionaries that fulfil C87 and C88 (among them the shipped ones); both ways of looking the subentry up", "why_tests_cant": "The program has no tests; what it prints depends on the index, the file, 001 and the subentry together.", "anchors": ["examples/get-entry.py:125-198", "x4i3/exfor_manager.py", "x4i3/exfor_entry.py", "x4i3/exfor_dataset.py", "README.md"]}
{"id": "C99", "title": "Damaged EXFOR text raises only the exceptions listed here", "statement": "Whatever text stands in a field, in a DATA or COMMON section or in the subentries of an entry, reading it either succeeds or raises one of these exceptions, and each of them does occur: REACTION raises ReactionParsingError, ResidualNucleusError, IndexError, KeyError, TypeError or RecursionError; MONITOR these or ValueError; REFERENCE ParseException, IndexError, KeyError, TypeError or AttributeError; AUTHOR TypeError; INSTITUTE InstituteParsingError; a field with any other keyword is always read; a DATA or COMMON section raises IndexError, ValueError, ZeroDivisionError or BrokenNumberError; X4Entry all of these. ParticleParsingError, IsomerMathParsingError, ReferenceParsingError and AuthorParsingError, which the library defines and raises inside, never reach the caller. Isomer math in the target of a reaction, as in (72-HF-177-M1+M2(N,G)72-HF-178-M,,SIG), is taken apart without end: it is a RecursionError whatever the recursion limit is.", "quantifier": "for all texts and lists of lines, well-formed or not, and dictionaries that fulfil C87 (among them the shipped ones)", "why_tests_cant": "Tests try a few broken texts; which exceptions a caller has to expect is a statement about all texts and all paths through the grammars.", "anchors": ["x4i3/exfor_entry.py:150-163", "x4i3/exfor_subentry.py:67-81", "x4i3/exfor_section.py", "x4i3/exfor_field.py", "x4i3/exfor_reactions.py", "x4i3/exfor_particle.py", "x4i3/exfor_reference.py", "x4i3/exfor_grammers.py"]}
{"id": "C100", "title": "Data sets of an entry that was read end only with the exceptions listed here", "statement": "Whatever texts an entry was made from, if X4Entry has read them and every one has a SUBENT line, then getDataSets() returns or raises KeyError or TypeError, and adds only IndexError and NotImplementedError to the errors it records; getSimplifiedDataSets() returns or raises KeyError, TypeError or ValueError, and records IndexError, NotImplementedError, TypeError and NoValuesGivenError. Each of these occurs. Without entry[1]['BIB'] getDataSets() always raises KeyError, whatever the other subentries hold. If entry[1]['BIB'] is there and str() of every reaction of the entry works, getDataSets() raises nothing and getSimplifiedDataSets() at most ValueError (a cosine beyond 1). With dictionaries that name every compound of the grammar and have no empty row, KeyError is raised exactly if entry[1]['BIB'] is missing, and TypeError is left only for reactions with a particle of unknown number (XN) in the place of target, projectile or residual or with groups after the commas.", "quantifier": "for all texts, dictionaries, grammars, math.acos, states of the shared parsers and errors recorded before", "why_tests_cant": "Which exceptions a loop over a library has to expect is a statement about all entries that can be read, damaged ones included; tests run a few good ones.", "anchors": ["x4i3/exfor_entry.py:221-340", "x4i3/exfor_dataset.py", "x4i3/exfor_section.py:127-149", "x4i3/exfor_column_parsing.py"]}
