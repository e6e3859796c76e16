(** Generated from the HTML5 named character reference table (the same table as
    package html of the Go standard library, which nmdc/types.go:60 uses through
    html.UnescapeString).  Each entry: name without the leading ampersand, code points.
    As in the Go table, nLt; and nGt; are absent: their replacement is longer than
    their name. *)
From Verif Require Import Base.

(** html.entity and html.entity2, used by html.UnescapeString (nmdc/types.go:60) *)
Definition entity_table : list (bytes * list N) := [
  (B "AElig", [198]%N);
  (B "AElig;", [198]%N);
  (B "AMP", [38]%N);
  (B "AMP;", [38]%N);
  (B "Aacute", [193]%N);
  (B "Aacute;", [193]%N);
  (B "Abreve;", [258]%N);
  (B "Acirc", [194]%N);
  (B "Acirc;", [194]%N);
  (B "Acy;", [1040]%N);
  (B "Afr;", [120068]%N);
  (B "Agrave", [192]%N);
  (B "Agrave;", [192]%N);
  (B "Alpha;", [913]%N);
  (B "Amacr;", [256]%N);
  (B "And;", [10835]%N);
  (B "Aogon;", [260]%N);
  (B "Aopf;", [120120]%N);
  (B "ApplyFunction;", [8289]%N);
  (B "Aring", [197]%N);
  (B "Aring;", [197]%N);
  (B "Ascr;", [119964]%N);
  (B "Assign;", [8788]%N);
  (B "Atilde", [195]%N);
  (B "Atilde;", [195]%N);
  (B "Auml", [196]%N);
  (B "Auml;", [196]%N);
  (B "Backslash;", [8726]%N);
  (B "Barv;", [10983]%N);
  (B "Barwed;", [8966]%N);
  (B "Bcy;", [1041]%N);
  (B "Because;", [8757]%N);
  (B "Bernoullis;", [8492]%N);
  (B "Beta;", [914]%N);
  (B "Bfr;", [120069]%N);
  (B "Bopf;", [120121]%N);
  (B "Breve;", [728]%N);
  (B "Bscr;", [8492]%N);
  (B "Bumpeq;", [8782]%N);
  (B "CHcy;", [1063]%N);
  (B "COPY", [169]%N);
  (B "COPY;", [169]%N);
  (B "Cacute;", [262]%N);
  (B "Cap;", [8914]%N);
  (B "CapitalDifferentialD;", [8517]%N);
  (B "Cayleys;", [8493]%N);
  (B "Ccaron;", [268]%N);
  (B "Ccedil", [199]%N);
  (B "Ccedil;", [199]%N);
  (B "Ccirc;", [264]%N);
  (B "Cconint;", [8752]%N);
  (B "Cdot;", [266]%N);
  (B "Cedilla;", [184]%N);
  (B "CenterDot;", [183]%N);
  (B "Cfr;", [8493]%N);
  (B "Chi;", [935]%N);
  (B "CircleDot;", [8857]%N);
  (B "CircleMinus;", [8854]%N);
  (B "CirclePlus;", [8853]%N);
  (B "CircleTimes;", [8855]%N);
  (B "ClockwiseContourIntegral;", [8754]%N);
  (B "CloseCurlyDoubleQuote;", [8221]%N);
  (B "CloseCurlyQuote;", [8217]%N);
  (B "Colon;", [8759]%N);
  (B "Colone;", [10868]%N);
  (B "Congruent;", [8801]%N);
  (B "Conint;", [8751]%N);
  (B "ContourIntegral;", [8750]%N);
  (B "Copf;", [8450]%N);
  (B "Coproduct;", [8720]%N);
  (B "CounterClockwiseContourIntegral;", [8755]%N);
  (B "Cross;", [10799]%N);
  (B "Cscr;", [119966]%N);
  (B "Cup;", [8915]%N);
  (B "CupCap;", [8781]%N);
  (B "DD;", [8517]%N);
  (B "DDotrahd;", [10513]%N);
  (B "DJcy;", [1026]%N);
  (B "DScy;", [1029]%N);
  (B "DZcy;", [1039]%N);
  (B "Dagger;", [8225]%N);
  (B "Darr;", [8609]%N);
  (B "Dashv;", [10980]%N);
  (B "Dcaron;", [270]%N);
  (B "Dcy;", [1044]%N);
  (B "Del;", [8711]%N);
  (B "Delta;", [916]%N);
  (B "Dfr;", [120071]%N);
  (B "DiacriticalAcute;", [180]%N);
  (B "DiacriticalDot;", [729]%N);
  (B "DiacriticalDoubleAcute;", [733]%N);
  (B "DiacriticalGrave;", [96]%N);
  (B "DiacriticalTilde;", [732]%N);
  (B "Diamond;", [8900]%N);
  (B "DifferentialD;", [8518]%N);
  (B "Dopf;", [120123]%N);
  (B "Dot;", [168]%N);
  (B "DotDot;", [8412]%N);
  (B "DotEqual;", [8784]%N);
  (B "DoubleContourIntegral;", [8751]%N);
  (B "DoubleDot;", [168]%N);
  (B "DoubleDownArrow;", [8659]%N);
  (B "DoubleLeftArrow;", [8656]%N);
  (B "DoubleLeftRightArrow;", [8660]%N);
  (B "DoubleLeftTee;", [10980]%N);
  (B "DoubleLongLeftArrow;", [10232]%N);
  (B "DoubleLongLeftRightArrow;", [10234]%N);
  (B "DoubleLongRightArrow;", [10233]%N);
  (B "DoubleRightArrow;", [8658]%N);
  (B "DoubleRightTee;", [8872]%N);
  (B "DoubleUpArrow;", [8657]%N);
  (B "DoubleUpDownArrow;", [8661]%N);
  (B "DoubleVerticalBar;", [8741]%N);
  (B "DownArrow;", [8595]%N);
  (B "DownArrowBar;", [10515]%N);
  (B "DownArrowUpArrow;", [8693]%N);
  (B "DownBreve;", [785]%N);
  (B "DownLeftRightVector;", [10576]%N);
  (B "DownLeftTeeVector;", [10590]%N);
  (B "DownLeftVector;", [8637]%N);
  (B "DownLeftVectorBar;", [10582]%N);
  (B "DownRightTeeVector;", [10591]%N);
  (B "DownRightVector;", [8641]%N);
  (B "DownRightVectorBar;", [10583]%N);
  (B "DownTee;", [8868]%N);
  (B "DownTeeArrow;", [8615]%N);
  (B "Downarrow;", [8659]%N);
  (B "Dscr;", [119967]%N);
  (B "Dstrok;", [272]%N);
  (B "ENG;", [330]%N);
  (B "ETH", [208]%N);
  (B "ETH;", [208]%N);
  (B "Eacute", [201]%N);
  (B "Eacute;", [201]%N);
  (B "Ecaron;", [282]%N);
  (B "Ecirc", [202]%N);
  (B "Ecirc;", [202]%N);
  (B "Ecy;", [1069]%N);
  (B "Edot;", [278]%N);
  (B "Efr;", [120072]%N);
  (B "Egrave", [200]%N);
  (B "Egrave;", [200]%N);
  (B "Element;", [8712]%N);
  (B "Emacr;", [274]%N);
  (B "EmptySmallSquare;", [9723]%N);
  (B "EmptyVerySmallSquare;", [9643]%N);
  (B "Eogon;", [280]%N);
  (B "Eopf;", [120124]%N);
  (B "Epsilon;", [917]%N);
  (B "Equal;", [10869]%N);
  (B "EqualTilde;", [8770]%N);
  (B "Equilibrium;", [8652]%N);
  (B "Escr;", [8496]%N);
  (B "Esim;", [10867]%N);
  (B "Eta;", [919]%N);
  (B "Euml", [203]%N);
  (B "Euml;", [203]%N);
  (B "Exists;", [8707]%N);
  (B "ExponentialE;", [8519]%N);
  (B "Fcy;", [1060]%N);
  (B "Ffr;", [120073]%N);
  (B "FilledSmallSquare;", [9724]%N);
  (B "FilledVerySmallSquare;", [9642]%N);
  (B "Fopf;", [120125]%N);
  (B "ForAll;", [8704]%N);
  (B "Fouriertrf;", [8497]%N);
  (B "Fscr;", [8497]%N);
  (B "GJcy;", [1027]%N);
  (B "GT", [62]%N);
  (B "GT;", [62]%N);
  (B "Gamma;", [915]%N);
  (B "Gammad;", [988]%N);
  (B "Gbreve;", [286]%N);
  (B "Gcedil;", [290]%N);
  (B "Gcirc;", [284]%N);
  (B "Gcy;", [1043]%N);
  (B "Gdot;", [288]%N);
  (B "Gfr;", [120074]%N);
  (B "Gg;", [8921]%N);
  (B "Gopf;", [120126]%N);
  (B "GreaterEqual;", [8805]%N);
  (B "GreaterEqualLess;", [8923]%N);
  (B "GreaterFullEqual;", [8807]%N);
  (B "GreaterGreater;", [10914]%N);
  (B "GreaterLess;", [8823]%N);
  (B "GreaterSlantEqual;", [10878]%N);
  (B "GreaterTilde;", [8819]%N);
  (B "Gscr;", [119970]%N);
  (B "Gt;", [8811]%N);
  (B "HARDcy;", [1066]%N);
  (B "Hacek;", [711]%N);
  (B "Hat;", [94]%N);
  (B "Hcirc;", [292]%N);
  (B "Hfr;", [8460]%N);
  (B "HilbertSpace;", [8459]%N);
  (B "Hopf;", [8461]%N);
  (B "HorizontalLine;", [9472]%N);
  (B "Hscr;", [8459]%N);
  (B "Hstrok;", [294]%N);
  (B "HumpDownHump;", [8782]%N);
  (B "HumpEqual;", [8783]%N);
  (B "IEcy;", [1045]%N);
  (B "IJlig;", [306]%N);
  (B "IOcy;", [1025]%N);
  (B "Iacute", [205]%N);
  (B "Iacute;", [205]%N);
  (B "Icirc", [206]%N);
  (B "Icirc;", [206]%N);
  (B "Icy;", [1048]%N);
  (B "Idot;", [304]%N);
  (B "Ifr;", [8465]%N);
  (B "Igrave", [204]%N);
  (B "Igrave;", [204]%N);
  (B "Im;", [8465]%N);
  (B "Imacr;", [298]%N);
  (B "ImaginaryI;", [8520]%N);
  (B "Implies;", [8658]%N);
  (B "Int;", [8748]%N);
  (B "Integral;", [8747]%N);
  (B "Intersection;", [8898]%N);
  (B "InvisibleComma;", [8291]%N);
  (B "InvisibleTimes;", [8290]%N);
  (B "Iogon;", [302]%N);
  (B "Iopf;", [120128]%N);
  (B "Iota;", [921]%N);
  (B "Iscr;", [8464]%N);
  (B "Itilde;", [296]%N);
  (B "Iukcy;", [1030]%N);
  (B "Iuml", [207]%N);
  (B "Iuml;", [207]%N);
  (B "Jcirc;", [308]%N);
  (B "Jcy;", [1049]%N);
  (B "Jfr;", [120077]%N);
  (B "Jopf;", [120129]%N);
  (B "Jscr;", [119973]%N);
  (B "Jsercy;", [1032]%N);
  (B "Jukcy;", [1028]%N);
  (B "KHcy;", [1061]%N);
  (B "KJcy;", [1036]%N);
  (B "Kappa;", [922]%N);
  (B "Kcedil;", [310]%N);
  (B "Kcy;", [1050]%N);
  (B "Kfr;", [120078]%N);
  (B "Kopf;", [120130]%N);
  (B "Kscr;", [119974]%N);
  (B "LJcy;", [1033]%N);
  (B "LT", [60]%N);
  (B "LT;", [60]%N);
  (B "Lacute;", [313]%N);
  (B "Lambda;", [923]%N);
  (B "Lang;", [10218]%N);
  (B "Laplacetrf;", [8466]%N);
  (B "Larr;", [8606]%N);
  (B "Lcaron;", [317]%N);
  (B "Lcedil;", [315]%N);
  (B "Lcy;", [1051]%N);
  (B "LeftAngleBracket;", [10216]%N);
  (B "LeftArrow;", [8592]%N);
  (B "LeftArrowBar;", [8676]%N);
  (B "LeftArrowRightArrow;", [8646]%N);
  (B "LeftCeiling;", [8968]%N);
  (B "LeftDoubleBracket;", [10214]%N);
  (B "LeftDownTeeVector;", [10593]%N);
  (B "LeftDownVector;", [8643]%N);
  (B "LeftDownVectorBar;", [10585]%N);
  (B "LeftFloor;", [8970]%N);
  (B "LeftRightArrow;", [8596]%N);
  (B "LeftRightVector;", [10574]%N);
  (B "LeftTee;", [8867]%N);
  (B "LeftTeeArrow;", [8612]%N);
  (B "LeftTeeVector;", [10586]%N);
  (B "LeftTriangle;", [8882]%N);
  (B "LeftTriangleBar;", [10703]%N);
  (B "LeftTriangleEqual;", [8884]%N);
  (B "LeftUpDownVector;", [10577]%N);
  (B "LeftUpTeeVector;", [10592]%N);
  (B "LeftUpVector;", [8639]%N);
  (B "LeftUpVectorBar;", [10584]%N);
  (B "LeftVector;", [8636]%N);
  (B "LeftVectorBar;", [10578]%N);
  (B "Leftarrow;", [8656]%N);
  (B "Leftrightarrow;", [8660]%N);
  (B "LessEqualGreater;", [8922]%N);
  (B "LessFullEqual;", [8806]%N);
  (B "LessGreater;", [8822]%N);
  (B "LessLess;", [10913]%N);
  (B "LessSlantEqual;", [10877]%N);
  (B "LessTilde;", [8818]%N);
  (B "Lfr;", [120079]%N);
  (B "Ll;", [8920]%N);
  (B "Lleftarrow;", [8666]%N);
  (B "Lmidot;", [319]%N);
  (B "LongLeftArrow;", [10229]%N);
  (B "LongLeftRightArrow;", [10231]%N);
  (B "LongRightArrow;", [10230]%N);
  (B "Longleftarrow;", [10232]%N);
  (B "Longleftrightarrow;", [10234]%N);
  (B "Longrightarrow;", [10233]%N);
  (B "Lopf;", [120131]%N);
  (B "LowerLeftArrow;", [8601]%N);
  (B "LowerRightArrow;", [8600]%N);
  (B "Lscr;", [8466]%N);
  (B "Lsh;", [8624]%N);
  (B "Lstrok;", [321]%N);
  (B "Lt;", [8810]%N);
  (B "Map;", [10501]%N);
  (B "Mcy;", [1052]%N);
  (B "MediumSpace;", [8287]%N);
  (B "Mellintrf;", [8499]%N);
  (B "Mfr;", [120080]%N);
  (B "MinusPlus;", [8723]%N);
  (B "Mopf;", [120132]%N);
  (B "Mscr;", [8499]%N);
  (B "Mu;", [924]%N);
  (B "NJcy;", [1034]%N);
  (B "Nacute;", [323]%N);
  (B "Ncaron;", [327]%N);
  (B "Ncedil;", [325]%N);
  (B "Ncy;", [1053]%N);
  (B "NegativeMediumSpace;", [8203]%N);
  (B "NegativeThickSpace;", [8203]%N);
  (B "NegativeThinSpace;", [8203]%N);
  (B "NegativeVeryThinSpace;", [8203]%N);
  (B "NestedGreaterGreater;", [8811]%N);
  (B "NestedLessLess;", [8810]%N);
  (B "NewLine;", [10]%N);
  (B "Nfr;", [120081]%N);
  (B "NoBreak;", [8288]%N);
  (B "NonBreakingSpace;", [160]%N);
  (B "Nopf;", [8469]%N);
  (B "Not;", [10988]%N);
  (B "NotCongruent;", [8802]%N);
  (B "NotCupCap;", [8813]%N);
  (B "NotDoubleVerticalBar;", [8742]%N);
  (B "NotElement;", [8713]%N);
  (B "NotEqual;", [8800]%N);
  (B "NotEqualTilde;", [8770; 824]%N);
  (B "NotExists;", [8708]%N);
  (B "NotGreater;", [8815]%N);
  (B "NotGreaterEqual;", [8817]%N);
  (B "NotGreaterFullEqual;", [8807; 824]%N);
  (B "NotGreaterGreater;", [8811; 824]%N);
  (B "NotGreaterLess;", [8825]%N);
  (B "NotGreaterSlantEqual;", [10878; 824]%N);
  (B "NotGreaterTilde;", [8821]%N);
  (B "NotHumpDownHump;", [8782; 824]%N);
  (B "NotHumpEqual;", [8783; 824]%N);
  (B "NotLeftTriangle;", [8938]%N);
  (B "NotLeftTriangleBar;", [10703; 824]%N);
  (B "NotLeftTriangleEqual;", [8940]%N);
  (B "NotLess;", [8814]%N);
  (B "NotLessEqual;", [8816]%N);
  (B "NotLessGreater;", [8824]%N);
  (B "NotLessLess;", [8810; 824]%N);
  (B "NotLessSlantEqual;", [10877; 824]%N);
  (B "NotLessTilde;", [8820]%N);
  (B "NotNestedGreaterGreater;", [10914; 824]%N);
  (B "NotNestedLessLess;", [10913; 824]%N);
  (B "NotPrecedes;", [8832]%N);
  (B "NotPrecedesEqual;", [10927; 824]%N);
  (B "NotPrecedesSlantEqual;", [8928]%N);
  (B "NotReverseElement;", [8716]%N);
  (B "NotRightTriangle;", [8939]%N);
  (B "NotRightTriangleBar;", [10704; 824]%N);
  (B "NotRightTriangleEqual;", [8941]%N);
  (B "NotSquareSubset;", [8847; 824]%N);
  (B "NotSquareSubsetEqual;", [8930]%N);
  (B "NotSquareSuperset;", [8848; 824]%N);
  (B "NotSquareSupersetEqual;", [8931]%N);
  (B "NotSubset;", [8834; 8402]%N);
  (B "NotSubsetEqual;", [8840]%N);
  (B "NotSucceeds;", [8833]%N);
  (B "NotSucceedsEqual;", [10928; 824]%N);
  (B "NotSucceedsSlantEqual;", [8929]%N);
  (B "NotSucceedsTilde;", [8831; 824]%N);
  (B "NotSuperset;", [8835; 8402]%N);
  (B "NotSupersetEqual;", [8841]%N);
  (B "NotTilde;", [8769]%N);
  (B "NotTildeEqual;", [8772]%N);
  (B "NotTildeFullEqual;", [8775]%N);
  (B "NotTildeTilde;", [8777]%N);
  (B "NotVerticalBar;", [8740]%N);
  (B "Nscr;", [119977]%N);
  (B "Ntilde", [209]%N);
  (B "Ntilde;", [209]%N);
  (B "Nu;", [925]%N);
  (B "OElig;", [338]%N);
  (B "Oacute", [211]%N);
  (B "Oacute;", [211]%N);
  (B "Ocirc", [212]%N);
  (B "Ocirc;", [212]%N);
  (B "Ocy;", [1054]%N);
  (B "Odblac;", [336]%N);
  (B "Ofr;", [120082]%N);
  (B "Ograve", [210]%N);
  (B "Ograve;", [210]%N);
  (B "Omacr;", [332]%N);
  (B "Omega;", [937]%N);
  (B "Omicron;", [927]%N);
  (B "Oopf;", [120134]%N);
  (B "OpenCurlyDoubleQuote;", [8220]%N);
  (B "OpenCurlyQuote;", [8216]%N);
  (B "Or;", [10836]%N);
  (B "Oscr;", [119978]%N);
  (B "Oslash", [216]%N);
  (B "Oslash;", [216]%N);
  (B "Otilde", [213]%N);
  (B "Otilde;", [213]%N);
  (B "Otimes;", [10807]%N);
  (B "Ouml", [214]%N);
  (B "Ouml;", [214]%N);
  (B "OverBar;", [8254]%N);
  (B "OverBrace;", [9182]%N);
  (B "OverBracket;", [9140]%N);
  (B "OverParenthesis;", [9180]%N);
  (B "PartialD;", [8706]%N);
  (B "Pcy;", [1055]%N);
  (B "Pfr;", [120083]%N);
  (B "Phi;", [934]%N);
  (B "Pi;", [928]%N);
  (B "PlusMinus;", [177]%N);
  (B "Poincareplane;", [8460]%N);
  (B "Popf;", [8473]%N);
  (B "Pr;", [10939]%N);
  (B "Precedes;", [8826]%N);
  (B "PrecedesEqual;", [10927]%N);
  (B "PrecedesSlantEqual;", [8828]%N);
  (B "PrecedesTilde;", [8830]%N);
  (B "Prime;", [8243]%N);
  (B "Product;", [8719]%N);
  (B "Proportion;", [8759]%N);
  (B "Proportional;", [8733]%N);
  (B "Pscr;", [119979]%N);
  (B "Psi;", [936]%N);
  (B "QUOT", [34]%N);
  (B "QUOT;", [34]%N);
  (B "Qfr;", [120084]%N);
  (B "Qopf;", [8474]%N);
  (B "Qscr;", [119980]%N);
  (B "RBarr;", [10512]%N);
  (B "REG", [174]%N);
  (B "REG;", [174]%N);
  (B "Racute;", [340]%N);
  (B "Rang;", [10219]%N);
  (B "Rarr;", [8608]%N);
  (B "Rarrtl;", [10518]%N);
  (B "Rcaron;", [344]%N);
  (B "Rcedil;", [342]%N);
  (B "Rcy;", [1056]%N);
  (B "Re;", [8476]%N);
  (B "ReverseElement;", [8715]%N);
  (B "ReverseEquilibrium;", [8651]%N);
  (B "ReverseUpEquilibrium;", [10607]%N);
  (B "Rfr;", [8476]%N);
  (B "Rho;", [929]%N);
  (B "RightAngleBracket;", [10217]%N);
  (B "RightArrow;", [8594]%N);
  (B "RightArrowBar;", [8677]%N);
  (B "RightArrowLeftArrow;", [8644]%N);
  (B "RightCeiling;", [8969]%N);
  (B "RightDoubleBracket;", [10215]%N);
  (B "RightDownTeeVector;", [10589]%N);
  (B "RightDownVector;", [8642]%N);
  (B "RightDownVectorBar;", [10581]%N);
  (B "RightFloor;", [8971]%N);
  (B "RightTee;", [8866]%N);
  (B "RightTeeArrow;", [8614]%N);
  (B "RightTeeVector;", [10587]%N);
  (B "RightTriangle;", [8883]%N);
  (B "RightTriangleBar;", [10704]%N);
  (B "RightTriangleEqual;", [8885]%N);
  (B "RightUpDownVector;", [10575]%N);
  (B "RightUpTeeVector;", [10588]%N);
  (B "RightUpVector;", [8638]%N);
  (B "RightUpVectorBar;", [10580]%N);
  (B "RightVector;", [8640]%N);
  (B "RightVectorBar;", [10579]%N);
  (B "Rightarrow;", [8658]%N);
  (B "Ropf;", [8477]%N);
  (B "RoundImplies;", [10608]%N);
  (B "Rrightarrow;", [8667]%N);
  (B "Rscr;", [8475]%N);
  (B "Rsh;", [8625]%N);
  (B "RuleDelayed;", [10740]%N);
  (B "SHCHcy;", [1065]%N);
  (B "SHcy;", [1064]%N);
  (B "SOFTcy;", [1068]%N);
  (B "Sacute;", [346]%N);
  (B "Sc;", [10940]%N);
  (B "Scaron;", [352]%N);
  (B "Scedil;", [350]%N);
  (B "Scirc;", [348]%N);
  (B "Scy;", [1057]%N);
  (B "Sfr;", [120086]%N);
  (B "ShortDownArrow;", [8595]%N);
  (B "ShortLeftArrow;", [8592]%N);
  (B "ShortRightArrow;", [8594]%N);
  (B "ShortUpArrow;", [8593]%N);
  (B "Sigma;", [931]%N);
  (B "SmallCircle;", [8728]%N);
  (B "Sopf;", [120138]%N);
  (B "Sqrt;", [8730]%N);
  (B "Square;", [9633]%N);
  (B "SquareIntersection;", [8851]%N);
  (B "SquareSubset;", [8847]%N);
  (B "SquareSubsetEqual;", [8849]%N);
  (B "SquareSuperset;", [8848]%N);
  (B "SquareSupersetEqual;", [8850]%N);
  (B "SquareUnion;", [8852]%N);
  (B "Sscr;", [119982]%N);
  (B "Star;", [8902]%N);
  (B "Sub;", [8912]%N);
  (B "Subset;", [8912]%N);
  (B "SubsetEqual;", [8838]%N);
  (B "Succeeds;", [8827]%N);
  (B "SucceedsEqual;", [10928]%N);
  (B "SucceedsSlantEqual;", [8829]%N);
  (B "SucceedsTilde;", [8831]%N);
  (B "SuchThat;", [8715]%N);
  (B "Sum;", [8721]%N);
  (B "Sup;", [8913]%N);
  (B "Superset;", [8835]%N);
  (B "SupersetEqual;", [8839]%N);
  (B "Supset;", [8913]%N);
  (B "THORN", [222]%N);
  (B "THORN;", [222]%N);
  (B "TRADE;", [8482]%N);
  (B "TSHcy;", [1035]%N);
  (B "TScy;", [1062]%N);
  (B "Tab;", [9]%N);
  (B "Tau;", [932]%N);
  (B "Tcaron;", [356]%N);
  (B "Tcedil;", [354]%N);
  (B "Tcy;", [1058]%N);
  (B "Tfr;", [120087]%N);
  (B "Therefore;", [8756]%N);
  (B "Theta;", [920]%N);
  (B "ThickSpace;", [8287; 8202]%N);
  (B "ThinSpace;", [8201]%N);
  (B "Tilde;", [8764]%N);
  (B "TildeEqual;", [8771]%N);
  (B "TildeFullEqual;", [8773]%N);
  (B "TildeTilde;", [8776]%N);
  (B "Topf;", [120139]%N);
  (B "TripleDot;", [8411]%N);
  (B "Tscr;", [119983]%N);
  (B "Tstrok;", [358]%N);
  (B "Uacute", [218]%N);
  (B "Uacute;", [218]%N);
  (B "Uarr;", [8607]%N);
  (B "Uarrocir;", [10569]%N);
  (B "Ubrcy;", [1038]%N);
  (B "Ubreve;", [364]%N);
  (B "Ucirc", [219]%N);
  (B "Ucirc;", [219]%N);
  (B "Ucy;", [1059]%N);
  (B "Udblac;", [368]%N);
  (B "Ufr;", [120088]%N);
  (B "Ugrave", [217]%N);
  (B "Ugrave;", [217]%N);
  (B "Umacr;", [362]%N);
  (B "UnderBar;", [95]%N);
  (B "UnderBrace;", [9183]%N);
  (B "UnderBracket;", [9141]%N);
  (B "UnderParenthesis;", [9181]%N);
  (B "Union;", [8899]%N);
  (B "UnionPlus;", [8846]%N);
  (B "Uogon;", [370]%N);
  (B "Uopf;", [120140]%N);
  (B "UpArrow;", [8593]%N);
  (B "UpArrowBar;", [10514]%N);
  (B "UpArrowDownArrow;", [8645]%N);
  (B "UpDownArrow;", [8597]%N);
  (B "UpEquilibrium;", [10606]%N);
  (B "UpTee;", [8869]%N);
  (B "UpTeeArrow;", [8613]%N);
  (B "Uparrow;", [8657]%N);
  (B "Updownarrow;", [8661]%N);
  (B "UpperLeftArrow;", [8598]%N);
  (B "UpperRightArrow;", [8599]%N);
  (B "Upsi;", [978]%N);
  (B "Upsilon;", [933]%N);
  (B "Uring;", [366]%N);
  (B "Uscr;", [119984]%N);
  (B "Utilde;", [360]%N);
  (B "Uuml", [220]%N);
  (B "Uuml;", [220]%N);
  (B "VDash;", [8875]%N);
  (B "Vbar;", [10987]%N);
  (B "Vcy;", [1042]%N);
  (B "Vdash;", [8873]%N);
  (B "Vdashl;", [10982]%N);
  (B "Vee;", [8897]%N);
  (B "Verbar;", [8214]%N);
  (B "Vert;", [8214]%N);
  (B "VerticalBar;", [8739]%N);
  (B "VerticalLine;", [124]%N);
  (B "VerticalSeparator;", [10072]%N);
  (B "VerticalTilde;", [8768]%N);
  (B "VeryThinSpace;", [8202]%N);
  (B "Vfr;", [120089]%N);
  (B "Vopf;", [120141]%N);
  (B "Vscr;", [119985]%N);
  (B "Vvdash;", [8874]%N);
  (B "Wcirc;", [372]%N);
  (B "Wedge;", [8896]%N);
  (B "Wfr;", [120090]%N);
  (B "Wopf;", [120142]%N);
  (B "Wscr;", [119986]%N);
  (B "Xfr;", [120091]%N);
  (B "Xi;", [926]%N);
  (B "Xopf;", [120143]%N);
  (B "Xscr;", [119987]%N);
  (B "YAcy;", [1071]%N);
  (B "YIcy;", [1031]%N);
  (B "YUcy;", [1070]%N);
  (B "Yacute", [221]%N);
  (B "Yacute;", [221]%N);
  (B "Ycirc;", [374]%N);
  (B "Ycy;", [1067]%N);
  (B "Yfr;", [120092]%N);
  (B "Yopf;", [120144]%N);
  (B "Yscr;", [119988]%N);
  (B "Yuml;", [376]%N);
  (B "ZHcy;", [1046]%N);
  (B "Zacute;", [377]%N);
  (B "Zcaron;", [381]%N);
  (B "Zcy;", [1047]%N);
  (B "Zdot;", [379]%N);
  (B "ZeroWidthSpace;", [8203]%N);
  (B "Zeta;", [918]%N);
  (B "Zfr;", [8488]%N);
  (B "Zopf;", [8484]%N);
  (B "Zscr;", [119989]%N);
  (B "aacute", [225]%N);
  (B "aacute;", [225]%N);
  (B "abreve;", [259]%N);
  (B "ac;", [8766]%N);
  (B "acE;", [8766; 819]%N);
  (B "acd;", [8767]%N);
  (B "acirc", [226]%N);
  (B "acirc;", [226]%N);
  (B "acute", [180]%N);
  (B "acute;", [180]%N);
  (B "acy;", [1072]%N);
  (B "aelig", [230]%N);
  (B "aelig;", [230]%N);
  (B "af;", [8289]%N);
  (B "afr;", [120094]%N);
  (B "agrave", [224]%N);
  (B "agrave;", [224]%N);
  (B "alefsym;", [8501]%N);
  (B "aleph;", [8501]%N);
  (B "alpha;", [945]%N);
  (B "amacr;", [257]%N);
  (B "amalg;", [10815]%N);
  (B "amp", [38]%N);
  (B "amp;", [38]%N);
  (B "and;", [8743]%N);
  (B "andand;", [10837]%N);
  (B "andd;", [10844]%N);
  (B "andslope;", [10840]%N);
  (B "andv;", [10842]%N);
  (B "ang;", [8736]%N);
  (B "ange;", [10660]%N);
  (B "angle;", [8736]%N);
  (B "angmsd;", [8737]%N);
  (B "angmsdaa;", [10664]%N);
  (B "angmsdab;", [10665]%N);
  (B "angmsdac;", [10666]%N);
  (B "angmsdad;", [10667]%N);
  (B "angmsdae;", [10668]%N);
  (B "angmsdaf;", [10669]%N);
  (B "angmsdag;", [10670]%N);
  (B "angmsdah;", [10671]%N);
  (B "angrt;", [8735]%N);
  (B "angrtvb;", [8894]%N);
  (B "angrtvbd;", [10653]%N);
  (B "angsph;", [8738]%N);
  (B "angst;", [197]%N);
  (B "angzarr;", [9084]%N);
  (B "aogon;", [261]%N);
  (B "aopf;", [120146]%N);
  (B "ap;", [8776]%N);
  (B "apE;", [10864]%N);
  (B "apacir;", [10863]%N);
  (B "ape;", [8778]%N);
  (B "apid;", [8779]%N);
  (B "apos;", [39]%N);
  (B "approx;", [8776]%N);
  (B "approxeq;", [8778]%N);
  (B "aring", [229]%N);
  (B "aring;", [229]%N);
  (B "ascr;", [119990]%N);
  (B "ast;", [42]%N);
  (B "asymp;", [8776]%N);
  (B "asympeq;", [8781]%N);
  (B "atilde", [227]%N);
  (B "atilde;", [227]%N);
  (B "auml", [228]%N);
  (B "auml;", [228]%N);
  (B "awconint;", [8755]%N);
  (B "awint;", [10769]%N);
  (B "bNot;", [10989]%N);
  (B "backcong;", [8780]%N);
  (B "backepsilon;", [1014]%N);
  (B "backprime;", [8245]%N);
  (B "backsim;", [8765]%N);
  (B "backsimeq;", [8909]%N);
  (B "barvee;", [8893]%N);
  (B "barwed;", [8965]%N);
  (B "barwedge;", [8965]%N);
  (B "bbrk;", [9141]%N);
  (B "bbrktbrk;", [9142]%N);
  (B "bcong;", [8780]%N);
  (B "bcy;", [1073]%N);
  (B "bdquo;", [8222]%N);
  (B "becaus;", [8757]%N);
  (B "because;", [8757]%N);
  (B "bemptyv;", [10672]%N);
  (B "bepsi;", [1014]%N);
  (B "bernou;", [8492]%N);
  (B "beta;", [946]%N);
  (B "beth;", [8502]%N);
  (B "between;", [8812]%N);
  (B "bfr;", [120095]%N);
  (B "bigcap;", [8898]%N);
  (B "bigcirc;", [9711]%N);
  (B "bigcup;", [8899]%N);
  (B "bigodot;", [10752]%N);
  (B "bigoplus;", [10753]%N);
  (B "bigotimes;", [10754]%N);
  (B "bigsqcup;", [10758]%N);
  (B "bigstar;", [9733]%N);
  (B "bigtriangledown;", [9661]%N);
  (B "bigtriangleup;", [9651]%N);
  (B "biguplus;", [10756]%N);
  (B "bigvee;", [8897]%N);
  (B "bigwedge;", [8896]%N);
  (B "bkarow;", [10509]%N);
  (B "blacklozenge;", [10731]%N);
  (B "blacksquare;", [9642]%N);
  (B "blacktriangle;", [9652]%N);
  (B "blacktriangledown;", [9662]%N);
  (B "blacktriangleleft;", [9666]%N);
  (B "blacktriangleright;", [9656]%N);
  (B "blank;", [9251]%N);
  (B "blk12;", [9618]%N);
  (B "blk14;", [9617]%N);
  (B "blk34;", [9619]%N);
  (B "block;", [9608]%N);
  (B "bne;", [61; 8421]%N);
  (B "bnequiv;", [8801; 8421]%N);
  (B "bnot;", [8976]%N);
  (B "bopf;", [120147]%N);
  (B "bot;", [8869]%N);
  (B "bottom;", [8869]%N);
  (B "bowtie;", [8904]%N);
  (B "boxDL;", [9559]%N);
  (B "boxDR;", [9556]%N);
  (B "boxDl;", [9558]%N);
  (B "boxDr;", [9555]%N);
  (B "boxH;", [9552]%N);
  (B "boxHD;", [9574]%N);
  (B "boxHU;", [9577]%N);
  (B "boxHd;", [9572]%N);
  (B "boxHu;", [9575]%N);
  (B "boxUL;", [9565]%N);
  (B "boxUR;", [9562]%N);
  (B "boxUl;", [9564]%N);
  (B "boxUr;", [9561]%N);
  (B "boxV;", [9553]%N);
  (B "boxVH;", [9580]%N);
  (B "boxVL;", [9571]%N);
  (B "boxVR;", [9568]%N);
  (B "boxVh;", [9579]%N);
  (B "boxVl;", [9570]%N);
  (B "boxVr;", [9567]%N);
  (B "boxbox;", [10697]%N);
  (B "boxdL;", [9557]%N);
  (B "boxdR;", [9554]%N);
  (B "boxdl;", [9488]%N);
  (B "boxdr;", [9484]%N);
  (B "boxh;", [9472]%N);
  (B "boxhD;", [9573]%N);
  (B "boxhU;", [9576]%N);
  (B "boxhd;", [9516]%N);
  (B "boxhu;", [9524]%N);
  (B "boxminus;", [8863]%N);
  (B "boxplus;", [8862]%N);
  (B "boxtimes;", [8864]%N);
  (B "boxuL;", [9563]%N);
  (B "boxuR;", [9560]%N);
  (B "boxul;", [9496]%N);
  (B "boxur;", [9492]%N);
  (B "boxv;", [9474]%N);
  (B "boxvH;", [9578]%N);
  (B "boxvL;", [9569]%N);
  (B "boxvR;", [9566]%N);
  (B "boxvh;", [9532]%N);
  (B "boxvl;", [9508]%N);
  (B "boxvr;", [9500]%N);
  (B "bprime;", [8245]%N);
  (B "breve;", [728]%N);
  (B "brvbar", [166]%N);
  (B "brvbar;", [166]%N);
  (B "bscr;", [119991]%N);
  (B "bsemi;", [8271]%N);
  (B "bsim;", [8765]%N);
  (B "bsime;", [8909]%N);
  (B "bsol;", [92]%N);
  (B "bsolb;", [10693]%N);
  (B "bsolhsub;", [10184]%N);
  (B "bull;", [8226]%N);
  (B "bullet;", [8226]%N);
  (B "bump;", [8782]%N);
  (B "bumpE;", [10926]%N);
  (B "bumpe;", [8783]%N);
  (B "bumpeq;", [8783]%N);
  (B "cacute;", [263]%N);
  (B "cap;", [8745]%N);
  (B "capand;", [10820]%N);
  (B "capbrcup;", [10825]%N);
  (B "capcap;", [10827]%N);
  (B "capcup;", [10823]%N);
  (B "capdot;", [10816]%N);
  (B "caps;", [8745; 65024]%N);
  (B "caret;", [8257]%N);
  (B "caron;", [711]%N);
  (B "ccaps;", [10829]%N);
  (B "ccaron;", [269]%N);
  (B "ccedil", [231]%N);
  (B "ccedil;", [231]%N);
  (B "ccirc;", [265]%N);
  (B "ccups;", [10828]%N);
  (B "ccupssm;", [10832]%N);
  (B "cdot;", [267]%N);
  (B "cedil", [184]%N);
  (B "cedil;", [184]%N);
  (B "cemptyv;", [10674]%N);
  (B "cent", [162]%N);
  (B "cent;", [162]%N);
  (B "centerdot;", [183]%N);
  (B "cfr;", [120096]%N);
  (B "chcy;", [1095]%N);
  (B "check;", [10003]%N);
  (B "checkmark;", [10003]%N);
  (B "chi;", [967]%N);
  (B "cir;", [9675]%N);
  (B "cirE;", [10691]%N);
  (B "circ;", [710]%N);
  (B "circeq;", [8791]%N);
  (B "circlearrowleft;", [8634]%N);
  (B "circlearrowright;", [8635]%N);
  (B "circledR;", [174]%N);
  (B "circledS;", [9416]%N);
  (B "circledast;", [8859]%N);
  (B "circledcirc;", [8858]%N);
  (B "circleddash;", [8861]%N);
  (B "cire;", [8791]%N);
  (B "cirfnint;", [10768]%N);
  (B "cirmid;", [10991]%N);
  (B "cirscir;", [10690]%N);
  (B "clubs;", [9827]%N);
  (B "clubsuit;", [9827]%N);
  (B "colon;", [58]%N);
  (B "colone;", [8788]%N);
  (B "coloneq;", [8788]%N);
  (B "comma;", [44]%N);
  (B "commat;", [64]%N);
  (B "comp;", [8705]%N);
  (B "compfn;", [8728]%N);
  (B "complement;", [8705]%N);
  (B "complexes;", [8450]%N);
  (B "cong;", [8773]%N);
  (B "congdot;", [10861]%N);
  (B "conint;", [8750]%N);
  (B "copf;", [120148]%N);
  (B "coprod;", [8720]%N);
  (B "copy", [169]%N);
  (B "copy;", [169]%N);
  (B "copysr;", [8471]%N);
  (B "crarr;", [8629]%N);
  (B "cross;", [10007]%N);
  (B "cscr;", [119992]%N);
  (B "csub;", [10959]%N);
  (B "csube;", [10961]%N);
  (B "csup;", [10960]%N);
  (B "csupe;", [10962]%N);
  (B "ctdot;", [8943]%N);
  (B "cudarrl;", [10552]%N);
  (B "cudarrr;", [10549]%N);
  (B "cuepr;", [8926]%N);
  (B "cuesc;", [8927]%N);
  (B "cularr;", [8630]%N);
  (B "cularrp;", [10557]%N);
  (B "cup;", [8746]%N);
  (B "cupbrcap;", [10824]%N);
  (B "cupcap;", [10822]%N);
  (B "cupcup;", [10826]%N);
  (B "cupdot;", [8845]%N);
  (B "cupor;", [10821]%N);
  (B "cups;", [8746; 65024]%N);
  (B "curarr;", [8631]%N);
  (B "curarrm;", [10556]%N);
  (B "curlyeqprec;", [8926]%N);
  (B "curlyeqsucc;", [8927]%N);
  (B "curlyvee;", [8910]%N);
  (B "curlywedge;", [8911]%N);
  (B "curren", [164]%N);
  (B "curren;", [164]%N);
  (B "curvearrowleft;", [8630]%N);
  (B "curvearrowright;", [8631]%N);
  (B "cuvee;", [8910]%N);
  (B "cuwed;", [8911]%N);
  (B "cwconint;", [8754]%N);
  (B "cwint;", [8753]%N);
  (B "cylcty;", [9005]%N);
  (B "dArr;", [8659]%N);
  (B "dHar;", [10597]%N);
  (B "dagger;", [8224]%N);
  (B "daleth;", [8504]%N);
  (B "darr;", [8595]%N);
  (B "dash;", [8208]%N);
  (B "dashv;", [8867]%N);
  (B "dbkarow;", [10511]%N);
  (B "dblac;", [733]%N);
  (B "dcaron;", [271]%N);
  (B "dcy;", [1076]%N);
  (B "dd;", [8518]%N);
  (B "ddagger;", [8225]%N);
  (B "ddarr;", [8650]%N);
  (B "ddotseq;", [10871]%N);
  (B "deg", [176]%N);
  (B "deg;", [176]%N);
  (B "delta;", [948]%N);
  (B "demptyv;", [10673]%N);
  (B "dfisht;", [10623]%N);
  (B "dfr;", [120097]%N);
  (B "dharl;", [8643]%N);
  (B "dharr;", [8642]%N);
  (B "diam;", [8900]%N);
  (B "diamond;", [8900]%N);
  (B "diamondsuit;", [9830]%N);
  (B "diams;", [9830]%N);
  (B "die;", [168]%N);
  (B "digamma;", [989]%N);
  (B "disin;", [8946]%N);
  (B "div;", [247]%N);
  (B "divide", [247]%N);
  (B "divide;", [247]%N);
  (B "divideontimes;", [8903]%N);
  (B "divonx;", [8903]%N);
  (B "djcy;", [1106]%N);
  (B "dlcorn;", [8990]%N);
  (B "dlcrop;", [8973]%N);
  (B "dollar;", [36]%N);
  (B "dopf;", [120149]%N);
  (B "dot;", [729]%N);
  (B "doteq;", [8784]%N);
  (B "doteqdot;", [8785]%N);
  (B "dotminus;", [8760]%N);
  (B "dotplus;", [8724]%N);
  (B "dotsquare;", [8865]%N);
  (B "doublebarwedge;", [8966]%N);
  (B "downarrow;", [8595]%N);
  (B "downdownarrows;", [8650]%N);
  (B "downharpoonleft;", [8643]%N);
  (B "downharpoonright;", [8642]%N);
  (B "drbkarow;", [10512]%N);
  (B "drcorn;", [8991]%N);
  (B "drcrop;", [8972]%N);
  (B "dscr;", [119993]%N);
  (B "dscy;", [1109]%N);
  (B "dsol;", [10742]%N);
  (B "dstrok;", [273]%N);
  (B "dtdot;", [8945]%N);
  (B "dtri;", [9663]%N);
  (B "dtrif;", [9662]%N);
  (B "duarr;", [8693]%N);
  (B "duhar;", [10607]%N);
  (B "dwangle;", [10662]%N);
  (B "dzcy;", [1119]%N);
  (B "dzigrarr;", [10239]%N);
  (B "eDDot;", [10871]%N);
  (B "eDot;", [8785]%N);
  (B "eacute", [233]%N);
  (B "eacute;", [233]%N);
  (B "easter;", [10862]%N);
  (B "ecaron;", [283]%N);
  (B "ecir;", [8790]%N);
  (B "ecirc", [234]%N);
  (B "ecirc;", [234]%N);
  (B "ecolon;", [8789]%N);
  (B "ecy;", [1101]%N);
  (B "edot;", [279]%N);
  (B "ee;", [8519]%N);
  (B "efDot;", [8786]%N);
  (B "efr;", [120098]%N);
  (B "eg;", [10906]%N);
  (B "egrave", [232]%N);
  (B "egrave;", [232]%N);
  (B "egs;", [10902]%N);
  (B "egsdot;", [10904]%N);
  (B "el;", [10905]%N);
  (B "elinters;", [9191]%N);
  (B "ell;", [8467]%N);
  (B "els;", [10901]%N);
  (B "elsdot;", [10903]%N);
  (B "emacr;", [275]%N);
  (B "empty;", [8709]%N);
  (B "emptyset;", [8709]%N);
  (B "emptyv;", [8709]%N);
  (B "emsp13;", [8196]%N);
  (B "emsp14;", [8197]%N);
  (B "emsp;", [8195]%N);
  (B "eng;", [331]%N);
  (B "ensp;", [8194]%N);
  (B "eogon;", [281]%N);
  (B "eopf;", [120150]%N);
  (B "epar;", [8917]%N);
  (B "eparsl;", [10723]%N);
  (B "eplus;", [10865]%N);
  (B "epsi;", [949]%N);
  (B "epsilon;", [949]%N);
  (B "epsiv;", [1013]%N);
  (B "eqcirc;", [8790]%N);
  (B "eqcolon;", [8789]%N);
  (B "eqsim;", [8770]%N);
  (B "eqslantgtr;", [10902]%N);
  (B "eqslantless;", [10901]%N);
  (B "equals;", [61]%N);
  (B "equest;", [8799]%N);
  (B "equiv;", [8801]%N);
  (B "equivDD;", [10872]%N);
  (B "eqvparsl;", [10725]%N);
  (B "erDot;", [8787]%N);
  (B "erarr;", [10609]%N);
  (B "escr;", [8495]%N);
  (B "esdot;", [8784]%N);
  (B "esim;", [8770]%N);
  (B "eta;", [951]%N);
  (B "eth", [240]%N);
  (B "eth;", [240]%N);
  (B "euml", [235]%N);
  (B "euml;", [235]%N);
  (B "euro;", [8364]%N);
  (B "excl;", [33]%N);
  (B "exist;", [8707]%N);
  (B "expectation;", [8496]%N);
  (B "exponentiale;", [8519]%N);
  (B "fallingdotseq;", [8786]%N);
  (B "fcy;", [1092]%N);
  (B "female;", [9792]%N);
  (B "ffilig;", [64259]%N);
  (B "fflig;", [64256]%N);
  (B "ffllig;", [64260]%N);
  (B "ffr;", [120099]%N);
  (B "filig;", [64257]%N);
  (B "fjlig;", [102; 106]%N);
  (B "flat;", [9837]%N);
  (B "fllig;", [64258]%N);
  (B "fltns;", [9649]%N);
  (B "fnof;", [402]%N);
  (B "fopf;", [120151]%N);
  (B "forall;", [8704]%N);
  (B "fork;", [8916]%N);
  (B "forkv;", [10969]%N);
  (B "fpartint;", [10765]%N);
  (B "frac12", [189]%N);
  (B "frac12;", [189]%N);
  (B "frac13;", [8531]%N);
  (B "frac14", [188]%N);
  (B "frac14;", [188]%N);
  (B "frac15;", [8533]%N);
  (B "frac16;", [8537]%N);
  (B "frac18;", [8539]%N);
  (B "frac23;", [8532]%N);
  (B "frac25;", [8534]%N);
  (B "frac34", [190]%N);
  (B "frac34;", [190]%N);
  (B "frac35;", [8535]%N);
  (B "frac38;", [8540]%N);
  (B "frac45;", [8536]%N);
  (B "frac56;", [8538]%N);
  (B "frac58;", [8541]%N);
  (B "frac78;", [8542]%N);
  (B "frasl;", [8260]%N);
  (B "frown;", [8994]%N);
  (B "fscr;", [119995]%N);
  (B "gE;", [8807]%N);
  (B "gEl;", [10892]%N);
  (B "gacute;", [501]%N);
  (B "gamma;", [947]%N);
  (B "gammad;", [989]%N);
  (B "gap;", [10886]%N);
  (B "gbreve;", [287]%N);
  (B "gcirc;", [285]%N);
  (B "gcy;", [1075]%N);
  (B "gdot;", [289]%N);
  (B "ge;", [8805]%N);
  (B "gel;", [8923]%N);
  (B "geq;", [8805]%N);
  (B "geqq;", [8807]%N);
  (B "geqslant;", [10878]%N);
  (B "ges;", [10878]%N);
  (B "gescc;", [10921]%N);
  (B "gesdot;", [10880]%N);
  (B "gesdoto;", [10882]%N);
  (B "gesdotol;", [10884]%N);
  (B "gesl;", [8923; 65024]%N);
  (B "gesles;", [10900]%N);
  (B "gfr;", [120100]%N);
  (B "gg;", [8811]%N);
  (B "ggg;", [8921]%N);
  (B "gimel;", [8503]%N);
  (B "gjcy;", [1107]%N);
  (B "gl;", [8823]%N);
  (B "glE;", [10898]%N);
  (B "gla;", [10917]%N);
  (B "glj;", [10916]%N);
  (B "gnE;", [8809]%N);
  (B "gnap;", [10890]%N);
  (B "gnapprox;", [10890]%N);
  (B "gne;", [10888]%N);
  (B "gneq;", [10888]%N);
  (B "gneqq;", [8809]%N);
  (B "gnsim;", [8935]%N);
  (B "gopf;", [120152]%N);
  (B "grave;", [96]%N);
  (B "gscr;", [8458]%N);
  (B "gsim;", [8819]%N);
  (B "gsime;", [10894]%N);
  (B "gsiml;", [10896]%N);
  (B "gt", [62]%N);
  (B "gt;", [62]%N);
  (B "gtcc;", [10919]%N);
  (B "gtcir;", [10874]%N);
  (B "gtdot;", [8919]%N);
  (B "gtlPar;", [10645]%N);
  (B "gtquest;", [10876]%N);
  (B "gtrapprox;", [10886]%N);
  (B "gtrarr;", [10616]%N);
  (B "gtrdot;", [8919]%N);
  (B "gtreqless;", [8923]%N);
  (B "gtreqqless;", [10892]%N);
  (B "gtrless;", [8823]%N);
  (B "gtrsim;", [8819]%N);
  (B "gvertneqq;", [8809; 65024]%N);
  (B "gvnE;", [8809; 65024]%N);
  (B "hArr;", [8660]%N);
  (B "hairsp;", [8202]%N);
  (B "half;", [189]%N);
  (B "hamilt;", [8459]%N);
  (B "hardcy;", [1098]%N);
  (B "harr;", [8596]%N);
  (B "harrcir;", [10568]%N);
  (B "harrw;", [8621]%N);
  (B "hbar;", [8463]%N);
  (B "hcirc;", [293]%N);
  (B "hearts;", [9829]%N);
  (B "heartsuit;", [9829]%N);
  (B "hellip;", [8230]%N);
  (B "hercon;", [8889]%N);
  (B "hfr;", [120101]%N);
  (B "hksearow;", [10533]%N);
  (B "hkswarow;", [10534]%N);
  (B "hoarr;", [8703]%N);
  (B "homtht;", [8763]%N);
  (B "hookleftarrow;", [8617]%N);
  (B "hookrightarrow;", [8618]%N);
  (B "hopf;", [120153]%N);
  (B "horbar;", [8213]%N);
  (B "hscr;", [119997]%N);
  (B "hslash;", [8463]%N);
  (B "hstrok;", [295]%N);
  (B "hybull;", [8259]%N);
  (B "hyphen;", [8208]%N);
  (B "iacute", [237]%N);
  (B "iacute;", [237]%N);
  (B "ic;", [8291]%N);
  (B "icirc", [238]%N);
  (B "icirc;", [238]%N);
  (B "icy;", [1080]%N);
  (B "iecy;", [1077]%N);
  (B "iexcl", [161]%N);
  (B "iexcl;", [161]%N);
  (B "iff;", [8660]%N);
  (B "ifr;", [120102]%N);
  (B "igrave", [236]%N);
  (B "igrave;", [236]%N);
  (B "ii;", [8520]%N);
  (B "iiiint;", [10764]%N);
  (B "iiint;", [8749]%N);
  (B "iinfin;", [10716]%N);
  (B "iiota;", [8489]%N);
  (B "ijlig;", [307]%N);
  (B "imacr;", [299]%N);
  (B "image;", [8465]%N);
  (B "imagline;", [8464]%N);
  (B "imagpart;", [8465]%N);
  (B "imath;", [305]%N);
  (B "imof;", [8887]%N);
  (B "imped;", [437]%N);
  (B "in;", [8712]%N);
  (B "incare;", [8453]%N);
  (B "infin;", [8734]%N);
  (B "infintie;", [10717]%N);
  (B "inodot;", [305]%N);
  (B "int;", [8747]%N);
  (B "intcal;", [8890]%N);
  (B "integers;", [8484]%N);
  (B "intercal;", [8890]%N);
  (B "intlarhk;", [10775]%N);
  (B "intprod;", [10812]%N);
  (B "iocy;", [1105]%N);
  (B "iogon;", [303]%N);
  (B "iopf;", [120154]%N);
  (B "iota;", [953]%N);
  (B "iprod;", [10812]%N);
  (B "iquest", [191]%N);
  (B "iquest;", [191]%N);
  (B "iscr;", [119998]%N);
  (B "isin;", [8712]%N);
  (B "isinE;", [8953]%N);
  (B "isindot;", [8949]%N);
  (B "isins;", [8948]%N);
  (B "isinsv;", [8947]%N);
  (B "isinv;", [8712]%N);
  (B "it;", [8290]%N);
  (B "itilde;", [297]%N);
  (B "iukcy;", [1110]%N);
  (B "iuml", [239]%N);
  (B "iuml;", [239]%N);
  (B "jcirc;", [309]%N);
  (B "jcy;", [1081]%N);
  (B "jfr;", [120103]%N);
  (B "jmath;", [567]%N);
  (B "jopf;", [120155]%N);
  (B "jscr;", [119999]%N);
  (B "jsercy;", [1112]%N);
  (B "jukcy;", [1108]%N);
  (B "kappa;", [954]%N);
  (B "kappav;", [1008]%N);
  (B "kcedil;", [311]%N);
  (B "kcy;", [1082]%N);
  (B "kfr;", [120104]%N);
  (B "kgreen;", [312]%N);
  (B "khcy;", [1093]%N);
  (B "kjcy;", [1116]%N);
  (B "kopf;", [120156]%N);
  (B "kscr;", [120000]%N);
  (B "lAarr;", [8666]%N);
  (B "lArr;", [8656]%N);
  (B "lAtail;", [10523]%N);
  (B "lBarr;", [10510]%N);
  (B "lE;", [8806]%N);
  (B "lEg;", [10891]%N);
  (B "lHar;", [10594]%N);
  (B "lacute;", [314]%N);
  (B "laemptyv;", [10676]%N);
  (B "lagran;", [8466]%N);
  (B "lambda;", [955]%N);
  (B "lang;", [10216]%N);
  (B "langd;", [10641]%N);
  (B "langle;", [10216]%N);
  (B "lap;", [10885]%N);
  (B "laquo", [171]%N);
  (B "laquo;", [171]%N);
  (B "larr;", [8592]%N);
  (B "larrb;", [8676]%N);
  (B "larrbfs;", [10527]%N);
  (B "larrfs;", [10525]%N);
  (B "larrhk;", [8617]%N);
  (B "larrlp;", [8619]%N);
  (B "larrpl;", [10553]%N);
  (B "larrsim;", [10611]%N);
  (B "larrtl;", [8610]%N);
  (B "lat;", [10923]%N);
  (B "latail;", [10521]%N);
  (B "late;", [10925]%N);
  (B "lates;", [10925; 65024]%N);
  (B "lbarr;", [10508]%N);
  (B "lbbrk;", [10098]%N);
  (B "lbrace;", [123]%N);
  (B "lbrack;", [91]%N);
  (B "lbrke;", [10635]%N);
  (B "lbrksld;", [10639]%N);
  (B "lbrkslu;", [10637]%N);
  (B "lcaron;", [318]%N);
  (B "lcedil;", [316]%N);
  (B "lceil;", [8968]%N);
  (B "lcub;", [123]%N);
  (B "lcy;", [1083]%N);
  (B "ldca;", [10550]%N);
  (B "ldquo;", [8220]%N);
  (B "ldquor;", [8222]%N);
  (B "ldrdhar;", [10599]%N);
  (B "ldrushar;", [10571]%N);
  (B "ldsh;", [8626]%N);
  (B "le;", [8804]%N);
  (B "leftarrow;", [8592]%N);
  (B "leftarrowtail;", [8610]%N);
  (B "leftharpoondown;", [8637]%N);
  (B "leftharpoonup;", [8636]%N);
  (B "leftleftarrows;", [8647]%N);
  (B "leftrightarrow;", [8596]%N);
  (B "leftrightarrows;", [8646]%N);
  (B "leftrightharpoons;", [8651]%N);
  (B "leftrightsquigarrow;", [8621]%N);
  (B "leftthreetimes;", [8907]%N);
  (B "leg;", [8922]%N);
  (B "leq;", [8804]%N);
  (B "leqq;", [8806]%N);
  (B "leqslant;", [10877]%N);
  (B "les;", [10877]%N);
  (B "lescc;", [10920]%N);
  (B "lesdot;", [10879]%N);
  (B "lesdoto;", [10881]%N);
  (B "lesdotor;", [10883]%N);
  (B "lesg;", [8922; 65024]%N);
  (B "lesges;", [10899]%N);
  (B "lessapprox;", [10885]%N);
  (B "lessdot;", [8918]%N);
  (B "lesseqgtr;", [8922]%N);
  (B "lesseqqgtr;", [10891]%N);
  (B "lessgtr;", [8822]%N);
  (B "lesssim;", [8818]%N);
  (B "lfisht;", [10620]%N);
  (B "lfloor;", [8970]%N);
  (B "lfr;", [120105]%N);
  (B "lg;", [8822]%N);
  (B "lgE;", [10897]%N);
  (B "lhard;", [8637]%N);
  (B "lharu;", [8636]%N);
  (B "lharul;", [10602]%N);
  (B "lhblk;", [9604]%N);
  (B "ljcy;", [1113]%N);
  (B "ll;", [8810]%N);
  (B "llarr;", [8647]%N);
  (B "llcorner;", [8990]%N);
  (B "llhard;", [10603]%N);
  (B "lltri;", [9722]%N);
  (B "lmidot;", [320]%N);
  (B "lmoust;", [9136]%N);
  (B "lmoustache;", [9136]%N);
  (B "lnE;", [8808]%N);
  (B "lnap;", [10889]%N);
  (B "lnapprox;", [10889]%N);
  (B "lne;", [10887]%N);
  (B "lneq;", [10887]%N);
  (B "lneqq;", [8808]%N);
  (B "lnsim;", [8934]%N);
  (B "loang;", [10220]%N);
  (B "loarr;", [8701]%N);
  (B "lobrk;", [10214]%N);
  (B "longleftarrow;", [10229]%N);
  (B "longleftrightarrow;", [10231]%N);
  (B "longmapsto;", [10236]%N);
  (B "longrightarrow;", [10230]%N);
  (B "looparrowleft;", [8619]%N);
  (B "looparrowright;", [8620]%N);
  (B "lopar;", [10629]%N);
  (B "lopf;", [120157]%N);
  (B "loplus;", [10797]%N);
  (B "lotimes;", [10804]%N);
  (B "lowast;", [8727]%N);
  (B "lowbar;", [95]%N);
  (B "loz;", [9674]%N);
  (B "lozenge;", [9674]%N);
  (B "lozf;", [10731]%N);
  (B "lpar;", [40]%N);
  (B "lparlt;", [10643]%N);
  (B "lrarr;", [8646]%N);
  (B "lrcorner;", [8991]%N);
  (B "lrhar;", [8651]%N);
  (B "lrhard;", [10605]%N);
  (B "lrm;", [8206]%N);
  (B "lrtri;", [8895]%N);
  (B "lsaquo;", [8249]%N);
  (B "lscr;", [120001]%N);
  (B "lsh;", [8624]%N);
  (B "lsim;", [8818]%N);
  (B "lsime;", [10893]%N);
  (B "lsimg;", [10895]%N);
  (B "lsqb;", [91]%N);
  (B "lsquo;", [8216]%N);
  (B "lsquor;", [8218]%N);
  (B "lstrok;", [322]%N);
  (B "lt", [60]%N);
  (B "lt;", [60]%N);
  (B "ltcc;", [10918]%N);
  (B "ltcir;", [10873]%N);
  (B "ltdot;", [8918]%N);
  (B "lthree;", [8907]%N);
  (B "ltimes;", [8905]%N);
  (B "ltlarr;", [10614]%N);
  (B "ltquest;", [10875]%N);
  (B "ltrPar;", [10646]%N);
  (B "ltri;", [9667]%N);
  (B "ltrie;", [8884]%N);
  (B "ltrif;", [9666]%N);
  (B "lurdshar;", [10570]%N);
  (B "luruhar;", [10598]%N);
  (B "lvertneqq;", [8808; 65024]%N);
  (B "lvnE;", [8808; 65024]%N);
  (B "mDDot;", [8762]%N);
  (B "macr", [175]%N);
  (B "macr;", [175]%N);
  (B "male;", [9794]%N);
  (B "malt;", [10016]%N);
  (B "maltese;", [10016]%N);
  (B "map;", [8614]%N);
  (B "mapsto;", [8614]%N);
  (B "mapstodown;", [8615]%N);
  (B "mapstoleft;", [8612]%N);
  (B "mapstoup;", [8613]%N);
  (B "marker;", [9646]%N);
  (B "mcomma;", [10793]%N);
  (B "mcy;", [1084]%N);
  (B "mdash;", [8212]%N);
  (B "measuredangle;", [8737]%N);
  (B "mfr;", [120106]%N);
  (B "mho;", [8487]%N);
  (B "micro", [181]%N);
  (B "micro;", [181]%N);
  (B "mid;", [8739]%N);
  (B "midast;", [42]%N);
  (B "midcir;", [10992]%N);
  (B "middot", [183]%N);
  (B "middot;", [183]%N);
  (B "minus;", [8722]%N);
  (B "minusb;", [8863]%N);
  (B "minusd;", [8760]%N);
  (B "minusdu;", [10794]%N);
  (B "mlcp;", [10971]%N);
  (B "mldr;", [8230]%N);
  (B "mnplus;", [8723]%N);
  (B "models;", [8871]%N);
  (B "mopf;", [120158]%N);
  (B "mp;", [8723]%N);
  (B "mscr;", [120002]%N);
  (B "mstpos;", [8766]%N);
  (B "mu;", [956]%N);
  (B "multimap;", [8888]%N);
  (B "mumap;", [8888]%N);
  (B "nGg;", [8921; 824]%N);
  (B "nGtv;", [8811; 824]%N);
  (B "nLeftarrow;", [8653]%N);
  (B "nLeftrightarrow;", [8654]%N);
  (B "nLl;", [8920; 824]%N);
  (B "nLtv;", [8810; 824]%N);
  (B "nRightarrow;", [8655]%N);
  (B "nVDash;", [8879]%N);
  (B "nVdash;", [8878]%N);
  (B "nabla;", [8711]%N);
  (B "nacute;", [324]%N);
  (B "nang;", [8736; 8402]%N);
  (B "nap;", [8777]%N);
  (B "napE;", [10864; 824]%N);
  (B "napid;", [8779; 824]%N);
  (B "napos;", [329]%N);
  (B "napprox;", [8777]%N);
  (B "natur;", [9838]%N);
  (B "natural;", [9838]%N);
  (B "naturals;", [8469]%N);
  (B "nbsp", [160]%N);
  (B "nbsp;", [160]%N);
  (B "nbump;", [8782; 824]%N);
  (B "nbumpe;", [8783; 824]%N);
  (B "ncap;", [10819]%N);
  (B "ncaron;", [328]%N);
  (B "ncedil;", [326]%N);
  (B "ncong;", [8775]%N);
  (B "ncongdot;", [10861; 824]%N);
  (B "ncup;", [10818]%N);
  (B "ncy;", [1085]%N);
  (B "ndash;", [8211]%N);
  (B "ne;", [8800]%N);
  (B "neArr;", [8663]%N);
  (B "nearhk;", [10532]%N);
  (B "nearr;", [8599]%N);
  (B "nearrow;", [8599]%N);
  (B "nedot;", [8784; 824]%N);
  (B "nequiv;", [8802]%N);
  (B "nesear;", [10536]%N);
  (B "nesim;", [8770; 824]%N);
  (B "nexist;", [8708]%N);
  (B "nexists;", [8708]%N);
  (B "nfr;", [120107]%N);
  (B "ngE;", [8807; 824]%N);
  (B "nge;", [8817]%N);
  (B "ngeq;", [8817]%N);
  (B "ngeqq;", [8807; 824]%N);
  (B "ngeqslant;", [10878; 824]%N);
  (B "nges;", [10878; 824]%N);
  (B "ngsim;", [8821]%N);
  (B "ngt;", [8815]%N);
  (B "ngtr;", [8815]%N);
  (B "nhArr;", [8654]%N);
  (B "nharr;", [8622]%N);
  (B "nhpar;", [10994]%N);
  (B "ni;", [8715]%N);
  (B "nis;", [8956]%N);
  (B "nisd;", [8954]%N);
  (B "niv;", [8715]%N);
  (B "njcy;", [1114]%N);
  (B "nlArr;", [8653]%N);
  (B "nlE;", [8806; 824]%N);
  (B "nlarr;", [8602]%N);
  (B "nldr;", [8229]%N);
  (B "nle;", [8816]%N);
  (B "nleftarrow;", [8602]%N);
  (B "nleftrightarrow;", [8622]%N);
  (B "nleq;", [8816]%N);
  (B "nleqq;", [8806; 824]%N);
  (B "nleqslant;", [10877; 824]%N);
  (B "nles;", [10877; 824]%N);
  (B "nless;", [8814]%N);
  (B "nlsim;", [8820]%N);
  (B "nlt;", [8814]%N);
  (B "nltri;", [8938]%N);
  (B "nltrie;", [8940]%N);
  (B "nmid;", [8740]%N);
  (B "nopf;", [120159]%N);
  (B "not", [172]%N);
  (B "not;", [172]%N);
  (B "notin;", [8713]%N);
  (B "notinE;", [8953; 824]%N);
  (B "notindot;", [8949; 824]%N);
  (B "notinva;", [8713]%N);
  (B "notinvb;", [8951]%N);
  (B "notinvc;", [8950]%N);
  (B "notni;", [8716]%N);
  (B "notniva;", [8716]%N);
  (B "notnivb;", [8958]%N);
  (B "notnivc;", [8957]%N);
  (B "npar;", [8742]%N);
  (B "nparallel;", [8742]%N);
  (B "nparsl;", [11005; 8421]%N);
  (B "npart;", [8706; 824]%N);
  (B "npolint;", [10772]%N);
  (B "npr;", [8832]%N);
  (B "nprcue;", [8928]%N);
  (B "npre;", [10927; 824]%N);
  (B "nprec;", [8832]%N);
  (B "npreceq;", [10927; 824]%N);
  (B "nrArr;", [8655]%N);
  (B "nrarr;", [8603]%N);
  (B "nrarrc;", [10547; 824]%N);
  (B "nrarrw;", [8605; 824]%N);
  (B "nrightarrow;", [8603]%N);
  (B "nrtri;", [8939]%N);
  (B "nrtrie;", [8941]%N);
  (B "nsc;", [8833]%N);
  (B "nsccue;", [8929]%N);
  (B "nsce;", [10928; 824]%N);
  (B "nscr;", [120003]%N);
  (B "nshortmid;", [8740]%N);
  (B "nshortparallel;", [8742]%N);
  (B "nsim;", [8769]%N);
  (B "nsime;", [8772]%N);
  (B "nsimeq;", [8772]%N);
  (B "nsmid;", [8740]%N);
  (B "nspar;", [8742]%N);
  (B "nsqsube;", [8930]%N);
  (B "nsqsupe;", [8931]%N);
  (B "nsub;", [8836]%N);
  (B "nsubE;", [10949; 824]%N);
  (B "nsube;", [8840]%N);
  (B "nsubset;", [8834; 8402]%N);
  (B "nsubseteq;", [8840]%N);
  (B "nsubseteqq;", [10949; 824]%N);
  (B "nsucc;", [8833]%N);
  (B "nsucceq;", [10928; 824]%N);
  (B "nsup;", [8837]%N);
  (B "nsupE;", [10950; 824]%N);
  (B "nsupe;", [8841]%N);
  (B "nsupset;", [8835; 8402]%N);
  (B "nsupseteq;", [8841]%N);
  (B "nsupseteqq;", [10950; 824]%N);
  (B "ntgl;", [8825]%N);
  (B "ntilde", [241]%N);
  (B "ntilde;", [241]%N);
  (B "ntlg;", [8824]%N);
  (B "ntriangleleft;", [8938]%N);
  (B "ntrianglelefteq;", [8940]%N);
  (B "ntriangleright;", [8939]%N);
  (B "ntrianglerighteq;", [8941]%N);
  (B "nu;", [957]%N);
  (B "num;", [35]%N);
  (B "numero;", [8470]%N);
  (B "numsp;", [8199]%N);
  (B "nvDash;", [8877]%N);
  (B "nvHarr;", [10500]%N);
  (B "nvap;", [8781; 8402]%N);
  (B "nvdash;", [8876]%N);
  (B "nvge;", [8805; 8402]%N);
  (B "nvgt;", [62; 8402]%N);
  (B "nvinfin;", [10718]%N);
  (B "nvlArr;", [10498]%N);
  (B "nvle;", [8804; 8402]%N);
  (B "nvlt;", [60; 8402]%N);
  (B "nvltrie;", [8884; 8402]%N);
  (B "nvrArr;", [10499]%N);
  (B "nvrtrie;", [8885; 8402]%N);
  (B "nvsim;", [8764; 8402]%N);
  (B "nwArr;", [8662]%N);
  (B "nwarhk;", [10531]%N);
  (B "nwarr;", [8598]%N);
  (B "nwarrow;", [8598]%N);
  (B "nwnear;", [10535]%N);
  (B "oS;", [9416]%N);
  (B "oacute", [243]%N);
  (B "oacute;", [243]%N);
  (B "oast;", [8859]%N);
  (B "ocir;", [8858]%N);
  (B "ocirc", [244]%N);
  (B "ocirc;", [244]%N);
  (B "ocy;", [1086]%N);
  (B "odash;", [8861]%N);
  (B "odblac;", [337]%N);
  (B "odiv;", [10808]%N);
  (B "odot;", [8857]%N);
  (B "odsold;", [10684]%N);
  (B "oelig;", [339]%N);
  (B "ofcir;", [10687]%N);
  (B "ofr;", [120108]%N);
  (B "ogon;", [731]%N);
  (B "ograve", [242]%N);
  (B "ograve;", [242]%N);
  (B "ogt;", [10689]%N);
  (B "ohbar;", [10677]%N);
  (B "ohm;", [937]%N);
  (B "oint;", [8750]%N);
  (B "olarr;", [8634]%N);
  (B "olcir;", [10686]%N);
  (B "olcross;", [10683]%N);
  (B "oline;", [8254]%N);
  (B "olt;", [10688]%N);
  (B "omacr;", [333]%N);
  (B "omega;", [969]%N);
  (B "omicron;", [959]%N);
  (B "omid;", [10678]%N);
  (B "ominus;", [8854]%N);
  (B "oopf;", [120160]%N);
  (B "opar;", [10679]%N);
  (B "operp;", [10681]%N);
  (B "oplus;", [8853]%N);
  (B "or;", [8744]%N);
  (B "orarr;", [8635]%N);
  (B "ord;", [10845]%N);
  (B "order;", [8500]%N);
  (B "orderof;", [8500]%N);
  (B "ordf", [170]%N);
  (B "ordf;", [170]%N);
  (B "ordm", [186]%N);
  (B "ordm;", [186]%N);
  (B "origof;", [8886]%N);
  (B "oror;", [10838]%N);
  (B "orslope;", [10839]%N);
  (B "orv;", [10843]%N);
  (B "oscr;", [8500]%N);
  (B "oslash", [248]%N);
  (B "oslash;", [248]%N);
  (B "osol;", [8856]%N);
  (B "otilde", [245]%N);
  (B "otilde;", [245]%N);
  (B "otimes;", [8855]%N);
  (B "otimesas;", [10806]%N);
  (B "ouml", [246]%N);
  (B "ouml;", [246]%N);
  (B "ovbar;", [9021]%N);
  (B "par;", [8741]%N);
  (B "para", [182]%N);
  (B "para;", [182]%N);
  (B "parallel;", [8741]%N);
  (B "parsim;", [10995]%N);
  (B "parsl;", [11005]%N);
  (B "part;", [8706]%N);
  (B "pcy;", [1087]%N);
  (B "percnt;", [37]%N);
  (B "period;", [46]%N);
  (B "permil;", [8240]%N);
  (B "perp;", [8869]%N);
  (B "pertenk;", [8241]%N);
  (B "pfr;", [120109]%N);
  (B "phi;", [966]%N);
  (B "phiv;", [981]%N);
  (B "phmmat;", [8499]%N);
  (B "phone;", [9742]%N);
  (B "pi;", [960]%N);
  (B "pitchfork;", [8916]%N);
  (B "piv;", [982]%N);
  (B "planck;", [8463]%N);
  (B "planckh;", [8462]%N);
  (B "plankv;", [8463]%N);
  (B "plus;", [43]%N);
  (B "plusacir;", [10787]%N);
  (B "plusb;", [8862]%N);
  (B "pluscir;", [10786]%N);
  (B "plusdo;", [8724]%N);
  (B "plusdu;", [10789]%N);
  (B "pluse;", [10866]%N);
  (B "plusmn", [177]%N);
  (B "plusmn;", [177]%N);
  (B "plussim;", [10790]%N);
  (B "plustwo;", [10791]%N);
  (B "pm;", [177]%N);
  (B "pointint;", [10773]%N);
  (B "popf;", [120161]%N);
  (B "pound", [163]%N);
  (B "pound;", [163]%N);
  (B "pr;", [8826]%N);
  (B "prE;", [10931]%N);
  (B "prap;", [10935]%N);
  (B "prcue;", [8828]%N);
  (B "pre;", [10927]%N);
  (B "prec;", [8826]%N);
  (B "precapprox;", [10935]%N);
  (B "preccurlyeq;", [8828]%N);
  (B "preceq;", [10927]%N);
  (B "precnapprox;", [10937]%N);
  (B "precneqq;", [10933]%N);
  (B "precnsim;", [8936]%N);
  (B "precsim;", [8830]%N);
  (B "prime;", [8242]%N);
  (B "primes;", [8473]%N);
  (B "prnE;", [10933]%N);
  (B "prnap;", [10937]%N);
  (B "prnsim;", [8936]%N);
  (B "prod;", [8719]%N);
  (B "profalar;", [9006]%N);
  (B "profline;", [8978]%N);
  (B "profsurf;", [8979]%N);
  (B "prop;", [8733]%N);
  (B "propto;", [8733]%N);
  (B "prsim;", [8830]%N);
  (B "prurel;", [8880]%N);
  (B "pscr;", [120005]%N);
  (B "psi;", [968]%N);
  (B "puncsp;", [8200]%N);
  (B "qfr;", [120110]%N);
  (B "qint;", [10764]%N);
  (B "qopf;", [120162]%N);
  (B "qprime;", [8279]%N);
  (B "qscr;", [120006]%N);
  (B "quaternions;", [8461]%N);
  (B "quatint;", [10774]%N);
  (B "quest;", [63]%N);
  (B "questeq;", [8799]%N);
  (B "quot", [34]%N);
  (B "quot;", [34]%N);
  (B "rAarr;", [8667]%N);
  (B "rArr;", [8658]%N);
  (B "rAtail;", [10524]%N);
  (B "rBarr;", [10511]%N);
  (B "rHar;", [10596]%N);
  (B "race;", [8765; 817]%N);
  (B "racute;", [341]%N);
  (B "radic;", [8730]%N);
  (B "raemptyv;", [10675]%N);
  (B "rang;", [10217]%N);
  (B "rangd;", [10642]%N);
  (B "range;", [10661]%N);
  (B "rangle;", [10217]%N);
  (B "raquo", [187]%N);
  (B "raquo;", [187]%N);
  (B "rarr;", [8594]%N);
  (B "rarrap;", [10613]%N);
  (B "rarrb;", [8677]%N);
  (B "rarrbfs;", [10528]%N);
  (B "rarrc;", [10547]%N);
  (B "rarrfs;", [10526]%N);
  (B "rarrhk;", [8618]%N);
  (B "rarrlp;", [8620]%N);
  (B "rarrpl;", [10565]%N);
  (B "rarrsim;", [10612]%N);
  (B "rarrtl;", [8611]%N);
  (B "rarrw;", [8605]%N);
  (B "ratail;", [10522]%N);
  (B "ratio;", [8758]%N);
  (B "rationals;", [8474]%N);
  (B "rbarr;", [10509]%N);
  (B "rbbrk;", [10099]%N);
  (B "rbrace;", [125]%N);
  (B "rbrack;", [93]%N);
  (B "rbrke;", [10636]%N);
  (B "rbrksld;", [10638]%N);
  (B "rbrkslu;", [10640]%N);
  (B "rcaron;", [345]%N);
  (B "rcedil;", [343]%N);
  (B "rceil;", [8969]%N);
  (B "rcub;", [125]%N);
  (B "rcy;", [1088]%N);
  (B "rdca;", [10551]%N);
  (B "rdldhar;", [10601]%N);
  (B "rdquo;", [8221]%N);
  (B "rdquor;", [8221]%N);
  (B "rdsh;", [8627]%N);
  (B "real;", [8476]%N);
  (B "realine;", [8475]%N);
  (B "realpart;", [8476]%N);
  (B "reals;", [8477]%N);
  (B "rect;", [9645]%N);
  (B "reg", [174]%N);
  (B "reg;", [174]%N);
  (B "rfisht;", [10621]%N);
  (B "rfloor;", [8971]%N);
  (B "rfr;", [120111]%N);
  (B "rhard;", [8641]%N);
  (B "rharu;", [8640]%N);
  (B "rharul;", [10604]%N);
  (B "rho;", [961]%N);
  (B "rhov;", [1009]%N);
  (B "rightarrow;", [8594]%N);
  (B "rightarrowtail;", [8611]%N);
  (B "rightharpoondown;", [8641]%N);
  (B "rightharpoonup;", [8640]%N);
  (B "rightleftarrows;", [8644]%N);
  (B "rightleftharpoons;", [8652]%N);
  (B "rightrightarrows;", [8649]%N);
  (B "rightsquigarrow;", [8605]%N);
  (B "rightthreetimes;", [8908]%N);
  (B "ring;", [730]%N);
  (B "risingdotseq;", [8787]%N);
  (B "rlarr;", [8644]%N);
  (B "rlhar;", [8652]%N);
  (B "rlm;", [8207]%N);
  (B "rmoust;", [9137]%N);
  (B "rmoustache;", [9137]%N);
  (B "rnmid;", [10990]%N);
  (B "roang;", [10221]%N);
  (B "roarr;", [8702]%N);
  (B "robrk;", [10215]%N);
  (B "ropar;", [10630]%N);
  (B "ropf;", [120163]%N);
  (B "roplus;", [10798]%N);
  (B "rotimes;", [10805]%N);
  (B "rpar;", [41]%N);
  (B "rpargt;", [10644]%N);
  (B "rppolint;", [10770]%N);
  (B "rrarr;", [8649]%N);
  (B "rsaquo;", [8250]%N);
  (B "rscr;", [120007]%N);
  (B "rsh;", [8625]%N);
  (B "rsqb;", [93]%N);
  (B "rsquo;", [8217]%N);
  (B "rsquor;", [8217]%N);
  (B "rthree;", [8908]%N);
  (B "rtimes;", [8906]%N);
  (B "rtri;", [9657]%N);
  (B "rtrie;", [8885]%N);
  (B "rtrif;", [9656]%N);
  (B "rtriltri;", [10702]%N);
  (B "ruluhar;", [10600]%N);
  (B "rx;", [8478]%N);
  (B "sacute;", [347]%N);
  (B "sbquo;", [8218]%N);
  (B "sc;", [8827]%N);
  (B "scE;", [10932]%N);
  (B "scap;", [10936]%N);
  (B "scaron;", [353]%N);
  (B "sccue;", [8829]%N);
  (B "sce;", [10928]%N);
  (B "scedil;", [351]%N);
  (B "scirc;", [349]%N);
  (B "scnE;", [10934]%N);
  (B "scnap;", [10938]%N);
  (B "scnsim;", [8937]%N);
  (B "scpolint;", [10771]%N);
  (B "scsim;", [8831]%N);
  (B "scy;", [1089]%N);
  (B "sdot;", [8901]%N);
  (B "sdotb;", [8865]%N);
  (B "sdote;", [10854]%N);
  (B "seArr;", [8664]%N);
  (B "searhk;", [10533]%N);
  (B "searr;", [8600]%N);
  (B "searrow;", [8600]%N);
  (B "sect", [167]%N);
  (B "sect;", [167]%N);
  (B "semi;", [59]%N);
  (B "seswar;", [10537]%N);
  (B "setminus;", [8726]%N);
  (B "setmn;", [8726]%N);
  (B "sext;", [10038]%N);
  (B "sfr;", [120112]%N);
  (B "sfrown;", [8994]%N);
  (B "sharp;", [9839]%N);
  (B "shchcy;", [1097]%N);
  (B "shcy;", [1096]%N);
  (B "shortmid;", [8739]%N);
  (B "shortparallel;", [8741]%N);
  (B "shy", [173]%N);
  (B "shy;", [173]%N);
  (B "sigma;", [963]%N);
  (B "sigmaf;", [962]%N);
  (B "sigmav;", [962]%N);
  (B "sim;", [8764]%N);
  (B "simdot;", [10858]%N);
  (B "sime;", [8771]%N);
  (B "simeq;", [8771]%N);
  (B "simg;", [10910]%N);
  (B "simgE;", [10912]%N);
  (B "siml;", [10909]%N);
  (B "simlE;", [10911]%N);
  (B "simne;", [8774]%N);
  (B "simplus;", [10788]%N);
  (B "simrarr;", [10610]%N);
  (B "slarr;", [8592]%N);
  (B "smallsetminus;", [8726]%N);
  (B "smashp;", [10803]%N);
  (B "smeparsl;", [10724]%N);
  (B "smid;", [8739]%N);
  (B "smile;", [8995]%N);
  (B "smt;", [10922]%N);
  (B "smte;", [10924]%N);
  (B "smtes;", [10924; 65024]%N);
  (B "softcy;", [1100]%N);
  (B "sol;", [47]%N);
  (B "solb;", [10692]%N);
  (B "solbar;", [9023]%N);
  (B "sopf;", [120164]%N);
  (B "spades;", [9824]%N);
  (B "spadesuit;", [9824]%N);
  (B "spar;", [8741]%N);
  (B "sqcap;", [8851]%N);
  (B "sqcaps;", [8851; 65024]%N);
  (B "sqcup;", [8852]%N);
  (B "sqcups;", [8852; 65024]%N);
  (B "sqsub;", [8847]%N);
  (B "sqsube;", [8849]%N);
  (B "sqsubset;", [8847]%N);
  (B "sqsubseteq;", [8849]%N);
  (B "sqsup;", [8848]%N);
  (B "sqsupe;", [8850]%N);
  (B "sqsupset;", [8848]%N);
  (B "sqsupseteq;", [8850]%N);
  (B "squ;", [9633]%N);
  (B "square;", [9633]%N);
  (B "squarf;", [9642]%N);
  (B "squf;", [9642]%N);
  (B "srarr;", [8594]%N);
  (B "sscr;", [120008]%N);
  (B "ssetmn;", [8726]%N);
  (B "ssmile;", [8995]%N);
  (B "sstarf;", [8902]%N);
  (B "star;", [9734]%N);
  (B "starf;", [9733]%N);
  (B "straightepsilon;", [1013]%N);
  (B "straightphi;", [981]%N);
  (B "strns;", [175]%N);
  (B "sub;", [8834]%N);
  (B "subE;", [10949]%N);
  (B "subdot;", [10941]%N);
  (B "sube;", [8838]%N);
  (B "subedot;", [10947]%N);
  (B "submult;", [10945]%N);
  (B "subnE;", [10955]%N);
  (B "subne;", [8842]%N);
  (B "subplus;", [10943]%N);
  (B "subrarr;", [10617]%N);
  (B "subset;", [8834]%N);
  (B "subseteq;", [8838]%N);
  (B "subseteqq;", [10949]%N);
  (B "subsetneq;", [8842]%N);
  (B "subsetneqq;", [10955]%N);
  (B "subsim;", [10951]%N);
  (B "subsub;", [10965]%N);
  (B "subsup;", [10963]%N);
  (B "succ;", [8827]%N);
  (B "succapprox;", [10936]%N);
  (B "succcurlyeq;", [8829]%N);
  (B "succeq;", [10928]%N);
  (B "succnapprox;", [10938]%N);
  (B "succneqq;", [10934]%N);
  (B "succnsim;", [8937]%N);
  (B "succsim;", [8831]%N);
  (B "sum;", [8721]%N);
  (B "sung;", [9834]%N);
  (B "sup1", [185]%N);
  (B "sup1;", [185]%N);
  (B "sup2", [178]%N);
  (B "sup2;", [178]%N);
  (B "sup3", [179]%N);
  (B "sup3;", [179]%N);
  (B "sup;", [8835]%N);
  (B "supE;", [10950]%N);
  (B "supdot;", [10942]%N);
  (B "supdsub;", [10968]%N);
  (B "supe;", [8839]%N);
  (B "supedot;", [10948]%N);
  (B "suphsol;", [10185]%N);
  (B "suphsub;", [10967]%N);
  (B "suplarr;", [10619]%N);
  (B "supmult;", [10946]%N);
  (B "supnE;", [10956]%N);
  (B "supne;", [8843]%N);
  (B "supplus;", [10944]%N);
  (B "supset;", [8835]%N);
  (B "supseteq;", [8839]%N);
  (B "supseteqq;", [10950]%N);
  (B "supsetneq;", [8843]%N);
  (B "supsetneqq;", [10956]%N);
  (B "supsim;", [10952]%N);
  (B "supsub;", [10964]%N);
  (B "supsup;", [10966]%N);
  (B "swArr;", [8665]%N);
  (B "swarhk;", [10534]%N);
  (B "swarr;", [8601]%N);
  (B "swarrow;", [8601]%N);
  (B "swnwar;", [10538]%N);
  (B "szlig", [223]%N);
  (B "szlig;", [223]%N);
  (B "target;", [8982]%N);
  (B "tau;", [964]%N);
  (B "tbrk;", [9140]%N);
  (B "tcaron;", [357]%N);
  (B "tcedil;", [355]%N);
  (B "tcy;", [1090]%N);
  (B "tdot;", [8411]%N);
  (B "telrec;", [8981]%N);
  (B "tfr;", [120113]%N);
  (B "there4;", [8756]%N);
  (B "therefore;", [8756]%N);
  (B "theta;", [952]%N);
  (B "thetasym;", [977]%N);
  (B "thetav;", [977]%N);
  (B "thickapprox;", [8776]%N);
  (B "thicksim;", [8764]%N);
  (B "thinsp;", [8201]%N);
  (B "thkap;", [8776]%N);
  (B "thksim;", [8764]%N);
  (B "thorn", [254]%N);
  (B "thorn;", [254]%N);
  (B "tilde;", [732]%N);
  (B "times", [215]%N);
  (B "times;", [215]%N);
  (B "timesb;", [8864]%N);
  (B "timesbar;", [10801]%N);
  (B "timesd;", [10800]%N);
  (B "tint;", [8749]%N);
  (B "toea;", [10536]%N);
  (B "top;", [8868]%N);
  (B "topbot;", [9014]%N);
  (B "topcir;", [10993]%N);
  (B "topf;", [120165]%N);
  (B "topfork;", [10970]%N);
  (B "tosa;", [10537]%N);
  (B "tprime;", [8244]%N);
  (B "trade;", [8482]%N);
  (B "triangle;", [9653]%N);
  (B "triangledown;", [9663]%N);
  (B "triangleleft;", [9667]%N);
  (B "trianglelefteq;", [8884]%N);
  (B "triangleq;", [8796]%N);
  (B "triangleright;", [9657]%N);
  (B "trianglerighteq;", [8885]%N);
  (B "tridot;", [9708]%N);
  (B "trie;", [8796]%N);
  (B "triminus;", [10810]%N);
  (B "triplus;", [10809]%N);
  (B "trisb;", [10701]%N);
  (B "tritime;", [10811]%N);
  (B "trpezium;", [9186]%N);
  (B "tscr;", [120009]%N);
  (B "tscy;", [1094]%N);
  (B "tshcy;", [1115]%N);
  (B "tstrok;", [359]%N);
  (B "twixt;", [8812]%N);
  (B "twoheadleftarrow;", [8606]%N);
  (B "twoheadrightarrow;", [8608]%N);
  (B "uArr;", [8657]%N);
  (B "uHar;", [10595]%N);
  (B "uacute", [250]%N);
  (B "uacute;", [250]%N);
  (B "uarr;", [8593]%N);
  (B "ubrcy;", [1118]%N);
  (B "ubreve;", [365]%N);
  (B "ucirc", [251]%N);
  (B "ucirc;", [251]%N);
  (B "ucy;", [1091]%N);
  (B "udarr;", [8645]%N);
  (B "udblac;", [369]%N);
  (B "udhar;", [10606]%N);
  (B "ufisht;", [10622]%N);
  (B "ufr;", [120114]%N);
  (B "ugrave", [249]%N);
  (B "ugrave;", [249]%N);
  (B "uharl;", [8639]%N);
  (B "uharr;", [8638]%N);
  (B "uhblk;", [9600]%N);
  (B "ulcorn;", [8988]%N);
  (B "ulcorner;", [8988]%N);
  (B "ulcrop;", [8975]%N);
  (B "ultri;", [9720]%N);
  (B "umacr;", [363]%N);
  (B "uml", [168]%N);
  (B "uml;", [168]%N);
  (B "uogon;", [371]%N);
  (B "uopf;", [120166]%N);
  (B "uparrow;", [8593]%N);
  (B "updownarrow;", [8597]%N);
  (B "upharpoonleft;", [8639]%N);
  (B "upharpoonright;", [8638]%N);
  (B "uplus;", [8846]%N);
  (B "upsi;", [965]%N);
  (B "upsih;", [978]%N);
  (B "upsilon;", [965]%N);
  (B "upuparrows;", [8648]%N);
  (B "urcorn;", [8989]%N);
  (B "urcorner;", [8989]%N);
  (B "urcrop;", [8974]%N);
  (B "uring;", [367]%N);
  (B "urtri;", [9721]%N);
  (B "uscr;", [120010]%N);
  (B "utdot;", [8944]%N);
  (B "utilde;", [361]%N);
  (B "utri;", [9653]%N);
  (B "utrif;", [9652]%N);
  (B "uuarr;", [8648]%N);
  (B "uuml", [252]%N);
  (B "uuml;", [252]%N);
  (B "uwangle;", [10663]%N);
  (B "vArr;", [8661]%N);
  (B "vBar;", [10984]%N);
  (B "vBarv;", [10985]%N);
  (B "vDash;", [8872]%N);
  (B "vangrt;", [10652]%N);
  (B "varepsilon;", [1013]%N);
  (B "varkappa;", [1008]%N);
  (B "varnothing;", [8709]%N);
  (B "varphi;", [981]%N);
  (B "varpi;", [982]%N);
  (B "varpropto;", [8733]%N);
  (B "varr;", [8597]%N);
  (B "varrho;", [1009]%N);
  (B "varsigma;", [962]%N);
  (B "varsubsetneq;", [8842; 65024]%N);
  (B "varsubsetneqq;", [10955; 65024]%N);
  (B "varsupsetneq;", [8843; 65024]%N);
  (B "varsupsetneqq;", [10956; 65024]%N);
  (B "vartheta;", [977]%N);
  (B "vartriangleleft;", [8882]%N);
  (B "vartriangleright;", [8883]%N);
  (B "vcy;", [1074]%N);
  (B "vdash;", [8866]%N);
  (B "vee;", [8744]%N);
  (B "veebar;", [8891]%N);
  (B "veeeq;", [8794]%N);
  (B "vellip;", [8942]%N);
  (B "verbar;", [124]%N);
  (B "vert;", [124]%N);
  (B "vfr;", [120115]%N);
  (B "vltri;", [8882]%N);
  (B "vnsub;", [8834; 8402]%N);
  (B "vnsup;", [8835; 8402]%N);
  (B "vopf;", [120167]%N);
  (B "vprop;", [8733]%N);
  (B "vrtri;", [8883]%N);
  (B "vscr;", [120011]%N);
  (B "vsubnE;", [10955; 65024]%N);
  (B "vsubne;", [8842; 65024]%N);
  (B "vsupnE;", [10956; 65024]%N);
  (B "vsupne;", [8843; 65024]%N);
  (B "vzigzag;", [10650]%N);
  (B "wcirc;", [373]%N);
  (B "wedbar;", [10847]%N);
  (B "wedge;", [8743]%N);
  (B "wedgeq;", [8793]%N);
  (B "weierp;", [8472]%N);
  (B "wfr;", [120116]%N);
  (B "wopf;", [120168]%N);
  (B "wp;", [8472]%N);
  (B "wr;", [8768]%N);
  (B "wreath;", [8768]%N);
  (B "wscr;", [120012]%N);
  (B "xcap;", [8898]%N);
  (B "xcirc;", [9711]%N);
  (B "xcup;", [8899]%N);
  (B "xdtri;", [9661]%N);
  (B "xfr;", [120117]%N);
  (B "xhArr;", [10234]%N);
  (B "xharr;", [10231]%N);
  (B "xi;", [958]%N);
  (B "xlArr;", [10232]%N);
  (B "xlarr;", [10229]%N);
  (B "xmap;", [10236]%N);
  (B "xnis;", [8955]%N);
  (B "xodot;", [10752]%N);
  (B "xopf;", [120169]%N);
  (B "xoplus;", [10753]%N);
  (B "xotime;", [10754]%N);
  (B "xrArr;", [10233]%N);
  (B "xrarr;", [10230]%N);
  (B "xscr;", [120013]%N);
  (B "xsqcup;", [10758]%N);
  (B "xuplus;", [10756]%N);
  (B "xutri;", [9651]%N);
  (B "xvee;", [8897]%N);
  (B "xwedge;", [8896]%N);
  (B "yacute", [253]%N);
  (B "yacute;", [253]%N);
  (B "yacy;", [1103]%N);
  (B "ycirc;", [375]%N);
  (B "ycy;", [1099]%N);
  (B "yen", [165]%N);
  (B "yen;", [165]%N);
  (B "yfr;", [120118]%N);
  (B "yicy;", [1111]%N);
  (B "yopf;", [120170]%N);
  (B "yscr;", [120014]%N);
  (B "yucy;", [1102]%N);
  (B "yuml", [255]%N);
  (B "yuml;", [255]%N);
  (B "zacute;", [378]%N);
  (B "zcaron;", [382]%N);
  (B "zcy;", [1079]%N);
  (B "zdot;", [380]%N);
  (B "zeetrf;", [8488]%N);
  (B "zeta;", [950]%N);
  (B "zfr;", [120119]%N);
  (B "zhcy;", [1078]%N);
  (B "zigrarr;", [8669]%N);
  (B "zopf;", [120171]%N);
  (B "zscr;", [120015]%N);
  (B "zwj;", [8205]%N);
  (B "zwnj;", [8204]%N)].
