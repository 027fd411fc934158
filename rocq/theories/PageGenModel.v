(** modules/gui/services/new-page: the four files of a new page.  Names are ASCII (strings.Title and ReplaceAll are
    modelled on bytes); the template engine puts in the fields as they are, as text/template does. *)
From Coq Require Import String.
From Verif Require Import Go.
Import ListNotations.
Local Open Scope Z_scope.
Local Open Scope list_scope.

(** request.go:5-9 Request, response.go Response *)
Record request := Request { Domain : bytes; ScopeName : bytes; PageVarName : bytes }.
Record response := Response { JS : bytes; HTML : bytes; CSS : bytes; JSON : bytes }.

(** strings.Title, called at logic.go:15: the first letter after a separator (no letter, digit or underscore) in upper case *)
Definition separator (c : Z) : bool :=
  negb (((48 <=? c) && (c <=? 57)) || ((65 <=? c) && (c <=? 90)) || ((97 <=? c) && (c <=? 122)) || (c =? 95)).
Definition upper (c : Z) : Z := if (97 <=? c) && (c <=? 122) then c - 32 else c.
Fixpoint title (prev : Z) (s : bytes) : bytes :=
  match s with [] => [] | c :: t => (if separator prev then upper c else c) :: title c t end.
Definition Title (s : bytes) : bytes := title 32 s.
(** strings.ReplaceAll(s, "-", " "), called at logic.go:15 *)
Definition dashes_out (s : bytes) : bytes := map (fun c => if c =? 45 then 32 else c) s.

(** logic.go:33-92 jsPageFile: the texts between the fields and the fields *)
Inductive piece := Text (b : bytes) | PageVar | DomainOf | ScopeOf.
Definition jsPageFile : list piece :=
  [Text (str "/* For license and copyright information please see the LEGAL file in the code repository */"%string ++ [10] ++ [10] ++ str "import 'github.com/GeniusesGroup/libjs/widget-notification/force-leave-page.js'"%string ++ [10] ++ [10] ++ str "const page"%string);
   PageVar;
   Text (str " = {"%string ++ [10] ++ str "    URN: {"%string ++ [10] ++ str "		URN: ""domain/"%string);
   DomainOf;
   Text (str ":page:"%string);
   ScopeOf;
   Text (str ""","%string ++ [10] ++ str "		ID: """","%string ++ [10] ++ str "        Domain: """%string);
   DomainOf;
   Text (str ""","%string ++ [10] ++ str "        Scope: ""page"","%string ++ [10] ++ str "		Name: """%string);
   ScopeOf;
   Text (str ""","%string ++ [10] ++ str "	},"%string ++ [10] ++ str "    Icon: """%string);
   ScopeOf;
   Text (str ""","%string ++ [10] ++ str "    Info: {"%string ++ [10] ++ str "        Name: ""LocaleText[0]"","%string ++ [10] ++ str "        ShortName: ""LocaleText[1]"","%string ++ [10] ++ str "        Tagline: ""LocaleText[2]"","%string ++ [10] ++ str "        Slogan: ""LocaleText[3]"","%string ++ [10] ++ str "        Description: ""LocaleText[4]"","%string ++ [10] ++ str "        Tags: [""LocaleText[5]""]"%string ++ [10] ++ str "    },"%string ++ [10] ++ str "    Robots: ""all"","%string ++ [10] ++ str "    Related: ["""", """"],"%string ++ [10] ++ str "    HTML: () => ``,"%string ++ [10] ++ str "    CSS: '',"%string ++ [10] ++ str "    Templates: {},"%string ++ [10] ++ str "    Options: {},"%string ++ [10] ++ str "	acceptedConditions: {"%string ++ [10] ++ str "		""id"": """","%string ++ [10] ++ str "		editable: true,"%string ++ [10] ++ str "		offset: 0,"%string ++ [10] ++ str "	},"%string ++ [10] ++ str "	activeState: null,"%string ++ [10] ++ str "}"%string ++ [10] ++ str "Application.RegisterPage(page"%string);
   PageVar;
   Text (str ")"%string ++ [10] ++ [10] ++ str "// function init() {"%string ++ [10] ++ [10] ++ str "// }"%string ++ [10] ++ [10] ++ str "page"%string);
   PageVar;
   Text (str ".ActivatePage = async function (state) {"%string ++ [10] ++ str "    // this.activeState = state"%string ++ [10] ++ str "	// TODO::: Do any logic before page render"%string ++ [10] ++ str "	window.document.body.innerHTML = this.HTML()"%string ++ [10] ++ str "	// TODO::: Do any logic after page render"%string ++ [10] ++ str "}"%string ++ [10] ++ [10] ++ str "page"%string);
   PageVar;
   Text (str ".DeactivatePage = async function () {"%string ++ [10] ++ str "	if (this.newList) {"%string ++ [10] ++ str "        var forceLeave = await forceLeavePageWidget.ConnectedCallback()"%string ++ [10] ++ str "    }"%string ++ [10] ++ str "    if (forceLeave) {"%string ++ [10] ++ str "		this.newList = null"%string ++ [10] ++ str "		// call any widgets DisconnectedCallback e.g. barcodeCameraScannerWidget.DisconnectedCallback()"%string ++ [10] ++ str "    }"%string ++ [10] ++ str "    return forceLeave"%string ++ [10] ++ str "}"%string ++ [10] ++ [10] ++ str "page"%string);
   PageVar;
   Text (str ".OtherAction = async function () {}"%string ++ [10])].
(** logic.go:94-105 htmlPageFile, 107-109 cssPageFile, 111-130 jsonPageFile *)
Definition htmlPageFile : bytes := str "<!-- For license and copyright information please see the LEGAL file in the code repository -->"%string ++ [10] ++ [10] ++ str "<header>"%string ++ [10] ++ str "</header>"%string ++ [10] ++ [10] ++ str "<main>"%string ++ [10] ++ str "    <header>"%string ++ [10] ++ str "    </header>"%string ++ [10] ++ [10] ++ str "    <footer>"%string ++ [10] ++ str "    </footer>"%string ++ [10] ++ str "</main>"%string.
Definition cssPageFile : bytes := str "/* For license and copyright information please see the LEGAL file in the code repository */"%string ++ [10] ++ [10].
Definition jsonPageFile : bytes := str "{"%string ++ [10] ++ str "    ""en"": ["%string ++ [10] ++ str "        """","%string ++ [10] ++ str "        """","%string ++ [10] ++ str "        """","%string ++ [10] ++ str "        """","%string ++ [10] ++ str "        """","%string ++ [10] ++ str "        """","%string ++ [10] ++ str "        """""%string ++ [10] ++ str "    ],"%string ++ [10] ++ str "    ""fa"": ["%string ++ [10] ++ str "        """","%string ++ [10] ++ str "        """","%string ++ [10] ++ str "        """","%string ++ [10] ++ str "        """","%string ++ [10] ++ str "        """","%string ++ [10] ++ str "        """","%string ++ [10] ++ str "        """""%string ++ [10] ++ str "    ]"%string ++ [10] ++ str "}"%string.
Definition put (req : request) (p : piece) : bytes :=
  match p with Text b => b | PageVar => PageVarName req | DomainOf => Domain req | ScopeOf => ScopeName req end.
(** logic.go:12-31 MakeNewPage: the request with its name filled in, and the files.  Executing this template on these
    fields gives no error. *)
Definition MakeNewPage (req : request) : request * response :=
  let req := if beq (PageVarName req) [] then Request (Domain req) (ScopeName req) (dashes_out (Title (ScopeName req))) else req in
  (req, Response (flat_map (put req) jsPageFile) htmlPageFile cssPageFile jsonPageFile).
