(** The model of tools/string_headers.py computes
    include/boost/metaparse/v1/cpp11/impl/string.hpp, whose text follows, when it is
    run without arguments. *)

From Coq Require Import String.
From Coq Require Import ZArith List Bool.
From Verif Require Import Base Messages Generate Headers.
Import ListNotations.
Open Scope Z_scope.

(** A line *)
Definition ln (s : String.string) : str := literal s ++ nl.

Definition shipped : list str := [
  ln "#ifndef BOOST_METAPARSE_V1_CPP11_IMPL_STRING_HPP";
  ln "#define BOOST_METAPARSE_V1_CPP11_IMPL_STRING_HPP";
  ln "";
  ln "// This is an automatically generated header file.";
  ln "// Generated with the tools/string_headers.py utility of";
  ln "// Boost.Metaparse";
  ln "";
  ln "#include <boost/metaparse/v1/cpp11/impl/concat.hpp>";
  ln "#include <boost/preprocessor/cat.hpp>";
  ln "";
  ln "namespace boost";
  ln "{";
  ln "  namespace metaparse";
  ln "  {";
  ln "    namespace v1";
  ln "    {";
  ln "      namespace impl";
  ln "      {";
  ln "        constexpr inline int take(int n_)";
  ln "        {";
  ln "          return n_ >= 512 ? 512 : (n_ >= 256 ? 256 : (n_ >= 128 ? 128 : (n_ >= 64 ? 64 : (n_ >= 32 ? 32 : (n_ >= 16 ? 16 : (n_ >= 8 ? 8 : (n_ >= 4 ? 4 : (n_ >= 2 ? 2 : (n_ >= 1 ? 1 : ( 0 ))))))))));";
  ln "        }";
  ln "";
  ln "        template <int LenNow, int LenRemaining, char... Cs>";
  ln "        struct make_string;";
  ln "";
  ln "        template <char... Cs> struct make_string<0, 0, Cs...> : string<> {};";
  ln "        template <int LenRemaining,char C0,char... Cs> struct make_string<1,LenRemaining,C0,Cs...> : concat<string<C0>, typename make_string<take(LenRemaining),LenRemaining-take(LenRemaining),Cs...>::type> {};";
  ln "        template <int LenRemaining,char C0,char C1,char... Cs> struct make_string<2,LenRemaining,C0,C1,Cs...> : concat<string<C0,C1>, typename make_string<take(LenRemaining),LenRemaining-take(LenRemaining),Cs...>::type> {};";
  ln "        template <int LenRemaining,char C0,char C1,char C2,char C3,char... Cs> struct make_string<4,LenRemaining,C0,C1,C2,C3,Cs...> : concat<string<C0,C1,C2,C3>, typename make_string<take(LenRemaining),LenRemaining-take(LenRemaining),Cs...>::type> {};";
  ln "        template <int LenRemaining,char C0,char C1,char C2,char C3,char C4,char C5,char C6,char C7,char... Cs> struct make_string<8,LenRemaining,C0,C1,C2,C3,C4,C5,C6,C7,Cs...> : concat<string<C0,C1,C2,C3,C4,C5,C6,C7>, typename make_string<take(LenRemaining),LenRemaining-take(LenRemaining),Cs...>::type> {};";
  ln "        template <int LenRemaining,char C0,char C1,char C2,char C3,char C4,char C5,char C6,char C7,char C8,char C9,char C10,char C11,char C12,char C13,char C14,char C15,char... Cs> struct make_string<16,LenRemaining,C0,C1,C2,C3,C4,C5,C6,C7,C8,C9,C10,C11,C12,C13,C14,C15,Cs...> : concat<string<C0,C1,C2,C3,C4,C5,C6,C7,C8,C9,C10,C11,C12,C13,C14,C15>, typename make_string<take(LenRemaining),LenRemaining-take(LenRemaining),Cs...>::type> {};";
  ln "        template <int LenRemaining,char C0,char C1,char C2,char C3,char C4,char C5,char C6,char C7,char C8,char C9,char C10,char C11,char C12,char C13,char C14,char C15,char C16,char C17,char C18,char C19,char C20,char C21,char C22,char C23,char C24,char C25,char C26,char C27,char C28,char C29,char C30,char C31,char... Cs> struct make_string<32,LenRemaining,C0,C1,C2,C3,C4,C5,C6,C7,C8,C9,C10,C11,C12,C13,C14,C15,C16,C17,C18,C19,C20,C21,C22,C23,C24,C25,C26,C27,C28,C29,C30,C31,Cs...> : concat<string<C0,C1,C2,C3,C4,C5,C6,C7,C8,C9,C10,C11,C12,C13,C14,C15,C16,C17,C18,C19,C20,C21,C22,C23,C24,C25,C26,C27,C28,C29,C30,C31>, typename make_string<take(LenRemaining),LenRemaining-take(LenRemaining),Cs...>::type> {};";
  ln "        template <int LenRemaining,char C0,char C1,char C2,char C3,char C4,char C5,char C6,char C7,char C8,char C9,char C10,char C11,char C12,char C13,char C14,char C15,char C16,char C17,char C18,char C19,char C20,char C21,char C22,char C23,char C24,char C25,char C26,char C27,char C28,char C29,char C30,char C31,char C32,char C33,char C34,char C35,char C36,char C37,char C38,char C39,char C40,char C41,char C42,char C43,char C44,char C45,char C46,char C47,char C48,char C49,char C50,char C51,char C52,char C53,char C54,char C55,char C56,char C57,char C58,char C59,char C60,char C61,char C62,char C63,char... Cs> struct make_string<64,LenRemaining,C0,C1,C2,C3,C4,C5,C6,C7,C8,C9,C10,C11,C12,C13,C14,C15,C16,C17,C18,C19,C20,C21,C22,C23,C24,C25,C26,C27,C28,C29,C30,C31,C32,C33,C34,C35,C36,C37,C38,C39,C40,C41,C42,C43,C44,C45,C46,C47,C48,C49,C50,C51,C52,C53,C54,C55,C56,C57,C58,C59,C60,C61,C62,C63,Cs...> : concat<string<C0,C1,C2,C3,C4,C5,C6,C7,C8,C9,C10,C11,C12,C13,C14,C15,C16,C17,C18,C19,C20,C21,C22,C23,C24,C25,C26,C27,C28,C29,C30,C31,C32,C33,C34,C35,C36,C37,C38,C39,C40,C41,C42,C43,C44,C45,C46,C47,C48,C49,C50,C51,C52,C53,C54,C55,C56,C57,C58,C59,C60,C61,C62,C63>, typename make_string<take(LenRemaining),LenRemaining-take(LenRemaining),Cs...>::type> {};";
  ln "#ifndef __SUNPRO_CC";
  ln "        template <int LenRemaining,char C0,char C1,char C2,char C3,char C4,char C5,char C6,char C7,char C8,char C9,char C10,char C11,char C12,char C13,char C14,char C15,char C16,char C17,char C18,char C19,char C20,char C21,char C22,char C23,char C24,char C25,char C26,char C27,char C28,char C29,char C30,char C31,char C32,char C33,char C34,char C35,char C36,char C37,char C38,char C39,char C40,char C41,char C42,char C43,char C44,char C45,char C46,char C47,char C48,char C49,char C50,char C51,char C52,char C53,char C54,char C55,char C56,char C57,char C58,char C59,char C60,char C61,char C62,char C63,char C64,char C65,char C66,char C67,char C68,char C69,char C70,char C71,char C72,char C73,char C74,char C75,char C76,char C77,char C78,char C79,char C80,char C81,char C82,char C83,char C84,char C85,char C86,char C87,char C88,char C89,char C90,char C91,char C92,char C93,char C94,char C95,char C96,char C97,char C98,char C99,char C100,char C101,char C102,char C103,char C104,char C105,char C106,char C107,char C108,char C109,char C110,char C111,char C112,char C113,char C114,char C115,char C116,char C117,char C118,char C119,char C120,char C121,char C122,char C123,char C124,char C125,char C126,char C127,char... Cs> struct make_string<128,LenRemaining,C0,C1,C2,C3,C4,C5,C6,C7,C8,C9,C10,C11,C12,C13,C14,C15,C16,C17,C18,C19,C20,C21,C22,C23,C24,C25,C26,C27,C28,C29,C30,C31,C32,C33,C34,C35,C36,C37,C38,C39,C40,C41,C42,C43,C44,C45,C46,C47,C48,C49,C50,C51,C52,C53,C54,C55,C56,C57,C58,C59,C60,C61,C62,C63,C64,C65,C66,C67,C68,C69,C70,C71,C72,C73,C74,C75,C76,C77,C78,C79,C80,C81,C82,C83,C84,C85,C86,C87,C88,C89,C90,C91,C92,C93,C94,C95,C96,C97,C98,C99,C100,C101,C102,C103,C104,C105,C106,C107,C108,C109,C110,C111,C112,C113,C114,C115,C116,C117,C118,C119,C120,C121,C122,C123,C124,C125,C126,C127,Cs...> : concat<string<C0,C1,C2,C3,C4,C5,C6,C7,C8,C9,C10,C11,C12,C13,C14,C15,C16,C17,C18,C19,C20,C21,C22,C23,C24,C25,C26,C27,C28,C29,C30,C31,C32,C33,C34,C35,C36,C37,C38,C39,C40,C41,C42,C43,C44,C45,C46,C47,C48,C49,C50,C51,C52,C53,C54,C55,C56,C57,C58,C59,C60,C61,C62,C63,C64,C65,C66,C67,C68,C69,C70,C71,C72,C73,C74,C75,C76,C77,C78,C79,C80,C81,C82,C83,C84,C85,C86,C87,C88,C89,C90,C91,C92,C93,C94,C95,C96,C97,C98,C99,C100,C101,C102,C103,C104,C105,C106,C107,C108,C109,C110,C111,C112,C113,C114,C115,C116,C117,C118,C119,C120,C121,C122,C123,C124,C125,C126,C127>, typename make_string<take(LenRemaining),LenRemaining-take(LenRemaining),Cs...>::type> {};";
  ln "        template <int LenRemaining,char C0,char C1,char C2,char C3,char C4,char C5,char C6,char C7,char C8,char C9,char C10,char C11,char C12,char C13,char C14,char C15,char C16,char C17,char C18,char C19,char C20,char C21,char C22,char C23,char C24,char C25,char C26,char C27,char C28,char C29,char C30,char C31,char C32,char C33,char C34,char C35,char C36,char C37,char C38,char C39,char C40,char C41,char C42,char C43,char C44,char C45,char C46,char C47,char C48,char C49,char C50,char C51,char C52,char C53,char C54,char C55,char C56,char C57,char C58,char C59,char C60,char C61,char C62,char C63,char C64,char C65,char C66,char C67,char C68,char C69,char C70,char C71,char C72,char C73,char C74,char C75,char C76,char C77,char C78,char C79,char C80,char C81,char C82,char C83,char C84,char C85,char C86,char C87,char C88,char C89,char C90,char C91,char C92,char C93,char C94,char C95,char C96,char C97,char C98,char C99,char C100,char C101,char C102,char C103,char C104,char C105,char C106,char C107,char C108,char C109,char C110,char C111,char C112,char C113,char C114,char C115,char C116,char C117,char C118,char C119,char C120,char C121,char C122,char C123,char C124,char C125,char C126,char C127,char C128,char C129,char C130,char C131,char C132,char C133,char C134,char C135,char C136,char C137,char C138,char C139,char C140,char C141,char C142,char C143,char C144,char C145,char C146,char C147,char C148,char C149,char C150,char C151,char C152,char C153,char C154,char C155,char C156,char C157,char C158,char C159,char C160,char C161,char C162,char C163,char C164,char C165,char C166,char C167,char C168,char C169,char C170,char C171,char C172,char C173,char C174,char C175,char C176,char C177,char C178,char C179,char C180,char C181,char C182,char C183,char C184,char C185,char C186,char C187,char C188,char C189,char C190,char C191,char C192,char C193,char C194,char C195,char C196,char C197,char C198,char C199,char C200,char C201,char C202,char C203,char C204,char C205,char C206,char C207,char C208,char C209,char C210,char C211,char C212,char C213,char C214,char C215,char C216,char C217,char C218,char C219,char C220,char C221,char C222,char C223,char C224,char C225,char C226,char C227,char C228,char C229,char C230,char C231,char C232,char C233,char C234,char C235,char C236,char C237,char C238,char C239,char C240,char C241,char C242,char C243,char C244,char C245,char C246,char C247,char C248,char C249,char C250,char C251,char C252,char C253,char C254,char C255,char... Cs> struct make_string<256,LenRemaining,C0,C1,C2,C3,C4,C5,C6,C7,C8,C9,C10,C11,C12,C13,C14,C15,C16,C17,C18,C19,C20,C21,C22,C23,C24,C25,C26,C27,C28,C29,C30,C31,C32,C33,C34,C35,C36,C37,C38,C39,C40,C41,C42,C43,C44,C45,C46,C47,C48,C49,C50,C51,C52,C53,C54,C55,C56,C57,C58,C59,C60,C61,C62,C63,C64,C65,C66,C67,C68,C69,C70,C71,C72,C73,C74,C75,C76,C77,C78,C79,C80,C81,C82,C83,C84,C85,C86,C87,C88,C89,C90,C91,C92,C93,C94,C95,C96,C97,C98,C99,C100,C101,C102,C103,C104,C105,C106,C107,C108,C109,C110,C111,C112,C113,C114,C115,C116,C117,C118,C119,C120,C121,C122,C123,C124,C125,C126,C127,C128,C129,C130,C131,C132,C133,C134,C135,C136,C137,C138,C139,C140,C141,C142,C143,C144,C145,C146,C147,C148,C149,C150,C151,C152,C153,C154,C155,C156,C157,C158,C159,C160,C161,C162,C163,C164,C165,C166,C167,C168,C169,C170,C171,C172,C173,C174,C175,C176,C177,C178,C179,C180,C181,C182,C183,C184,C185,C186,C187,C188,C189,C190,C191,C192,C193,C194,C195,C196,C197,C198,C199,C200,C201,C202,C203,C204,C205,C206,C207,C208,C209,C210,C211,C212,C213,C214,C215,C216,C217,C218,C219,C220,C221,C222,C223,C224,C225,C226,C227,C228,C229,C230,C231,C232,C233,C234,C235,C236,C237,C238,C239,C240,C241,C242,C243,C244,C245,C246,C247,C248,C249,C250,C251,C252,C253,C254,C255,Cs...> : concat<string<C0,C1,C2,C3,C4,C5,C6,C7,C8,C9,C10,C11,C12,C13,C14,C15,C16,C17,C18,C19,C20,C21,C22,C23,C24,C25,C26,C27,C28,C29,C30,C31,C32,C33,C34,C35,C36,C37,C38,C39,C40,C41,C42,C43,C44,C45,C46,C47,C48,C49,C50,C51,C52,C53,C54,C55,C56,C57,C58,C59,C60,C61,C62,C63,C64,C65,C66,C67,C68,C69,C70,C71,C72,C73,C74,C75,C76,C77,C78,C79,C80,C81,C82,C83,C84,C85,C86,C87,C88,C89,C90,C91,C92,C93,C94,C95,C96,C97,C98,C99,C100,C101,C102,C103,C104,C105,C106,C107,C108,C109,C110,C111,C112,C113,C114,C115,C116,C117,C118,C119,C120,C121,C122,C123,C124,C125,C126,C127,C128,C129,C130,C131,C132,C133,C134,C135,C136,C137,C138,C139,C140,C141,C142,C143,C144,C145,C146,C147,C148,C149,C150,C151,C152,C153,C154,C155,C156,C157,C158,C159,C160,C161,C162,C163,C164,C165,C166,C167,C168,C169,C170,C171,C172,C173,C174,C175,C176,C177,C178,C179,C180,C181,C182,C183,C184,C185,C186,C187,C188,C189,C190,C191,C192,C193,C194,C195,C196,C197,C198,C199,C200,C201,C202,C203,C204,C205,C206,C207,C208,C209,C210,C211,C212,C213,C214,C215,C216,C217,C218,C219,C220,C221,C222,C223,C224,C225,C226,C227,C228,C229,C230,C231,C232,C233,C234,C235,C236,C237,C238,C239,C240,C241,C242,C243,C244,C245,C246,C247,C248,C249,C250,C251,C252,C253,C254,C255>, typename make_string<take(LenRemaining),LenRemaining-take(LenRemaining),Cs...>::type> {};";
  ln "        template <int LenRemaining,char C0,char C1,char C2,char C3,char C4,char C5,char C6,char C7,char C8,char C9,char C10,char C11,char C12,char C13,char C14,char C15,char C16,char C17,char C18,char C19,char C20,char C21,char C22,char C23,char C24,char C25,char C26,char C27,char C28,char C29,char C30,char C31,char C32,char C33,char C34,char C35,char C36,char C37,char C38,char C39,char C40,char C41,char C42,char C43,char C44,char C45,char C46,char C47,char C48,char C49,char C50,char C51,char C52,char C53,char C54,char C55,char C56,char C57,char C58,char C59,char C60,char C61,char C62,char C63,char C64,char C65,char C66,char C67,char C68,char C69,char C70,char C71,char C72,char C73,char C74,char C75,char C76,char C77,char C78,char C79,char C80,char C81,char C82,char C83,char C84,char C85,char C86,char C87,char C88,char C89,char C90,char C91,char C92,char C93,char C94,char C95,char C96,char C97,char C98,char C99,char C100,char C101,char C102,char C103,char C104,char C105,char C106,char C107,char C108,char C109,char C110,char C111,char C112,char C113,char C114,char C115,char C116,char C117,char C118,char C119,char C120,char C121,char C122,char C123,char C124,char C125,char C126,char C127,char C128,char C129,char C130,char C131,char C132,char C133,char C134,char C135,char C136,char C137,char C138,char C139,char C140,char C141,char C142,char C143,char C144,char C145,char C146,char C147,char C148,char C149,char C150,char C151,char C152,char C153,char C154,char C155,char C156,char C157,char C158,char C159,char C160,char C161,char C162,char C163,char C164,char C165,char C166,char C167,char C168,char C169,char C170,char C171,char C172,char C173,char C174,char C175,char C176,char C177,char C178,char C179,char C180,char C181,char C182,char C183,char C184,char C185,char C186,char C187,char C188,char C189,char C190,char C191,char C192,char C193,char C194,char C195,char C196,char C197,char C198,char C199,char C200,char C201,char C202,char C203,char C204,char C205,char C206,char C207,char C208,char C209,char C210,char C211,char C212,char C213,char C214,char C215,char C216,char C217,char C218,char C219,char C220,char C221,char C222,char C223,char C224,char C225,char C226,char C227,char C228,char C229,char C230,char C231,char C232,char C233,char C234,char C235,char C236,char C237,char C238,char C239,char C240,char C241,char C242,char C243,char C244,char C245,char C246,char C247,char C248,char C249,char C250,char C251,char C252,char C253,char C254,char C255,char C256,char C257,char C258,char C259,char C260,char C261,char C262,char C263,char C264,char C265,char C266,char C267,char C268,char C269,char C270,char C271,char C272,char C273,char C274,char C275,char C276,char C277,char C278,char C279,char C280,char C281,char C282,char C283,char C284,char C285,char C286,char C287,char C288,char C289,char C290,char C291,char C292,char C293,char C294,char C295,char C296,char C297,char C298,char C299,char C300,char C301,char C302,char C303,char C304,char C305,char C306,char C307,char C308,char C309,char C310,char C311,char C312,char C313,char C314,char C315,char C316,char C317,char C318,char C319,char C320,char C321,char C322,char C323,char C324,char C325,char C326,char C327,char C328,char C329,char C330,char C331,char C332,char C333,char C334,char C335,char C336,char C337,char C338,char C339,char C340,char C341,char C342,char C343,char C344,char C345,char C346,char C347,char C348,char C349,char C350,char C351,char C352,char C353,char C354,char C355,char C356,char C357,char C358,char C359,char C360,char C361,char C362,char C363,char C364,char C365,char C366,char C367,char C368,char C369,char C370,char C371,char C372,char C373,char C374,char C375,char C376,char C377,char C378,char C379,char C380,char C381,char C382,char C383,char C384,char C385,char C386,char C387,char C388,char C389,char C390,char C391,char C392,char C393,char C394,char C395,char C396,char C397,char C398,char C399,char C400,char C401,char C402,char C403,char C404,char C405,char C406,char C407,char C408,char C409,char C410,char C411,char C412,char C413,char C414,char C415,char C416,char C417,char C418,char C419,char C420,char C421,char C422,char C423,char C424,char C425,char C426,char C427,char C428,char C429,char C430,char C431,char C432,char C433,char C434,char C435,char C436,char C437,char C438,char C439,char C440,char C441,char C442,char C443,char C444,char C445,char C446,char C447,char C448,char C449,char C450,char C451,char C452,char C453,char C454,char C455,char C456,char C457,char C458,char C459,char C460,char C461,char C462,char C463,char C464,char C465,char C466,char C467,char C468,char C469,char C470,char C471,char C472,char C473,char C474,char C475,char C476,char C477,char C478,char C479,char C480,char C481,char C482,char C483,char C484,char C485,char C486,char C487,char C488,char C489,char C490,char C491,char C492,char C493,char C494,char C495,char C496,char C497,char C498,char C499,char C500,char C501,char C502,char C503,char C504,char C505,char C506,char C507,char C508,char C509,char C510,char C511,char... Cs> struct make_string<512,LenRemaining,C0,C1,C2,C3,C4,C5,C6,C7,C8,C9,C10,C11,C12,C13,C14,C15,C16,C17,C18,C19,C20,C21,C22,C23,C24,C25,C26,C27,C28,C29,C30,C31,C32,C33,C34,C35,C36,C37,C38,C39,C40,C41,C42,C43,C44,C45,C46,C47,C48,C49,C50,C51,C52,C53,C54,C55,C56,C57,C58,C59,C60,C61,C62,C63,C64,C65,C66,C67,C68,C69,C70,C71,C72,C73,C74,C75,C76,C77,C78,C79,C80,C81,C82,C83,C84,C85,C86,C87,C88,C89,C90,C91,C92,C93,C94,C95,C96,C97,C98,C99,C100,C101,C102,C103,C104,C105,C106,C107,C108,C109,C110,C111,C112,C113,C114,C115,C116,C117,C118,C119,C120,C121,C122,C123,C124,C125,C126,C127,C128,C129,C130,C131,C132,C133,C134,C135,C136,C137,C138,C139,C140,C141,C142,C143,C144,C145,C146,C147,C148,C149,C150,C151,C152,C153,C154,C155,C156,C157,C158,C159,C160,C161,C162,C163,C164,C165,C166,C167,C168,C169,C170,C171,C172,C173,C174,C175,C176,C177,C178,C179,C180,C181,C182,C183,C184,C185,C186,C187,C188,C189,C190,C191,C192,C193,C194,C195,C196,C197,C198,C199,C200,C201,C202,C203,C204,C205,C206,C207,C208,C209,C210,C211,C212,C213,C214,C215,C216,C217,C218,C219,C220,C221,C222,C223,C224,C225,C226,C227,C228,C229,C230,C231,C232,C233,C234,C235,C236,C237,C238,C239,C240,C241,C242,C243,C244,C245,C246,C247,C248,C249,C250,C251,C252,C253,C254,C255,C256,C257,C258,C259,C260,C261,C262,C263,C264,C265,C266,C267,C268,C269,C270,C271,C272,C273,C274,C275,C276,C277,C278,C279,C280,C281,C282,C283,C284,C285,C286,C287,C288,C289,C290,C291,C292,C293,C294,C295,C296,C297,C298,C299,C300,C301,C302,C303,C304,C305,C306,C307,C308,C309,C310,C311,C312,C313,C314,C315,C316,C317,C318,C319,C320,C321,C322,C323,C324,C325,C326,C327,C328,C329,C330,C331,C332,C333,C334,C335,C336,C337,C338,C339,C340,C341,C342,C343,C344,C345,C346,C347,C348,C349,C350,C351,C352,C353,C354,C355,C356,C357,C358,C359,C360,C361,C362,C363,C364,C365,C366,C367,C368,C369,C370,C371,C372,C373,C374,C375,C376,C377,C378,C379,C380,C381,C382,C383,C384,C385,C386,C387,C388,C389,C390,C391,C392,C393,C394,C395,C396,C397,C398,C399,C400,C401,C402,C403,C404,C405,C406,C407,C408,C409,C410,C411,C412,C413,C414,C415,C416,C417,C418,C419,C420,C421,C422,C423,C424,C425,C426,C427,C428,C429,C430,C431,C432,C433,C434,C435,C436,C437,C438,C439,C440,C441,C442,C443,C444,C445,C446,C447,C448,C449,C450,C451,C452,C453,C454,C455,C456,C457,C458,C459,C460,C461,C462,C463,C464,C465,C466,C467,C468,C469,C470,C471,C472,C473,C474,C475,C476,C477,C478,C479,C480,C481,C482,C483,C484,C485,C486,C487,C488,C489,C490,C491,C492,C493,C494,C495,C496,C497,C498,C499,C500,C501,C502,C503,C504,C505,C506,C507,C508,C509,C510,C511,Cs...> : concat<string<C0,C1,C2,C3,C4,C5,C6,C7,C8,C9,C10,C11,C12,C13,C14,C15,C16,C17,C18,C19,C20,C21,C22,C23,C24,C25,C26,C27,C28,C29,C30,C31,C32,C33,C34,C35,C36,C37,C38,C39,C40,C41,C42,C43,C44,C45,C46,C47,C48,C49,C50,C51,C52,C53,C54,C55,C56,C57,C58,C59,C60,C61,C62,C63,C64,C65,C66,C67,C68,C69,C70,C71,C72,C73,C74,C75,C76,C77,C78,C79,C80,C81,C82,C83,C84,C85,C86,C87,C88,C89,C90,C91,C92,C93,C94,C95,C96,C97,C98,C99,C100,C101,C102,C103,C104,C105,C106,C107,C108,C109,C110,C111,C112,C113,C114,C115,C116,C117,C118,C119,C120,C121,C122,C123,C124,C125,C126,C127,C128,C129,C130,C131,C132,C133,C134,C135,C136,C137,C138,C139,C140,C141,C142,C143,C144,C145,C146,C147,C148,C149,C150,C151,C152,C153,C154,C155,C156,C157,C158,C159,C160,C161,C162,C163,C164,C165,C166,C167,C168,C169,C170,C171,C172,C173,C174,C175,C176,C177,C178,C179,C180,C181,C182,C183,C184,C185,C186,C187,C188,C189,C190,C191,C192,C193,C194,C195,C196,C197,C198,C199,C200,C201,C202,C203,C204,C205,C206,C207,C208,C209,C210,C211,C212,C213,C214,C215,C216,C217,C218,C219,C220,C221,C222,C223,C224,C225,C226,C227,C228,C229,C230,C231,C232,C233,C234,C235,C236,C237,C238,C239,C240,C241,C242,C243,C244,C245,C246,C247,C248,C249,C250,C251,C252,C253,C254,C255,C256,C257,C258,C259,C260,C261,C262,C263,C264,C265,C266,C267,C268,C269,C270,C271,C272,C273,C274,C275,C276,C277,C278,C279,C280,C281,C282,C283,C284,C285,C286,C287,C288,C289,C290,C291,C292,C293,C294,C295,C296,C297,C298,C299,C300,C301,C302,C303,C304,C305,C306,C307,C308,C309,C310,C311,C312,C313,C314,C315,C316,C317,C318,C319,C320,C321,C322,C323,C324,C325,C326,C327,C328,C329,C330,C331,C332,C333,C334,C335,C336,C337,C338,C339,C340,C341,C342,C343,C344,C345,C346,C347,C348,C349,C350,C351,C352,C353,C354,C355,C356,C357,C358,C359,C360,C361,C362,C363,C364,C365,C366,C367,C368,C369,C370,C371,C372,C373,C374,C375,C376,C377,C378,C379,C380,C381,C382,C383,C384,C385,C386,C387,C388,C389,C390,C391,C392,C393,C394,C395,C396,C397,C398,C399,C400,C401,C402,C403,C404,C405,C406,C407,C408,C409,C410,C411,C412,C413,C414,C415,C416,C417,C418,C419,C420,C421,C422,C423,C424,C425,C426,C427,C428,C429,C430,C431,C432,C433,C434,C435,C436,C437,C438,C439,C440,C441,C442,C443,C444,C445,C446,C447,C448,C449,C450,C451,C452,C453,C454,C455,C456,C457,C458,C459,C460,C461,C462,C463,C464,C465,C466,C467,C468,C469,C470,C471,C472,C473,C474,C475,C476,C477,C478,C479,C480,C481,C482,C483,C484,C485,C486,C487,C488,C489,C490,C491,C492,C493,C494,C495,C496,C497,C498,C499,C500,C501,C502,C503,C504,C505,C506,C507,C508,C509,C510,C511>, typename make_string<take(LenRemaining),LenRemaining-take(LenRemaining),Cs...>::type> {};";
  ln "#endif";
  ln "      }";
  ln "    }";
  ln "  }";
  ln "}";
  ln "";
  ln "#ifndef BOOST_METAPARSE_LIMIT_STRING_SIZE";
  ln "#  error BOOST_METAPARSE_LIMIT_STRING_SIZE not defined";
  ln "#endif";
  ln "";
  ln "#if BOOST_METAPARSE_LIMIT_STRING_SIZE > 2048";
  ln "#  error BOOST_METAPARSE_LIMIT_STRING_SIZE is greater than 2048. To increase the limit run tools/string_headers.py of Boost.Metaparse against your Boost headers.";
  ln "#endif";
  ln "";
  ln "#ifdef BOOST_METAPARSE_V1_STRING";
  ln "#  error BOOST_METAPARSE_V1_STRING already defined.";
  ln "#endif";
  ln "#define BOOST_METAPARSE_V1_STRING(s) ::boost::metaparse::v1::impl::make_string< ::boost::metaparse::v1::impl::take(sizeof(s)-1), sizeof(s)-1-::boost::metaparse::v1::impl::take(sizeof(s)-1),BOOST_PP_CAT(BOOST_METAPARSE_V1_I, BOOST_METAPARSE_LIMIT_STRING_SIZE)(s)>::type";
  ln "";
  ln "#define BOOST_METAPARSE_V1_I0 BOOST_METAPARSE_V1_INDEX_STR128";
  ln "#define BOOST_METAPARSE_V1_I1 BOOST_METAPARSE_V1_INDEX_STR128";
  ln "#define BOOST_METAPARSE_V1_I2 BOOST_METAPARSE_V1_INDEX_STR128";
  ln "#define BOOST_METAPARSE_V1_I3 BOOST_METAPARSE_V1_INDEX_STR128";
  ln "#define BOOST_METAPARSE_V1_I4 BOOST_METAPARSE_V1_INDEX_STR128";
  ln "#define BOOST_METAPARSE_V1_I5 BOOST_METAPARSE_V1_INDEX_STR128";
  ln "#define BOOST_METAPARSE_V1_I6 BOOST_METAPARSE_V1_INDEX_STR128";
  ln "#define BOOST_METAPARSE_V1_I7 BOOST_METAPARSE_V1_INDEX_STR128";
  ln "#define BOOST_METAPARSE_V1_I8 BOOST_METAPARSE_V1_INDEX_STR128";
  ln "#define BOOST_METAPARSE_V1_I9 BOOST_METAPARSE_V1_INDEX_STR128";
  ln "#define BOOST_METAPARSE_V1_I10 BOOST_METAPARSE_V1_INDEX_STR128";
  ln "#define BOOST_METAPARSE_V1_I11 BOOST_METAPARSE_V1_INDEX_STR128";
  ln "#define BOOST_METAPARSE_V1_I12 BOOST_METAPARSE_V1_INDEX_STR128";
  ln "#define BOOST_METAPARSE_V1_I13 BOOST_METAPARSE_V1_INDEX_STR128";
  ln "#define BOOST_METAPARSE_V1_I14 BOOST_METAPARSE_V1_INDEX_STR128";
  ln "#define BOOST_METAPARSE_V1_I15 BOOST_METAPARSE_V1_INDEX_STR128";
  ln "#define BOOST_METAPARSE_V1_I16 BOOST_METAPARSE_V1_INDEX_STR128";
  ln "#define BOOST_METAPARSE_V1_I17 BOOST_METAPARSE_V1_INDEX_STR128";
  ln "#define BOOST_METAPARSE_V1_I18 BOOST_METAPARSE_V1_INDEX_STR128";
  ln "#define BOOST_METAPARSE_V1_I19 BOOST_METAPARSE_V1_INDEX_STR128";
  ln "#define BOOST_METAPARSE_V1_I20 BOOST_METAPARSE_V1_INDEX_STR128";
  ln "#define BOOST_METAPARSE_V1_I21 BOOST_METAPARSE_V1_INDEX_STR128";
  ln "#define BOOST_METAPARSE_V1_I22 BOOST_METAPARSE_V1_INDEX_STR128";
  ln "#define BOOST_METAPARSE_V1_I23 BOOST_METAPARSE_V1_INDEX_STR128";
  ln "#define BOOST_METAPARSE_V1_I24 BOOST_METAPARSE_V1_INDEX_STR128";
  ln "#define BOOST_METAPARSE_V1_I25 BOOST_METAPARSE_V1_INDEX_STR128";
  ln "#define BOOST_METAPARSE_V1_I26 BOOST_METAPARSE_V1_INDEX_STR128";
  ln "#define BOOST_METAPARSE_V1_I27 BOOST_METAPARSE_V1_INDEX_STR128";
  ln "#define BOOST_METAPARSE_V1_I28 BOOST_METAPARSE_V1_INDEX_STR128";
  ln "#define BOOST_METAPARSE_V1_I29 BOOST_METAPARSE_V1_INDEX_STR128";
  ln "#define BOOST_METAPARSE_V1_I30 BOOST_METAPARSE_V1_INDEX_STR128";
  ln "#define BOOST_METAPARSE_V1_I31 BOOST_METAPARSE_V1_INDEX_STR128";
  ln "#define BOOST_METAPARSE_V1_I32 BOOST_METAPARSE_V1_INDEX_STR128";
  ln "#define BOOST_METAPARSE_V1_I33 BOOST_METAPARSE_V1_INDEX_STR128";
  ln "#define BOOST_METAPARSE_V1_I34 BOOST_METAPARSE_V1_INDEX_STR128";
  ln "#define BOOST_METAPARSE_V1_I35 BOOST_METAPARSE_V1_INDEX_STR128";
  ln "#define BOOST_METAPARSE_V1_I36 BOOST_METAPARSE_V1_INDEX_STR128";
  ln "#define BOOST_METAPARSE_V1_I37 BOOST_METAPARSE_V1_INDEX_STR128";
  ln "#define BOOST_METAPARSE_V1_I38 BOOST_METAPARSE_V1_INDEX_STR128";
  ln "#define BOOST_METAPARSE_V1_I39 BOOST_METAPARSE_V1_INDEX_STR128";
  ln "#define BOOST_METAPARSE_V1_I40 BOOST_METAPARSE_V1_INDEX_STR128";
  ln "#define BOOST_METAPARSE_V1_I41 BOOST_METAPARSE_V1_INDEX_STR128";
  ln "#define BOOST_METAPARSE_V1_I42 BOOST_METAPARSE_V1_INDEX_STR128";
  ln "#define BOOST_METAPARSE_V1_I43 BOOST_METAPARSE_V1_INDEX_STR128";
  ln "#define BOOST_METAPARSE_V1_I44 BOOST_METAPARSE_V1_INDEX_STR128";
  ln "#define BOOST_METAPARSE_V1_I45 BOOST_METAPARSE_V1_INDEX_STR128";
  ln "#define BOOST_METAPARSE_V1_I46 BOOST_METAPARSE_V1_INDEX_STR128";
  ln "#define BOOST_METAPARSE_V1_I47 BOOST_METAPARSE_V1_INDEX_STR128";
  ln "#define BOOST_METAPARSE_V1_I48 BOOST_METAPARSE_V1_INDEX_STR128";
  ln "#define BOOST_METAPARSE_V1_I49 BOOST_METAPARSE_V1_INDEX_STR128";
  ln "#define BOOST_METAPARSE_V1_I50 BOOST_METAPARSE_V1_INDEX_STR128";
  ln "#define BOOST_METAPARSE_V1_I51 BOOST_METAPARSE_V1_INDEX_STR128";
  ln "#define BOOST_METAPARSE_V1_I52 BOOST_METAPARSE_V1_INDEX_STR128";
  ln "#define BOOST_METAPARSE_V1_I53 BOOST_METAPARSE_V1_INDEX_STR128";
  ln "#define BOOST_METAPARSE_V1_I54 BOOST_METAPARSE_V1_INDEX_STR128";
  ln "#define BOOST_METAPARSE_V1_I55 BOOST_METAPARSE_V1_INDEX_STR128";
  ln "#define BOOST_METAPARSE_V1_I56 BOOST_METAPARSE_V1_INDEX_STR128";
  ln "#define BOOST_METAPARSE_V1_I57 BOOST_METAPARSE_V1_INDEX_STR128";
  ln "#define BOOST_METAPARSE_V1_I58 BOOST_METAPARSE_V1_INDEX_STR128";
  ln "#define BOOST_METAPARSE_V1_I59 BOOST_METAPARSE_V1_INDEX_STR128";
  ln "#define BOOST_METAPARSE_V1_I60 BOOST_METAPARSE_V1_INDEX_STR128";
  ln "#define BOOST_METAPARSE_V1_I61 BOOST_METAPARSE_V1_INDEX_STR128";
  ln "#define BOOST_METAPARSE_V1_I62 BOOST_METAPARSE_V1_INDEX_STR128";
  ln "#define BOOST_METAPARSE_V1_I63 BOOST_METAPARSE_V1_INDEX_STR128";
  ln "#define BOOST_METAPARSE_V1_I64 BOOST_METAPARSE_V1_INDEX_STR128";
  ln "#define BOOST_METAPARSE_V1_I65 BOOST_METAPARSE_V1_INDEX_STR128";
  ln "#define BOOST_METAPARSE_V1_I66 BOOST_METAPARSE_V1_INDEX_STR128";
  ln "#define BOOST_METAPARSE_V1_I67 BOOST_METAPARSE_V1_INDEX_STR128";
  ln "#define BOOST_METAPARSE_V1_I68 BOOST_METAPARSE_V1_INDEX_STR128";
  ln "#define BOOST_METAPARSE_V1_I69 BOOST_METAPARSE_V1_INDEX_STR128";
  ln "#define BOOST_METAPARSE_V1_I70 BOOST_METAPARSE_V1_INDEX_STR128";
  ln "#define BOOST_METAPARSE_V1_I71 BOOST_METAPARSE_V1_INDEX_STR128";
  ln "#define BOOST_METAPARSE_V1_I72 BOOST_METAPARSE_V1_INDEX_STR128";
  ln "#define BOOST_METAPARSE_V1_I73 BOOST_METAPARSE_V1_INDEX_STR128";
  ln "#define BOOST_METAPARSE_V1_I74 BOOST_METAPARSE_V1_INDEX_STR128";
  ln "#define BOOST_METAPARSE_V1_I75 BOOST_METAPARSE_V1_INDEX_STR128";
  ln "#define BOOST_METAPARSE_V1_I76 BOOST_METAPARSE_V1_INDEX_STR128";
  ln "#define BOOST_METAPARSE_V1_I77 BOOST_METAPARSE_V1_INDEX_STR128";
  ln "#define BOOST_METAPARSE_V1_I78 BOOST_METAPARSE_V1_INDEX_STR128";
  ln "#define BOOST_METAPARSE_V1_I79 BOOST_METAPARSE_V1_INDEX_STR128";
  ln "#define BOOST_METAPARSE_V1_I80 BOOST_METAPARSE_V1_INDEX_STR128";
  ln "#define BOOST_METAPARSE_V1_I81 BOOST_METAPARSE_V1_INDEX_STR128";
  ln "#define BOOST_METAPARSE_V1_I82 BOOST_METAPARSE_V1_INDEX_STR128";
  ln "#define BOOST_METAPARSE_V1_I83 BOOST_METAPARSE_V1_INDEX_STR128";
  ln "#define BOOST_METAPARSE_V1_I84 BOOST_METAPARSE_V1_INDEX_STR128";
  ln "#define BOOST_METAPARSE_V1_I85 BOOST_METAPARSE_V1_INDEX_STR128";
  ln "#define BOOST_METAPARSE_V1_I86 BOOST_METAPARSE_V1_INDEX_STR128";
  ln "#define BOOST_METAPARSE_V1_I87 BOOST_METAPARSE_V1_INDEX_STR128";
  ln "#define BOOST_METAPARSE_V1_I88 BOOST_METAPARSE_V1_INDEX_STR128";
  ln "#define BOOST_METAPARSE_V1_I89 BOOST_METAPARSE_V1_INDEX_STR128";
  ln "#define BOOST_METAPARSE_V1_I90 BOOST_METAPARSE_V1_INDEX_STR128";
  ln "#define BOOST_METAPARSE_V1_I91 BOOST_METAPARSE_V1_INDEX_STR128";
  ln "#define BOOST_METAPARSE_V1_I92 BOOST_METAPARSE_V1_INDEX_STR128";
  ln "#define BOOST_METAPARSE_V1_I93 BOOST_METAPARSE_V1_INDEX_STR128";
  ln "#define BOOST_METAPARSE_V1_I94 BOOST_METAPARSE_V1_INDEX_STR128";
  ln "#define BOOST_METAPARSE_V1_I95 BOOST_METAPARSE_V1_INDEX_STR128";
  ln "#define BOOST_METAPARSE_V1_I96 BOOST_METAPARSE_V1_INDEX_STR128";
  ln "#define BOOST_METAPARSE_V1_I97 BOOST_METAPARSE_V1_INDEX_STR128";
  ln "#define BOOST_METAPARSE_V1_I98 BOOST_METAPARSE_V1_INDEX_STR128";
  ln "#define BOOST_METAPARSE_V1_I99 BOOST_METAPARSE_V1_INDEX_STR128";
  ln "#define BOOST_METAPARSE_V1_I100 BOOST_METAPARSE_V1_INDEX_STR128";
  ln "#define BOOST_METAPARSE_V1_I101 BOOST_METAPARSE_V1_INDEX_STR128";
  ln "#define BOOST_METAPARSE_V1_I102 BOOST_METAPARSE_V1_INDEX_STR128";
  ln "#define BOOST_METAPARSE_V1_I103 BOOST_METAPARSE_V1_INDEX_STR128";
  ln "#define BOOST_METAPARSE_V1_I104 BOOST_METAPARSE_V1_INDEX_STR128";
  ln "#define BOOST_METAPARSE_V1_I105 BOOST_METAPARSE_V1_INDEX_STR128";
  ln "#define BOOST_METAPARSE_V1_I106 BOOST_METAPARSE_V1_INDEX_STR128";
  ln "#define BOOST_METAPARSE_V1_I107 BOOST_METAPARSE_V1_INDEX_STR128";
  ln "#define BOOST_METAPARSE_V1_I108 BOOST_METAPARSE_V1_INDEX_STR128";
  ln "#define BOOST_METAPARSE_V1_I109 BOOST_METAPARSE_V1_INDEX_STR128";
  ln "#define BOOST_METAPARSE_V1_I110 BOOST_METAPARSE_V1_INDEX_STR128";
  ln "#define BOOST_METAPARSE_V1_I111 BOOST_METAPARSE_V1_INDEX_STR128";
  ln "#define BOOST_METAPARSE_V1_I112 BOOST_METAPARSE_V1_INDEX_STR128";
  ln "#define BOOST_METAPARSE_V1_I113 BOOST_METAPARSE_V1_INDEX_STR128";
  ln "#define BOOST_METAPARSE_V1_I114 BOOST_METAPARSE_V1_INDEX_STR128";
  ln "#define BOOST_METAPARSE_V1_I115 BOOST_METAPARSE_V1_INDEX_STR128";
  ln "#define BOOST_METAPARSE_V1_I116 BOOST_METAPARSE_V1_INDEX_STR128";
  ln "#define BOOST_METAPARSE_V1_I117 BOOST_METAPARSE_V1_INDEX_STR128";
  ln "#define BOOST_METAPARSE_V1_I118 BOOST_METAPARSE_V1_INDEX_STR128";
  ln "#define BOOST_METAPARSE_V1_I119 BOOST_METAPARSE_V1_INDEX_STR128";
  ln "#define BOOST_METAPARSE_V1_I120 BOOST_METAPARSE_V1_INDEX_STR128";
  ln "#define BOOST_METAPARSE_V1_I121 BOOST_METAPARSE_V1_INDEX_STR128";
  ln "#define BOOST_METAPARSE_V1_I122 BOOST_METAPARSE_V1_INDEX_STR128";
  ln "#define BOOST_METAPARSE_V1_I123 BOOST_METAPARSE_V1_INDEX_STR128";
  ln "#define BOOST_METAPARSE_V1_I124 BOOST_METAPARSE_V1_INDEX_STR128";
  ln "#define BOOST_METAPARSE_V1_I125 BOOST_METAPARSE_V1_INDEX_STR128";
  ln "#define BOOST_METAPARSE_V1_I126 BOOST_METAPARSE_V1_INDEX_STR128";
  ln "#define BOOST_METAPARSE_V1_I127 BOOST_METAPARSE_V1_INDEX_STR128";
  ln "#define BOOST_METAPARSE_V1_I128 BOOST_METAPARSE_V1_INDEX_STR128";
  ln "#define BOOST_METAPARSE_V1_I129 BOOST_METAPARSE_V1_INDEX_STR256";
  ln "#define BOOST_METAPARSE_V1_I130 BOOST_METAPARSE_V1_INDEX_STR256";
  ln "#define BOOST_METAPARSE_V1_I131 BOOST_METAPARSE_V1_INDEX_STR256";
  ln "#define BOOST_METAPARSE_V1_I132 BOOST_METAPARSE_V1_INDEX_STR256";
  ln "#define BOOST_METAPARSE_V1_I133 BOOST_METAPARSE_V1_INDEX_STR256";
  ln "#define BOOST_METAPARSE_V1_I134 BOOST_METAPARSE_V1_INDEX_STR256";
  ln "#define BOOST_METAPARSE_V1_I135 BOOST_METAPARSE_V1_INDEX_STR256";
  ln "#define BOOST_METAPARSE_V1_I136 BOOST_METAPARSE_V1_INDEX_STR256";
  ln "#define BOOST_METAPARSE_V1_I137 BOOST_METAPARSE_V1_INDEX_STR256";
  ln "#define BOOST_METAPARSE_V1_I138 BOOST_METAPARSE_V1_INDEX_STR256";
  ln "#define BOOST_METAPARSE_V1_I139 BOOST_METAPARSE_V1_INDEX_STR256";
  ln "#define BOOST_METAPARSE_V1_I140 BOOST_METAPARSE_V1_INDEX_STR256";
  ln "#define BOOST_METAPARSE_V1_I141 BOOST_METAPARSE_V1_INDEX_STR256";
  ln "#define BOOST_METAPARSE_V1_I142 BOOST_METAPARSE_V1_INDEX_STR256";
  ln "#define BOOST_METAPARSE_V1_I143 BOOST_METAPARSE_V1_INDEX_STR256";
  ln "#define BOOST_METAPARSE_V1_I144 BOOST_METAPARSE_V1_INDEX_STR256";
  ln "#define BOOST_METAPARSE_V1_I145 BOOST_METAPARSE_V1_INDEX_STR256";
  ln "#define BOOST_METAPARSE_V1_I146 BOOST_METAPARSE_V1_INDEX_STR256";
  ln "#define BOOST_METAPARSE_V1_I147 BOOST_METAPARSE_V1_INDEX_STR256";
  ln "#define BOOST_METAPARSE_V1_I148 BOOST_METAPARSE_V1_INDEX_STR256";
  ln "#define BOOST_METAPARSE_V1_I149 BOOST_METAPARSE_V1_INDEX_STR256";
  ln "#define BOOST_METAPARSE_V1_I150 BOOST_METAPARSE_V1_INDEX_STR256";
  ln "#define BOOST_METAPARSE_V1_I151 BOOST_METAPARSE_V1_INDEX_STR256";
  ln "#define BOOST_METAPARSE_V1_I152 BOOST_METAPARSE_V1_INDEX_STR256";
  ln "#define BOOST_METAPARSE_V1_I153 BOOST_METAPARSE_V1_INDEX_STR256";
  ln "#define BOOST_METAPARSE_V1_I154 BOOST_METAPARSE_V1_INDEX_STR256";
  ln "#define BOOST_METAPARSE_V1_I155 BOOST_METAPARSE_V1_INDEX_STR256";
  ln "#define BOOST_METAPARSE_V1_I156 BOOST_METAPARSE_V1_INDEX_STR256";
  ln "#define BOOST_METAPARSE_V1_I157 BOOST_METAPARSE_V1_INDEX_STR256";
  ln "#define BOOST_METAPARSE_V1_I158 BOOST_METAPARSE_V1_INDEX_STR256";
  ln "#define BOOST_METAPARSE_V1_I159 BOOST_METAPARSE_V1_INDEX_STR256";
  ln "#define BOOST_METAPARSE_V1_I160 BOOST_METAPARSE_V1_INDEX_STR256";
  ln "#define BOOST_METAPARSE_V1_I161 BOOST_METAPARSE_V1_INDEX_STR256";
  ln "#define BOOST_METAPARSE_V1_I162 BOOST_METAPARSE_V1_INDEX_STR256";
  ln "#define BOOST_METAPARSE_V1_I163 BOOST_METAPARSE_V1_INDEX_STR256";
  ln "#define BOOST_METAPARSE_V1_I164 BOOST_METAPARSE_V1_INDEX_STR256";
  ln "#define BOOST_METAPARSE_V1_I165 BOOST_METAPARSE_V1_INDEX_STR256";
  ln "#define BOOST_METAPARSE_V1_I166 BOOST_METAPARSE_V1_INDEX_STR256";
  ln "#define BOOST_METAPARSE_V1_I167 BOOST_METAPARSE_V1_INDEX_STR256";
  ln "#define BOOST_METAPARSE_V1_I168 BOOST_METAPARSE_V1_INDEX_STR256";
  ln "#define BOOST_METAPARSE_V1_I169 BOOST_METAPARSE_V1_INDEX_STR256";
  ln "#define BOOST_METAPARSE_V1_I170 BOOST_METAPARSE_V1_INDEX_STR256";
  ln "#define BOOST_METAPARSE_V1_I171 BOOST_METAPARSE_V1_INDEX_STR256";
  ln "#define BOOST_METAPARSE_V1_I172 BOOST_METAPARSE_V1_INDEX_STR256";
  ln "#define BOOST_METAPARSE_V1_I173 BOOST_METAPARSE_V1_INDEX_STR256";
  ln "#define BOOST_METAPARSE_V1_I174 BOOST_METAPARSE_V1_INDEX_STR256";
  ln "#define BOOST_METAPARSE_V1_I175 BOOST_METAPARSE_V1_INDEX_STR256";
  ln "#define BOOST_METAPARSE_V1_I176 BOOST_METAPARSE_V1_INDEX_STR256";
  ln "#define BOOST_METAPARSE_V1_I177 BOOST_METAPARSE_V1_INDEX_STR256";
  ln "#define BOOST_METAPARSE_V1_I178 BOOST_METAPARSE_V1_INDEX_STR256";
  ln "#define BOOST_METAPARSE_V1_I179 BOOST_METAPARSE_V1_INDEX_STR256";
  ln "#define BOOST_METAPARSE_V1_I180 BOOST_METAPARSE_V1_INDEX_STR256";
  ln "#define BOOST_METAPARSE_V1_I181 BOOST_METAPARSE_V1_INDEX_STR256";
  ln "#define BOOST_METAPARSE_V1_I182 BOOST_METAPARSE_V1_INDEX_STR256";
  ln "#define BOOST_METAPARSE_V1_I183 BOOST_METAPARSE_V1_INDEX_STR256";
  ln "#define BOOST_METAPARSE_V1_I184 BOOST_METAPARSE_V1_INDEX_STR256";
  ln "#define BOOST_METAPARSE_V1_I185 BOOST_METAPARSE_V1_INDEX_STR256";
  ln "#define BOOST_METAPARSE_V1_I186 BOOST_METAPARSE_V1_INDEX_STR256";
  ln "#define BOOST_METAPARSE_V1_I187 BOOST_METAPARSE_V1_INDEX_STR256";
  ln "#define BOOST_METAPARSE_V1_I188 BOOST_METAPARSE_V1_INDEX_STR256";
  ln "#define BOOST_METAPARSE_V1_I189 BOOST_METAPARSE_V1_INDEX_STR256";
  ln "#define BOOST_METAPARSE_V1_I190 BOOST_METAPARSE_V1_INDEX_STR256";
  ln "#define BOOST_METAPARSE_V1_I191 BOOST_METAPARSE_V1_INDEX_STR256";
  ln "#define BOOST_METAPARSE_V1_I192 BOOST_METAPARSE_V1_INDEX_STR256";
  ln "#define BOOST_METAPARSE_V1_I193 BOOST_METAPARSE_V1_INDEX_STR256";
  ln "#define BOOST_METAPARSE_V1_I194 BOOST_METAPARSE_V1_INDEX_STR256";
  ln "#define BOOST_METAPARSE_V1_I195 BOOST_METAPARSE_V1_INDEX_STR256";
  ln "#define BOOST_METAPARSE_V1_I196 BOOST_METAPARSE_V1_INDEX_STR256";
  ln "#define BOOST_METAPARSE_V1_I197 BOOST_METAPARSE_V1_INDEX_STR256";
  ln "#define BOOST_METAPARSE_V1_I198 BOOST_METAPARSE_V1_INDEX_STR256";
  ln "#define BOOST_METAPARSE_V1_I199 BOOST_METAPARSE_V1_INDEX_STR256";
  ln "#define BOOST_METAPARSE_V1_I200 BOOST_METAPARSE_V1_INDEX_STR256";
  ln "#define BOOST_METAPARSE_V1_I201 BOOST_METAPARSE_V1_INDEX_STR256";
  ln "#define BOOST_METAPARSE_V1_I202 BOOST_METAPARSE_V1_INDEX_STR256";
  ln "#define BOOST_METAPARSE_V1_I203 BOOST_METAPARSE_V1_INDEX_STR256";
  ln "#define BOOST_METAPARSE_V1_I204 BOOST_METAPARSE_V1_INDEX_STR256";
  ln "#define BOOST_METAPARSE_V1_I205 BOOST_METAPARSE_V1_INDEX_STR256";
  ln "#define BOOST_METAPARSE_V1_I206 BOOST_METAPARSE_V1_INDEX_STR256";
  ln "#define BOOST_METAPARSE_V1_I207 BOOST_METAPARSE_V1_INDEX_STR256";
  ln "#define BOOST_METAPARSE_V1_I208 BOOST_METAPARSE_V1_INDEX_STR256";
  ln "#define BOOST_METAPARSE_V1_I209 BOOST_METAPARSE_V1_INDEX_STR256";
  ln "#define BOOST_METAPARSE_V1_I210 BOOST_METAPARSE_V1_INDEX_STR256";
  ln "#define BOOST_METAPARSE_V1_I211 BOOST_METAPARSE_V1_INDEX_STR256";
  ln "#define BOOST_METAPARSE_V1_I212 BOOST_METAPARSE_V1_INDEX_STR256";
  ln "#define BOOST_METAPARSE_V1_I213 BOOST_METAPARSE_V1_INDEX_STR256";
  ln "#define BOOST_METAPARSE_V1_I214 BOOST_METAPARSE_V1_INDEX_STR256";
  ln "#define BOOST_METAPARSE_V1_I215 BOOST_METAPARSE_V1_INDEX_STR256";
  ln "#define BOOST_METAPARSE_V1_I216 BOOST_METAPARSE_V1_INDEX_STR256";
  ln "#define BOOST_METAPARSE_V1_I217 BOOST_METAPARSE_V1_INDEX_STR256";
  ln "#define BOOST_METAPARSE_V1_I218 BOOST_METAPARSE_V1_INDEX_STR256";
  ln "#define BOOST_METAPARSE_V1_I219 BOOST_METAPARSE_V1_INDEX_STR256";
  ln "#define BOOST_METAPARSE_V1_I220 BOOST_METAPARSE_V1_INDEX_STR256";
  ln "#define BOOST_METAPARSE_V1_I221 BOOST_METAPARSE_V1_INDEX_STR256";
  ln "#define BOOST_METAPARSE_V1_I222 BOOST_METAPARSE_V1_INDEX_STR256";
  ln "#define BOOST_METAPARSE_V1_I223 BOOST_METAPARSE_V1_INDEX_STR256";
  ln "#define BOOST_METAPARSE_V1_I224 BOOST_METAPARSE_V1_INDEX_STR256";
  ln "#define BOOST_METAPARSE_V1_I225 BOOST_METAPARSE_V1_INDEX_STR256";
  ln "#define BOOST_METAPARSE_V1_I226 BOOST_METAPARSE_V1_INDEX_STR256";
  ln "#define BOOST_METAPARSE_V1_I227 BOOST_METAPARSE_V1_INDEX_STR256";
  ln "#define BOOST_METAPARSE_V1_I228 BOOST_METAPARSE_V1_INDEX_STR256";
  ln "#define BOOST_METAPARSE_V1_I229 BOOST_METAPARSE_V1_INDEX_STR256";
  ln "#define BOOST_METAPARSE_V1_I230 BOOST_METAPARSE_V1_INDEX_STR256";
  ln "#define BOOST_METAPARSE_V1_I231 BOOST_METAPARSE_V1_INDEX_STR256";
  ln "#define BOOST_METAPARSE_V1_I232 BOOST_METAPARSE_V1_INDEX_STR256";
  ln "#define BOOST_METAPARSE_V1_I233 BOOST_METAPARSE_V1_INDEX_STR256";
  ln "#define BOOST_METAPARSE_V1_I234 BOOST_METAPARSE_V1_INDEX_STR256";
  ln "#define BOOST_METAPARSE_V1_I235 BOOST_METAPARSE_V1_INDEX_STR256";
  ln "#define BOOST_METAPARSE_V1_I236 BOOST_METAPARSE_V1_INDEX_STR256";
  ln "#define BOOST_METAPARSE_V1_I237 BOOST_METAPARSE_V1_INDEX_STR256";
  ln "#define BOOST_METAPARSE_V1_I238 BOOST_METAPARSE_V1_INDEX_STR256";
  ln "#define BOOST_METAPARSE_V1_I239 BOOST_METAPARSE_V1_INDEX_STR256";
  ln "#define BOOST_METAPARSE_V1_I240 BOOST_METAPARSE_V1_INDEX_STR256";
  ln "#define BOOST_METAPARSE_V1_I241 BOOST_METAPARSE_V1_INDEX_STR256";
  ln "#define BOOST_METAPARSE_V1_I242 BOOST_METAPARSE_V1_INDEX_STR256";
  ln "#define BOOST_METAPARSE_V1_I243 BOOST_METAPARSE_V1_INDEX_STR256";
  ln "#define BOOST_METAPARSE_V1_I244 BOOST_METAPARSE_V1_INDEX_STR256";
  ln "#define BOOST_METAPARSE_V1_I245 BOOST_METAPARSE_V1_INDEX_STR256";
  ln "#define BOOST_METAPARSE_V1_I246 BOOST_METAPARSE_V1_INDEX_STR256";
  ln "#define BOOST_METAPARSE_V1_I247 BOOST_METAPARSE_V1_INDEX_STR256";
  ln "#define BOOST_METAPARSE_V1_I248 BOOST_METAPARSE_V1_INDEX_STR256";
  ln "#define BOOST_METAPARSE_V1_I249 BOOST_METAPARSE_V1_INDEX_STR256";
  ln "#define BOOST_METAPARSE_V1_I250 BOOST_METAPARSE_V1_INDEX_STR256";
  ln "#define BOOST_METAPARSE_V1_I251 BOOST_METAPARSE_V1_INDEX_STR256";
  ln "#define BOOST_METAPARSE_V1_I252 BOOST_METAPARSE_V1_INDEX_STR256";
  ln "#define BOOST_METAPARSE_V1_I253 BOOST_METAPARSE_V1_INDEX_STR256";
  ln "#define BOOST_METAPARSE_V1_I254 BOOST_METAPARSE_V1_INDEX_STR256";
  ln "#define BOOST_METAPARSE_V1_I255 BOOST_METAPARSE_V1_INDEX_STR256";
  ln "#define BOOST_METAPARSE_V1_I256 BOOST_METAPARSE_V1_INDEX_STR256";
  ln "#define BOOST_METAPARSE_V1_I257 BOOST_METAPARSE_V1_INDEX_STR384";
  ln "#define BOOST_METAPARSE_V1_I258 BOOST_METAPARSE_V1_INDEX_STR384";
  ln "#define BOOST_METAPARSE_V1_I259 BOOST_METAPARSE_V1_INDEX_STR384";
  ln "#define BOOST_METAPARSE_V1_I260 BOOST_METAPARSE_V1_INDEX_STR384";
  ln "#define BOOST_METAPARSE_V1_I261 BOOST_METAPARSE_V1_INDEX_STR384";
  ln "#define BOOST_METAPARSE_V1_I262 BOOST_METAPARSE_V1_INDEX_STR384";
  ln "#define BOOST_METAPARSE_V1_I263 BOOST_METAPARSE_V1_INDEX_STR384";
  ln "#define BOOST_METAPARSE_V1_I264 BOOST_METAPARSE_V1_INDEX_STR384";
  ln "#define BOOST_METAPARSE_V1_I265 BOOST_METAPARSE_V1_INDEX_STR384";
  ln "#define BOOST_METAPARSE_V1_I266 BOOST_METAPARSE_V1_INDEX_STR384";
  ln "#define BOOST_METAPARSE_V1_I267 BOOST_METAPARSE_V1_INDEX_STR384";
  ln "#define BOOST_METAPARSE_V1_I268 BOOST_METAPARSE_V1_INDEX_STR384";
  ln "#define BOOST_METAPARSE_V1_I269 BOOST_METAPARSE_V1_INDEX_STR384";
  ln "#define BOOST_METAPARSE_V1_I270 BOOST_METAPARSE_V1_INDEX_STR384";
  ln "#define BOOST_METAPARSE_V1_I271 BOOST_METAPARSE_V1_INDEX_STR384";
  ln "#define BOOST_METAPARSE_V1_I272 BOOST_METAPARSE_V1_INDEX_STR384";
  ln "#define BOOST_METAPARSE_V1_I273 BOOST_METAPARSE_V1_INDEX_STR384";
  ln "#define BOOST_METAPARSE_V1_I274 BOOST_METAPARSE_V1_INDEX_STR384";
  ln "#define BOOST_METAPARSE_V1_I275 BOOST_METAPARSE_V1_INDEX_STR384";
  ln "#define BOOST_METAPARSE_V1_I276 BOOST_METAPARSE_V1_INDEX_STR384";
  ln "#define BOOST_METAPARSE_V1_I277 BOOST_METAPARSE_V1_INDEX_STR384";
  ln "#define BOOST_METAPARSE_V1_I278 BOOST_METAPARSE_V1_INDEX_STR384";
  ln "#define BOOST_METAPARSE_V1_I279 BOOST_METAPARSE_V1_INDEX_STR384";
  ln "#define BOOST_METAPARSE_V1_I280 BOOST_METAPARSE_V1_INDEX_STR384";
  ln "#define BOOST_METAPARSE_V1_I281 BOOST_METAPARSE_V1_INDEX_STR384";
  ln "#define BOOST_METAPARSE_V1_I282 BOOST_METAPARSE_V1_INDEX_STR384";
  ln "#define BOOST_METAPARSE_V1_I283 BOOST_METAPARSE_V1_INDEX_STR384";
  ln "#define BOOST_METAPARSE_V1_I284 BOOST_METAPARSE_V1_INDEX_STR384";
  ln "#define BOOST_METAPARSE_V1_I285 BOOST_METAPARSE_V1_INDEX_STR384";
  ln "#define BOOST_METAPARSE_V1_I286 BOOST_METAPARSE_V1_INDEX_STR384";
  ln "#define BOOST_METAPARSE_V1_I287 BOOST_METAPARSE_V1_INDEX_STR384";
  ln "#define BOOST_METAPARSE_V1_I288 BOOST_METAPARSE_V1_INDEX_STR384";
  ln "#define BOOST_METAPARSE_V1_I289 BOOST_METAPARSE_V1_INDEX_STR384";
  ln "#define BOOST_METAPARSE_V1_I290 BOOST_METAPARSE_V1_INDEX_STR384";
  ln "#define BOOST_METAPARSE_V1_I291 BOOST_METAPARSE_V1_INDEX_STR384";
  ln "#define BOOST_METAPARSE_V1_I292 BOOST_METAPARSE_V1_INDEX_STR384";
  ln "#define BOOST_METAPARSE_V1_I293 BOOST_METAPARSE_V1_INDEX_STR384";
  ln "#define BOOST_METAPARSE_V1_I294 BOOST_METAPARSE_V1_INDEX_STR384";
  ln "#define BOOST_METAPARSE_V1_I295 BOOST_METAPARSE_V1_INDEX_STR384";
  ln "#define BOOST_METAPARSE_V1_I296 BOOST_METAPARSE_V1_INDEX_STR384";
  ln "#define BOOST_METAPARSE_V1_I297 BOOST_METAPARSE_V1_INDEX_STR384";
  ln "#define BOOST_METAPARSE_V1_I298 BOOST_METAPARSE_V1_INDEX_STR384";
  ln "#define BOOST_METAPARSE_V1_I299 BOOST_METAPARSE_V1_INDEX_STR384";
  ln "#define BOOST_METAPARSE_V1_I300 BOOST_METAPARSE_V1_INDEX_STR384";
  ln "#define BOOST_METAPARSE_V1_I301 BOOST_METAPARSE_V1_INDEX_STR384";
  ln "#define BOOST_METAPARSE_V1_I302 BOOST_METAPARSE_V1_INDEX_STR384";
  ln "#define BOOST_METAPARSE_V1_I303 BOOST_METAPARSE_V1_INDEX_STR384";
  ln "#define BOOST_METAPARSE_V1_I304 BOOST_METAPARSE_V1_INDEX_STR384";
  ln "#define BOOST_METAPARSE_V1_I305 BOOST_METAPARSE_V1_INDEX_STR384";
  ln "#define BOOST_METAPARSE_V1_I306 BOOST_METAPARSE_V1_INDEX_STR384";
  ln "#define BOOST_METAPARSE_V1_I307 BOOST_METAPARSE_V1_INDEX_STR384";
  ln "#define BOOST_METAPARSE_V1_I308 BOOST_METAPARSE_V1_INDEX_STR384";
  ln "#define BOOST_METAPARSE_V1_I309 BOOST_METAPARSE_V1_INDEX_STR384";
  ln "#define BOOST_METAPARSE_V1_I310 BOOST_METAPARSE_V1_INDEX_STR384";
  ln "#define BOOST_METAPARSE_V1_I311 BOOST_METAPARSE_V1_INDEX_STR384";
  ln "#define BOOST_METAPARSE_V1_I312 BOOST_METAPARSE_V1_INDEX_STR384";
  ln "#define BOOST_METAPARSE_V1_I313 BOOST_METAPARSE_V1_INDEX_STR384";
  ln "#define BOOST_METAPARSE_V1_I314 BOOST_METAPARSE_V1_INDEX_STR384";
  ln "#define BOOST_METAPARSE_V1_I315 BOOST_METAPARSE_V1_INDEX_STR384";
  ln "#define BOOST_METAPARSE_V1_I316 BOOST_METAPARSE_V1_INDEX_STR384";
  ln "#define BOOST_METAPARSE_V1_I317 BOOST_METAPARSE_V1_INDEX_STR384";
  ln "#define BOOST_METAPARSE_V1_I318 BOOST_METAPARSE_V1_INDEX_STR384";
  ln "#define BOOST_METAPARSE_V1_I319 BOOST_METAPARSE_V1_INDEX_STR384";
  ln "#define BOOST_METAPARSE_V1_I320 BOOST_METAPARSE_V1_INDEX_STR384";
  ln "#define BOOST_METAPARSE_V1_I321 BOOST_METAPARSE_V1_INDEX_STR384";
  ln "#define BOOST_METAPARSE_V1_I322 BOOST_METAPARSE_V1_INDEX_STR384";
  ln "#define BOOST_METAPARSE_V1_I323 BOOST_METAPARSE_V1_INDEX_STR384";
  ln "#define BOOST_METAPARSE_V1_I324 BOOST_METAPARSE_V1_INDEX_STR384";
  ln "#define BOOST_METAPARSE_V1_I325 BOOST_METAPARSE_V1_INDEX_STR384";
  ln "#define BOOST_METAPARSE_V1_I326 BOOST_METAPARSE_V1_INDEX_STR384";
  ln "#define BOOST_METAPARSE_V1_I327 BOOST_METAPARSE_V1_INDEX_STR384";
  ln "#define BOOST_METAPARSE_V1_I328 BOOST_METAPARSE_V1_INDEX_STR384";
  ln "#define BOOST_METAPARSE_V1_I329 BOOST_METAPARSE_V1_INDEX_STR384";
  ln "#define BOOST_METAPARSE_V1_I330 BOOST_METAPARSE_V1_INDEX_STR384";
  ln "#define BOOST_METAPARSE_V1_I331 BOOST_METAPARSE_V1_INDEX_STR384";
  ln "#define BOOST_METAPARSE_V1_I332 BOOST_METAPARSE_V1_INDEX_STR384";
  ln "#define BOOST_METAPARSE_V1_I333 BOOST_METAPARSE_V1_INDEX_STR384";
  ln "#define BOOST_METAPARSE_V1_I334 BOOST_METAPARSE_V1_INDEX_STR384";
  ln "#define BOOST_METAPARSE_V1_I335 BOOST_METAPARSE_V1_INDEX_STR384";
  ln "#define BOOST_METAPARSE_V1_I336 BOOST_METAPARSE_V1_INDEX_STR384";
  ln "#define BOOST_METAPARSE_V1_I337 BOOST_METAPARSE_V1_INDEX_STR384";
  ln "#define BOOST_METAPARSE_V1_I338 BOOST_METAPARSE_V1_INDEX_STR384";
  ln "#define BOOST_METAPARSE_V1_I339 BOOST_METAPARSE_V1_INDEX_STR384";
  ln "#define BOOST_METAPARSE_V1_I340 BOOST_METAPARSE_V1_INDEX_STR384";
  ln "#define BOOST_METAPARSE_V1_I341 BOOST_METAPARSE_V1_INDEX_STR384";
  ln "#define BOOST_METAPARSE_V1_I342 BOOST_METAPARSE_V1_INDEX_STR384";
  ln "#define BOOST_METAPARSE_V1_I343 BOOST_METAPARSE_V1_INDEX_STR384";
  ln "#define BOOST_METAPARSE_V1_I344 BOOST_METAPARSE_V1_INDEX_STR384";
  ln "#define BOOST_METAPARSE_V1_I345 BOOST_METAPARSE_V1_INDEX_STR384";
  ln "#define BOOST_METAPARSE_V1_I346 BOOST_METAPARSE_V1_INDEX_STR384";
  ln "#define BOOST_METAPARSE_V1_I347 BOOST_METAPARSE_V1_INDEX_STR384";
  ln "#define BOOST_METAPARSE_V1_I348 BOOST_METAPARSE_V1_INDEX_STR384";
  ln "#define BOOST_METAPARSE_V1_I349 BOOST_METAPARSE_V1_INDEX_STR384";
  ln "#define BOOST_METAPARSE_V1_I350 BOOST_METAPARSE_V1_INDEX_STR384";
  ln "#define BOOST_METAPARSE_V1_I351 BOOST_METAPARSE_V1_INDEX_STR384";
  ln "#define BOOST_METAPARSE_V1_I352 BOOST_METAPARSE_V1_INDEX_STR384";
  ln "#define BOOST_METAPARSE_V1_I353 BOOST_METAPARSE_V1_INDEX_STR384";
  ln "#define BOOST_METAPARSE_V1_I354 BOOST_METAPARSE_V1_INDEX_STR384";
  ln "#define BOOST_METAPARSE_V1_I355 BOOST_METAPARSE_V1_INDEX_STR384";
  ln "#define BOOST_METAPARSE_V1_I356 BOOST_METAPARSE_V1_INDEX_STR384";
  ln "#define BOOST_METAPARSE_V1_I357 BOOST_METAPARSE_V1_INDEX_STR384";
  ln "#define BOOST_METAPARSE_V1_I358 BOOST_METAPARSE_V1_INDEX_STR384";
  ln "#define BOOST_METAPARSE_V1_I359 BOOST_METAPARSE_V1_INDEX_STR384";
  ln "#define BOOST_METAPARSE_V1_I360 BOOST_METAPARSE_V1_INDEX_STR384";
  ln "#define BOOST_METAPARSE_V1_I361 BOOST_METAPARSE_V1_INDEX_STR384";
  ln "#define BOOST_METAPARSE_V1_I362 BOOST_METAPARSE_V1_INDEX_STR384";
  ln "#define BOOST_METAPARSE_V1_I363 BOOST_METAPARSE_V1_INDEX_STR384";
  ln "#define BOOST_METAPARSE_V1_I364 BOOST_METAPARSE_V1_INDEX_STR384";
  ln "#define BOOST_METAPARSE_V1_I365 BOOST_METAPARSE_V1_INDEX_STR384";
  ln "#define BOOST_METAPARSE_V1_I366 BOOST_METAPARSE_V1_INDEX_STR384";
  ln "#define BOOST_METAPARSE_V1_I367 BOOST_METAPARSE_V1_INDEX_STR384";
  ln "#define BOOST_METAPARSE_V1_I368 BOOST_METAPARSE_V1_INDEX_STR384";
  ln "#define BOOST_METAPARSE_V1_I369 BOOST_METAPARSE_V1_INDEX_STR384";
  ln "#define BOOST_METAPARSE_V1_I370 BOOST_METAPARSE_V1_INDEX_STR384";
  ln "#define BOOST_METAPARSE_V1_I371 BOOST_METAPARSE_V1_INDEX_STR384";
  ln "#define BOOST_METAPARSE_V1_I372 BOOST_METAPARSE_V1_INDEX_STR384";
  ln "#define BOOST_METAPARSE_V1_I373 BOOST_METAPARSE_V1_INDEX_STR384";
  ln "#define BOOST_METAPARSE_V1_I374 BOOST_METAPARSE_V1_INDEX_STR384";
  ln "#define BOOST_METAPARSE_V1_I375 BOOST_METAPARSE_V1_INDEX_STR384";
  ln "#define BOOST_METAPARSE_V1_I376 BOOST_METAPARSE_V1_INDEX_STR384";
  ln "#define BOOST_METAPARSE_V1_I377 BOOST_METAPARSE_V1_INDEX_STR384";
  ln "#define BOOST_METAPARSE_V1_I378 BOOST_METAPARSE_V1_INDEX_STR384";
  ln "#define BOOST_METAPARSE_V1_I379 BOOST_METAPARSE_V1_INDEX_STR384";
  ln "#define BOOST_METAPARSE_V1_I380 BOOST_METAPARSE_V1_INDEX_STR384";
  ln "#define BOOST_METAPARSE_V1_I381 BOOST_METAPARSE_V1_INDEX_STR384";
  ln "#define BOOST_METAPARSE_V1_I382 BOOST_METAPARSE_V1_INDEX_STR384";
  ln "#define BOOST_METAPARSE_V1_I383 BOOST_METAPARSE_V1_INDEX_STR384";
  ln "#define BOOST_METAPARSE_V1_I384 BOOST_METAPARSE_V1_INDEX_STR384";
  ln "#define BOOST_METAPARSE_V1_I385 BOOST_METAPARSE_V1_INDEX_STR512";
  ln "#define BOOST_METAPARSE_V1_I386 BOOST_METAPARSE_V1_INDEX_STR512";
  ln "#define BOOST_METAPARSE_V1_I387 BOOST_METAPARSE_V1_INDEX_STR512";
  ln "#define BOOST_METAPARSE_V1_I388 BOOST_METAPARSE_V1_INDEX_STR512";
  ln "#define BOOST_METAPARSE_V1_I389 BOOST_METAPARSE_V1_INDEX_STR512";
  ln "#define BOOST_METAPARSE_V1_I390 BOOST_METAPARSE_V1_INDEX_STR512";
  ln "#define BOOST_METAPARSE_V1_I391 BOOST_METAPARSE_V1_INDEX_STR512";
  ln "#define BOOST_METAPARSE_V1_I392 BOOST_METAPARSE_V1_INDEX_STR512";
  ln "#define BOOST_METAPARSE_V1_I393 BOOST_METAPARSE_V1_INDEX_STR512";
  ln "#define BOOST_METAPARSE_V1_I394 BOOST_METAPARSE_V1_INDEX_STR512";
  ln "#define BOOST_METAPARSE_V1_I395 BOOST_METAPARSE_V1_INDEX_STR512";
  ln "#define BOOST_METAPARSE_V1_I396 BOOST_METAPARSE_V1_INDEX_STR512";
  ln "#define BOOST_METAPARSE_V1_I397 BOOST_METAPARSE_V1_INDEX_STR512";
  ln "#define BOOST_METAPARSE_V1_I398 BOOST_METAPARSE_V1_INDEX_STR512";
  ln "#define BOOST_METAPARSE_V1_I399 BOOST_METAPARSE_V1_INDEX_STR512";
  ln "#define BOOST_METAPARSE_V1_I400 BOOST_METAPARSE_V1_INDEX_STR512";
  ln "#define BOOST_METAPARSE_V1_I401 BOOST_METAPARSE_V1_INDEX_STR512";
  ln "#define BOOST_METAPARSE_V1_I402 BOOST_METAPARSE_V1_INDEX_STR512";
  ln "#define BOOST_METAPARSE_V1_I403 BOOST_METAPARSE_V1_INDEX_STR512";
  ln "#define BOOST_METAPARSE_V1_I404 BOOST_METAPARSE_V1_INDEX_STR512";
  ln "#define BOOST_METAPARSE_V1_I405 BOOST_METAPARSE_V1_INDEX_STR512";
  ln "#define BOOST_METAPARSE_V1_I406 BOOST_METAPARSE_V1_INDEX_STR512";
  ln "#define BOOST_METAPARSE_V1_I407 BOOST_METAPARSE_V1_INDEX_STR512";
  ln "#define BOOST_METAPARSE_V1_I408 BOOST_METAPARSE_V1_INDEX_STR512";
  ln "#define BOOST_METAPARSE_V1_I409 BOOST_METAPARSE_V1_INDEX_STR512";
  ln "#define BOOST_METAPARSE_V1_I410 BOOST_METAPARSE_V1_INDEX_STR512";
  ln "#define BOOST_METAPARSE_V1_I411 BOOST_METAPARSE_V1_INDEX_STR512";
  ln "#define BOOST_METAPARSE_V1_I412 BOOST_METAPARSE_V1_INDEX_STR512";
  ln "#define BOOST_METAPARSE_V1_I413 BOOST_METAPARSE_V1_INDEX_STR512";
  ln "#define BOOST_METAPARSE_V1_I414 BOOST_METAPARSE_V1_INDEX_STR512";
  ln "#define BOOST_METAPARSE_V1_I415 BOOST_METAPARSE_V1_INDEX_STR512";
  ln "#define BOOST_METAPARSE_V1_I416 BOOST_METAPARSE_V1_INDEX_STR512";
  ln "#define BOOST_METAPARSE_V1_I417 BOOST_METAPARSE_V1_INDEX_STR512";
  ln "#define BOOST_METAPARSE_V1_I418 BOOST_METAPARSE_V1_INDEX_STR512";
  ln "#define BOOST_METAPARSE_V1_I419 BOOST_METAPARSE_V1_INDEX_STR512";
  ln "#define BOOST_METAPARSE_V1_I420 BOOST_METAPARSE_V1_INDEX_STR512";
  ln "#define BOOST_METAPARSE_V1_I421 BOOST_METAPARSE_V1_INDEX_STR512";
  ln "#define BOOST_METAPARSE_V1_I422 BOOST_METAPARSE_V1_INDEX_STR512";
  ln "#define BOOST_METAPARSE_V1_I423 BOOST_METAPARSE_V1_INDEX_STR512";
  ln "#define BOOST_METAPARSE_V1_I424 BOOST_METAPARSE_V1_INDEX_STR512";
  ln "#define BOOST_METAPARSE_V1_I425 BOOST_METAPARSE_V1_INDEX_STR512";
  ln "#define BOOST_METAPARSE_V1_I426 BOOST_METAPARSE_V1_INDEX_STR512";
  ln "#define BOOST_METAPARSE_V1_I427 BOOST_METAPARSE_V1_INDEX_STR512";
  ln "#define BOOST_METAPARSE_V1_I428 BOOST_METAPARSE_V1_INDEX_STR512";
  ln "#define BOOST_METAPARSE_V1_I429 BOOST_METAPARSE_V1_INDEX_STR512";
  ln "#define BOOST_METAPARSE_V1_I430 BOOST_METAPARSE_V1_INDEX_STR512";
  ln "#define BOOST_METAPARSE_V1_I431 BOOST_METAPARSE_V1_INDEX_STR512";
  ln "#define BOOST_METAPARSE_V1_I432 BOOST_METAPARSE_V1_INDEX_STR512";
  ln "#define BOOST_METAPARSE_V1_I433 BOOST_METAPARSE_V1_INDEX_STR512";
  ln "#define BOOST_METAPARSE_V1_I434 BOOST_METAPARSE_V1_INDEX_STR512";
  ln "#define BOOST_METAPARSE_V1_I435 BOOST_METAPARSE_V1_INDEX_STR512";
  ln "#define BOOST_METAPARSE_V1_I436 BOOST_METAPARSE_V1_INDEX_STR512";
  ln "#define BOOST_METAPARSE_V1_I437 BOOST_METAPARSE_V1_INDEX_STR512";
  ln "#define BOOST_METAPARSE_V1_I438 BOOST_METAPARSE_V1_INDEX_STR512";
  ln "#define BOOST_METAPARSE_V1_I439 BOOST_METAPARSE_V1_INDEX_STR512";
  ln "#define BOOST_METAPARSE_V1_I440 BOOST_METAPARSE_V1_INDEX_STR512";
  ln "#define BOOST_METAPARSE_V1_I441 BOOST_METAPARSE_V1_INDEX_STR512";
  ln "#define BOOST_METAPARSE_V1_I442 BOOST_METAPARSE_V1_INDEX_STR512";
  ln "#define BOOST_METAPARSE_V1_I443 BOOST_METAPARSE_V1_INDEX_STR512";
  ln "#define BOOST_METAPARSE_V1_I444 BOOST_METAPARSE_V1_INDEX_STR512";
  ln "#define BOOST_METAPARSE_V1_I445 BOOST_METAPARSE_V1_INDEX_STR512";
  ln "#define BOOST_METAPARSE_V1_I446 BOOST_METAPARSE_V1_INDEX_STR512";
  ln "#define BOOST_METAPARSE_V1_I447 BOOST_METAPARSE_V1_INDEX_STR512";
  ln "#define BOOST_METAPARSE_V1_I448 BOOST_METAPARSE_V1_INDEX_STR512";
  ln "#define BOOST_METAPARSE_V1_I449 BOOST_METAPARSE_V1_INDEX_STR512";
  ln "#define BOOST_METAPARSE_V1_I450 BOOST_METAPARSE_V1_INDEX_STR512";
  ln "#define BOOST_METAPARSE_V1_I451 BOOST_METAPARSE_V1_INDEX_STR512";
  ln "#define BOOST_METAPARSE_V1_I452 BOOST_METAPARSE_V1_INDEX_STR512";
  ln "#define BOOST_METAPARSE_V1_I453 BOOST_METAPARSE_V1_INDEX_STR512";
  ln "#define BOOST_METAPARSE_V1_I454 BOOST_METAPARSE_V1_INDEX_STR512";
  ln "#define BOOST_METAPARSE_V1_I455 BOOST_METAPARSE_V1_INDEX_STR512";
  ln "#define BOOST_METAPARSE_V1_I456 BOOST_METAPARSE_V1_INDEX_STR512";
  ln "#define BOOST_METAPARSE_V1_I457 BOOST_METAPARSE_V1_INDEX_STR512";
  ln "#define BOOST_METAPARSE_V1_I458 BOOST_METAPARSE_V1_INDEX_STR512";
  ln "#define BOOST_METAPARSE_V1_I459 BOOST_METAPARSE_V1_INDEX_STR512";
  ln "#define BOOST_METAPARSE_V1_I460 BOOST_METAPARSE_V1_INDEX_STR512";
  ln "#define BOOST_METAPARSE_V1_I461 BOOST_METAPARSE_V1_INDEX_STR512";
  ln "#define BOOST_METAPARSE_V1_I462 BOOST_METAPARSE_V1_INDEX_STR512";
  ln "#define BOOST_METAPARSE_V1_I463 BOOST_METAPARSE_V1_INDEX_STR512";
  ln "#define BOOST_METAPARSE_V1_I464 BOOST_METAPARSE_V1_INDEX_STR512";
  ln "#define BOOST_METAPARSE_V1_I465 BOOST_METAPARSE_V1_INDEX_STR512";
  ln "#define BOOST_METAPARSE_V1_I466 BOOST_METAPARSE_V1_INDEX_STR512";
  ln "#define BOOST_METAPARSE_V1_I467 BOOST_METAPARSE_V1_INDEX_STR512";
  ln "#define BOOST_METAPARSE_V1_I468 BOOST_METAPARSE_V1_INDEX_STR512";
  ln "#define BOOST_METAPARSE_V1_I469 BOOST_METAPARSE_V1_INDEX_STR512";
  ln "#define BOOST_METAPARSE_V1_I470 BOOST_METAPARSE_V1_INDEX_STR512";
  ln "#define BOOST_METAPARSE_V1_I471 BOOST_METAPARSE_V1_INDEX_STR512";
  ln "#define BOOST_METAPARSE_V1_I472 BOOST_METAPARSE_V1_INDEX_STR512";
  ln "#define BOOST_METAPARSE_V1_I473 BOOST_METAPARSE_V1_INDEX_STR512";
  ln "#define BOOST_METAPARSE_V1_I474 BOOST_METAPARSE_V1_INDEX_STR512";
  ln "#define BOOST_METAPARSE_V1_I475 BOOST_METAPARSE_V1_INDEX_STR512";
  ln "#define BOOST_METAPARSE_V1_I476 BOOST_METAPARSE_V1_INDEX_STR512";
  ln "#define BOOST_METAPARSE_V1_I477 BOOST_METAPARSE_V1_INDEX_STR512";
  ln "#define BOOST_METAPARSE_V1_I478 BOOST_METAPARSE_V1_INDEX_STR512";
  ln "#define BOOST_METAPARSE_V1_I479 BOOST_METAPARSE_V1_INDEX_STR512";
  ln "#define BOOST_METAPARSE_V1_I480 BOOST_METAPARSE_V1_INDEX_STR512";
  ln "#define BOOST_METAPARSE_V1_I481 BOOST_METAPARSE_V1_INDEX_STR512";
  ln "#define BOOST_METAPARSE_V1_I482 BOOST_METAPARSE_V1_INDEX_STR512";
  ln "#define BOOST_METAPARSE_V1_I483 BOOST_METAPARSE_V1_INDEX_STR512";
  ln "#define BOOST_METAPARSE_V1_I484 BOOST_METAPARSE_V1_INDEX_STR512";
  ln "#define BOOST_METAPARSE_V1_I485 BOOST_METAPARSE_V1_INDEX_STR512";
  ln "#define BOOST_METAPARSE_V1_I486 BOOST_METAPARSE_V1_INDEX_STR512";
  ln "#define BOOST_METAPARSE_V1_I487 BOOST_METAPARSE_V1_INDEX_STR512";
  ln "#define BOOST_METAPARSE_V1_I488 BOOST_METAPARSE_V1_INDEX_STR512";
  ln "#define BOOST_METAPARSE_V1_I489 BOOST_METAPARSE_V1_INDEX_STR512";
  ln "#define BOOST_METAPARSE_V1_I490 BOOST_METAPARSE_V1_INDEX_STR512";
  ln "#define BOOST_METAPARSE_V1_I491 BOOST_METAPARSE_V1_INDEX_STR512";
  ln "#define BOOST_METAPARSE_V1_I492 BOOST_METAPARSE_V1_INDEX_STR512";
  ln "#define BOOST_METAPARSE_V1_I493 BOOST_METAPARSE_V1_INDEX_STR512";
  ln "#define BOOST_METAPARSE_V1_I494 BOOST_METAPARSE_V1_INDEX_STR512";
  ln "#define BOOST_METAPARSE_V1_I495 BOOST_METAPARSE_V1_INDEX_STR512";
  ln "#define BOOST_METAPARSE_V1_I496 BOOST_METAPARSE_V1_INDEX_STR512";
  ln "#define BOOST_METAPARSE_V1_I497 BOOST_METAPARSE_V1_INDEX_STR512";
  ln "#define BOOST_METAPARSE_V1_I498 BOOST_METAPARSE_V1_INDEX_STR512";
  ln "#define BOOST_METAPARSE_V1_I499 BOOST_METAPARSE_V1_INDEX_STR512";
  ln "#define BOOST_METAPARSE_V1_I500 BOOST_METAPARSE_V1_INDEX_STR512";
  ln "#define BOOST_METAPARSE_V1_I501 BOOST_METAPARSE_V1_INDEX_STR512";
  ln "#define BOOST_METAPARSE_V1_I502 BOOST_METAPARSE_V1_INDEX_STR512";
  ln "#define BOOST_METAPARSE_V1_I503 BOOST_METAPARSE_V1_INDEX_STR512";
  ln "#define BOOST_METAPARSE_V1_I504 BOOST_METAPARSE_V1_INDEX_STR512";
  ln "#define BOOST_METAPARSE_V1_I505 BOOST_METAPARSE_V1_INDEX_STR512";
  ln "#define BOOST_METAPARSE_V1_I506 BOOST_METAPARSE_V1_INDEX_STR512";
  ln "#define BOOST_METAPARSE_V1_I507 BOOST_METAPARSE_V1_INDEX_STR512";
  ln "#define BOOST_METAPARSE_V1_I508 BOOST_METAPARSE_V1_INDEX_STR512";
  ln "#define BOOST_METAPARSE_V1_I509 BOOST_METAPARSE_V1_INDEX_STR512";
  ln "#define BOOST_METAPARSE_V1_I510 BOOST_METAPARSE_V1_INDEX_STR512";
  ln "#define BOOST_METAPARSE_V1_I511 BOOST_METAPARSE_V1_INDEX_STR512";
  ln "#define BOOST_METAPARSE_V1_I512 BOOST_METAPARSE_V1_INDEX_STR512";
  ln "#define BOOST_METAPARSE_V1_I513 BOOST_METAPARSE_V1_INDEX_STR640";
  ln "#define BOOST_METAPARSE_V1_I514 BOOST_METAPARSE_V1_INDEX_STR640";
  ln "#define BOOST_METAPARSE_V1_I515 BOOST_METAPARSE_V1_INDEX_STR640";
  ln "#define BOOST_METAPARSE_V1_I516 BOOST_METAPARSE_V1_INDEX_STR640";
  ln "#define BOOST_METAPARSE_V1_I517 BOOST_METAPARSE_V1_INDEX_STR640";
  ln "#define BOOST_METAPARSE_V1_I518 BOOST_METAPARSE_V1_INDEX_STR640";
  ln "#define BOOST_METAPARSE_V1_I519 BOOST_METAPARSE_V1_INDEX_STR640";
  ln "#define BOOST_METAPARSE_V1_I520 BOOST_METAPARSE_V1_INDEX_STR640";
  ln "#define BOOST_METAPARSE_V1_I521 BOOST_METAPARSE_V1_INDEX_STR640";
  ln "#define BOOST_METAPARSE_V1_I522 BOOST_METAPARSE_V1_INDEX_STR640";
  ln "#define BOOST_METAPARSE_V1_I523 BOOST_METAPARSE_V1_INDEX_STR640";
  ln "#define BOOST_METAPARSE_V1_I524 BOOST_METAPARSE_V1_INDEX_STR640";
  ln "#define BOOST_METAPARSE_V1_I525 BOOST_METAPARSE_V1_INDEX_STR640";
  ln "#define BOOST_METAPARSE_V1_I526 BOOST_METAPARSE_V1_INDEX_STR640";
  ln "#define BOOST_METAPARSE_V1_I527 BOOST_METAPARSE_V1_INDEX_STR640";
  ln "#define BOOST_METAPARSE_V1_I528 BOOST_METAPARSE_V1_INDEX_STR640";
  ln "#define BOOST_METAPARSE_V1_I529 BOOST_METAPARSE_V1_INDEX_STR640";
  ln "#define BOOST_METAPARSE_V1_I530 BOOST_METAPARSE_V1_INDEX_STR640";
  ln "#define BOOST_METAPARSE_V1_I531 BOOST_METAPARSE_V1_INDEX_STR640";
  ln "#define BOOST_METAPARSE_V1_I532 BOOST_METAPARSE_V1_INDEX_STR640";
  ln "#define BOOST_METAPARSE_V1_I533 BOOST_METAPARSE_V1_INDEX_STR640";
  ln "#define BOOST_METAPARSE_V1_I534 BOOST_METAPARSE_V1_INDEX_STR640";
  ln "#define BOOST_METAPARSE_V1_I535 BOOST_METAPARSE_V1_INDEX_STR640";
  ln "#define BOOST_METAPARSE_V1_I536 BOOST_METAPARSE_V1_INDEX_STR640";
  ln "#define BOOST_METAPARSE_V1_I537 BOOST_METAPARSE_V1_INDEX_STR640";
  ln "#define BOOST_METAPARSE_V1_I538 BOOST_METAPARSE_V1_INDEX_STR640";
  ln "#define BOOST_METAPARSE_V1_I539 BOOST_METAPARSE_V1_INDEX_STR640";
  ln "#define BOOST_METAPARSE_V1_I540 BOOST_METAPARSE_V1_INDEX_STR640";
  ln "#define BOOST_METAPARSE_V1_I541 BOOST_METAPARSE_V1_INDEX_STR640";
  ln "#define BOOST_METAPARSE_V1_I542 BOOST_METAPARSE_V1_INDEX_STR640";
  ln "#define BOOST_METAPARSE_V1_I543 BOOST_METAPARSE_V1_INDEX_STR640";
  ln "#define BOOST_METAPARSE_V1_I544 BOOST_METAPARSE_V1_INDEX_STR640";
  ln "#define BOOST_METAPARSE_V1_I545 BOOST_METAPARSE_V1_INDEX_STR640";
  ln "#define BOOST_METAPARSE_V1_I546 BOOST_METAPARSE_V1_INDEX_STR640";
  ln "#define BOOST_METAPARSE_V1_I547 BOOST_METAPARSE_V1_INDEX_STR640";
  ln "#define BOOST_METAPARSE_V1_I548 BOOST_METAPARSE_V1_INDEX_STR640";
  ln "#define BOOST_METAPARSE_V1_I549 BOOST_METAPARSE_V1_INDEX_STR640";
  ln "#define BOOST_METAPARSE_V1_I550 BOOST_METAPARSE_V1_INDEX_STR640";
  ln "#define BOOST_METAPARSE_V1_I551 BOOST_METAPARSE_V1_INDEX_STR640";
  ln "#define BOOST_METAPARSE_V1_I552 BOOST_METAPARSE_V1_INDEX_STR640";
  ln "#define BOOST_METAPARSE_V1_I553 BOOST_METAPARSE_V1_INDEX_STR640";
  ln "#define BOOST_METAPARSE_V1_I554 BOOST_METAPARSE_V1_INDEX_STR640";
  ln "#define BOOST_METAPARSE_V1_I555 BOOST_METAPARSE_V1_INDEX_STR640";
  ln "#define BOOST_METAPARSE_V1_I556 BOOST_METAPARSE_V1_INDEX_STR640";
  ln "#define BOOST_METAPARSE_V1_I557 BOOST_METAPARSE_V1_INDEX_STR640";
  ln "#define BOOST_METAPARSE_V1_I558 BOOST_METAPARSE_V1_INDEX_STR640";
  ln "#define BOOST_METAPARSE_V1_I559 BOOST_METAPARSE_V1_INDEX_STR640";
  ln "#define BOOST_METAPARSE_V1_I560 BOOST_METAPARSE_V1_INDEX_STR640";
  ln "#define BOOST_METAPARSE_V1_I561 BOOST_METAPARSE_V1_INDEX_STR640";
  ln "#define BOOST_METAPARSE_V1_I562 BOOST_METAPARSE_V1_INDEX_STR640";
  ln "#define BOOST_METAPARSE_V1_I563 BOOST_METAPARSE_V1_INDEX_STR640";
  ln "#define BOOST_METAPARSE_V1_I564 BOOST_METAPARSE_V1_INDEX_STR640";
  ln "#define BOOST_METAPARSE_V1_I565 BOOST_METAPARSE_V1_INDEX_STR640";
  ln "#define BOOST_METAPARSE_V1_I566 BOOST_METAPARSE_V1_INDEX_STR640";
  ln "#define BOOST_METAPARSE_V1_I567 BOOST_METAPARSE_V1_INDEX_STR640";
  ln "#define BOOST_METAPARSE_V1_I568 BOOST_METAPARSE_V1_INDEX_STR640";
  ln "#define BOOST_METAPARSE_V1_I569 BOOST_METAPARSE_V1_INDEX_STR640";
  ln "#define BOOST_METAPARSE_V1_I570 BOOST_METAPARSE_V1_INDEX_STR640";
  ln "#define BOOST_METAPARSE_V1_I571 BOOST_METAPARSE_V1_INDEX_STR640";
  ln "#define BOOST_METAPARSE_V1_I572 BOOST_METAPARSE_V1_INDEX_STR640";
  ln "#define BOOST_METAPARSE_V1_I573 BOOST_METAPARSE_V1_INDEX_STR640";
  ln "#define BOOST_METAPARSE_V1_I574 BOOST_METAPARSE_V1_INDEX_STR640";
  ln "#define BOOST_METAPARSE_V1_I575 BOOST_METAPARSE_V1_INDEX_STR640";
  ln "#define BOOST_METAPARSE_V1_I576 BOOST_METAPARSE_V1_INDEX_STR640";
  ln "#define BOOST_METAPARSE_V1_I577 BOOST_METAPARSE_V1_INDEX_STR640";
  ln "#define BOOST_METAPARSE_V1_I578 BOOST_METAPARSE_V1_INDEX_STR640";
  ln "#define BOOST_METAPARSE_V1_I579 BOOST_METAPARSE_V1_INDEX_STR640";
  ln "#define BOOST_METAPARSE_V1_I580 BOOST_METAPARSE_V1_INDEX_STR640";
  ln "#define BOOST_METAPARSE_V1_I581 BOOST_METAPARSE_V1_INDEX_STR640";
  ln "#define BOOST_METAPARSE_V1_I582 BOOST_METAPARSE_V1_INDEX_STR640";
  ln "#define BOOST_METAPARSE_V1_I583 BOOST_METAPARSE_V1_INDEX_STR640";
  ln "#define BOOST_METAPARSE_V1_I584 BOOST_METAPARSE_V1_INDEX_STR640";
  ln "#define BOOST_METAPARSE_V1_I585 BOOST_METAPARSE_V1_INDEX_STR640";
  ln "#define BOOST_METAPARSE_V1_I586 BOOST_METAPARSE_V1_INDEX_STR640";
  ln "#define BOOST_METAPARSE_V1_I587 BOOST_METAPARSE_V1_INDEX_STR640";
  ln "#define BOOST_METAPARSE_V1_I588 BOOST_METAPARSE_V1_INDEX_STR640";
  ln "#define BOOST_METAPARSE_V1_I589 BOOST_METAPARSE_V1_INDEX_STR640";
  ln "#define BOOST_METAPARSE_V1_I590 BOOST_METAPARSE_V1_INDEX_STR640";
  ln "#define BOOST_METAPARSE_V1_I591 BOOST_METAPARSE_V1_INDEX_STR640";
  ln "#define BOOST_METAPARSE_V1_I592 BOOST_METAPARSE_V1_INDEX_STR640";
  ln "#define BOOST_METAPARSE_V1_I593 BOOST_METAPARSE_V1_INDEX_STR640";
  ln "#define BOOST_METAPARSE_V1_I594 BOOST_METAPARSE_V1_INDEX_STR640";
  ln "#define BOOST_METAPARSE_V1_I595 BOOST_METAPARSE_V1_INDEX_STR640";
  ln "#define BOOST_METAPARSE_V1_I596 BOOST_METAPARSE_V1_INDEX_STR640";
  ln "#define BOOST_METAPARSE_V1_I597 BOOST_METAPARSE_V1_INDEX_STR640";
  ln "#define BOOST_METAPARSE_V1_I598 BOOST_METAPARSE_V1_INDEX_STR640";
  ln "#define BOOST_METAPARSE_V1_I599 BOOST_METAPARSE_V1_INDEX_STR640";
  ln "#define BOOST_METAPARSE_V1_I600 BOOST_METAPARSE_V1_INDEX_STR640";
  ln "#define BOOST_METAPARSE_V1_I601 BOOST_METAPARSE_V1_INDEX_STR640";
  ln "#define BOOST_METAPARSE_V1_I602 BOOST_METAPARSE_V1_INDEX_STR640";
  ln "#define BOOST_METAPARSE_V1_I603 BOOST_METAPARSE_V1_INDEX_STR640";
  ln "#define BOOST_METAPARSE_V1_I604 BOOST_METAPARSE_V1_INDEX_STR640";
  ln "#define BOOST_METAPARSE_V1_I605 BOOST_METAPARSE_V1_INDEX_STR640";
  ln "#define BOOST_METAPARSE_V1_I606 BOOST_METAPARSE_V1_INDEX_STR640";
  ln "#define BOOST_METAPARSE_V1_I607 BOOST_METAPARSE_V1_INDEX_STR640";
  ln "#define BOOST_METAPARSE_V1_I608 BOOST_METAPARSE_V1_INDEX_STR640";
  ln "#define BOOST_METAPARSE_V1_I609 BOOST_METAPARSE_V1_INDEX_STR640";
  ln "#define BOOST_METAPARSE_V1_I610 BOOST_METAPARSE_V1_INDEX_STR640";
  ln "#define BOOST_METAPARSE_V1_I611 BOOST_METAPARSE_V1_INDEX_STR640";
  ln "#define BOOST_METAPARSE_V1_I612 BOOST_METAPARSE_V1_INDEX_STR640";
  ln "#define BOOST_METAPARSE_V1_I613 BOOST_METAPARSE_V1_INDEX_STR640";
  ln "#define BOOST_METAPARSE_V1_I614 BOOST_METAPARSE_V1_INDEX_STR640";
  ln "#define BOOST_METAPARSE_V1_I615 BOOST_METAPARSE_V1_INDEX_STR640";
  ln "#define BOOST_METAPARSE_V1_I616 BOOST_METAPARSE_V1_INDEX_STR640";
  ln "#define BOOST_METAPARSE_V1_I617 BOOST_METAPARSE_V1_INDEX_STR640";
  ln "#define BOOST_METAPARSE_V1_I618 BOOST_METAPARSE_V1_INDEX_STR640";
  ln "#define BOOST_METAPARSE_V1_I619 BOOST_METAPARSE_V1_INDEX_STR640";
  ln "#define BOOST_METAPARSE_V1_I620 BOOST_METAPARSE_V1_INDEX_STR640";
  ln "#define BOOST_METAPARSE_V1_I621 BOOST_METAPARSE_V1_INDEX_STR640";
  ln "#define BOOST_METAPARSE_V1_I622 BOOST_METAPARSE_V1_INDEX_STR640";
  ln "#define BOOST_METAPARSE_V1_I623 BOOST_METAPARSE_V1_INDEX_STR640";
  ln "#define BOOST_METAPARSE_V1_I624 BOOST_METAPARSE_V1_INDEX_STR640";
  ln "#define BOOST_METAPARSE_V1_I625 BOOST_METAPARSE_V1_INDEX_STR640";
  ln "#define BOOST_METAPARSE_V1_I626 BOOST_METAPARSE_V1_INDEX_STR640";
  ln "#define BOOST_METAPARSE_V1_I627 BOOST_METAPARSE_V1_INDEX_STR640";
  ln "#define BOOST_METAPARSE_V1_I628 BOOST_METAPARSE_V1_INDEX_STR640";
  ln "#define BOOST_METAPARSE_V1_I629 BOOST_METAPARSE_V1_INDEX_STR640";
  ln "#define BOOST_METAPARSE_V1_I630 BOOST_METAPARSE_V1_INDEX_STR640";
  ln "#define BOOST_METAPARSE_V1_I631 BOOST_METAPARSE_V1_INDEX_STR640";
  ln "#define BOOST_METAPARSE_V1_I632 BOOST_METAPARSE_V1_INDEX_STR640";
  ln "#define BOOST_METAPARSE_V1_I633 BOOST_METAPARSE_V1_INDEX_STR640";
  ln "#define BOOST_METAPARSE_V1_I634 BOOST_METAPARSE_V1_INDEX_STR640";
  ln "#define BOOST_METAPARSE_V1_I635 BOOST_METAPARSE_V1_INDEX_STR640";
  ln "#define BOOST_METAPARSE_V1_I636 BOOST_METAPARSE_V1_INDEX_STR640";
  ln "#define BOOST_METAPARSE_V1_I637 BOOST_METAPARSE_V1_INDEX_STR640";
  ln "#define BOOST_METAPARSE_V1_I638 BOOST_METAPARSE_V1_INDEX_STR640";
  ln "#define BOOST_METAPARSE_V1_I639 BOOST_METAPARSE_V1_INDEX_STR640";
  ln "#define BOOST_METAPARSE_V1_I640 BOOST_METAPARSE_V1_INDEX_STR640";
  ln "#define BOOST_METAPARSE_V1_I641 BOOST_METAPARSE_V1_INDEX_STR768";
  ln "#define BOOST_METAPARSE_V1_I642 BOOST_METAPARSE_V1_INDEX_STR768";
  ln "#define BOOST_METAPARSE_V1_I643 BOOST_METAPARSE_V1_INDEX_STR768";
  ln "#define BOOST_METAPARSE_V1_I644 BOOST_METAPARSE_V1_INDEX_STR768";
  ln "#define BOOST_METAPARSE_V1_I645 BOOST_METAPARSE_V1_INDEX_STR768";
  ln "#define BOOST_METAPARSE_V1_I646 BOOST_METAPARSE_V1_INDEX_STR768";
  ln "#define BOOST_METAPARSE_V1_I647 BOOST_METAPARSE_V1_INDEX_STR768";
  ln "#define BOOST_METAPARSE_V1_I648 BOOST_METAPARSE_V1_INDEX_STR768";
  ln "#define BOOST_METAPARSE_V1_I649 BOOST_METAPARSE_V1_INDEX_STR768";
  ln "#define BOOST_METAPARSE_V1_I650 BOOST_METAPARSE_V1_INDEX_STR768";
  ln "#define BOOST_METAPARSE_V1_I651 BOOST_METAPARSE_V1_INDEX_STR768";
  ln "#define BOOST_METAPARSE_V1_I652 BOOST_METAPARSE_V1_INDEX_STR768";
  ln "#define BOOST_METAPARSE_V1_I653 BOOST_METAPARSE_V1_INDEX_STR768";
  ln "#define BOOST_METAPARSE_V1_I654 BOOST_METAPARSE_V1_INDEX_STR768";
  ln "#define BOOST_METAPARSE_V1_I655 BOOST_METAPARSE_V1_INDEX_STR768";
  ln "#define BOOST_METAPARSE_V1_I656 BOOST_METAPARSE_V1_INDEX_STR768";
  ln "#define BOOST_METAPARSE_V1_I657 BOOST_METAPARSE_V1_INDEX_STR768";
  ln "#define BOOST_METAPARSE_V1_I658 BOOST_METAPARSE_V1_INDEX_STR768";
  ln "#define BOOST_METAPARSE_V1_I659 BOOST_METAPARSE_V1_INDEX_STR768";
  ln "#define BOOST_METAPARSE_V1_I660 BOOST_METAPARSE_V1_INDEX_STR768";
  ln "#define BOOST_METAPARSE_V1_I661 BOOST_METAPARSE_V1_INDEX_STR768";
  ln "#define BOOST_METAPARSE_V1_I662 BOOST_METAPARSE_V1_INDEX_STR768";
  ln "#define BOOST_METAPARSE_V1_I663 BOOST_METAPARSE_V1_INDEX_STR768";
  ln "#define BOOST_METAPARSE_V1_I664 BOOST_METAPARSE_V1_INDEX_STR768";
  ln "#define BOOST_METAPARSE_V1_I665 BOOST_METAPARSE_V1_INDEX_STR768";
  ln "#define BOOST_METAPARSE_V1_I666 BOOST_METAPARSE_V1_INDEX_STR768";
  ln "#define BOOST_METAPARSE_V1_I667 BOOST_METAPARSE_V1_INDEX_STR768";
  ln "#define BOOST_METAPARSE_V1_I668 BOOST_METAPARSE_V1_INDEX_STR768";
  ln "#define BOOST_METAPARSE_V1_I669 BOOST_METAPARSE_V1_INDEX_STR768";
  ln "#define BOOST_METAPARSE_V1_I670 BOOST_METAPARSE_V1_INDEX_STR768";
  ln "#define BOOST_METAPARSE_V1_I671 BOOST_METAPARSE_V1_INDEX_STR768";
  ln "#define BOOST_METAPARSE_V1_I672 BOOST_METAPARSE_V1_INDEX_STR768";
  ln "#define BOOST_METAPARSE_V1_I673 BOOST_METAPARSE_V1_INDEX_STR768";
  ln "#define BOOST_METAPARSE_V1_I674 BOOST_METAPARSE_V1_INDEX_STR768";
  ln "#define BOOST_METAPARSE_V1_I675 BOOST_METAPARSE_V1_INDEX_STR768";
  ln "#define BOOST_METAPARSE_V1_I676 BOOST_METAPARSE_V1_INDEX_STR768";
  ln "#define BOOST_METAPARSE_V1_I677 BOOST_METAPARSE_V1_INDEX_STR768";
  ln "#define BOOST_METAPARSE_V1_I678 BOOST_METAPARSE_V1_INDEX_STR768";
  ln "#define BOOST_METAPARSE_V1_I679 BOOST_METAPARSE_V1_INDEX_STR768";
  ln "#define BOOST_METAPARSE_V1_I680 BOOST_METAPARSE_V1_INDEX_STR768";
  ln "#define BOOST_METAPARSE_V1_I681 BOOST_METAPARSE_V1_INDEX_STR768";
  ln "#define BOOST_METAPARSE_V1_I682 BOOST_METAPARSE_V1_INDEX_STR768";
  ln "#define BOOST_METAPARSE_V1_I683 BOOST_METAPARSE_V1_INDEX_STR768";
  ln "#define BOOST_METAPARSE_V1_I684 BOOST_METAPARSE_V1_INDEX_STR768";
  ln "#define BOOST_METAPARSE_V1_I685 BOOST_METAPARSE_V1_INDEX_STR768";
  ln "#define BOOST_METAPARSE_V1_I686 BOOST_METAPARSE_V1_INDEX_STR768";
  ln "#define BOOST_METAPARSE_V1_I687 BOOST_METAPARSE_V1_INDEX_STR768";
  ln "#define BOOST_METAPARSE_V1_I688 BOOST_METAPARSE_V1_INDEX_STR768";
  ln "#define BOOST_METAPARSE_V1_I689 BOOST_METAPARSE_V1_INDEX_STR768";
  ln "#define BOOST_METAPARSE_V1_I690 BOOST_METAPARSE_V1_INDEX_STR768";
  ln "#define BOOST_METAPARSE_V1_I691 BOOST_METAPARSE_V1_INDEX_STR768";
  ln "#define BOOST_METAPARSE_V1_I692 BOOST_METAPARSE_V1_INDEX_STR768";
  ln "#define BOOST_METAPARSE_V1_I693 BOOST_METAPARSE_V1_INDEX_STR768";
  ln "#define BOOST_METAPARSE_V1_I694 BOOST_METAPARSE_V1_INDEX_STR768";
  ln "#define BOOST_METAPARSE_V1_I695 BOOST_METAPARSE_V1_INDEX_STR768";
  ln "#define BOOST_METAPARSE_V1_I696 BOOST_METAPARSE_V1_INDEX_STR768";
  ln "#define BOOST_METAPARSE_V1_I697 BOOST_METAPARSE_V1_INDEX_STR768";
  ln "#define BOOST_METAPARSE_V1_I698 BOOST_METAPARSE_V1_INDEX_STR768";
  ln "#define BOOST_METAPARSE_V1_I699 BOOST_METAPARSE_V1_INDEX_STR768";
  ln "#define BOOST_METAPARSE_V1_I700 BOOST_METAPARSE_V1_INDEX_STR768";
  ln "#define BOOST_METAPARSE_V1_I701 BOOST_METAPARSE_V1_INDEX_STR768";
  ln "#define BOOST_METAPARSE_V1_I702 BOOST_METAPARSE_V1_INDEX_STR768";
  ln "#define BOOST_METAPARSE_V1_I703 BOOST_METAPARSE_V1_INDEX_STR768";
  ln "#define BOOST_METAPARSE_V1_I704 BOOST_METAPARSE_V1_INDEX_STR768";
  ln "#define BOOST_METAPARSE_V1_I705 BOOST_METAPARSE_V1_INDEX_STR768";
  ln "#define BOOST_METAPARSE_V1_I706 BOOST_METAPARSE_V1_INDEX_STR768";
  ln "#define BOOST_METAPARSE_V1_I707 BOOST_METAPARSE_V1_INDEX_STR768";
  ln "#define BOOST_METAPARSE_V1_I708 BOOST_METAPARSE_V1_INDEX_STR768";
  ln "#define BOOST_METAPARSE_V1_I709 BOOST_METAPARSE_V1_INDEX_STR768";
  ln "#define BOOST_METAPARSE_V1_I710 BOOST_METAPARSE_V1_INDEX_STR768";
  ln "#define BOOST_METAPARSE_V1_I711 BOOST_METAPARSE_V1_INDEX_STR768";
  ln "#define BOOST_METAPARSE_V1_I712 BOOST_METAPARSE_V1_INDEX_STR768";
  ln "#define BOOST_METAPARSE_V1_I713 BOOST_METAPARSE_V1_INDEX_STR768";
  ln "#define BOOST_METAPARSE_V1_I714 BOOST_METAPARSE_V1_INDEX_STR768";
  ln "#define BOOST_METAPARSE_V1_I715 BOOST_METAPARSE_V1_INDEX_STR768";
  ln "#define BOOST_METAPARSE_V1_I716 BOOST_METAPARSE_V1_INDEX_STR768";
  ln "#define BOOST_METAPARSE_V1_I717 BOOST_METAPARSE_V1_INDEX_STR768";
  ln "#define BOOST_METAPARSE_V1_I718 BOOST_METAPARSE_V1_INDEX_STR768";
  ln "#define BOOST_METAPARSE_V1_I719 BOOST_METAPARSE_V1_INDEX_STR768";
  ln "#define BOOST_METAPARSE_V1_I720 BOOST_METAPARSE_V1_INDEX_STR768";
  ln "#define BOOST_METAPARSE_V1_I721 BOOST_METAPARSE_V1_INDEX_STR768";
  ln "#define BOOST_METAPARSE_V1_I722 BOOST_METAPARSE_V1_INDEX_STR768";
  ln "#define BOOST_METAPARSE_V1_I723 BOOST_METAPARSE_V1_INDEX_STR768";
  ln "#define BOOST_METAPARSE_V1_I724 BOOST_METAPARSE_V1_INDEX_STR768";
  ln "#define BOOST_METAPARSE_V1_I725 BOOST_METAPARSE_V1_INDEX_STR768";
  ln "#define BOOST_METAPARSE_V1_I726 BOOST_METAPARSE_V1_INDEX_STR768";
  ln "#define BOOST_METAPARSE_V1_I727 BOOST_METAPARSE_V1_INDEX_STR768";
  ln "#define BOOST_METAPARSE_V1_I728 BOOST_METAPARSE_V1_INDEX_STR768";
  ln "#define BOOST_METAPARSE_V1_I729 BOOST_METAPARSE_V1_INDEX_STR768";
  ln "#define BOOST_METAPARSE_V1_I730 BOOST_METAPARSE_V1_INDEX_STR768";
  ln "#define BOOST_METAPARSE_V1_I731 BOOST_METAPARSE_V1_INDEX_STR768";
  ln "#define BOOST_METAPARSE_V1_I732 BOOST_METAPARSE_V1_INDEX_STR768";
  ln "#define BOOST_METAPARSE_V1_I733 BOOST_METAPARSE_V1_INDEX_STR768";
  ln "#define BOOST_METAPARSE_V1_I734 BOOST_METAPARSE_V1_INDEX_STR768";
  ln "#define BOOST_METAPARSE_V1_I735 BOOST_METAPARSE_V1_INDEX_STR768";
  ln "#define BOOST_METAPARSE_V1_I736 BOOST_METAPARSE_V1_INDEX_STR768";
  ln "#define BOOST_METAPARSE_V1_I737 BOOST_METAPARSE_V1_INDEX_STR768";
  ln "#define BOOST_METAPARSE_V1_I738 BOOST_METAPARSE_V1_INDEX_STR768";
  ln "#define BOOST_METAPARSE_V1_I739 BOOST_METAPARSE_V1_INDEX_STR768";
  ln "#define BOOST_METAPARSE_V1_I740 BOOST_METAPARSE_V1_INDEX_STR768";
  ln "#define BOOST_METAPARSE_V1_I741 BOOST_METAPARSE_V1_INDEX_STR768";
  ln "#define BOOST_METAPARSE_V1_I742 BOOST_METAPARSE_V1_INDEX_STR768";
  ln "#define BOOST_METAPARSE_V1_I743 BOOST_METAPARSE_V1_INDEX_STR768";
  ln "#define BOOST_METAPARSE_V1_I744 BOOST_METAPARSE_V1_INDEX_STR768";
  ln "#define BOOST_METAPARSE_V1_I745 BOOST_METAPARSE_V1_INDEX_STR768";
  ln "#define BOOST_METAPARSE_V1_I746 BOOST_METAPARSE_V1_INDEX_STR768";
  ln "#define BOOST_METAPARSE_V1_I747 BOOST_METAPARSE_V1_INDEX_STR768";
  ln "#define BOOST_METAPARSE_V1_I748 BOOST_METAPARSE_V1_INDEX_STR768";
  ln "#define BOOST_METAPARSE_V1_I749 BOOST_METAPARSE_V1_INDEX_STR768";
  ln "#define BOOST_METAPARSE_V1_I750 BOOST_METAPARSE_V1_INDEX_STR768";
  ln "#define BOOST_METAPARSE_V1_I751 BOOST_METAPARSE_V1_INDEX_STR768";
  ln "#define BOOST_METAPARSE_V1_I752 BOOST_METAPARSE_V1_INDEX_STR768";
  ln "#define BOOST_METAPARSE_V1_I753 BOOST_METAPARSE_V1_INDEX_STR768";
  ln "#define BOOST_METAPARSE_V1_I754 BOOST_METAPARSE_V1_INDEX_STR768";
  ln "#define BOOST_METAPARSE_V1_I755 BOOST_METAPARSE_V1_INDEX_STR768";
  ln "#define BOOST_METAPARSE_V1_I756 BOOST_METAPARSE_V1_INDEX_STR768";
  ln "#define BOOST_METAPARSE_V1_I757 BOOST_METAPARSE_V1_INDEX_STR768";
  ln "#define BOOST_METAPARSE_V1_I758 BOOST_METAPARSE_V1_INDEX_STR768";
  ln "#define BOOST_METAPARSE_V1_I759 BOOST_METAPARSE_V1_INDEX_STR768";
  ln "#define BOOST_METAPARSE_V1_I760 BOOST_METAPARSE_V1_INDEX_STR768";
  ln "#define BOOST_METAPARSE_V1_I761 BOOST_METAPARSE_V1_INDEX_STR768";
  ln "#define BOOST_METAPARSE_V1_I762 BOOST_METAPARSE_V1_INDEX_STR768";
  ln "#define BOOST_METAPARSE_V1_I763 BOOST_METAPARSE_V1_INDEX_STR768";
  ln "#define BOOST_METAPARSE_V1_I764 BOOST_METAPARSE_V1_INDEX_STR768";
  ln "#define BOOST_METAPARSE_V1_I765 BOOST_METAPARSE_V1_INDEX_STR768";
  ln "#define BOOST_METAPARSE_V1_I766 BOOST_METAPARSE_V1_INDEX_STR768";
  ln "#define BOOST_METAPARSE_V1_I767 BOOST_METAPARSE_V1_INDEX_STR768";
  ln "#define BOOST_METAPARSE_V1_I768 BOOST_METAPARSE_V1_INDEX_STR768";
  ln "#define BOOST_METAPARSE_V1_I769 BOOST_METAPARSE_V1_INDEX_STR896";
  ln "#define BOOST_METAPARSE_V1_I770 BOOST_METAPARSE_V1_INDEX_STR896";
  ln "#define BOOST_METAPARSE_V1_I771 BOOST_METAPARSE_V1_INDEX_STR896";
  ln "#define BOOST_METAPARSE_V1_I772 BOOST_METAPARSE_V1_INDEX_STR896";
  ln "#define BOOST_METAPARSE_V1_I773 BOOST_METAPARSE_V1_INDEX_STR896";
  ln "#define BOOST_METAPARSE_V1_I774 BOOST_METAPARSE_V1_INDEX_STR896";
  ln "#define BOOST_METAPARSE_V1_I775 BOOST_METAPARSE_V1_INDEX_STR896";
  ln "#define BOOST_METAPARSE_V1_I776 BOOST_METAPARSE_V1_INDEX_STR896";
  ln "#define BOOST_METAPARSE_V1_I777 BOOST_METAPARSE_V1_INDEX_STR896";
  ln "#define BOOST_METAPARSE_V1_I778 BOOST_METAPARSE_V1_INDEX_STR896";
  ln "#define BOOST_METAPARSE_V1_I779 BOOST_METAPARSE_V1_INDEX_STR896";
  ln "#define BOOST_METAPARSE_V1_I780 BOOST_METAPARSE_V1_INDEX_STR896";
  ln "#define BOOST_METAPARSE_V1_I781 BOOST_METAPARSE_V1_INDEX_STR896";
  ln "#define BOOST_METAPARSE_V1_I782 BOOST_METAPARSE_V1_INDEX_STR896";
  ln "#define BOOST_METAPARSE_V1_I783 BOOST_METAPARSE_V1_INDEX_STR896";
  ln "#define BOOST_METAPARSE_V1_I784 BOOST_METAPARSE_V1_INDEX_STR896";
  ln "#define BOOST_METAPARSE_V1_I785 BOOST_METAPARSE_V1_INDEX_STR896";
  ln "#define BOOST_METAPARSE_V1_I786 BOOST_METAPARSE_V1_INDEX_STR896";
  ln "#define BOOST_METAPARSE_V1_I787 BOOST_METAPARSE_V1_INDEX_STR896";
  ln "#define BOOST_METAPARSE_V1_I788 BOOST_METAPARSE_V1_INDEX_STR896";
  ln "#define BOOST_METAPARSE_V1_I789 BOOST_METAPARSE_V1_INDEX_STR896";
  ln "#define BOOST_METAPARSE_V1_I790 BOOST_METAPARSE_V1_INDEX_STR896";
  ln "#define BOOST_METAPARSE_V1_I791 BOOST_METAPARSE_V1_INDEX_STR896";
  ln "#define BOOST_METAPARSE_V1_I792 BOOST_METAPARSE_V1_INDEX_STR896";
  ln "#define BOOST_METAPARSE_V1_I793 BOOST_METAPARSE_V1_INDEX_STR896";
  ln "#define BOOST_METAPARSE_V1_I794 BOOST_METAPARSE_V1_INDEX_STR896";
  ln "#define BOOST_METAPARSE_V1_I795 BOOST_METAPARSE_V1_INDEX_STR896";
  ln "#define BOOST_METAPARSE_V1_I796 BOOST_METAPARSE_V1_INDEX_STR896";
  ln "#define BOOST_METAPARSE_V1_I797 BOOST_METAPARSE_V1_INDEX_STR896";
  ln "#define BOOST_METAPARSE_V1_I798 BOOST_METAPARSE_V1_INDEX_STR896";
  ln "#define BOOST_METAPARSE_V1_I799 BOOST_METAPARSE_V1_INDEX_STR896";
  ln "#define BOOST_METAPARSE_V1_I800 BOOST_METAPARSE_V1_INDEX_STR896";
  ln "#define BOOST_METAPARSE_V1_I801 BOOST_METAPARSE_V1_INDEX_STR896";
  ln "#define BOOST_METAPARSE_V1_I802 BOOST_METAPARSE_V1_INDEX_STR896";
  ln "#define BOOST_METAPARSE_V1_I803 BOOST_METAPARSE_V1_INDEX_STR896";
  ln "#define BOOST_METAPARSE_V1_I804 BOOST_METAPARSE_V1_INDEX_STR896";
  ln "#define BOOST_METAPARSE_V1_I805 BOOST_METAPARSE_V1_INDEX_STR896";
  ln "#define BOOST_METAPARSE_V1_I806 BOOST_METAPARSE_V1_INDEX_STR896";
  ln "#define BOOST_METAPARSE_V1_I807 BOOST_METAPARSE_V1_INDEX_STR896";
  ln "#define BOOST_METAPARSE_V1_I808 BOOST_METAPARSE_V1_INDEX_STR896";
  ln "#define BOOST_METAPARSE_V1_I809 BOOST_METAPARSE_V1_INDEX_STR896";
  ln "#define BOOST_METAPARSE_V1_I810 BOOST_METAPARSE_V1_INDEX_STR896";
  ln "#define BOOST_METAPARSE_V1_I811 BOOST_METAPARSE_V1_INDEX_STR896";
  ln "#define BOOST_METAPARSE_V1_I812 BOOST_METAPARSE_V1_INDEX_STR896";
  ln "#define BOOST_METAPARSE_V1_I813 BOOST_METAPARSE_V1_INDEX_STR896";
  ln "#define BOOST_METAPARSE_V1_I814 BOOST_METAPARSE_V1_INDEX_STR896";
  ln "#define BOOST_METAPARSE_V1_I815 BOOST_METAPARSE_V1_INDEX_STR896";
  ln "#define BOOST_METAPARSE_V1_I816 BOOST_METAPARSE_V1_INDEX_STR896";
  ln "#define BOOST_METAPARSE_V1_I817 BOOST_METAPARSE_V1_INDEX_STR896";
  ln "#define BOOST_METAPARSE_V1_I818 BOOST_METAPARSE_V1_INDEX_STR896";
  ln "#define BOOST_METAPARSE_V1_I819 BOOST_METAPARSE_V1_INDEX_STR896";
  ln "#define BOOST_METAPARSE_V1_I820 BOOST_METAPARSE_V1_INDEX_STR896";
  ln "#define BOOST_METAPARSE_V1_I821 BOOST_METAPARSE_V1_INDEX_STR896";
  ln "#define BOOST_METAPARSE_V1_I822 BOOST_METAPARSE_V1_INDEX_STR896";
  ln "#define BOOST_METAPARSE_V1_I823 BOOST_METAPARSE_V1_INDEX_STR896";
  ln "#define BOOST_METAPARSE_V1_I824 BOOST_METAPARSE_V1_INDEX_STR896";
  ln "#define BOOST_METAPARSE_V1_I825 BOOST_METAPARSE_V1_INDEX_STR896";
  ln "#define BOOST_METAPARSE_V1_I826 BOOST_METAPARSE_V1_INDEX_STR896";
  ln "#define BOOST_METAPARSE_V1_I827 BOOST_METAPARSE_V1_INDEX_STR896";
  ln "#define BOOST_METAPARSE_V1_I828 BOOST_METAPARSE_V1_INDEX_STR896";
  ln "#define BOOST_METAPARSE_V1_I829 BOOST_METAPARSE_V1_INDEX_STR896";
  ln "#define BOOST_METAPARSE_V1_I830 BOOST_METAPARSE_V1_INDEX_STR896";
  ln "#define BOOST_METAPARSE_V1_I831 BOOST_METAPARSE_V1_INDEX_STR896";
  ln "#define BOOST_METAPARSE_V1_I832 BOOST_METAPARSE_V1_INDEX_STR896";
  ln "#define BOOST_METAPARSE_V1_I833 BOOST_METAPARSE_V1_INDEX_STR896";
  ln "#define BOOST_METAPARSE_V1_I834 BOOST_METAPARSE_V1_INDEX_STR896";
  ln "#define BOOST_METAPARSE_V1_I835 BOOST_METAPARSE_V1_INDEX_STR896";
  ln "#define BOOST_METAPARSE_V1_I836 BOOST_METAPARSE_V1_INDEX_STR896";
  ln "#define BOOST_METAPARSE_V1_I837 BOOST_METAPARSE_V1_INDEX_STR896";
  ln "#define BOOST_METAPARSE_V1_I838 BOOST_METAPARSE_V1_INDEX_STR896";
  ln "#define BOOST_METAPARSE_V1_I839 BOOST_METAPARSE_V1_INDEX_STR896";
  ln "#define BOOST_METAPARSE_V1_I840 BOOST_METAPARSE_V1_INDEX_STR896";
  ln "#define BOOST_METAPARSE_V1_I841 BOOST_METAPARSE_V1_INDEX_STR896";
  ln "#define BOOST_METAPARSE_V1_I842 BOOST_METAPARSE_V1_INDEX_STR896";
  ln "#define BOOST_METAPARSE_V1_I843 BOOST_METAPARSE_V1_INDEX_STR896";
  ln "#define BOOST_METAPARSE_V1_I844 BOOST_METAPARSE_V1_INDEX_STR896";
  ln "#define BOOST_METAPARSE_V1_I845 BOOST_METAPARSE_V1_INDEX_STR896";
  ln "#define BOOST_METAPARSE_V1_I846 BOOST_METAPARSE_V1_INDEX_STR896";
  ln "#define BOOST_METAPARSE_V1_I847 BOOST_METAPARSE_V1_INDEX_STR896";
  ln "#define BOOST_METAPARSE_V1_I848 BOOST_METAPARSE_V1_INDEX_STR896";
  ln "#define BOOST_METAPARSE_V1_I849 BOOST_METAPARSE_V1_INDEX_STR896";
  ln "#define BOOST_METAPARSE_V1_I850 BOOST_METAPARSE_V1_INDEX_STR896";
  ln "#define BOOST_METAPARSE_V1_I851 BOOST_METAPARSE_V1_INDEX_STR896";
  ln "#define BOOST_METAPARSE_V1_I852 BOOST_METAPARSE_V1_INDEX_STR896";
  ln "#define BOOST_METAPARSE_V1_I853 BOOST_METAPARSE_V1_INDEX_STR896";
  ln "#define BOOST_METAPARSE_V1_I854 BOOST_METAPARSE_V1_INDEX_STR896";
  ln "#define BOOST_METAPARSE_V1_I855 BOOST_METAPARSE_V1_INDEX_STR896";
  ln "#define BOOST_METAPARSE_V1_I856 BOOST_METAPARSE_V1_INDEX_STR896";
  ln "#define BOOST_METAPARSE_V1_I857 BOOST_METAPARSE_V1_INDEX_STR896";
  ln "#define BOOST_METAPARSE_V1_I858 BOOST_METAPARSE_V1_INDEX_STR896";
  ln "#define BOOST_METAPARSE_V1_I859 BOOST_METAPARSE_V1_INDEX_STR896";
  ln "#define BOOST_METAPARSE_V1_I860 BOOST_METAPARSE_V1_INDEX_STR896";
  ln "#define BOOST_METAPARSE_V1_I861 BOOST_METAPARSE_V1_INDEX_STR896";
  ln "#define BOOST_METAPARSE_V1_I862 BOOST_METAPARSE_V1_INDEX_STR896";
  ln "#define BOOST_METAPARSE_V1_I863 BOOST_METAPARSE_V1_INDEX_STR896";
  ln "#define BOOST_METAPARSE_V1_I864 BOOST_METAPARSE_V1_INDEX_STR896";
  ln "#define BOOST_METAPARSE_V1_I865 BOOST_METAPARSE_V1_INDEX_STR896";
  ln "#define BOOST_METAPARSE_V1_I866 BOOST_METAPARSE_V1_INDEX_STR896";
  ln "#define BOOST_METAPARSE_V1_I867 BOOST_METAPARSE_V1_INDEX_STR896";
  ln "#define BOOST_METAPARSE_V1_I868 BOOST_METAPARSE_V1_INDEX_STR896";
  ln "#define BOOST_METAPARSE_V1_I869 BOOST_METAPARSE_V1_INDEX_STR896";
  ln "#define BOOST_METAPARSE_V1_I870 BOOST_METAPARSE_V1_INDEX_STR896";
  ln "#define BOOST_METAPARSE_V1_I871 BOOST_METAPARSE_V1_INDEX_STR896";
  ln "#define BOOST_METAPARSE_V1_I872 BOOST_METAPARSE_V1_INDEX_STR896";
  ln "#define BOOST_METAPARSE_V1_I873 BOOST_METAPARSE_V1_INDEX_STR896";
  ln "#define BOOST_METAPARSE_V1_I874 BOOST_METAPARSE_V1_INDEX_STR896";
  ln "#define BOOST_METAPARSE_V1_I875 BOOST_METAPARSE_V1_INDEX_STR896";
  ln "#define BOOST_METAPARSE_V1_I876 BOOST_METAPARSE_V1_INDEX_STR896";
  ln "#define BOOST_METAPARSE_V1_I877 BOOST_METAPARSE_V1_INDEX_STR896";
  ln "#define BOOST_METAPARSE_V1_I878 BOOST_METAPARSE_V1_INDEX_STR896";
  ln "#define BOOST_METAPARSE_V1_I879 BOOST_METAPARSE_V1_INDEX_STR896";
  ln "#define BOOST_METAPARSE_V1_I880 BOOST_METAPARSE_V1_INDEX_STR896";
  ln "#define BOOST_METAPARSE_V1_I881 BOOST_METAPARSE_V1_INDEX_STR896";
  ln "#define BOOST_METAPARSE_V1_I882 BOOST_METAPARSE_V1_INDEX_STR896";
  ln "#define BOOST_METAPARSE_V1_I883 BOOST_METAPARSE_V1_INDEX_STR896";
  ln "#define BOOST_METAPARSE_V1_I884 BOOST_METAPARSE_V1_INDEX_STR896";
  ln "#define BOOST_METAPARSE_V1_I885 BOOST_METAPARSE_V1_INDEX_STR896";
  ln "#define BOOST_METAPARSE_V1_I886 BOOST_METAPARSE_V1_INDEX_STR896";
  ln "#define BOOST_METAPARSE_V1_I887 BOOST_METAPARSE_V1_INDEX_STR896";
  ln "#define BOOST_METAPARSE_V1_I888 BOOST_METAPARSE_V1_INDEX_STR896";
  ln "#define BOOST_METAPARSE_V1_I889 BOOST_METAPARSE_V1_INDEX_STR896";
  ln "#define BOOST_METAPARSE_V1_I890 BOOST_METAPARSE_V1_INDEX_STR896";
  ln "#define BOOST_METAPARSE_V1_I891 BOOST_METAPARSE_V1_INDEX_STR896";
  ln "#define BOOST_METAPARSE_V1_I892 BOOST_METAPARSE_V1_INDEX_STR896";
  ln "#define BOOST_METAPARSE_V1_I893 BOOST_METAPARSE_V1_INDEX_STR896";
  ln "#define BOOST_METAPARSE_V1_I894 BOOST_METAPARSE_V1_INDEX_STR896";
  ln "#define BOOST_METAPARSE_V1_I895 BOOST_METAPARSE_V1_INDEX_STR896";
  ln "#define BOOST_METAPARSE_V1_I896 BOOST_METAPARSE_V1_INDEX_STR896";
  ln "#define BOOST_METAPARSE_V1_I897 BOOST_METAPARSE_V1_INDEX_STR1024";
  ln "#define BOOST_METAPARSE_V1_I898 BOOST_METAPARSE_V1_INDEX_STR1024";
  ln "#define BOOST_METAPARSE_V1_I899 BOOST_METAPARSE_V1_INDEX_STR1024";
  ln "#define BOOST_METAPARSE_V1_I900 BOOST_METAPARSE_V1_INDEX_STR1024";
  ln "#define BOOST_METAPARSE_V1_I901 BOOST_METAPARSE_V1_INDEX_STR1024";
  ln "#define BOOST_METAPARSE_V1_I902 BOOST_METAPARSE_V1_INDEX_STR1024";
  ln "#define BOOST_METAPARSE_V1_I903 BOOST_METAPARSE_V1_INDEX_STR1024";
  ln "#define BOOST_METAPARSE_V1_I904 BOOST_METAPARSE_V1_INDEX_STR1024";
  ln "#define BOOST_METAPARSE_V1_I905 BOOST_METAPARSE_V1_INDEX_STR1024";
  ln "#define BOOST_METAPARSE_V1_I906 BOOST_METAPARSE_V1_INDEX_STR1024";
  ln "#define BOOST_METAPARSE_V1_I907 BOOST_METAPARSE_V1_INDEX_STR1024";
  ln "#define BOOST_METAPARSE_V1_I908 BOOST_METAPARSE_V1_INDEX_STR1024";
  ln "#define BOOST_METAPARSE_V1_I909 BOOST_METAPARSE_V1_INDEX_STR1024";
  ln "#define BOOST_METAPARSE_V1_I910 BOOST_METAPARSE_V1_INDEX_STR1024";
  ln "#define BOOST_METAPARSE_V1_I911 BOOST_METAPARSE_V1_INDEX_STR1024";
  ln "#define BOOST_METAPARSE_V1_I912 BOOST_METAPARSE_V1_INDEX_STR1024";
  ln "#define BOOST_METAPARSE_V1_I913 BOOST_METAPARSE_V1_INDEX_STR1024";
  ln "#define BOOST_METAPARSE_V1_I914 BOOST_METAPARSE_V1_INDEX_STR1024";
  ln "#define BOOST_METAPARSE_V1_I915 BOOST_METAPARSE_V1_INDEX_STR1024";
  ln "#define BOOST_METAPARSE_V1_I916 BOOST_METAPARSE_V1_INDEX_STR1024";
  ln "#define BOOST_METAPARSE_V1_I917 BOOST_METAPARSE_V1_INDEX_STR1024";
  ln "#define BOOST_METAPARSE_V1_I918 BOOST_METAPARSE_V1_INDEX_STR1024";
  ln "#define BOOST_METAPARSE_V1_I919 BOOST_METAPARSE_V1_INDEX_STR1024";
  ln "#define BOOST_METAPARSE_V1_I920 BOOST_METAPARSE_V1_INDEX_STR1024";
  ln "#define BOOST_METAPARSE_V1_I921 BOOST_METAPARSE_V1_INDEX_STR1024";
  ln "#define BOOST_METAPARSE_V1_I922 BOOST_METAPARSE_V1_INDEX_STR1024";
  ln "#define BOOST_METAPARSE_V1_I923 BOOST_METAPARSE_V1_INDEX_STR1024";
  ln "#define BOOST_METAPARSE_V1_I924 BOOST_METAPARSE_V1_INDEX_STR1024";
  ln "#define BOOST_METAPARSE_V1_I925 BOOST_METAPARSE_V1_INDEX_STR1024";
  ln "#define BOOST_METAPARSE_V1_I926 BOOST_METAPARSE_V1_INDEX_STR1024";
  ln "#define BOOST_METAPARSE_V1_I927 BOOST_METAPARSE_V1_INDEX_STR1024";
  ln "#define BOOST_METAPARSE_V1_I928 BOOST_METAPARSE_V1_INDEX_STR1024";
  ln "#define BOOST_METAPARSE_V1_I929 BOOST_METAPARSE_V1_INDEX_STR1024";
  ln "#define BOOST_METAPARSE_V1_I930 BOOST_METAPARSE_V1_INDEX_STR1024";
  ln "#define BOOST_METAPARSE_V1_I931 BOOST_METAPARSE_V1_INDEX_STR1024";
  ln "#define BOOST_METAPARSE_V1_I932 BOOST_METAPARSE_V1_INDEX_STR1024";
  ln "#define BOOST_METAPARSE_V1_I933 BOOST_METAPARSE_V1_INDEX_STR1024";
  ln "#define BOOST_METAPARSE_V1_I934 BOOST_METAPARSE_V1_INDEX_STR1024";
  ln "#define BOOST_METAPARSE_V1_I935 BOOST_METAPARSE_V1_INDEX_STR1024";
  ln "#define BOOST_METAPARSE_V1_I936 BOOST_METAPARSE_V1_INDEX_STR1024";
  ln "#define BOOST_METAPARSE_V1_I937 BOOST_METAPARSE_V1_INDEX_STR1024";
  ln "#define BOOST_METAPARSE_V1_I938 BOOST_METAPARSE_V1_INDEX_STR1024";
  ln "#define BOOST_METAPARSE_V1_I939 BOOST_METAPARSE_V1_INDEX_STR1024";
  ln "#define BOOST_METAPARSE_V1_I940 BOOST_METAPARSE_V1_INDEX_STR1024";
  ln "#define BOOST_METAPARSE_V1_I941 BOOST_METAPARSE_V1_INDEX_STR1024";
  ln "#define BOOST_METAPARSE_V1_I942 BOOST_METAPARSE_V1_INDEX_STR1024";
  ln "#define BOOST_METAPARSE_V1_I943 BOOST_METAPARSE_V1_INDEX_STR1024";
  ln "#define BOOST_METAPARSE_V1_I944 BOOST_METAPARSE_V1_INDEX_STR1024";
  ln "#define BOOST_METAPARSE_V1_I945 BOOST_METAPARSE_V1_INDEX_STR1024";
  ln "#define BOOST_METAPARSE_V1_I946 BOOST_METAPARSE_V1_INDEX_STR1024";
  ln "#define BOOST_METAPARSE_V1_I947 BOOST_METAPARSE_V1_INDEX_STR1024";
  ln "#define BOOST_METAPARSE_V1_I948 BOOST_METAPARSE_V1_INDEX_STR1024";
  ln "#define BOOST_METAPARSE_V1_I949 BOOST_METAPARSE_V1_INDEX_STR1024";
  ln "#define BOOST_METAPARSE_V1_I950 BOOST_METAPARSE_V1_INDEX_STR1024";
  ln "#define BOOST_METAPARSE_V1_I951 BOOST_METAPARSE_V1_INDEX_STR1024";
  ln "#define BOOST_METAPARSE_V1_I952 BOOST_METAPARSE_V1_INDEX_STR1024";
  ln "#define BOOST_METAPARSE_V1_I953 BOOST_METAPARSE_V1_INDEX_STR1024";
  ln "#define BOOST_METAPARSE_V1_I954 BOOST_METAPARSE_V1_INDEX_STR1024";
  ln "#define BOOST_METAPARSE_V1_I955 BOOST_METAPARSE_V1_INDEX_STR1024";
  ln "#define BOOST_METAPARSE_V1_I956 BOOST_METAPARSE_V1_INDEX_STR1024";
  ln "#define BOOST_METAPARSE_V1_I957 BOOST_METAPARSE_V1_INDEX_STR1024";
  ln "#define BOOST_METAPARSE_V1_I958 BOOST_METAPARSE_V1_INDEX_STR1024";
  ln "#define BOOST_METAPARSE_V1_I959 BOOST_METAPARSE_V1_INDEX_STR1024";
  ln "#define BOOST_METAPARSE_V1_I960 BOOST_METAPARSE_V1_INDEX_STR1024";
  ln "#define BOOST_METAPARSE_V1_I961 BOOST_METAPARSE_V1_INDEX_STR1024";
  ln "#define BOOST_METAPARSE_V1_I962 BOOST_METAPARSE_V1_INDEX_STR1024";
  ln "#define BOOST_METAPARSE_V1_I963 BOOST_METAPARSE_V1_INDEX_STR1024";
  ln "#define BOOST_METAPARSE_V1_I964 BOOST_METAPARSE_V1_INDEX_STR1024";
  ln "#define BOOST_METAPARSE_V1_I965 BOOST_METAPARSE_V1_INDEX_STR1024";
  ln "#define BOOST_METAPARSE_V1_I966 BOOST_METAPARSE_V1_INDEX_STR1024";
  ln "#define BOOST_METAPARSE_V1_I967 BOOST_METAPARSE_V1_INDEX_STR1024";
  ln "#define BOOST_METAPARSE_V1_I968 BOOST_METAPARSE_V1_INDEX_STR1024";
  ln "#define BOOST_METAPARSE_V1_I969 BOOST_METAPARSE_V1_INDEX_STR1024";
  ln "#define BOOST_METAPARSE_V1_I970 BOOST_METAPARSE_V1_INDEX_STR1024";
  ln "#define BOOST_METAPARSE_V1_I971 BOOST_METAPARSE_V1_INDEX_STR1024";
  ln "#define BOOST_METAPARSE_V1_I972 BOOST_METAPARSE_V1_INDEX_STR1024";
  ln "#define BOOST_METAPARSE_V1_I973 BOOST_METAPARSE_V1_INDEX_STR1024";
  ln "#define BOOST_METAPARSE_V1_I974 BOOST_METAPARSE_V1_INDEX_STR1024";
  ln "#define BOOST_METAPARSE_V1_I975 BOOST_METAPARSE_V1_INDEX_STR1024";
  ln "#define BOOST_METAPARSE_V1_I976 BOOST_METAPARSE_V1_INDEX_STR1024";
  ln "#define BOOST_METAPARSE_V1_I977 BOOST_METAPARSE_V1_INDEX_STR1024";
  ln "#define BOOST_METAPARSE_V1_I978 BOOST_METAPARSE_V1_INDEX_STR1024";
  ln "#define BOOST_METAPARSE_V1_I979 BOOST_METAPARSE_V1_INDEX_STR1024";
  ln "#define BOOST_METAPARSE_V1_I980 BOOST_METAPARSE_V1_INDEX_STR1024";
  ln "#define BOOST_METAPARSE_V1_I981 BOOST_METAPARSE_V1_INDEX_STR1024";
  ln "#define BOOST_METAPARSE_V1_I982 BOOST_METAPARSE_V1_INDEX_STR1024";
  ln "#define BOOST_METAPARSE_V1_I983 BOOST_METAPARSE_V1_INDEX_STR1024";
  ln "#define BOOST_METAPARSE_V1_I984 BOOST_METAPARSE_V1_INDEX_STR1024";
  ln "#define BOOST_METAPARSE_V1_I985 BOOST_METAPARSE_V1_INDEX_STR1024";
  ln "#define BOOST_METAPARSE_V1_I986 BOOST_METAPARSE_V1_INDEX_STR1024";
  ln "#define BOOST_METAPARSE_V1_I987 BOOST_METAPARSE_V1_INDEX_STR1024";
  ln "#define BOOST_METAPARSE_V1_I988 BOOST_METAPARSE_V1_INDEX_STR1024";
  ln "#define BOOST_METAPARSE_V1_I989 BOOST_METAPARSE_V1_INDEX_STR1024";
  ln "#define BOOST_METAPARSE_V1_I990 BOOST_METAPARSE_V1_INDEX_STR1024";
  ln "#define BOOST_METAPARSE_V1_I991 BOOST_METAPARSE_V1_INDEX_STR1024";
  ln "#define BOOST_METAPARSE_V1_I992 BOOST_METAPARSE_V1_INDEX_STR1024";
  ln "#define BOOST_METAPARSE_V1_I993 BOOST_METAPARSE_V1_INDEX_STR1024";
  ln "#define BOOST_METAPARSE_V1_I994 BOOST_METAPARSE_V1_INDEX_STR1024";
  ln "#define BOOST_METAPARSE_V1_I995 BOOST_METAPARSE_V1_INDEX_STR1024";
  ln "#define BOOST_METAPARSE_V1_I996 BOOST_METAPARSE_V1_INDEX_STR1024";
  ln "#define BOOST_METAPARSE_V1_I997 BOOST_METAPARSE_V1_INDEX_STR1024";
  ln "#define BOOST_METAPARSE_V1_I998 BOOST_METAPARSE_V1_INDEX_STR1024";
  ln "#define BOOST_METAPARSE_V1_I999 BOOST_METAPARSE_V1_INDEX_STR1024";
  ln "#define BOOST_METAPARSE_V1_I1000 BOOST_METAPARSE_V1_INDEX_STR1024";
  ln "#define BOOST_METAPARSE_V1_I1001 BOOST_METAPARSE_V1_INDEX_STR1024";
  ln "#define BOOST_METAPARSE_V1_I1002 BOOST_METAPARSE_V1_INDEX_STR1024";
  ln "#define BOOST_METAPARSE_V1_I1003 BOOST_METAPARSE_V1_INDEX_STR1024";
  ln "#define BOOST_METAPARSE_V1_I1004 BOOST_METAPARSE_V1_INDEX_STR1024";
  ln "#define BOOST_METAPARSE_V1_I1005 BOOST_METAPARSE_V1_INDEX_STR1024";
  ln "#define BOOST_METAPARSE_V1_I1006 BOOST_METAPARSE_V1_INDEX_STR1024";
  ln "#define BOOST_METAPARSE_V1_I1007 BOOST_METAPARSE_V1_INDEX_STR1024";
  ln "#define BOOST_METAPARSE_V1_I1008 BOOST_METAPARSE_V1_INDEX_STR1024";
  ln "#define BOOST_METAPARSE_V1_I1009 BOOST_METAPARSE_V1_INDEX_STR1024";
  ln "#define BOOST_METAPARSE_V1_I1010 BOOST_METAPARSE_V1_INDEX_STR1024";
  ln "#define BOOST_METAPARSE_V1_I1011 BOOST_METAPARSE_V1_INDEX_STR1024";
  ln "#define BOOST_METAPARSE_V1_I1012 BOOST_METAPARSE_V1_INDEX_STR1024";
  ln "#define BOOST_METAPARSE_V1_I1013 BOOST_METAPARSE_V1_INDEX_STR1024";
  ln "#define BOOST_METAPARSE_V1_I1014 BOOST_METAPARSE_V1_INDEX_STR1024";
  ln "#define BOOST_METAPARSE_V1_I1015 BOOST_METAPARSE_V1_INDEX_STR1024";
  ln "#define BOOST_METAPARSE_V1_I1016 BOOST_METAPARSE_V1_INDEX_STR1024";
  ln "#define BOOST_METAPARSE_V1_I1017 BOOST_METAPARSE_V1_INDEX_STR1024";
  ln "#define BOOST_METAPARSE_V1_I1018 BOOST_METAPARSE_V1_INDEX_STR1024";
  ln "#define BOOST_METAPARSE_V1_I1019 BOOST_METAPARSE_V1_INDEX_STR1024";
  ln "#define BOOST_METAPARSE_V1_I1020 BOOST_METAPARSE_V1_INDEX_STR1024";
  ln "#define BOOST_METAPARSE_V1_I1021 BOOST_METAPARSE_V1_INDEX_STR1024";
  ln "#define BOOST_METAPARSE_V1_I1022 BOOST_METAPARSE_V1_INDEX_STR1024";
  ln "#define BOOST_METAPARSE_V1_I1023 BOOST_METAPARSE_V1_INDEX_STR1024";
  ln "#define BOOST_METAPARSE_V1_I1024 BOOST_METAPARSE_V1_INDEX_STR1024";
  ln "#define BOOST_METAPARSE_V1_I1025 BOOST_METAPARSE_V1_INDEX_STR1152";
  ln "#define BOOST_METAPARSE_V1_I1026 BOOST_METAPARSE_V1_INDEX_STR1152";
  ln "#define BOOST_METAPARSE_V1_I1027 BOOST_METAPARSE_V1_INDEX_STR1152";
  ln "#define BOOST_METAPARSE_V1_I1028 BOOST_METAPARSE_V1_INDEX_STR1152";
  ln "#define BOOST_METAPARSE_V1_I1029 BOOST_METAPARSE_V1_INDEX_STR1152";
  ln "#define BOOST_METAPARSE_V1_I1030 BOOST_METAPARSE_V1_INDEX_STR1152";
  ln "#define BOOST_METAPARSE_V1_I1031 BOOST_METAPARSE_V1_INDEX_STR1152";
  ln "#define BOOST_METAPARSE_V1_I1032 BOOST_METAPARSE_V1_INDEX_STR1152";
  ln "#define BOOST_METAPARSE_V1_I1033 BOOST_METAPARSE_V1_INDEX_STR1152";
  ln "#define BOOST_METAPARSE_V1_I1034 BOOST_METAPARSE_V1_INDEX_STR1152";
  ln "#define BOOST_METAPARSE_V1_I1035 BOOST_METAPARSE_V1_INDEX_STR1152";
  ln "#define BOOST_METAPARSE_V1_I1036 BOOST_METAPARSE_V1_INDEX_STR1152";
  ln "#define BOOST_METAPARSE_V1_I1037 BOOST_METAPARSE_V1_INDEX_STR1152";
  ln "#define BOOST_METAPARSE_V1_I1038 BOOST_METAPARSE_V1_INDEX_STR1152";
  ln "#define BOOST_METAPARSE_V1_I1039 BOOST_METAPARSE_V1_INDEX_STR1152";
  ln "#define BOOST_METAPARSE_V1_I1040 BOOST_METAPARSE_V1_INDEX_STR1152";
  ln "#define BOOST_METAPARSE_V1_I1041 BOOST_METAPARSE_V1_INDEX_STR1152";
  ln "#define BOOST_METAPARSE_V1_I1042 BOOST_METAPARSE_V1_INDEX_STR1152";
  ln "#define BOOST_METAPARSE_V1_I1043 BOOST_METAPARSE_V1_INDEX_STR1152";
  ln "#define BOOST_METAPARSE_V1_I1044 BOOST_METAPARSE_V1_INDEX_STR1152";
  ln "#define BOOST_METAPARSE_V1_I1045 BOOST_METAPARSE_V1_INDEX_STR1152";
  ln "#define BOOST_METAPARSE_V1_I1046 BOOST_METAPARSE_V1_INDEX_STR1152";
  ln "#define BOOST_METAPARSE_V1_I1047 BOOST_METAPARSE_V1_INDEX_STR1152";
  ln "#define BOOST_METAPARSE_V1_I1048 BOOST_METAPARSE_V1_INDEX_STR1152";
  ln "#define BOOST_METAPARSE_V1_I1049 BOOST_METAPARSE_V1_INDEX_STR1152";
  ln "#define BOOST_METAPARSE_V1_I1050 BOOST_METAPARSE_V1_INDEX_STR1152";
  ln "#define BOOST_METAPARSE_V1_I1051 BOOST_METAPARSE_V1_INDEX_STR1152";
  ln "#define BOOST_METAPARSE_V1_I1052 BOOST_METAPARSE_V1_INDEX_STR1152";
  ln "#define BOOST_METAPARSE_V1_I1053 BOOST_METAPARSE_V1_INDEX_STR1152";
  ln "#define BOOST_METAPARSE_V1_I1054 BOOST_METAPARSE_V1_INDEX_STR1152";
  ln "#define BOOST_METAPARSE_V1_I1055 BOOST_METAPARSE_V1_INDEX_STR1152";
  ln "#define BOOST_METAPARSE_V1_I1056 BOOST_METAPARSE_V1_INDEX_STR1152";
  ln "#define BOOST_METAPARSE_V1_I1057 BOOST_METAPARSE_V1_INDEX_STR1152";
  ln "#define BOOST_METAPARSE_V1_I1058 BOOST_METAPARSE_V1_INDEX_STR1152";
  ln "#define BOOST_METAPARSE_V1_I1059 BOOST_METAPARSE_V1_INDEX_STR1152";
  ln "#define BOOST_METAPARSE_V1_I1060 BOOST_METAPARSE_V1_INDEX_STR1152";
  ln "#define BOOST_METAPARSE_V1_I1061 BOOST_METAPARSE_V1_INDEX_STR1152";
  ln "#define BOOST_METAPARSE_V1_I1062 BOOST_METAPARSE_V1_INDEX_STR1152";
  ln "#define BOOST_METAPARSE_V1_I1063 BOOST_METAPARSE_V1_INDEX_STR1152";
  ln "#define BOOST_METAPARSE_V1_I1064 BOOST_METAPARSE_V1_INDEX_STR1152";
  ln "#define BOOST_METAPARSE_V1_I1065 BOOST_METAPARSE_V1_INDEX_STR1152";
  ln "#define BOOST_METAPARSE_V1_I1066 BOOST_METAPARSE_V1_INDEX_STR1152";
  ln "#define BOOST_METAPARSE_V1_I1067 BOOST_METAPARSE_V1_INDEX_STR1152";
  ln "#define BOOST_METAPARSE_V1_I1068 BOOST_METAPARSE_V1_INDEX_STR1152";
  ln "#define BOOST_METAPARSE_V1_I1069 BOOST_METAPARSE_V1_INDEX_STR1152";
  ln "#define BOOST_METAPARSE_V1_I1070 BOOST_METAPARSE_V1_INDEX_STR1152";
  ln "#define BOOST_METAPARSE_V1_I1071 BOOST_METAPARSE_V1_INDEX_STR1152";
  ln "#define BOOST_METAPARSE_V1_I1072 BOOST_METAPARSE_V1_INDEX_STR1152";
  ln "#define BOOST_METAPARSE_V1_I1073 BOOST_METAPARSE_V1_INDEX_STR1152";
  ln "#define BOOST_METAPARSE_V1_I1074 BOOST_METAPARSE_V1_INDEX_STR1152";
  ln "#define BOOST_METAPARSE_V1_I1075 BOOST_METAPARSE_V1_INDEX_STR1152";
  ln "#define BOOST_METAPARSE_V1_I1076 BOOST_METAPARSE_V1_INDEX_STR1152";
  ln "#define BOOST_METAPARSE_V1_I1077 BOOST_METAPARSE_V1_INDEX_STR1152";
  ln "#define BOOST_METAPARSE_V1_I1078 BOOST_METAPARSE_V1_INDEX_STR1152";
  ln "#define BOOST_METAPARSE_V1_I1079 BOOST_METAPARSE_V1_INDEX_STR1152";
  ln "#define BOOST_METAPARSE_V1_I1080 BOOST_METAPARSE_V1_INDEX_STR1152";
  ln "#define BOOST_METAPARSE_V1_I1081 BOOST_METAPARSE_V1_INDEX_STR1152";
  ln "#define BOOST_METAPARSE_V1_I1082 BOOST_METAPARSE_V1_INDEX_STR1152";
  ln "#define BOOST_METAPARSE_V1_I1083 BOOST_METAPARSE_V1_INDEX_STR1152";
  ln "#define BOOST_METAPARSE_V1_I1084 BOOST_METAPARSE_V1_INDEX_STR1152";
  ln "#define BOOST_METAPARSE_V1_I1085 BOOST_METAPARSE_V1_INDEX_STR1152";
  ln "#define BOOST_METAPARSE_V1_I1086 BOOST_METAPARSE_V1_INDEX_STR1152";
  ln "#define BOOST_METAPARSE_V1_I1087 BOOST_METAPARSE_V1_INDEX_STR1152";
  ln "#define BOOST_METAPARSE_V1_I1088 BOOST_METAPARSE_V1_INDEX_STR1152";
  ln "#define BOOST_METAPARSE_V1_I1089 BOOST_METAPARSE_V1_INDEX_STR1152";
  ln "#define BOOST_METAPARSE_V1_I1090 BOOST_METAPARSE_V1_INDEX_STR1152";
  ln "#define BOOST_METAPARSE_V1_I1091 BOOST_METAPARSE_V1_INDEX_STR1152";
  ln "#define BOOST_METAPARSE_V1_I1092 BOOST_METAPARSE_V1_INDEX_STR1152";
  ln "#define BOOST_METAPARSE_V1_I1093 BOOST_METAPARSE_V1_INDEX_STR1152";
  ln "#define BOOST_METAPARSE_V1_I1094 BOOST_METAPARSE_V1_INDEX_STR1152";
  ln "#define BOOST_METAPARSE_V1_I1095 BOOST_METAPARSE_V1_INDEX_STR1152";
  ln "#define BOOST_METAPARSE_V1_I1096 BOOST_METAPARSE_V1_INDEX_STR1152";
  ln "#define BOOST_METAPARSE_V1_I1097 BOOST_METAPARSE_V1_INDEX_STR1152";
  ln "#define BOOST_METAPARSE_V1_I1098 BOOST_METAPARSE_V1_INDEX_STR1152";
  ln "#define BOOST_METAPARSE_V1_I1099 BOOST_METAPARSE_V1_INDEX_STR1152";
  ln "#define BOOST_METAPARSE_V1_I1100 BOOST_METAPARSE_V1_INDEX_STR1152";
  ln "#define BOOST_METAPARSE_V1_I1101 BOOST_METAPARSE_V1_INDEX_STR1152";
  ln "#define BOOST_METAPARSE_V1_I1102 BOOST_METAPARSE_V1_INDEX_STR1152";
  ln "#define BOOST_METAPARSE_V1_I1103 BOOST_METAPARSE_V1_INDEX_STR1152";
  ln "#define BOOST_METAPARSE_V1_I1104 BOOST_METAPARSE_V1_INDEX_STR1152";
  ln "#define BOOST_METAPARSE_V1_I1105 BOOST_METAPARSE_V1_INDEX_STR1152";
  ln "#define BOOST_METAPARSE_V1_I1106 BOOST_METAPARSE_V1_INDEX_STR1152";
  ln "#define BOOST_METAPARSE_V1_I1107 BOOST_METAPARSE_V1_INDEX_STR1152";
  ln "#define BOOST_METAPARSE_V1_I1108 BOOST_METAPARSE_V1_INDEX_STR1152";
  ln "#define BOOST_METAPARSE_V1_I1109 BOOST_METAPARSE_V1_INDEX_STR1152";
  ln "#define BOOST_METAPARSE_V1_I1110 BOOST_METAPARSE_V1_INDEX_STR1152";
  ln "#define BOOST_METAPARSE_V1_I1111 BOOST_METAPARSE_V1_INDEX_STR1152";
  ln "#define BOOST_METAPARSE_V1_I1112 BOOST_METAPARSE_V1_INDEX_STR1152";
  ln "#define BOOST_METAPARSE_V1_I1113 BOOST_METAPARSE_V1_INDEX_STR1152";
  ln "#define BOOST_METAPARSE_V1_I1114 BOOST_METAPARSE_V1_INDEX_STR1152";
  ln "#define BOOST_METAPARSE_V1_I1115 BOOST_METAPARSE_V1_INDEX_STR1152";
  ln "#define BOOST_METAPARSE_V1_I1116 BOOST_METAPARSE_V1_INDEX_STR1152";
  ln "#define BOOST_METAPARSE_V1_I1117 BOOST_METAPARSE_V1_INDEX_STR1152";
  ln "#define BOOST_METAPARSE_V1_I1118 BOOST_METAPARSE_V1_INDEX_STR1152";
  ln "#define BOOST_METAPARSE_V1_I1119 BOOST_METAPARSE_V1_INDEX_STR1152";
  ln "#define BOOST_METAPARSE_V1_I1120 BOOST_METAPARSE_V1_INDEX_STR1152";
  ln "#define BOOST_METAPARSE_V1_I1121 BOOST_METAPARSE_V1_INDEX_STR1152";
  ln "#define BOOST_METAPARSE_V1_I1122 BOOST_METAPARSE_V1_INDEX_STR1152";
  ln "#define BOOST_METAPARSE_V1_I1123 BOOST_METAPARSE_V1_INDEX_STR1152";
  ln "#define BOOST_METAPARSE_V1_I1124 BOOST_METAPARSE_V1_INDEX_STR1152";
  ln "#define BOOST_METAPARSE_V1_I1125 BOOST_METAPARSE_V1_INDEX_STR1152";
  ln "#define BOOST_METAPARSE_V1_I1126 BOOST_METAPARSE_V1_INDEX_STR1152";
  ln "#define BOOST_METAPARSE_V1_I1127 BOOST_METAPARSE_V1_INDEX_STR1152";
  ln "#define BOOST_METAPARSE_V1_I1128 BOOST_METAPARSE_V1_INDEX_STR1152";
  ln "#define BOOST_METAPARSE_V1_I1129 BOOST_METAPARSE_V1_INDEX_STR1152";
  ln "#define BOOST_METAPARSE_V1_I1130 BOOST_METAPARSE_V1_INDEX_STR1152";
  ln "#define BOOST_METAPARSE_V1_I1131 BOOST_METAPARSE_V1_INDEX_STR1152";
  ln "#define BOOST_METAPARSE_V1_I1132 BOOST_METAPARSE_V1_INDEX_STR1152";
  ln "#define BOOST_METAPARSE_V1_I1133 BOOST_METAPARSE_V1_INDEX_STR1152";
  ln "#define BOOST_METAPARSE_V1_I1134 BOOST_METAPARSE_V1_INDEX_STR1152";
  ln "#define BOOST_METAPARSE_V1_I1135 BOOST_METAPARSE_V1_INDEX_STR1152";
  ln "#define BOOST_METAPARSE_V1_I1136 BOOST_METAPARSE_V1_INDEX_STR1152";
  ln "#define BOOST_METAPARSE_V1_I1137 BOOST_METAPARSE_V1_INDEX_STR1152";
  ln "#define BOOST_METAPARSE_V1_I1138 BOOST_METAPARSE_V1_INDEX_STR1152";
  ln "#define BOOST_METAPARSE_V1_I1139 BOOST_METAPARSE_V1_INDEX_STR1152";
  ln "#define BOOST_METAPARSE_V1_I1140 BOOST_METAPARSE_V1_INDEX_STR1152";
  ln "#define BOOST_METAPARSE_V1_I1141 BOOST_METAPARSE_V1_INDEX_STR1152";
  ln "#define BOOST_METAPARSE_V1_I1142 BOOST_METAPARSE_V1_INDEX_STR1152";
  ln "#define BOOST_METAPARSE_V1_I1143 BOOST_METAPARSE_V1_INDEX_STR1152";
  ln "#define BOOST_METAPARSE_V1_I1144 BOOST_METAPARSE_V1_INDEX_STR1152";
  ln "#define BOOST_METAPARSE_V1_I1145 BOOST_METAPARSE_V1_INDEX_STR1152";
  ln "#define BOOST_METAPARSE_V1_I1146 BOOST_METAPARSE_V1_INDEX_STR1152";
  ln "#define BOOST_METAPARSE_V1_I1147 BOOST_METAPARSE_V1_INDEX_STR1152";
  ln "#define BOOST_METAPARSE_V1_I1148 BOOST_METAPARSE_V1_INDEX_STR1152";
  ln "#define BOOST_METAPARSE_V1_I1149 BOOST_METAPARSE_V1_INDEX_STR1152";
  ln "#define BOOST_METAPARSE_V1_I1150 BOOST_METAPARSE_V1_INDEX_STR1152";
  ln "#define BOOST_METAPARSE_V1_I1151 BOOST_METAPARSE_V1_INDEX_STR1152";
  ln "#define BOOST_METAPARSE_V1_I1152 BOOST_METAPARSE_V1_INDEX_STR1152";
  ln "#define BOOST_METAPARSE_V1_I1153 BOOST_METAPARSE_V1_INDEX_STR1280";
  ln "#define BOOST_METAPARSE_V1_I1154 BOOST_METAPARSE_V1_INDEX_STR1280";
  ln "#define BOOST_METAPARSE_V1_I1155 BOOST_METAPARSE_V1_INDEX_STR1280";
  ln "#define BOOST_METAPARSE_V1_I1156 BOOST_METAPARSE_V1_INDEX_STR1280";
  ln "#define BOOST_METAPARSE_V1_I1157 BOOST_METAPARSE_V1_INDEX_STR1280";
  ln "#define BOOST_METAPARSE_V1_I1158 BOOST_METAPARSE_V1_INDEX_STR1280";
  ln "#define BOOST_METAPARSE_V1_I1159 BOOST_METAPARSE_V1_INDEX_STR1280";
  ln "#define BOOST_METAPARSE_V1_I1160 BOOST_METAPARSE_V1_INDEX_STR1280";
  ln "#define BOOST_METAPARSE_V1_I1161 BOOST_METAPARSE_V1_INDEX_STR1280";
  ln "#define BOOST_METAPARSE_V1_I1162 BOOST_METAPARSE_V1_INDEX_STR1280";
  ln "#define BOOST_METAPARSE_V1_I1163 BOOST_METAPARSE_V1_INDEX_STR1280";
  ln "#define BOOST_METAPARSE_V1_I1164 BOOST_METAPARSE_V1_INDEX_STR1280";
  ln "#define BOOST_METAPARSE_V1_I1165 BOOST_METAPARSE_V1_INDEX_STR1280";
  ln "#define BOOST_METAPARSE_V1_I1166 BOOST_METAPARSE_V1_INDEX_STR1280";
  ln "#define BOOST_METAPARSE_V1_I1167 BOOST_METAPARSE_V1_INDEX_STR1280";
  ln "#define BOOST_METAPARSE_V1_I1168 BOOST_METAPARSE_V1_INDEX_STR1280";
  ln "#define BOOST_METAPARSE_V1_I1169 BOOST_METAPARSE_V1_INDEX_STR1280";
  ln "#define BOOST_METAPARSE_V1_I1170 BOOST_METAPARSE_V1_INDEX_STR1280";
  ln "#define BOOST_METAPARSE_V1_I1171 BOOST_METAPARSE_V1_INDEX_STR1280";
  ln "#define BOOST_METAPARSE_V1_I1172 BOOST_METAPARSE_V1_INDEX_STR1280";
  ln "#define BOOST_METAPARSE_V1_I1173 BOOST_METAPARSE_V1_INDEX_STR1280";
  ln "#define BOOST_METAPARSE_V1_I1174 BOOST_METAPARSE_V1_INDEX_STR1280";
  ln "#define BOOST_METAPARSE_V1_I1175 BOOST_METAPARSE_V1_INDEX_STR1280";
  ln "#define BOOST_METAPARSE_V1_I1176 BOOST_METAPARSE_V1_INDEX_STR1280";
  ln "#define BOOST_METAPARSE_V1_I1177 BOOST_METAPARSE_V1_INDEX_STR1280";
  ln "#define BOOST_METAPARSE_V1_I1178 BOOST_METAPARSE_V1_INDEX_STR1280";
  ln "#define BOOST_METAPARSE_V1_I1179 BOOST_METAPARSE_V1_INDEX_STR1280";
  ln "#define BOOST_METAPARSE_V1_I1180 BOOST_METAPARSE_V1_INDEX_STR1280";
  ln "#define BOOST_METAPARSE_V1_I1181 BOOST_METAPARSE_V1_INDEX_STR1280";
  ln "#define BOOST_METAPARSE_V1_I1182 BOOST_METAPARSE_V1_INDEX_STR1280";
  ln "#define BOOST_METAPARSE_V1_I1183 BOOST_METAPARSE_V1_INDEX_STR1280";
  ln "#define BOOST_METAPARSE_V1_I1184 BOOST_METAPARSE_V1_INDEX_STR1280";
  ln "#define BOOST_METAPARSE_V1_I1185 BOOST_METAPARSE_V1_INDEX_STR1280";
  ln "#define BOOST_METAPARSE_V1_I1186 BOOST_METAPARSE_V1_INDEX_STR1280";
  ln "#define BOOST_METAPARSE_V1_I1187 BOOST_METAPARSE_V1_INDEX_STR1280";
  ln "#define BOOST_METAPARSE_V1_I1188 BOOST_METAPARSE_V1_INDEX_STR1280";
  ln "#define BOOST_METAPARSE_V1_I1189 BOOST_METAPARSE_V1_INDEX_STR1280";
  ln "#define BOOST_METAPARSE_V1_I1190 BOOST_METAPARSE_V1_INDEX_STR1280";
  ln "#define BOOST_METAPARSE_V1_I1191 BOOST_METAPARSE_V1_INDEX_STR1280";
  ln "#define BOOST_METAPARSE_V1_I1192 BOOST_METAPARSE_V1_INDEX_STR1280";
  ln "#define BOOST_METAPARSE_V1_I1193 BOOST_METAPARSE_V1_INDEX_STR1280";
  ln "#define BOOST_METAPARSE_V1_I1194 BOOST_METAPARSE_V1_INDEX_STR1280";
  ln "#define BOOST_METAPARSE_V1_I1195 BOOST_METAPARSE_V1_INDEX_STR1280";
  ln "#define BOOST_METAPARSE_V1_I1196 BOOST_METAPARSE_V1_INDEX_STR1280";
  ln "#define BOOST_METAPARSE_V1_I1197 BOOST_METAPARSE_V1_INDEX_STR1280";
  ln "#define BOOST_METAPARSE_V1_I1198 BOOST_METAPARSE_V1_INDEX_STR1280";
  ln "#define BOOST_METAPARSE_V1_I1199 BOOST_METAPARSE_V1_INDEX_STR1280";
  ln "#define BOOST_METAPARSE_V1_I1200 BOOST_METAPARSE_V1_INDEX_STR1280";
  ln "#define BOOST_METAPARSE_V1_I1201 BOOST_METAPARSE_V1_INDEX_STR1280";
  ln "#define BOOST_METAPARSE_V1_I1202 BOOST_METAPARSE_V1_INDEX_STR1280";
  ln "#define BOOST_METAPARSE_V1_I1203 BOOST_METAPARSE_V1_INDEX_STR1280";
  ln "#define BOOST_METAPARSE_V1_I1204 BOOST_METAPARSE_V1_INDEX_STR1280";
  ln "#define BOOST_METAPARSE_V1_I1205 BOOST_METAPARSE_V1_INDEX_STR1280";
  ln "#define BOOST_METAPARSE_V1_I1206 BOOST_METAPARSE_V1_INDEX_STR1280";
  ln "#define BOOST_METAPARSE_V1_I1207 BOOST_METAPARSE_V1_INDEX_STR1280";
  ln "#define BOOST_METAPARSE_V1_I1208 BOOST_METAPARSE_V1_INDEX_STR1280";
  ln "#define BOOST_METAPARSE_V1_I1209 BOOST_METAPARSE_V1_INDEX_STR1280";
  ln "#define BOOST_METAPARSE_V1_I1210 BOOST_METAPARSE_V1_INDEX_STR1280";
  ln "#define BOOST_METAPARSE_V1_I1211 BOOST_METAPARSE_V1_INDEX_STR1280";
  ln "#define BOOST_METAPARSE_V1_I1212 BOOST_METAPARSE_V1_INDEX_STR1280";
  ln "#define BOOST_METAPARSE_V1_I1213 BOOST_METAPARSE_V1_INDEX_STR1280";
  ln "#define BOOST_METAPARSE_V1_I1214 BOOST_METAPARSE_V1_INDEX_STR1280";
  ln "#define BOOST_METAPARSE_V1_I1215 BOOST_METAPARSE_V1_INDEX_STR1280";
  ln "#define BOOST_METAPARSE_V1_I1216 BOOST_METAPARSE_V1_INDEX_STR1280";
  ln "#define BOOST_METAPARSE_V1_I1217 BOOST_METAPARSE_V1_INDEX_STR1280";
  ln "#define BOOST_METAPARSE_V1_I1218 BOOST_METAPARSE_V1_INDEX_STR1280";
  ln "#define BOOST_METAPARSE_V1_I1219 BOOST_METAPARSE_V1_INDEX_STR1280";
  ln "#define BOOST_METAPARSE_V1_I1220 BOOST_METAPARSE_V1_INDEX_STR1280";
  ln "#define BOOST_METAPARSE_V1_I1221 BOOST_METAPARSE_V1_INDEX_STR1280";
  ln "#define BOOST_METAPARSE_V1_I1222 BOOST_METAPARSE_V1_INDEX_STR1280";
  ln "#define BOOST_METAPARSE_V1_I1223 BOOST_METAPARSE_V1_INDEX_STR1280";
  ln "#define BOOST_METAPARSE_V1_I1224 BOOST_METAPARSE_V1_INDEX_STR1280";
  ln "#define BOOST_METAPARSE_V1_I1225 BOOST_METAPARSE_V1_INDEX_STR1280";
  ln "#define BOOST_METAPARSE_V1_I1226 BOOST_METAPARSE_V1_INDEX_STR1280";
  ln "#define BOOST_METAPARSE_V1_I1227 BOOST_METAPARSE_V1_INDEX_STR1280";
  ln "#define BOOST_METAPARSE_V1_I1228 BOOST_METAPARSE_V1_INDEX_STR1280";
  ln "#define BOOST_METAPARSE_V1_I1229 BOOST_METAPARSE_V1_INDEX_STR1280";
  ln "#define BOOST_METAPARSE_V1_I1230 BOOST_METAPARSE_V1_INDEX_STR1280";
  ln "#define BOOST_METAPARSE_V1_I1231 BOOST_METAPARSE_V1_INDEX_STR1280";
  ln "#define BOOST_METAPARSE_V1_I1232 BOOST_METAPARSE_V1_INDEX_STR1280";
  ln "#define BOOST_METAPARSE_V1_I1233 BOOST_METAPARSE_V1_INDEX_STR1280";
  ln "#define BOOST_METAPARSE_V1_I1234 BOOST_METAPARSE_V1_INDEX_STR1280";
  ln "#define BOOST_METAPARSE_V1_I1235 BOOST_METAPARSE_V1_INDEX_STR1280";
  ln "#define BOOST_METAPARSE_V1_I1236 BOOST_METAPARSE_V1_INDEX_STR1280";
  ln "#define BOOST_METAPARSE_V1_I1237 BOOST_METAPARSE_V1_INDEX_STR1280";
  ln "#define BOOST_METAPARSE_V1_I1238 BOOST_METAPARSE_V1_INDEX_STR1280";
  ln "#define BOOST_METAPARSE_V1_I1239 BOOST_METAPARSE_V1_INDEX_STR1280";
  ln "#define BOOST_METAPARSE_V1_I1240 BOOST_METAPARSE_V1_INDEX_STR1280";
  ln "#define BOOST_METAPARSE_V1_I1241 BOOST_METAPARSE_V1_INDEX_STR1280";
  ln "#define BOOST_METAPARSE_V1_I1242 BOOST_METAPARSE_V1_INDEX_STR1280";
  ln "#define BOOST_METAPARSE_V1_I1243 BOOST_METAPARSE_V1_INDEX_STR1280";
  ln "#define BOOST_METAPARSE_V1_I1244 BOOST_METAPARSE_V1_INDEX_STR1280";
  ln "#define BOOST_METAPARSE_V1_I1245 BOOST_METAPARSE_V1_INDEX_STR1280";
  ln "#define BOOST_METAPARSE_V1_I1246 BOOST_METAPARSE_V1_INDEX_STR1280";
  ln "#define BOOST_METAPARSE_V1_I1247 BOOST_METAPARSE_V1_INDEX_STR1280";
  ln "#define BOOST_METAPARSE_V1_I1248 BOOST_METAPARSE_V1_INDEX_STR1280";
  ln "#define BOOST_METAPARSE_V1_I1249 BOOST_METAPARSE_V1_INDEX_STR1280";
  ln "#define BOOST_METAPARSE_V1_I1250 BOOST_METAPARSE_V1_INDEX_STR1280";
  ln "#define BOOST_METAPARSE_V1_I1251 BOOST_METAPARSE_V1_INDEX_STR1280";
  ln "#define BOOST_METAPARSE_V1_I1252 BOOST_METAPARSE_V1_INDEX_STR1280";
  ln "#define BOOST_METAPARSE_V1_I1253 BOOST_METAPARSE_V1_INDEX_STR1280";
  ln "#define BOOST_METAPARSE_V1_I1254 BOOST_METAPARSE_V1_INDEX_STR1280";
  ln "#define BOOST_METAPARSE_V1_I1255 BOOST_METAPARSE_V1_INDEX_STR1280";
  ln "#define BOOST_METAPARSE_V1_I1256 BOOST_METAPARSE_V1_INDEX_STR1280";
  ln "#define BOOST_METAPARSE_V1_I1257 BOOST_METAPARSE_V1_INDEX_STR1280";
  ln "#define BOOST_METAPARSE_V1_I1258 BOOST_METAPARSE_V1_INDEX_STR1280";
  ln "#define BOOST_METAPARSE_V1_I1259 BOOST_METAPARSE_V1_INDEX_STR1280";
  ln "#define BOOST_METAPARSE_V1_I1260 BOOST_METAPARSE_V1_INDEX_STR1280";
  ln "#define BOOST_METAPARSE_V1_I1261 BOOST_METAPARSE_V1_INDEX_STR1280";
  ln "#define BOOST_METAPARSE_V1_I1262 BOOST_METAPARSE_V1_INDEX_STR1280";
  ln "#define BOOST_METAPARSE_V1_I1263 BOOST_METAPARSE_V1_INDEX_STR1280";
  ln "#define BOOST_METAPARSE_V1_I1264 BOOST_METAPARSE_V1_INDEX_STR1280";
  ln "#define BOOST_METAPARSE_V1_I1265 BOOST_METAPARSE_V1_INDEX_STR1280";
  ln "#define BOOST_METAPARSE_V1_I1266 BOOST_METAPARSE_V1_INDEX_STR1280";
  ln "#define BOOST_METAPARSE_V1_I1267 BOOST_METAPARSE_V1_INDEX_STR1280";
  ln "#define BOOST_METAPARSE_V1_I1268 BOOST_METAPARSE_V1_INDEX_STR1280";
  ln "#define BOOST_METAPARSE_V1_I1269 BOOST_METAPARSE_V1_INDEX_STR1280";
  ln "#define BOOST_METAPARSE_V1_I1270 BOOST_METAPARSE_V1_INDEX_STR1280";
  ln "#define BOOST_METAPARSE_V1_I1271 BOOST_METAPARSE_V1_INDEX_STR1280";
  ln "#define BOOST_METAPARSE_V1_I1272 BOOST_METAPARSE_V1_INDEX_STR1280";
  ln "#define BOOST_METAPARSE_V1_I1273 BOOST_METAPARSE_V1_INDEX_STR1280";
  ln "#define BOOST_METAPARSE_V1_I1274 BOOST_METAPARSE_V1_INDEX_STR1280";
  ln "#define BOOST_METAPARSE_V1_I1275 BOOST_METAPARSE_V1_INDEX_STR1280";
  ln "#define BOOST_METAPARSE_V1_I1276 BOOST_METAPARSE_V1_INDEX_STR1280";
  ln "#define BOOST_METAPARSE_V1_I1277 BOOST_METAPARSE_V1_INDEX_STR1280";
  ln "#define BOOST_METAPARSE_V1_I1278 BOOST_METAPARSE_V1_INDEX_STR1280";
  ln "#define BOOST_METAPARSE_V1_I1279 BOOST_METAPARSE_V1_INDEX_STR1280";
  ln "#define BOOST_METAPARSE_V1_I1280 BOOST_METAPARSE_V1_INDEX_STR1280";
  ln "#define BOOST_METAPARSE_V1_I1281 BOOST_METAPARSE_V1_INDEX_STR1408";
  ln "#define BOOST_METAPARSE_V1_I1282 BOOST_METAPARSE_V1_INDEX_STR1408";
  ln "#define BOOST_METAPARSE_V1_I1283 BOOST_METAPARSE_V1_INDEX_STR1408";
  ln "#define BOOST_METAPARSE_V1_I1284 BOOST_METAPARSE_V1_INDEX_STR1408";
  ln "#define BOOST_METAPARSE_V1_I1285 BOOST_METAPARSE_V1_INDEX_STR1408";
  ln "#define BOOST_METAPARSE_V1_I1286 BOOST_METAPARSE_V1_INDEX_STR1408";
  ln "#define BOOST_METAPARSE_V1_I1287 BOOST_METAPARSE_V1_INDEX_STR1408";
  ln "#define BOOST_METAPARSE_V1_I1288 BOOST_METAPARSE_V1_INDEX_STR1408";
  ln "#define BOOST_METAPARSE_V1_I1289 BOOST_METAPARSE_V1_INDEX_STR1408";
  ln "#define BOOST_METAPARSE_V1_I1290 BOOST_METAPARSE_V1_INDEX_STR1408";
  ln "#define BOOST_METAPARSE_V1_I1291 BOOST_METAPARSE_V1_INDEX_STR1408";
  ln "#define BOOST_METAPARSE_V1_I1292 BOOST_METAPARSE_V1_INDEX_STR1408";
  ln "#define BOOST_METAPARSE_V1_I1293 BOOST_METAPARSE_V1_INDEX_STR1408";
  ln "#define BOOST_METAPARSE_V1_I1294 BOOST_METAPARSE_V1_INDEX_STR1408";
  ln "#define BOOST_METAPARSE_V1_I1295 BOOST_METAPARSE_V1_INDEX_STR1408";
  ln "#define BOOST_METAPARSE_V1_I1296 BOOST_METAPARSE_V1_INDEX_STR1408";
  ln "#define BOOST_METAPARSE_V1_I1297 BOOST_METAPARSE_V1_INDEX_STR1408";
  ln "#define BOOST_METAPARSE_V1_I1298 BOOST_METAPARSE_V1_INDEX_STR1408";
  ln "#define BOOST_METAPARSE_V1_I1299 BOOST_METAPARSE_V1_INDEX_STR1408";
  ln "#define BOOST_METAPARSE_V1_I1300 BOOST_METAPARSE_V1_INDEX_STR1408";
  ln "#define BOOST_METAPARSE_V1_I1301 BOOST_METAPARSE_V1_INDEX_STR1408";
  ln "#define BOOST_METAPARSE_V1_I1302 BOOST_METAPARSE_V1_INDEX_STR1408";
  ln "#define BOOST_METAPARSE_V1_I1303 BOOST_METAPARSE_V1_INDEX_STR1408";
  ln "#define BOOST_METAPARSE_V1_I1304 BOOST_METAPARSE_V1_INDEX_STR1408";
  ln "#define BOOST_METAPARSE_V1_I1305 BOOST_METAPARSE_V1_INDEX_STR1408";
  ln "#define BOOST_METAPARSE_V1_I1306 BOOST_METAPARSE_V1_INDEX_STR1408";
  ln "#define BOOST_METAPARSE_V1_I1307 BOOST_METAPARSE_V1_INDEX_STR1408";
  ln "#define BOOST_METAPARSE_V1_I1308 BOOST_METAPARSE_V1_INDEX_STR1408";
  ln "#define BOOST_METAPARSE_V1_I1309 BOOST_METAPARSE_V1_INDEX_STR1408";
  ln "#define BOOST_METAPARSE_V1_I1310 BOOST_METAPARSE_V1_INDEX_STR1408";
  ln "#define BOOST_METAPARSE_V1_I1311 BOOST_METAPARSE_V1_INDEX_STR1408";
  ln "#define BOOST_METAPARSE_V1_I1312 BOOST_METAPARSE_V1_INDEX_STR1408";
  ln "#define BOOST_METAPARSE_V1_I1313 BOOST_METAPARSE_V1_INDEX_STR1408";
  ln "#define BOOST_METAPARSE_V1_I1314 BOOST_METAPARSE_V1_INDEX_STR1408";
  ln "#define BOOST_METAPARSE_V1_I1315 BOOST_METAPARSE_V1_INDEX_STR1408";
  ln "#define BOOST_METAPARSE_V1_I1316 BOOST_METAPARSE_V1_INDEX_STR1408";
  ln "#define BOOST_METAPARSE_V1_I1317 BOOST_METAPARSE_V1_INDEX_STR1408";
  ln "#define BOOST_METAPARSE_V1_I1318 BOOST_METAPARSE_V1_INDEX_STR1408";
  ln "#define BOOST_METAPARSE_V1_I1319 BOOST_METAPARSE_V1_INDEX_STR1408";
  ln "#define BOOST_METAPARSE_V1_I1320 BOOST_METAPARSE_V1_INDEX_STR1408";
  ln "#define BOOST_METAPARSE_V1_I1321 BOOST_METAPARSE_V1_INDEX_STR1408";
  ln "#define BOOST_METAPARSE_V1_I1322 BOOST_METAPARSE_V1_INDEX_STR1408";
  ln "#define BOOST_METAPARSE_V1_I1323 BOOST_METAPARSE_V1_INDEX_STR1408";
  ln "#define BOOST_METAPARSE_V1_I1324 BOOST_METAPARSE_V1_INDEX_STR1408";
  ln "#define BOOST_METAPARSE_V1_I1325 BOOST_METAPARSE_V1_INDEX_STR1408";
  ln "#define BOOST_METAPARSE_V1_I1326 BOOST_METAPARSE_V1_INDEX_STR1408";
  ln "#define BOOST_METAPARSE_V1_I1327 BOOST_METAPARSE_V1_INDEX_STR1408";
  ln "#define BOOST_METAPARSE_V1_I1328 BOOST_METAPARSE_V1_INDEX_STR1408";
  ln "#define BOOST_METAPARSE_V1_I1329 BOOST_METAPARSE_V1_INDEX_STR1408";
  ln "#define BOOST_METAPARSE_V1_I1330 BOOST_METAPARSE_V1_INDEX_STR1408";
  ln "#define BOOST_METAPARSE_V1_I1331 BOOST_METAPARSE_V1_INDEX_STR1408";
  ln "#define BOOST_METAPARSE_V1_I1332 BOOST_METAPARSE_V1_INDEX_STR1408";
  ln "#define BOOST_METAPARSE_V1_I1333 BOOST_METAPARSE_V1_INDEX_STR1408";
  ln "#define BOOST_METAPARSE_V1_I1334 BOOST_METAPARSE_V1_INDEX_STR1408";
  ln "#define BOOST_METAPARSE_V1_I1335 BOOST_METAPARSE_V1_INDEX_STR1408";
  ln "#define BOOST_METAPARSE_V1_I1336 BOOST_METAPARSE_V1_INDEX_STR1408";
  ln "#define BOOST_METAPARSE_V1_I1337 BOOST_METAPARSE_V1_INDEX_STR1408";
  ln "#define BOOST_METAPARSE_V1_I1338 BOOST_METAPARSE_V1_INDEX_STR1408";
  ln "#define BOOST_METAPARSE_V1_I1339 BOOST_METAPARSE_V1_INDEX_STR1408";
  ln "#define BOOST_METAPARSE_V1_I1340 BOOST_METAPARSE_V1_INDEX_STR1408";
  ln "#define BOOST_METAPARSE_V1_I1341 BOOST_METAPARSE_V1_INDEX_STR1408";
  ln "#define BOOST_METAPARSE_V1_I1342 BOOST_METAPARSE_V1_INDEX_STR1408";
  ln "#define BOOST_METAPARSE_V1_I1343 BOOST_METAPARSE_V1_INDEX_STR1408";
  ln "#define BOOST_METAPARSE_V1_I1344 BOOST_METAPARSE_V1_INDEX_STR1408";
  ln "#define BOOST_METAPARSE_V1_I1345 BOOST_METAPARSE_V1_INDEX_STR1408";
  ln "#define BOOST_METAPARSE_V1_I1346 BOOST_METAPARSE_V1_INDEX_STR1408";
  ln "#define BOOST_METAPARSE_V1_I1347 BOOST_METAPARSE_V1_INDEX_STR1408";
  ln "#define BOOST_METAPARSE_V1_I1348 BOOST_METAPARSE_V1_INDEX_STR1408";
  ln "#define BOOST_METAPARSE_V1_I1349 BOOST_METAPARSE_V1_INDEX_STR1408";
  ln "#define BOOST_METAPARSE_V1_I1350 BOOST_METAPARSE_V1_INDEX_STR1408";
  ln "#define BOOST_METAPARSE_V1_I1351 BOOST_METAPARSE_V1_INDEX_STR1408";
  ln "#define BOOST_METAPARSE_V1_I1352 BOOST_METAPARSE_V1_INDEX_STR1408";
  ln "#define BOOST_METAPARSE_V1_I1353 BOOST_METAPARSE_V1_INDEX_STR1408";
  ln "#define BOOST_METAPARSE_V1_I1354 BOOST_METAPARSE_V1_INDEX_STR1408";
  ln "#define BOOST_METAPARSE_V1_I1355 BOOST_METAPARSE_V1_INDEX_STR1408";
  ln "#define BOOST_METAPARSE_V1_I1356 BOOST_METAPARSE_V1_INDEX_STR1408";
  ln "#define BOOST_METAPARSE_V1_I1357 BOOST_METAPARSE_V1_INDEX_STR1408";
  ln "#define BOOST_METAPARSE_V1_I1358 BOOST_METAPARSE_V1_INDEX_STR1408";
  ln "#define BOOST_METAPARSE_V1_I1359 BOOST_METAPARSE_V1_INDEX_STR1408";
  ln "#define BOOST_METAPARSE_V1_I1360 BOOST_METAPARSE_V1_INDEX_STR1408";
  ln "#define BOOST_METAPARSE_V1_I1361 BOOST_METAPARSE_V1_INDEX_STR1408";
  ln "#define BOOST_METAPARSE_V1_I1362 BOOST_METAPARSE_V1_INDEX_STR1408";
  ln "#define BOOST_METAPARSE_V1_I1363 BOOST_METAPARSE_V1_INDEX_STR1408";
  ln "#define BOOST_METAPARSE_V1_I1364 BOOST_METAPARSE_V1_INDEX_STR1408";
  ln "#define BOOST_METAPARSE_V1_I1365 BOOST_METAPARSE_V1_INDEX_STR1408";
  ln "#define BOOST_METAPARSE_V1_I1366 BOOST_METAPARSE_V1_INDEX_STR1408";
  ln "#define BOOST_METAPARSE_V1_I1367 BOOST_METAPARSE_V1_INDEX_STR1408";
  ln "#define BOOST_METAPARSE_V1_I1368 BOOST_METAPARSE_V1_INDEX_STR1408";
  ln "#define BOOST_METAPARSE_V1_I1369 BOOST_METAPARSE_V1_INDEX_STR1408";
  ln "#define BOOST_METAPARSE_V1_I1370 BOOST_METAPARSE_V1_INDEX_STR1408";
  ln "#define BOOST_METAPARSE_V1_I1371 BOOST_METAPARSE_V1_INDEX_STR1408";
  ln "#define BOOST_METAPARSE_V1_I1372 BOOST_METAPARSE_V1_INDEX_STR1408";
  ln "#define BOOST_METAPARSE_V1_I1373 BOOST_METAPARSE_V1_INDEX_STR1408";
  ln "#define BOOST_METAPARSE_V1_I1374 BOOST_METAPARSE_V1_INDEX_STR1408";
  ln "#define BOOST_METAPARSE_V1_I1375 BOOST_METAPARSE_V1_INDEX_STR1408";
  ln "#define BOOST_METAPARSE_V1_I1376 BOOST_METAPARSE_V1_INDEX_STR1408";
  ln "#define BOOST_METAPARSE_V1_I1377 BOOST_METAPARSE_V1_INDEX_STR1408";
  ln "#define BOOST_METAPARSE_V1_I1378 BOOST_METAPARSE_V1_INDEX_STR1408";
  ln "#define BOOST_METAPARSE_V1_I1379 BOOST_METAPARSE_V1_INDEX_STR1408";
  ln "#define BOOST_METAPARSE_V1_I1380 BOOST_METAPARSE_V1_INDEX_STR1408";
  ln "#define BOOST_METAPARSE_V1_I1381 BOOST_METAPARSE_V1_INDEX_STR1408";
  ln "#define BOOST_METAPARSE_V1_I1382 BOOST_METAPARSE_V1_INDEX_STR1408";
  ln "#define BOOST_METAPARSE_V1_I1383 BOOST_METAPARSE_V1_INDEX_STR1408";
  ln "#define BOOST_METAPARSE_V1_I1384 BOOST_METAPARSE_V1_INDEX_STR1408";
  ln "#define BOOST_METAPARSE_V1_I1385 BOOST_METAPARSE_V1_INDEX_STR1408";
  ln "#define BOOST_METAPARSE_V1_I1386 BOOST_METAPARSE_V1_INDEX_STR1408";
  ln "#define BOOST_METAPARSE_V1_I1387 BOOST_METAPARSE_V1_INDEX_STR1408";
  ln "#define BOOST_METAPARSE_V1_I1388 BOOST_METAPARSE_V1_INDEX_STR1408";
  ln "#define BOOST_METAPARSE_V1_I1389 BOOST_METAPARSE_V1_INDEX_STR1408";
  ln "#define BOOST_METAPARSE_V1_I1390 BOOST_METAPARSE_V1_INDEX_STR1408";
  ln "#define BOOST_METAPARSE_V1_I1391 BOOST_METAPARSE_V1_INDEX_STR1408";
  ln "#define BOOST_METAPARSE_V1_I1392 BOOST_METAPARSE_V1_INDEX_STR1408";
  ln "#define BOOST_METAPARSE_V1_I1393 BOOST_METAPARSE_V1_INDEX_STR1408";
  ln "#define BOOST_METAPARSE_V1_I1394 BOOST_METAPARSE_V1_INDEX_STR1408";
  ln "#define BOOST_METAPARSE_V1_I1395 BOOST_METAPARSE_V1_INDEX_STR1408";
  ln "#define BOOST_METAPARSE_V1_I1396 BOOST_METAPARSE_V1_INDEX_STR1408";
  ln "#define BOOST_METAPARSE_V1_I1397 BOOST_METAPARSE_V1_INDEX_STR1408";
  ln "#define BOOST_METAPARSE_V1_I1398 BOOST_METAPARSE_V1_INDEX_STR1408";
  ln "#define BOOST_METAPARSE_V1_I1399 BOOST_METAPARSE_V1_INDEX_STR1408";
  ln "#define BOOST_METAPARSE_V1_I1400 BOOST_METAPARSE_V1_INDEX_STR1408";
  ln "#define BOOST_METAPARSE_V1_I1401 BOOST_METAPARSE_V1_INDEX_STR1408";
  ln "#define BOOST_METAPARSE_V1_I1402 BOOST_METAPARSE_V1_INDEX_STR1408";
  ln "#define BOOST_METAPARSE_V1_I1403 BOOST_METAPARSE_V1_INDEX_STR1408";
  ln "#define BOOST_METAPARSE_V1_I1404 BOOST_METAPARSE_V1_INDEX_STR1408";
  ln "#define BOOST_METAPARSE_V1_I1405 BOOST_METAPARSE_V1_INDEX_STR1408";
  ln "#define BOOST_METAPARSE_V1_I1406 BOOST_METAPARSE_V1_INDEX_STR1408";
  ln "#define BOOST_METAPARSE_V1_I1407 BOOST_METAPARSE_V1_INDEX_STR1408";
  ln "#define BOOST_METAPARSE_V1_I1408 BOOST_METAPARSE_V1_INDEX_STR1408";
  ln "#define BOOST_METAPARSE_V1_I1409 BOOST_METAPARSE_V1_INDEX_STR1536";
  ln "#define BOOST_METAPARSE_V1_I1410 BOOST_METAPARSE_V1_INDEX_STR1536";
  ln "#define BOOST_METAPARSE_V1_I1411 BOOST_METAPARSE_V1_INDEX_STR1536";
  ln "#define BOOST_METAPARSE_V1_I1412 BOOST_METAPARSE_V1_INDEX_STR1536";
  ln "#define BOOST_METAPARSE_V1_I1413 BOOST_METAPARSE_V1_INDEX_STR1536";
  ln "#define BOOST_METAPARSE_V1_I1414 BOOST_METAPARSE_V1_INDEX_STR1536";
  ln "#define BOOST_METAPARSE_V1_I1415 BOOST_METAPARSE_V1_INDEX_STR1536";
  ln "#define BOOST_METAPARSE_V1_I1416 BOOST_METAPARSE_V1_INDEX_STR1536";
  ln "#define BOOST_METAPARSE_V1_I1417 BOOST_METAPARSE_V1_INDEX_STR1536";
  ln "#define BOOST_METAPARSE_V1_I1418 BOOST_METAPARSE_V1_INDEX_STR1536";
  ln "#define BOOST_METAPARSE_V1_I1419 BOOST_METAPARSE_V1_INDEX_STR1536";
  ln "#define BOOST_METAPARSE_V1_I1420 BOOST_METAPARSE_V1_INDEX_STR1536";
  ln "#define BOOST_METAPARSE_V1_I1421 BOOST_METAPARSE_V1_INDEX_STR1536";
  ln "#define BOOST_METAPARSE_V1_I1422 BOOST_METAPARSE_V1_INDEX_STR1536";
  ln "#define BOOST_METAPARSE_V1_I1423 BOOST_METAPARSE_V1_INDEX_STR1536";
  ln "#define BOOST_METAPARSE_V1_I1424 BOOST_METAPARSE_V1_INDEX_STR1536";
  ln "#define BOOST_METAPARSE_V1_I1425 BOOST_METAPARSE_V1_INDEX_STR1536";
  ln "#define BOOST_METAPARSE_V1_I1426 BOOST_METAPARSE_V1_INDEX_STR1536";
  ln "#define BOOST_METAPARSE_V1_I1427 BOOST_METAPARSE_V1_INDEX_STR1536";
  ln "#define BOOST_METAPARSE_V1_I1428 BOOST_METAPARSE_V1_INDEX_STR1536";
  ln "#define BOOST_METAPARSE_V1_I1429 BOOST_METAPARSE_V1_INDEX_STR1536";
  ln "#define BOOST_METAPARSE_V1_I1430 BOOST_METAPARSE_V1_INDEX_STR1536";
  ln "#define BOOST_METAPARSE_V1_I1431 BOOST_METAPARSE_V1_INDEX_STR1536";
  ln "#define BOOST_METAPARSE_V1_I1432 BOOST_METAPARSE_V1_INDEX_STR1536";
  ln "#define BOOST_METAPARSE_V1_I1433 BOOST_METAPARSE_V1_INDEX_STR1536";
  ln "#define BOOST_METAPARSE_V1_I1434 BOOST_METAPARSE_V1_INDEX_STR1536";
  ln "#define BOOST_METAPARSE_V1_I1435 BOOST_METAPARSE_V1_INDEX_STR1536";
  ln "#define BOOST_METAPARSE_V1_I1436 BOOST_METAPARSE_V1_INDEX_STR1536";
  ln "#define BOOST_METAPARSE_V1_I1437 BOOST_METAPARSE_V1_INDEX_STR1536";
  ln "#define BOOST_METAPARSE_V1_I1438 BOOST_METAPARSE_V1_INDEX_STR1536";
  ln "#define BOOST_METAPARSE_V1_I1439 BOOST_METAPARSE_V1_INDEX_STR1536";
  ln "#define BOOST_METAPARSE_V1_I1440 BOOST_METAPARSE_V1_INDEX_STR1536";
  ln "#define BOOST_METAPARSE_V1_I1441 BOOST_METAPARSE_V1_INDEX_STR1536";
  ln "#define BOOST_METAPARSE_V1_I1442 BOOST_METAPARSE_V1_INDEX_STR1536";
  ln "#define BOOST_METAPARSE_V1_I1443 BOOST_METAPARSE_V1_INDEX_STR1536";
  ln "#define BOOST_METAPARSE_V1_I1444 BOOST_METAPARSE_V1_INDEX_STR1536";
  ln "#define BOOST_METAPARSE_V1_I1445 BOOST_METAPARSE_V1_INDEX_STR1536";
  ln "#define BOOST_METAPARSE_V1_I1446 BOOST_METAPARSE_V1_INDEX_STR1536";
  ln "#define BOOST_METAPARSE_V1_I1447 BOOST_METAPARSE_V1_INDEX_STR1536";
  ln "#define BOOST_METAPARSE_V1_I1448 BOOST_METAPARSE_V1_INDEX_STR1536";
  ln "#define BOOST_METAPARSE_V1_I1449 BOOST_METAPARSE_V1_INDEX_STR1536";
  ln "#define BOOST_METAPARSE_V1_I1450 BOOST_METAPARSE_V1_INDEX_STR1536";
  ln "#define BOOST_METAPARSE_V1_I1451 BOOST_METAPARSE_V1_INDEX_STR1536";
  ln "#define BOOST_METAPARSE_V1_I1452 BOOST_METAPARSE_V1_INDEX_STR1536";
  ln "#define BOOST_METAPARSE_V1_I1453 BOOST_METAPARSE_V1_INDEX_STR1536";
  ln "#define BOOST_METAPARSE_V1_I1454 BOOST_METAPARSE_V1_INDEX_STR1536";
  ln "#define BOOST_METAPARSE_V1_I1455 BOOST_METAPARSE_V1_INDEX_STR1536";
  ln "#define BOOST_METAPARSE_V1_I1456 BOOST_METAPARSE_V1_INDEX_STR1536";
  ln "#define BOOST_METAPARSE_V1_I1457 BOOST_METAPARSE_V1_INDEX_STR1536";
  ln "#define BOOST_METAPARSE_V1_I1458 BOOST_METAPARSE_V1_INDEX_STR1536";
  ln "#define BOOST_METAPARSE_V1_I1459 BOOST_METAPARSE_V1_INDEX_STR1536";
  ln "#define BOOST_METAPARSE_V1_I1460 BOOST_METAPARSE_V1_INDEX_STR1536";
  ln "#define BOOST_METAPARSE_V1_I1461 BOOST_METAPARSE_V1_INDEX_STR1536";
  ln "#define BOOST_METAPARSE_V1_I1462 BOOST_METAPARSE_V1_INDEX_STR1536";
  ln "#define BOOST_METAPARSE_V1_I1463 BOOST_METAPARSE_V1_INDEX_STR1536";
  ln "#define BOOST_METAPARSE_V1_I1464 BOOST_METAPARSE_V1_INDEX_STR1536";
  ln "#define BOOST_METAPARSE_V1_I1465 BOOST_METAPARSE_V1_INDEX_STR1536";
  ln "#define BOOST_METAPARSE_V1_I1466 BOOST_METAPARSE_V1_INDEX_STR1536";
  ln "#define BOOST_METAPARSE_V1_I1467 BOOST_METAPARSE_V1_INDEX_STR1536";
  ln "#define BOOST_METAPARSE_V1_I1468 BOOST_METAPARSE_V1_INDEX_STR1536";
  ln "#define BOOST_METAPARSE_V1_I1469 BOOST_METAPARSE_V1_INDEX_STR1536";
  ln "#define BOOST_METAPARSE_V1_I1470 BOOST_METAPARSE_V1_INDEX_STR1536";
  ln "#define BOOST_METAPARSE_V1_I1471 BOOST_METAPARSE_V1_INDEX_STR1536";
  ln "#define BOOST_METAPARSE_V1_I1472 BOOST_METAPARSE_V1_INDEX_STR1536";
  ln "#define BOOST_METAPARSE_V1_I1473 BOOST_METAPARSE_V1_INDEX_STR1536";
  ln "#define BOOST_METAPARSE_V1_I1474 BOOST_METAPARSE_V1_INDEX_STR1536";
  ln "#define BOOST_METAPARSE_V1_I1475 BOOST_METAPARSE_V1_INDEX_STR1536";
  ln "#define BOOST_METAPARSE_V1_I1476 BOOST_METAPARSE_V1_INDEX_STR1536";
  ln "#define BOOST_METAPARSE_V1_I1477 BOOST_METAPARSE_V1_INDEX_STR1536";
  ln "#define BOOST_METAPARSE_V1_I1478 BOOST_METAPARSE_V1_INDEX_STR1536";
  ln "#define BOOST_METAPARSE_V1_I1479 BOOST_METAPARSE_V1_INDEX_STR1536";
  ln "#define BOOST_METAPARSE_V1_I1480 BOOST_METAPARSE_V1_INDEX_STR1536";
  ln "#define BOOST_METAPARSE_V1_I1481 BOOST_METAPARSE_V1_INDEX_STR1536";
  ln "#define BOOST_METAPARSE_V1_I1482 BOOST_METAPARSE_V1_INDEX_STR1536";
  ln "#define BOOST_METAPARSE_V1_I1483 BOOST_METAPARSE_V1_INDEX_STR1536";
  ln "#define BOOST_METAPARSE_V1_I1484 BOOST_METAPARSE_V1_INDEX_STR1536";
  ln "#define BOOST_METAPARSE_V1_I1485 BOOST_METAPARSE_V1_INDEX_STR1536";
  ln "#define BOOST_METAPARSE_V1_I1486 BOOST_METAPARSE_V1_INDEX_STR1536";
  ln "#define BOOST_METAPARSE_V1_I1487 BOOST_METAPARSE_V1_INDEX_STR1536";
  ln "#define BOOST_METAPARSE_V1_I1488 BOOST_METAPARSE_V1_INDEX_STR1536";
  ln "#define BOOST_METAPARSE_V1_I1489 BOOST_METAPARSE_V1_INDEX_STR1536";
  ln "#define BOOST_METAPARSE_V1_I1490 BOOST_METAPARSE_V1_INDEX_STR1536";
  ln "#define BOOST_METAPARSE_V1_I1491 BOOST_METAPARSE_V1_INDEX_STR1536";
  ln "#define BOOST_METAPARSE_V1_I1492 BOOST_METAPARSE_V1_INDEX_STR1536";
  ln "#define BOOST_METAPARSE_V1_I1493 BOOST_METAPARSE_V1_INDEX_STR1536";
  ln "#define BOOST_METAPARSE_V1_I1494 BOOST_METAPARSE_V1_INDEX_STR1536";
  ln "#define BOOST_METAPARSE_V1_I1495 BOOST_METAPARSE_V1_INDEX_STR1536";
  ln "#define BOOST_METAPARSE_V1_I1496 BOOST_METAPARSE_V1_INDEX_STR1536";
  ln "#define BOOST_METAPARSE_V1_I1497 BOOST_METAPARSE_V1_INDEX_STR1536";
  ln "#define BOOST_METAPARSE_V1_I1498 BOOST_METAPARSE_V1_INDEX_STR1536";
  ln "#define BOOST_METAPARSE_V1_I1499 BOOST_METAPARSE_V1_INDEX_STR1536";
  ln "#define BOOST_METAPARSE_V1_I1500 BOOST_METAPARSE_V1_INDEX_STR1536";
  ln "#define BOOST_METAPARSE_V1_I1501 BOOST_METAPARSE_V1_INDEX_STR1536";
  ln "#define BOOST_METAPARSE_V1_I1502 BOOST_METAPARSE_V1_INDEX_STR1536";
  ln "#define BOOST_METAPARSE_V1_I1503 BOOST_METAPARSE_V1_INDEX_STR1536";
  ln "#define BOOST_METAPARSE_V1_I1504 BOOST_METAPARSE_V1_INDEX_STR1536";
  ln "#define BOOST_METAPARSE_V1_I1505 BOOST_METAPARSE_V1_INDEX_STR1536";
  ln "#define BOOST_METAPARSE_V1_I1506 BOOST_METAPARSE_V1_INDEX_STR1536";
  ln "#define BOOST_METAPARSE_V1_I1507 BOOST_METAPARSE_V1_INDEX_STR1536";
  ln "#define BOOST_METAPARSE_V1_I1508 BOOST_METAPARSE_V1_INDEX_STR1536";
  ln "#define BOOST_METAPARSE_V1_I1509 BOOST_METAPARSE_V1_INDEX_STR1536";
  ln "#define BOOST_METAPARSE_V1_I1510 BOOST_METAPARSE_V1_INDEX_STR1536";
  ln "#define BOOST_METAPARSE_V1_I1511 BOOST_METAPARSE_V1_INDEX_STR1536";
  ln "#define BOOST_METAPARSE_V1_I1512 BOOST_METAPARSE_V1_INDEX_STR1536";
  ln "#define BOOST_METAPARSE_V1_I1513 BOOST_METAPARSE_V1_INDEX_STR1536";
  ln "#define BOOST_METAPARSE_V1_I1514 BOOST_METAPARSE_V1_INDEX_STR1536";
  ln "#define BOOST_METAPARSE_V1_I1515 BOOST_METAPARSE_V1_INDEX_STR1536";
  ln "#define BOOST_METAPARSE_V1_I1516 BOOST_METAPARSE_V1_INDEX_STR1536";
  ln "#define BOOST_METAPARSE_V1_I1517 BOOST_METAPARSE_V1_INDEX_STR1536";
  ln "#define BOOST_METAPARSE_V1_I1518 BOOST_METAPARSE_V1_INDEX_STR1536";
  ln "#define BOOST_METAPARSE_V1_I1519 BOOST_METAPARSE_V1_INDEX_STR1536";
  ln "#define BOOST_METAPARSE_V1_I1520 BOOST_METAPARSE_V1_INDEX_STR1536";
  ln "#define BOOST_METAPARSE_V1_I1521 BOOST_METAPARSE_V1_INDEX_STR1536";
  ln "#define BOOST_METAPARSE_V1_I1522 BOOST_METAPARSE_V1_INDEX_STR1536";
  ln "#define BOOST_METAPARSE_V1_I1523 BOOST_METAPARSE_V1_INDEX_STR1536";
  ln "#define BOOST_METAPARSE_V1_I1524 BOOST_METAPARSE_V1_INDEX_STR1536";
  ln "#define BOOST_METAPARSE_V1_I1525 BOOST_METAPARSE_V1_INDEX_STR1536";
  ln "#define BOOST_METAPARSE_V1_I1526 BOOST_METAPARSE_V1_INDEX_STR1536";
  ln "#define BOOST_METAPARSE_V1_I1527 BOOST_METAPARSE_V1_INDEX_STR1536";
  ln "#define BOOST_METAPARSE_V1_I1528 BOOST_METAPARSE_V1_INDEX_STR1536";
  ln "#define BOOST_METAPARSE_V1_I1529 BOOST_METAPARSE_V1_INDEX_STR1536";
  ln "#define BOOST_METAPARSE_V1_I1530 BOOST_METAPARSE_V1_INDEX_STR1536";
  ln "#define BOOST_METAPARSE_V1_I1531 BOOST_METAPARSE_V1_INDEX_STR1536";
  ln "#define BOOST_METAPARSE_V1_I1532 BOOST_METAPARSE_V1_INDEX_STR1536";
  ln "#define BOOST_METAPARSE_V1_I1533 BOOST_METAPARSE_V1_INDEX_STR1536";
  ln "#define BOOST_METAPARSE_V1_I1534 BOOST_METAPARSE_V1_INDEX_STR1536";
  ln "#define BOOST_METAPARSE_V1_I1535 BOOST_METAPARSE_V1_INDEX_STR1536";
  ln "#define BOOST_METAPARSE_V1_I1536 BOOST_METAPARSE_V1_INDEX_STR1536";
  ln "#define BOOST_METAPARSE_V1_I1537 BOOST_METAPARSE_V1_INDEX_STR1664";
  ln "#define BOOST_METAPARSE_V1_I1538 BOOST_METAPARSE_V1_INDEX_STR1664";
  ln "#define BOOST_METAPARSE_V1_I1539 BOOST_METAPARSE_V1_INDEX_STR1664";
  ln "#define BOOST_METAPARSE_V1_I1540 BOOST_METAPARSE_V1_INDEX_STR1664";
  ln "#define BOOST_METAPARSE_V1_I1541 BOOST_METAPARSE_V1_INDEX_STR1664";
  ln "#define BOOST_METAPARSE_V1_I1542 BOOST_METAPARSE_V1_INDEX_STR1664";
  ln "#define BOOST_METAPARSE_V1_I1543 BOOST_METAPARSE_V1_INDEX_STR1664";
  ln "#define BOOST_METAPARSE_V1_I1544 BOOST_METAPARSE_V1_INDEX_STR1664";
  ln "#define BOOST_METAPARSE_V1_I1545 BOOST_METAPARSE_V1_INDEX_STR1664";
  ln "#define BOOST_METAPARSE_V1_I1546 BOOST_METAPARSE_V1_INDEX_STR1664";
  ln "#define BOOST_METAPARSE_V1_I1547 BOOST_METAPARSE_V1_INDEX_STR1664";
  ln "#define BOOST_METAPARSE_V1_I1548 BOOST_METAPARSE_V1_INDEX_STR1664";
  ln "#define BOOST_METAPARSE_V1_I1549 BOOST_METAPARSE_V1_INDEX_STR1664";
  ln "#define BOOST_METAPARSE_V1_I1550 BOOST_METAPARSE_V1_INDEX_STR1664";
  ln "#define BOOST_METAPARSE_V1_I1551 BOOST_METAPARSE_V1_INDEX_STR1664";
  ln "#define BOOST_METAPARSE_V1_I1552 BOOST_METAPARSE_V1_INDEX_STR1664";
  ln "#define BOOST_METAPARSE_V1_I1553 BOOST_METAPARSE_V1_INDEX_STR1664";
  ln "#define BOOST_METAPARSE_V1_I1554 BOOST_METAPARSE_V1_INDEX_STR1664";
  ln "#define BOOST_METAPARSE_V1_I1555 BOOST_METAPARSE_V1_INDEX_STR1664";
  ln "#define BOOST_METAPARSE_V1_I1556 BOOST_METAPARSE_V1_INDEX_STR1664";
  ln "#define BOOST_METAPARSE_V1_I1557 BOOST_METAPARSE_V1_INDEX_STR1664";
  ln "#define BOOST_METAPARSE_V1_I1558 BOOST_METAPARSE_V1_INDEX_STR1664";
  ln "#define BOOST_METAPARSE_V1_I1559 BOOST_METAPARSE_V1_INDEX_STR1664";
  ln "#define BOOST_METAPARSE_V1_I1560 BOOST_METAPARSE_V1_INDEX_STR1664";
  ln "#define BOOST_METAPARSE_V1_I1561 BOOST_METAPARSE_V1_INDEX_STR1664";
  ln "#define BOOST_METAPARSE_V1_I1562 BOOST_METAPARSE_V1_INDEX_STR1664";
  ln "#define BOOST_METAPARSE_V1_I1563 BOOST_METAPARSE_V1_INDEX_STR1664";
  ln "#define BOOST_METAPARSE_V1_I1564 BOOST_METAPARSE_V1_INDEX_STR1664";
  ln "#define BOOST_METAPARSE_V1_I1565 BOOST_METAPARSE_V1_INDEX_STR1664";
  ln "#define BOOST_METAPARSE_V1_I1566 BOOST_METAPARSE_V1_INDEX_STR1664";
  ln "#define BOOST_METAPARSE_V1_I1567 BOOST_METAPARSE_V1_INDEX_STR1664";
  ln "#define BOOST_METAPARSE_V1_I1568 BOOST_METAPARSE_V1_INDEX_STR1664";
  ln "#define BOOST_METAPARSE_V1_I1569 BOOST_METAPARSE_V1_INDEX_STR1664";
  ln "#define BOOST_METAPARSE_V1_I1570 BOOST_METAPARSE_V1_INDEX_STR1664";
  ln "#define BOOST_METAPARSE_V1_I1571 BOOST_METAPARSE_V1_INDEX_STR1664";
  ln "#define BOOST_METAPARSE_V1_I1572 BOOST_METAPARSE_V1_INDEX_STR1664";
  ln "#define BOOST_METAPARSE_V1_I1573 BOOST_METAPARSE_V1_INDEX_STR1664";
  ln "#define BOOST_METAPARSE_V1_I1574 BOOST_METAPARSE_V1_INDEX_STR1664";
  ln "#define BOOST_METAPARSE_V1_I1575 BOOST_METAPARSE_V1_INDEX_STR1664";
  ln "#define BOOST_METAPARSE_V1_I1576 BOOST_METAPARSE_V1_INDEX_STR1664";
  ln "#define BOOST_METAPARSE_V1_I1577 BOOST_METAPARSE_V1_INDEX_STR1664";
  ln "#define BOOST_METAPARSE_V1_I1578 BOOST_METAPARSE_V1_INDEX_STR1664";
  ln "#define BOOST_METAPARSE_V1_I1579 BOOST_METAPARSE_V1_INDEX_STR1664";
  ln "#define BOOST_METAPARSE_V1_I1580 BOOST_METAPARSE_V1_INDEX_STR1664";
  ln "#define BOOST_METAPARSE_V1_I1581 BOOST_METAPARSE_V1_INDEX_STR1664";
  ln "#define BOOST_METAPARSE_V1_I1582 BOOST_METAPARSE_V1_INDEX_STR1664";
  ln "#define BOOST_METAPARSE_V1_I1583 BOOST_METAPARSE_V1_INDEX_STR1664";
  ln "#define BOOST_METAPARSE_V1_I1584 BOOST_METAPARSE_V1_INDEX_STR1664";
  ln "#define BOOST_METAPARSE_V1_I1585 BOOST_METAPARSE_V1_INDEX_STR1664";
  ln "#define BOOST_METAPARSE_V1_I1586 BOOST_METAPARSE_V1_INDEX_STR1664";
  ln "#define BOOST_METAPARSE_V1_I1587 BOOST_METAPARSE_V1_INDEX_STR1664";
  ln "#define BOOST_METAPARSE_V1_I1588 BOOST_METAPARSE_V1_INDEX_STR1664";
  ln "#define BOOST_METAPARSE_V1_I1589 BOOST_METAPARSE_V1_INDEX_STR1664";
  ln "#define BOOST_METAPARSE_V1_I1590 BOOST_METAPARSE_V1_INDEX_STR1664";
  ln "#define BOOST_METAPARSE_V1_I1591 BOOST_METAPARSE_V1_INDEX_STR1664";
  ln "#define BOOST_METAPARSE_V1_I1592 BOOST_METAPARSE_V1_INDEX_STR1664";
  ln "#define BOOST_METAPARSE_V1_I1593 BOOST_METAPARSE_V1_INDEX_STR1664";
  ln "#define BOOST_METAPARSE_V1_I1594 BOOST_METAPARSE_V1_INDEX_STR1664";
  ln "#define BOOST_METAPARSE_V1_I1595 BOOST_METAPARSE_V1_INDEX_STR1664";
  ln "#define BOOST_METAPARSE_V1_I1596 BOOST_METAPARSE_V1_INDEX_STR1664";
  ln "#define BOOST_METAPARSE_V1_I1597 BOOST_METAPARSE_V1_INDEX_STR1664";
  ln "#define BOOST_METAPARSE_V1_I1598 BOOST_METAPARSE_V1_INDEX_STR1664";
  ln "#define BOOST_METAPARSE_V1_I1599 BOOST_METAPARSE_V1_INDEX_STR1664";
  ln "#define BOOST_METAPARSE_V1_I1600 BOOST_METAPARSE_V1_INDEX_STR1664";
  ln "#define BOOST_METAPARSE_V1_I1601 BOOST_METAPARSE_V1_INDEX_STR1664";
  ln "#define BOOST_METAPARSE_V1_I1602 BOOST_METAPARSE_V1_INDEX_STR1664";
  ln "#define BOOST_METAPARSE_V1_I1603 BOOST_METAPARSE_V1_INDEX_STR1664";
  ln "#define BOOST_METAPARSE_V1_I1604 BOOST_METAPARSE_V1_INDEX_STR1664";
  ln "#define BOOST_METAPARSE_V1_I1605 BOOST_METAPARSE_V1_INDEX_STR1664";
  ln "#define BOOST_METAPARSE_V1_I1606 BOOST_METAPARSE_V1_INDEX_STR1664";
  ln "#define BOOST_METAPARSE_V1_I1607 BOOST_METAPARSE_V1_INDEX_STR1664";
  ln "#define BOOST_METAPARSE_V1_I1608 BOOST_METAPARSE_V1_INDEX_STR1664";
  ln "#define BOOST_METAPARSE_V1_I1609 BOOST_METAPARSE_V1_INDEX_STR1664";
  ln "#define BOOST_METAPARSE_V1_I1610 BOOST_METAPARSE_V1_INDEX_STR1664";
  ln "#define BOOST_METAPARSE_V1_I1611 BOOST_METAPARSE_V1_INDEX_STR1664";
  ln "#define BOOST_METAPARSE_V1_I1612 BOOST_METAPARSE_V1_INDEX_STR1664";
  ln "#define BOOST_METAPARSE_V1_I1613 BOOST_METAPARSE_V1_INDEX_STR1664";
  ln "#define BOOST_METAPARSE_V1_I1614 BOOST_METAPARSE_V1_INDEX_STR1664";
  ln "#define BOOST_METAPARSE_V1_I1615 BOOST_METAPARSE_V1_INDEX_STR1664";
  ln "#define BOOST_METAPARSE_V1_I1616 BOOST_METAPARSE_V1_INDEX_STR1664";
  ln "#define BOOST_METAPARSE_V1_I1617 BOOST_METAPARSE_V1_INDEX_STR1664";
  ln "#define BOOST_METAPARSE_V1_I1618 BOOST_METAPARSE_V1_INDEX_STR1664";
  ln "#define BOOST_METAPARSE_V1_I1619 BOOST_METAPARSE_V1_INDEX_STR1664";
  ln "#define BOOST_METAPARSE_V1_I1620 BOOST_METAPARSE_V1_INDEX_STR1664";
  ln "#define BOOST_METAPARSE_V1_I1621 BOOST_METAPARSE_V1_INDEX_STR1664";
  ln "#define BOOST_METAPARSE_V1_I1622 BOOST_METAPARSE_V1_INDEX_STR1664";
  ln "#define BOOST_METAPARSE_V1_I1623 BOOST_METAPARSE_V1_INDEX_STR1664";
  ln "#define BOOST_METAPARSE_V1_I1624 BOOST_METAPARSE_V1_INDEX_STR1664";
  ln "#define BOOST_METAPARSE_V1_I1625 BOOST_METAPARSE_V1_INDEX_STR1664";
  ln "#define BOOST_METAPARSE_V1_I1626 BOOST_METAPARSE_V1_INDEX_STR1664";
  ln "#define BOOST_METAPARSE_V1_I1627 BOOST_METAPARSE_V1_INDEX_STR1664";
  ln "#define BOOST_METAPARSE_V1_I1628 BOOST_METAPARSE_V1_INDEX_STR1664";
  ln "#define BOOST_METAPARSE_V1_I1629 BOOST_METAPARSE_V1_INDEX_STR1664";
  ln "#define BOOST_METAPARSE_V1_I1630 BOOST_METAPARSE_V1_INDEX_STR1664";
  ln "#define BOOST_METAPARSE_V1_I1631 BOOST_METAPARSE_V1_INDEX_STR1664";
  ln "#define BOOST_METAPARSE_V1_I1632 BOOST_METAPARSE_V1_INDEX_STR1664";
  ln "#define BOOST_METAPARSE_V1_I1633 BOOST_METAPARSE_V1_INDEX_STR1664";
  ln "#define BOOST_METAPARSE_V1_I1634 BOOST_METAPARSE_V1_INDEX_STR1664";
  ln "#define BOOST_METAPARSE_V1_I1635 BOOST_METAPARSE_V1_INDEX_STR1664";
  ln "#define BOOST_METAPARSE_V1_I1636 BOOST_METAPARSE_V1_INDEX_STR1664";
  ln "#define BOOST_METAPARSE_V1_I1637 BOOST_METAPARSE_V1_INDEX_STR1664";
  ln "#define BOOST_METAPARSE_V1_I1638 BOOST_METAPARSE_V1_INDEX_STR1664";
  ln "#define BOOST_METAPARSE_V1_I1639 BOOST_METAPARSE_V1_INDEX_STR1664";
  ln "#define BOOST_METAPARSE_V1_I1640 BOOST_METAPARSE_V1_INDEX_STR1664";
  ln "#define BOOST_METAPARSE_V1_I1641 BOOST_METAPARSE_V1_INDEX_STR1664";
  ln "#define BOOST_METAPARSE_V1_I1642 BOOST_METAPARSE_V1_INDEX_STR1664";
  ln "#define BOOST_METAPARSE_V1_I1643 BOOST_METAPARSE_V1_INDEX_STR1664";
  ln "#define BOOST_METAPARSE_V1_I1644 BOOST_METAPARSE_V1_INDEX_STR1664";
  ln "#define BOOST_METAPARSE_V1_I1645 BOOST_METAPARSE_V1_INDEX_STR1664";
  ln "#define BOOST_METAPARSE_V1_I1646 BOOST_METAPARSE_V1_INDEX_STR1664";
  ln "#define BOOST_METAPARSE_V1_I1647 BOOST_METAPARSE_V1_INDEX_STR1664";
  ln "#define BOOST_METAPARSE_V1_I1648 BOOST_METAPARSE_V1_INDEX_STR1664";
  ln "#define BOOST_METAPARSE_V1_I1649 BOOST_METAPARSE_V1_INDEX_STR1664";
  ln "#define BOOST_METAPARSE_V1_I1650 BOOST_METAPARSE_V1_INDEX_STR1664";
  ln "#define BOOST_METAPARSE_V1_I1651 BOOST_METAPARSE_V1_INDEX_STR1664";
  ln "#define BOOST_METAPARSE_V1_I1652 BOOST_METAPARSE_V1_INDEX_STR1664";
  ln "#define BOOST_METAPARSE_V1_I1653 BOOST_METAPARSE_V1_INDEX_STR1664";
  ln "#define BOOST_METAPARSE_V1_I1654 BOOST_METAPARSE_V1_INDEX_STR1664";
  ln "#define BOOST_METAPARSE_V1_I1655 BOOST_METAPARSE_V1_INDEX_STR1664";
  ln "#define BOOST_METAPARSE_V1_I1656 BOOST_METAPARSE_V1_INDEX_STR1664";
  ln "#define BOOST_METAPARSE_V1_I1657 BOOST_METAPARSE_V1_INDEX_STR1664";
  ln "#define BOOST_METAPARSE_V1_I1658 BOOST_METAPARSE_V1_INDEX_STR1664";
  ln "#define BOOST_METAPARSE_V1_I1659 BOOST_METAPARSE_V1_INDEX_STR1664";
  ln "#define BOOST_METAPARSE_V1_I1660 BOOST_METAPARSE_V1_INDEX_STR1664";
  ln "#define BOOST_METAPARSE_V1_I1661 BOOST_METAPARSE_V1_INDEX_STR1664";
  ln "#define BOOST_METAPARSE_V1_I1662 BOOST_METAPARSE_V1_INDEX_STR1664";
  ln "#define BOOST_METAPARSE_V1_I1663 BOOST_METAPARSE_V1_INDEX_STR1664";
  ln "#define BOOST_METAPARSE_V1_I1664 BOOST_METAPARSE_V1_INDEX_STR1664";
  ln "#define BOOST_METAPARSE_V1_I1665 BOOST_METAPARSE_V1_INDEX_STR1792";
  ln "#define BOOST_METAPARSE_V1_I1666 BOOST_METAPARSE_V1_INDEX_STR1792";
  ln "#define BOOST_METAPARSE_V1_I1667 BOOST_METAPARSE_V1_INDEX_STR1792";
  ln "#define BOOST_METAPARSE_V1_I1668 BOOST_METAPARSE_V1_INDEX_STR1792";
  ln "#define BOOST_METAPARSE_V1_I1669 BOOST_METAPARSE_V1_INDEX_STR1792";
  ln "#define BOOST_METAPARSE_V1_I1670 BOOST_METAPARSE_V1_INDEX_STR1792";
  ln "#define BOOST_METAPARSE_V1_I1671 BOOST_METAPARSE_V1_INDEX_STR1792";
  ln "#define BOOST_METAPARSE_V1_I1672 BOOST_METAPARSE_V1_INDEX_STR1792";
  ln "#define BOOST_METAPARSE_V1_I1673 BOOST_METAPARSE_V1_INDEX_STR1792";
  ln "#define BOOST_METAPARSE_V1_I1674 BOOST_METAPARSE_V1_INDEX_STR1792";
  ln "#define BOOST_METAPARSE_V1_I1675 BOOST_METAPARSE_V1_INDEX_STR1792";
  ln "#define BOOST_METAPARSE_V1_I1676 BOOST_METAPARSE_V1_INDEX_STR1792";
  ln "#define BOOST_METAPARSE_V1_I1677 BOOST_METAPARSE_V1_INDEX_STR1792";
  ln "#define BOOST_METAPARSE_V1_I1678 BOOST_METAPARSE_V1_INDEX_STR1792";
  ln "#define BOOST_METAPARSE_V1_I1679 BOOST_METAPARSE_V1_INDEX_STR1792";
  ln "#define BOOST_METAPARSE_V1_I1680 BOOST_METAPARSE_V1_INDEX_STR1792";
  ln "#define BOOST_METAPARSE_V1_I1681 BOOST_METAPARSE_V1_INDEX_STR1792";
  ln "#define BOOST_METAPARSE_V1_I1682 BOOST_METAPARSE_V1_INDEX_STR1792";
  ln "#define BOOST_METAPARSE_V1_I1683 BOOST_METAPARSE_V1_INDEX_STR1792";
  ln "#define BOOST_METAPARSE_V1_I1684 BOOST_METAPARSE_V1_INDEX_STR1792";
  ln "#define BOOST_METAPARSE_V1_I1685 BOOST_METAPARSE_V1_INDEX_STR1792";
  ln "#define BOOST_METAPARSE_V1_I1686 BOOST_METAPARSE_V1_INDEX_STR1792";
  ln "#define BOOST_METAPARSE_V1_I1687 BOOST_METAPARSE_V1_INDEX_STR1792";
  ln "#define BOOST_METAPARSE_V1_I1688 BOOST_METAPARSE_V1_INDEX_STR1792";
  ln "#define BOOST_METAPARSE_V1_I1689 BOOST_METAPARSE_V1_INDEX_STR1792";
  ln "#define BOOST_METAPARSE_V1_I1690 BOOST_METAPARSE_V1_INDEX_STR1792";
  ln "#define BOOST_METAPARSE_V1_I1691 BOOST_METAPARSE_V1_INDEX_STR1792";
  ln "#define BOOST_METAPARSE_V1_I1692 BOOST_METAPARSE_V1_INDEX_STR1792";
  ln "#define BOOST_METAPARSE_V1_I1693 BOOST_METAPARSE_V1_INDEX_STR1792";
  ln "#define BOOST_METAPARSE_V1_I1694 BOOST_METAPARSE_V1_INDEX_STR1792";
  ln "#define BOOST_METAPARSE_V1_I1695 BOOST_METAPARSE_V1_INDEX_STR1792";
  ln "#define BOOST_METAPARSE_V1_I1696 BOOST_METAPARSE_V1_INDEX_STR1792";
  ln "#define BOOST_METAPARSE_V1_I1697 BOOST_METAPARSE_V1_INDEX_STR1792";
  ln "#define BOOST_METAPARSE_V1_I1698 BOOST_METAPARSE_V1_INDEX_STR1792";
  ln "#define BOOST_METAPARSE_V1_I1699 BOOST_METAPARSE_V1_INDEX_STR1792";
  ln "#define BOOST_METAPARSE_V1_I1700 BOOST_METAPARSE_V1_INDEX_STR1792";
  ln "#define BOOST_METAPARSE_V1_I1701 BOOST_METAPARSE_V1_INDEX_STR1792";
  ln "#define BOOST_METAPARSE_V1_I1702 BOOST_METAPARSE_V1_INDEX_STR1792";
  ln "#define BOOST_METAPARSE_V1_I1703 BOOST_METAPARSE_V1_INDEX_STR1792";
  ln "#define BOOST_METAPARSE_V1_I1704 BOOST_METAPARSE_V1_INDEX_STR1792";
  ln "#define BOOST_METAPARSE_V1_I1705 BOOST_METAPARSE_V1_INDEX_STR1792";
  ln "#define BOOST_METAPARSE_V1_I1706 BOOST_METAPARSE_V1_INDEX_STR1792";
  ln "#define BOOST_METAPARSE_V1_I1707 BOOST_METAPARSE_V1_INDEX_STR1792";
  ln "#define BOOST_METAPARSE_V1_I1708 BOOST_METAPARSE_V1_INDEX_STR1792";
  ln "#define BOOST_METAPARSE_V1_I1709 BOOST_METAPARSE_V1_INDEX_STR1792";
  ln "#define BOOST_METAPARSE_V1_I1710 BOOST_METAPARSE_V1_INDEX_STR1792";
  ln "#define BOOST_METAPARSE_V1_I1711 BOOST_METAPARSE_V1_INDEX_STR1792";
  ln "#define BOOST_METAPARSE_V1_I1712 BOOST_METAPARSE_V1_INDEX_STR1792";
  ln "#define BOOST_METAPARSE_V1_I1713 BOOST_METAPARSE_V1_INDEX_STR1792";
  ln "#define BOOST_METAPARSE_V1_I1714 BOOST_METAPARSE_V1_INDEX_STR1792";
  ln "#define BOOST_METAPARSE_V1_I1715 BOOST_METAPARSE_V1_INDEX_STR1792";
  ln "#define BOOST_METAPARSE_V1_I1716 BOOST_METAPARSE_V1_INDEX_STR1792";
  ln "#define BOOST_METAPARSE_V1_I1717 BOOST_METAPARSE_V1_INDEX_STR1792";
  ln "#define BOOST_METAPARSE_V1_I1718 BOOST_METAPARSE_V1_INDEX_STR1792";
  ln "#define BOOST_METAPARSE_V1_I1719 BOOST_METAPARSE_V1_INDEX_STR1792";
  ln "#define BOOST_METAPARSE_V1_I1720 BOOST_METAPARSE_V1_INDEX_STR1792";
  ln "#define BOOST_METAPARSE_V1_I1721 BOOST_METAPARSE_V1_INDEX_STR1792";
  ln "#define BOOST_METAPARSE_V1_I1722 BOOST_METAPARSE_V1_INDEX_STR1792";
  ln "#define BOOST_METAPARSE_V1_I1723 BOOST_METAPARSE_V1_INDEX_STR1792";
  ln "#define BOOST_METAPARSE_V1_I1724 BOOST_METAPARSE_V1_INDEX_STR1792";
  ln "#define BOOST_METAPARSE_V1_I1725 BOOST_METAPARSE_V1_INDEX_STR1792";
  ln "#define BOOST_METAPARSE_V1_I1726 BOOST_METAPARSE_V1_INDEX_STR1792";
  ln "#define BOOST_METAPARSE_V1_I1727 BOOST_METAPARSE_V1_INDEX_STR1792";
  ln "#define BOOST_METAPARSE_V1_I1728 BOOST_METAPARSE_V1_INDEX_STR1792";
  ln "#define BOOST_METAPARSE_V1_I1729 BOOST_METAPARSE_V1_INDEX_STR1792";
  ln "#define BOOST_METAPARSE_V1_I1730 BOOST_METAPARSE_V1_INDEX_STR1792";
  ln "#define BOOST_METAPARSE_V1_I1731 BOOST_METAPARSE_V1_INDEX_STR1792";
  ln "#define BOOST_METAPARSE_V1_I1732 BOOST_METAPARSE_V1_INDEX_STR1792";
  ln "#define BOOST_METAPARSE_V1_I1733 BOOST_METAPARSE_V1_INDEX_STR1792";
  ln "#define BOOST_METAPARSE_V1_I1734 BOOST_METAPARSE_V1_INDEX_STR1792";
  ln "#define BOOST_METAPARSE_V1_I1735 BOOST_METAPARSE_V1_INDEX_STR1792";
  ln "#define BOOST_METAPARSE_V1_I1736 BOOST_METAPARSE_V1_INDEX_STR1792";
  ln "#define BOOST_METAPARSE_V1_I1737 BOOST_METAPARSE_V1_INDEX_STR1792";
  ln "#define BOOST_METAPARSE_V1_I1738 BOOST_METAPARSE_V1_INDEX_STR1792";
  ln "#define BOOST_METAPARSE_V1_I1739 BOOST_METAPARSE_V1_INDEX_STR1792";
  ln "#define BOOST_METAPARSE_V1_I1740 BOOST_METAPARSE_V1_INDEX_STR1792";
  ln "#define BOOST_METAPARSE_V1_I1741 BOOST_METAPARSE_V1_INDEX_STR1792";
  ln "#define BOOST_METAPARSE_V1_I1742 BOOST_METAPARSE_V1_INDEX_STR1792";
  ln "#define BOOST_METAPARSE_V1_I1743 BOOST_METAPARSE_V1_INDEX_STR1792";
  ln "#define BOOST_METAPARSE_V1_I1744 BOOST_METAPARSE_V1_INDEX_STR1792";
  ln "#define BOOST_METAPARSE_V1_I1745 BOOST_METAPARSE_V1_INDEX_STR1792";
  ln "#define BOOST_METAPARSE_V1_I1746 BOOST_METAPARSE_V1_INDEX_STR1792";
  ln "#define BOOST_METAPARSE_V1_I1747 BOOST_METAPARSE_V1_INDEX_STR1792";
  ln "#define BOOST_METAPARSE_V1_I1748 BOOST_METAPARSE_V1_INDEX_STR1792";
  ln "#define BOOST_METAPARSE_V1_I1749 BOOST_METAPARSE_V1_INDEX_STR1792";
  ln "#define BOOST_METAPARSE_V1_I1750 BOOST_METAPARSE_V1_INDEX_STR1792";
  ln "#define BOOST_METAPARSE_V1_I1751 BOOST_METAPARSE_V1_INDEX_STR1792";
  ln "#define BOOST_METAPARSE_V1_I1752 BOOST_METAPARSE_V1_INDEX_STR1792";
  ln "#define BOOST_METAPARSE_V1_I1753 BOOST_METAPARSE_V1_INDEX_STR1792";
  ln "#define BOOST_METAPARSE_V1_I1754 BOOST_METAPARSE_V1_INDEX_STR1792";
  ln "#define BOOST_METAPARSE_V1_I1755 BOOST_METAPARSE_V1_INDEX_STR1792";
  ln "#define BOOST_METAPARSE_V1_I1756 BOOST_METAPARSE_V1_INDEX_STR1792";
  ln "#define BOOST_METAPARSE_V1_I1757 BOOST_METAPARSE_V1_INDEX_STR1792";
  ln "#define BOOST_METAPARSE_V1_I1758 BOOST_METAPARSE_V1_INDEX_STR1792";
  ln "#define BOOST_METAPARSE_V1_I1759 BOOST_METAPARSE_V1_INDEX_STR1792";
  ln "#define BOOST_METAPARSE_V1_I1760 BOOST_METAPARSE_V1_INDEX_STR1792";
  ln "#define BOOST_METAPARSE_V1_I1761 BOOST_METAPARSE_V1_INDEX_STR1792";
  ln "#define BOOST_METAPARSE_V1_I1762 BOOST_METAPARSE_V1_INDEX_STR1792";
  ln "#define BOOST_METAPARSE_V1_I1763 BOOST_METAPARSE_V1_INDEX_STR1792";
  ln "#define BOOST_METAPARSE_V1_I1764 BOOST_METAPARSE_V1_INDEX_STR1792";
  ln "#define BOOST_METAPARSE_V1_I1765 BOOST_METAPARSE_V1_INDEX_STR1792";
  ln "#define BOOST_METAPARSE_V1_I1766 BOOST_METAPARSE_V1_INDEX_STR1792";
  ln "#define BOOST_METAPARSE_V1_I1767 BOOST_METAPARSE_V1_INDEX_STR1792";
  ln "#define BOOST_METAPARSE_V1_I1768 BOOST_METAPARSE_V1_INDEX_STR1792";
  ln "#define BOOST_METAPARSE_V1_I1769 BOOST_METAPARSE_V1_INDEX_STR1792";
  ln "#define BOOST_METAPARSE_V1_I1770 BOOST_METAPARSE_V1_INDEX_STR1792";
  ln "#define BOOST_METAPARSE_V1_I1771 BOOST_METAPARSE_V1_INDEX_STR1792";
  ln "#define BOOST_METAPARSE_V1_I1772 BOOST_METAPARSE_V1_INDEX_STR1792";
  ln "#define BOOST_METAPARSE_V1_I1773 BOOST_METAPARSE_V1_INDEX_STR1792";
  ln "#define BOOST_METAPARSE_V1_I1774 BOOST_METAPARSE_V1_INDEX_STR1792";
  ln "#define BOOST_METAPARSE_V1_I1775 BOOST_METAPARSE_V1_INDEX_STR1792";
  ln "#define BOOST_METAPARSE_V1_I1776 BOOST_METAPARSE_V1_INDEX_STR1792";
  ln "#define BOOST_METAPARSE_V1_I1777 BOOST_METAPARSE_V1_INDEX_STR1792";
  ln "#define BOOST_METAPARSE_V1_I1778 BOOST_METAPARSE_V1_INDEX_STR1792";
  ln "#define BOOST_METAPARSE_V1_I1779 BOOST_METAPARSE_V1_INDEX_STR1792";
  ln "#define BOOST_METAPARSE_V1_I1780 BOOST_METAPARSE_V1_INDEX_STR1792";
  ln "#define BOOST_METAPARSE_V1_I1781 BOOST_METAPARSE_V1_INDEX_STR1792";
  ln "#define BOOST_METAPARSE_V1_I1782 BOOST_METAPARSE_V1_INDEX_STR1792";
  ln "#define BOOST_METAPARSE_V1_I1783 BOOST_METAPARSE_V1_INDEX_STR1792";
  ln "#define BOOST_METAPARSE_V1_I1784 BOOST_METAPARSE_V1_INDEX_STR1792";
  ln "#define BOOST_METAPARSE_V1_I1785 BOOST_METAPARSE_V1_INDEX_STR1792";
  ln "#define BOOST_METAPARSE_V1_I1786 BOOST_METAPARSE_V1_INDEX_STR1792";
  ln "#define BOOST_METAPARSE_V1_I1787 BOOST_METAPARSE_V1_INDEX_STR1792";
  ln "#define BOOST_METAPARSE_V1_I1788 BOOST_METAPARSE_V1_INDEX_STR1792";
  ln "#define BOOST_METAPARSE_V1_I1789 BOOST_METAPARSE_V1_INDEX_STR1792";
  ln "#define BOOST_METAPARSE_V1_I1790 BOOST_METAPARSE_V1_INDEX_STR1792";
  ln "#define BOOST_METAPARSE_V1_I1791 BOOST_METAPARSE_V1_INDEX_STR1792";
  ln "#define BOOST_METAPARSE_V1_I1792 BOOST_METAPARSE_V1_INDEX_STR1792";
  ln "#define BOOST_METAPARSE_V1_I1793 BOOST_METAPARSE_V1_INDEX_STR1920";
  ln "#define BOOST_METAPARSE_V1_I1794 BOOST_METAPARSE_V1_INDEX_STR1920";
  ln "#define BOOST_METAPARSE_V1_I1795 BOOST_METAPARSE_V1_INDEX_STR1920";
  ln "#define BOOST_METAPARSE_V1_I1796 BOOST_METAPARSE_V1_INDEX_STR1920";
  ln "#define BOOST_METAPARSE_V1_I1797 BOOST_METAPARSE_V1_INDEX_STR1920";
  ln "#define BOOST_METAPARSE_V1_I1798 BOOST_METAPARSE_V1_INDEX_STR1920";
  ln "#define BOOST_METAPARSE_V1_I1799 BOOST_METAPARSE_V1_INDEX_STR1920";
  ln "#define BOOST_METAPARSE_V1_I1800 BOOST_METAPARSE_V1_INDEX_STR1920";
  ln "#define BOOST_METAPARSE_V1_I1801 BOOST_METAPARSE_V1_INDEX_STR1920";
  ln "#define BOOST_METAPARSE_V1_I1802 BOOST_METAPARSE_V1_INDEX_STR1920";
  ln "#define BOOST_METAPARSE_V1_I1803 BOOST_METAPARSE_V1_INDEX_STR1920";
  ln "#define BOOST_METAPARSE_V1_I1804 BOOST_METAPARSE_V1_INDEX_STR1920";
  ln "#define BOOST_METAPARSE_V1_I1805 BOOST_METAPARSE_V1_INDEX_STR1920";
  ln "#define BOOST_METAPARSE_V1_I1806 BOOST_METAPARSE_V1_INDEX_STR1920";
  ln "#define BOOST_METAPARSE_V1_I1807 BOOST_METAPARSE_V1_INDEX_STR1920";
  ln "#define BOOST_METAPARSE_V1_I1808 BOOST_METAPARSE_V1_INDEX_STR1920";
  ln "#define BOOST_METAPARSE_V1_I1809 BOOST_METAPARSE_V1_INDEX_STR1920";
  ln "#define BOOST_METAPARSE_V1_I1810 BOOST_METAPARSE_V1_INDEX_STR1920";
  ln "#define BOOST_METAPARSE_V1_I1811 BOOST_METAPARSE_V1_INDEX_STR1920";
  ln "#define BOOST_METAPARSE_V1_I1812 BOOST_METAPARSE_V1_INDEX_STR1920";
  ln "#define BOOST_METAPARSE_V1_I1813 BOOST_METAPARSE_V1_INDEX_STR1920";
  ln "#define BOOST_METAPARSE_V1_I1814 BOOST_METAPARSE_V1_INDEX_STR1920";
  ln "#define BOOST_METAPARSE_V1_I1815 BOOST_METAPARSE_V1_INDEX_STR1920";
  ln "#define BOOST_METAPARSE_V1_I1816 BOOST_METAPARSE_V1_INDEX_STR1920";
  ln "#define BOOST_METAPARSE_V1_I1817 BOOST_METAPARSE_V1_INDEX_STR1920";
  ln "#define BOOST_METAPARSE_V1_I1818 BOOST_METAPARSE_V1_INDEX_STR1920";
  ln "#define BOOST_METAPARSE_V1_I1819 BOOST_METAPARSE_V1_INDEX_STR1920";
  ln "#define BOOST_METAPARSE_V1_I1820 BOOST_METAPARSE_V1_INDEX_STR1920";
  ln "#define BOOST_METAPARSE_V1_I1821 BOOST_METAPARSE_V1_INDEX_STR1920";
  ln "#define BOOST_METAPARSE_V1_I1822 BOOST_METAPARSE_V1_INDEX_STR1920";
  ln "#define BOOST_METAPARSE_V1_I1823 BOOST_METAPARSE_V1_INDEX_STR1920";
  ln "#define BOOST_METAPARSE_V1_I1824 BOOST_METAPARSE_V1_INDEX_STR1920";
  ln "#define BOOST_METAPARSE_V1_I1825 BOOST_METAPARSE_V1_INDEX_STR1920";
  ln "#define BOOST_METAPARSE_V1_I1826 BOOST_METAPARSE_V1_INDEX_STR1920";
  ln "#define BOOST_METAPARSE_V1_I1827 BOOST_METAPARSE_V1_INDEX_STR1920";
  ln "#define BOOST_METAPARSE_V1_I1828 BOOST_METAPARSE_V1_INDEX_STR1920";
  ln "#define BOOST_METAPARSE_V1_I1829 BOOST_METAPARSE_V1_INDEX_STR1920";
  ln "#define BOOST_METAPARSE_V1_I1830 BOOST_METAPARSE_V1_INDEX_STR1920";
  ln "#define BOOST_METAPARSE_V1_I1831 BOOST_METAPARSE_V1_INDEX_STR1920";
  ln "#define BOOST_METAPARSE_V1_I1832 BOOST_METAPARSE_V1_INDEX_STR1920";
  ln "#define BOOST_METAPARSE_V1_I1833 BOOST_METAPARSE_V1_INDEX_STR1920";
  ln "#define BOOST_METAPARSE_V1_I1834 BOOST_METAPARSE_V1_INDEX_STR1920";
  ln "#define BOOST_METAPARSE_V1_I1835 BOOST_METAPARSE_V1_INDEX_STR1920";
  ln "#define BOOST_METAPARSE_V1_I1836 BOOST_METAPARSE_V1_INDEX_STR1920";
  ln "#define BOOST_METAPARSE_V1_I1837 BOOST_METAPARSE_V1_INDEX_STR1920";
  ln "#define BOOST_METAPARSE_V1_I1838 BOOST_METAPARSE_V1_INDEX_STR1920";
  ln "#define BOOST_METAPARSE_V1_I1839 BOOST_METAPARSE_V1_INDEX_STR1920";
  ln "#define BOOST_METAPARSE_V1_I1840 BOOST_METAPARSE_V1_INDEX_STR1920";
  ln "#define BOOST_METAPARSE_V1_I1841 BOOST_METAPARSE_V1_INDEX_STR1920";
  ln "#define BOOST_METAPARSE_V1_I1842 BOOST_METAPARSE_V1_INDEX_STR1920";
  ln "#define BOOST_METAPARSE_V1_I1843 BOOST_METAPARSE_V1_INDEX_STR1920";
  ln "#define BOOST_METAPARSE_V1_I1844 BOOST_METAPARSE_V1_INDEX_STR1920";
  ln "#define BOOST_METAPARSE_V1_I1845 BOOST_METAPARSE_V1_INDEX_STR1920";
  ln "#define BOOST_METAPARSE_V1_I1846 BOOST_METAPARSE_V1_INDEX_STR1920";
  ln "#define BOOST_METAPARSE_V1_I1847 BOOST_METAPARSE_V1_INDEX_STR1920";
  ln "#define BOOST_METAPARSE_V1_I1848 BOOST_METAPARSE_V1_INDEX_STR1920";
  ln "#define BOOST_METAPARSE_V1_I1849 BOOST_METAPARSE_V1_INDEX_STR1920";
  ln "#define BOOST_METAPARSE_V1_I1850 BOOST_METAPARSE_V1_INDEX_STR1920";
  ln "#define BOOST_METAPARSE_V1_I1851 BOOST_METAPARSE_V1_INDEX_STR1920";
  ln "#define BOOST_METAPARSE_V1_I1852 BOOST_METAPARSE_V1_INDEX_STR1920";
  ln "#define BOOST_METAPARSE_V1_I1853 BOOST_METAPARSE_V1_INDEX_STR1920";
  ln "#define BOOST_METAPARSE_V1_I1854 BOOST_METAPARSE_V1_INDEX_STR1920";
  ln "#define BOOST_METAPARSE_V1_I1855 BOOST_METAPARSE_V1_INDEX_STR1920";
  ln "#define BOOST_METAPARSE_V1_I1856 BOOST_METAPARSE_V1_INDEX_STR1920";
  ln "#define BOOST_METAPARSE_V1_I1857 BOOST_METAPARSE_V1_INDEX_STR1920";
  ln "#define BOOST_METAPARSE_V1_I1858 BOOST_METAPARSE_V1_INDEX_STR1920";
  ln "#define BOOST_METAPARSE_V1_I1859 BOOST_METAPARSE_V1_INDEX_STR1920";
  ln "#define BOOST_METAPARSE_V1_I1860 BOOST_METAPARSE_V1_INDEX_STR1920";
  ln "#define BOOST_METAPARSE_V1_I1861 BOOST_METAPARSE_V1_INDEX_STR1920";
  ln "#define BOOST_METAPARSE_V1_I1862 BOOST_METAPARSE_V1_INDEX_STR1920";
  ln "#define BOOST_METAPARSE_V1_I1863 BOOST_METAPARSE_V1_INDEX_STR1920";
  ln "#define BOOST_METAPARSE_V1_I1864 BOOST_METAPARSE_V1_INDEX_STR1920";
  ln "#define BOOST_METAPARSE_V1_I1865 BOOST_METAPARSE_V1_INDEX_STR1920";
  ln "#define BOOST_METAPARSE_V1_I1866 BOOST_METAPARSE_V1_INDEX_STR1920";
  ln "#define BOOST_METAPARSE_V1_I1867 BOOST_METAPARSE_V1_INDEX_STR1920";
  ln "#define BOOST_METAPARSE_V1_I1868 BOOST_METAPARSE_V1_INDEX_STR1920";
  ln "#define BOOST_METAPARSE_V1_I1869 BOOST_METAPARSE_V1_INDEX_STR1920";
  ln "#define BOOST_METAPARSE_V1_I1870 BOOST_METAPARSE_V1_INDEX_STR1920";
  ln "#define BOOST_METAPARSE_V1_I1871 BOOST_METAPARSE_V1_INDEX_STR1920";
  ln "#define BOOST_METAPARSE_V1_I1872 BOOST_METAPARSE_V1_INDEX_STR1920";
  ln "#define BOOST_METAPARSE_V1_I1873 BOOST_METAPARSE_V1_INDEX_STR1920";
  ln "#define BOOST_METAPARSE_V1_I1874 BOOST_METAPARSE_V1_INDEX_STR1920";
  ln "#define BOOST_METAPARSE_V1_I1875 BOOST_METAPARSE_V1_INDEX_STR1920";
  ln "#define BOOST_METAPARSE_V1_I1876 BOOST_METAPARSE_V1_INDEX_STR1920";
  ln "#define BOOST_METAPARSE_V1_I1877 BOOST_METAPARSE_V1_INDEX_STR1920";
  ln "#define BOOST_METAPARSE_V1_I1878 BOOST_METAPARSE_V1_INDEX_STR1920";
  ln "#define BOOST_METAPARSE_V1_I1879 BOOST_METAPARSE_V1_INDEX_STR1920";
  ln "#define BOOST_METAPARSE_V1_I1880 BOOST_METAPARSE_V1_INDEX_STR1920";
  ln "#define BOOST_METAPARSE_V1_I1881 BOOST_METAPARSE_V1_INDEX_STR1920";
  ln "#define BOOST_METAPARSE_V1_I1882 BOOST_METAPARSE_V1_INDEX_STR1920";
  ln "#define BOOST_METAPARSE_V1_I1883 BOOST_METAPARSE_V1_INDEX_STR1920";
  ln "#define BOOST_METAPARSE_V1_I1884 BOOST_METAPARSE_V1_INDEX_STR1920";
  ln "#define BOOST_METAPARSE_V1_I1885 BOOST_METAPARSE_V1_INDEX_STR1920";
  ln "#define BOOST_METAPARSE_V1_I1886 BOOST_METAPARSE_V1_INDEX_STR1920";
  ln "#define BOOST_METAPARSE_V1_I1887 BOOST_METAPARSE_V1_INDEX_STR1920";
  ln "#define BOOST_METAPARSE_V1_I1888 BOOST_METAPARSE_V1_INDEX_STR1920";
  ln "#define BOOST_METAPARSE_V1_I1889 BOOST_METAPARSE_V1_INDEX_STR1920";
  ln "#define BOOST_METAPARSE_V1_I1890 BOOST_METAPARSE_V1_INDEX_STR1920";
  ln "#define BOOST_METAPARSE_V1_I1891 BOOST_METAPARSE_V1_INDEX_STR1920";
  ln "#define BOOST_METAPARSE_V1_I1892 BOOST_METAPARSE_V1_INDEX_STR1920";
  ln "#define BOOST_METAPARSE_V1_I1893 BOOST_METAPARSE_V1_INDEX_STR1920";
  ln "#define BOOST_METAPARSE_V1_I1894 BOOST_METAPARSE_V1_INDEX_STR1920";
  ln "#define BOOST_METAPARSE_V1_I1895 BOOST_METAPARSE_V1_INDEX_STR1920";
  ln "#define BOOST_METAPARSE_V1_I1896 BOOST_METAPARSE_V1_INDEX_STR1920";
  ln "#define BOOST_METAPARSE_V1_I1897 BOOST_METAPARSE_V1_INDEX_STR1920";
  ln "#define BOOST_METAPARSE_V1_I1898 BOOST_METAPARSE_V1_INDEX_STR1920";
  ln "#define BOOST_METAPARSE_V1_I1899 BOOST_METAPARSE_V1_INDEX_STR1920";
  ln "#define BOOST_METAPARSE_V1_I1900 BOOST_METAPARSE_V1_INDEX_STR1920";
  ln "#define BOOST_METAPARSE_V1_I1901 BOOST_METAPARSE_V1_INDEX_STR1920";
  ln "#define BOOST_METAPARSE_V1_I1902 BOOST_METAPARSE_V1_INDEX_STR1920";
  ln "#define BOOST_METAPARSE_V1_I1903 BOOST_METAPARSE_V1_INDEX_STR1920";
  ln "#define BOOST_METAPARSE_V1_I1904 BOOST_METAPARSE_V1_INDEX_STR1920";
  ln "#define BOOST_METAPARSE_V1_I1905 BOOST_METAPARSE_V1_INDEX_STR1920";
  ln "#define BOOST_METAPARSE_V1_I1906 BOOST_METAPARSE_V1_INDEX_STR1920";
  ln "#define BOOST_METAPARSE_V1_I1907 BOOST_METAPARSE_V1_INDEX_STR1920";
  ln "#define BOOST_METAPARSE_V1_I1908 BOOST_METAPARSE_V1_INDEX_STR1920";
  ln "#define BOOST_METAPARSE_V1_I1909 BOOST_METAPARSE_V1_INDEX_STR1920";
  ln "#define BOOST_METAPARSE_V1_I1910 BOOST_METAPARSE_V1_INDEX_STR1920";
  ln "#define BOOST_METAPARSE_V1_I1911 BOOST_METAPARSE_V1_INDEX_STR1920";
  ln "#define BOOST_METAPARSE_V1_I1912 BOOST_METAPARSE_V1_INDEX_STR1920";
  ln "#define BOOST_METAPARSE_V1_I1913 BOOST_METAPARSE_V1_INDEX_STR1920";
  ln "#define BOOST_METAPARSE_V1_I1914 BOOST_METAPARSE_V1_INDEX_STR1920";
  ln "#define BOOST_METAPARSE_V1_I1915 BOOST_METAPARSE_V1_INDEX_STR1920";
  ln "#define BOOST_METAPARSE_V1_I1916 BOOST_METAPARSE_V1_INDEX_STR1920";
  ln "#define BOOST_METAPARSE_V1_I1917 BOOST_METAPARSE_V1_INDEX_STR1920";
  ln "#define BOOST_METAPARSE_V1_I1918 BOOST_METAPARSE_V1_INDEX_STR1920";
  ln "#define BOOST_METAPARSE_V1_I1919 BOOST_METAPARSE_V1_INDEX_STR1920";
  ln "#define BOOST_METAPARSE_V1_I1920 BOOST_METAPARSE_V1_INDEX_STR1920";
  ln "#define BOOST_METAPARSE_V1_I1921 BOOST_METAPARSE_V1_INDEX_STR2048";
  ln "#define BOOST_METAPARSE_V1_I1922 BOOST_METAPARSE_V1_INDEX_STR2048";
  ln "#define BOOST_METAPARSE_V1_I1923 BOOST_METAPARSE_V1_INDEX_STR2048";
  ln "#define BOOST_METAPARSE_V1_I1924 BOOST_METAPARSE_V1_INDEX_STR2048";
  ln "#define BOOST_METAPARSE_V1_I1925 BOOST_METAPARSE_V1_INDEX_STR2048";
  ln "#define BOOST_METAPARSE_V1_I1926 BOOST_METAPARSE_V1_INDEX_STR2048";
  ln "#define BOOST_METAPARSE_V1_I1927 BOOST_METAPARSE_V1_INDEX_STR2048";
  ln "#define BOOST_METAPARSE_V1_I1928 BOOST_METAPARSE_V1_INDEX_STR2048";
  ln "#define BOOST_METAPARSE_V1_I1929 BOOST_METAPARSE_V1_INDEX_STR2048";
  ln "#define BOOST_METAPARSE_V1_I1930 BOOST_METAPARSE_V1_INDEX_STR2048";
  ln "#define BOOST_METAPARSE_V1_I1931 BOOST_METAPARSE_V1_INDEX_STR2048";
  ln "#define BOOST_METAPARSE_V1_I1932 BOOST_METAPARSE_V1_INDEX_STR2048";
  ln "#define BOOST_METAPARSE_V1_I1933 BOOST_METAPARSE_V1_INDEX_STR2048";
  ln "#define BOOST_METAPARSE_V1_I1934 BOOST_METAPARSE_V1_INDEX_STR2048";
  ln "#define BOOST_METAPARSE_V1_I1935 BOOST_METAPARSE_V1_INDEX_STR2048";
  ln "#define BOOST_METAPARSE_V1_I1936 BOOST_METAPARSE_V1_INDEX_STR2048";
  ln "#define BOOST_METAPARSE_V1_I1937 BOOST_METAPARSE_V1_INDEX_STR2048";
  ln "#define BOOST_METAPARSE_V1_I1938 BOOST_METAPARSE_V1_INDEX_STR2048";
  ln "#define BOOST_METAPARSE_V1_I1939 BOOST_METAPARSE_V1_INDEX_STR2048";
  ln "#define BOOST_METAPARSE_V1_I1940 BOOST_METAPARSE_V1_INDEX_STR2048";
  ln "#define BOOST_METAPARSE_V1_I1941 BOOST_METAPARSE_V1_INDEX_STR2048";
  ln "#define BOOST_METAPARSE_V1_I1942 BOOST_METAPARSE_V1_INDEX_STR2048";
  ln "#define BOOST_METAPARSE_V1_I1943 BOOST_METAPARSE_V1_INDEX_STR2048";
  ln "#define BOOST_METAPARSE_V1_I1944 BOOST_METAPARSE_V1_INDEX_STR2048";
  ln "#define BOOST_METAPARSE_V1_I1945 BOOST_METAPARSE_V1_INDEX_STR2048";
  ln "#define BOOST_METAPARSE_V1_I1946 BOOST_METAPARSE_V1_INDEX_STR2048";
  ln "#define BOOST_METAPARSE_V1_I1947 BOOST_METAPARSE_V1_INDEX_STR2048";
  ln "#define BOOST_METAPARSE_V1_I1948 BOOST_METAPARSE_V1_INDEX_STR2048";
  ln "#define BOOST_METAPARSE_V1_I1949 BOOST_METAPARSE_V1_INDEX_STR2048";
  ln "#define BOOST_METAPARSE_V1_I1950 BOOST_METAPARSE_V1_INDEX_STR2048";
  ln "#define BOOST_METAPARSE_V1_I1951 BOOST_METAPARSE_V1_INDEX_STR2048";
  ln "#define BOOST_METAPARSE_V1_I1952 BOOST_METAPARSE_V1_INDEX_STR2048";
  ln "#define BOOST_METAPARSE_V1_I1953 BOOST_METAPARSE_V1_INDEX_STR2048";
  ln "#define BOOST_METAPARSE_V1_I1954 BOOST_METAPARSE_V1_INDEX_STR2048";
  ln "#define BOOST_METAPARSE_V1_I1955 BOOST_METAPARSE_V1_INDEX_STR2048";
  ln "#define BOOST_METAPARSE_V1_I1956 BOOST_METAPARSE_V1_INDEX_STR2048";
  ln "#define BOOST_METAPARSE_V1_I1957 BOOST_METAPARSE_V1_INDEX_STR2048";
  ln "#define BOOST_METAPARSE_V1_I1958 BOOST_METAPARSE_V1_INDEX_STR2048";
  ln "#define BOOST_METAPARSE_V1_I1959 BOOST_METAPARSE_V1_INDEX_STR2048";
  ln "#define BOOST_METAPARSE_V1_I1960 BOOST_METAPARSE_V1_INDEX_STR2048";
  ln "#define BOOST_METAPARSE_V1_I1961 BOOST_METAPARSE_V1_INDEX_STR2048";
  ln "#define BOOST_METAPARSE_V1_I1962 BOOST_METAPARSE_V1_INDEX_STR2048";
  ln "#define BOOST_METAPARSE_V1_I1963 BOOST_METAPARSE_V1_INDEX_STR2048";
  ln "#define BOOST_METAPARSE_V1_I1964 BOOST_METAPARSE_V1_INDEX_STR2048";
  ln "#define BOOST_METAPARSE_V1_I1965 BOOST_METAPARSE_V1_INDEX_STR2048";
  ln "#define BOOST_METAPARSE_V1_I1966 BOOST_METAPARSE_V1_INDEX_STR2048";
  ln "#define BOOST_METAPARSE_V1_I1967 BOOST_METAPARSE_V1_INDEX_STR2048";
  ln "#define BOOST_METAPARSE_V1_I1968 BOOST_METAPARSE_V1_INDEX_STR2048";
  ln "#define BOOST_METAPARSE_V1_I1969 BOOST_METAPARSE_V1_INDEX_STR2048";
  ln "#define BOOST_METAPARSE_V1_I1970 BOOST_METAPARSE_V1_INDEX_STR2048";
  ln "#define BOOST_METAPARSE_V1_I1971 BOOST_METAPARSE_V1_INDEX_STR2048";
  ln "#define BOOST_METAPARSE_V1_I1972 BOOST_METAPARSE_V1_INDEX_STR2048";
  ln "#define BOOST_METAPARSE_V1_I1973 BOOST_METAPARSE_V1_INDEX_STR2048";
  ln "#define BOOST_METAPARSE_V1_I1974 BOOST_METAPARSE_V1_INDEX_STR2048";
  ln "#define BOOST_METAPARSE_V1_I1975 BOOST_METAPARSE_V1_INDEX_STR2048";
  ln "#define BOOST_METAPARSE_V1_I1976 BOOST_METAPARSE_V1_INDEX_STR2048";
  ln "#define BOOST_METAPARSE_V1_I1977 BOOST_METAPARSE_V1_INDEX_STR2048";
  ln "#define BOOST_METAPARSE_V1_I1978 BOOST_METAPARSE_V1_INDEX_STR2048";
  ln "#define BOOST_METAPARSE_V1_I1979 BOOST_METAPARSE_V1_INDEX_STR2048";
  ln "#define BOOST_METAPARSE_V1_I1980 BOOST_METAPARSE_V1_INDEX_STR2048";
  ln "#define BOOST_METAPARSE_V1_I1981 BOOST_METAPARSE_V1_INDEX_STR2048";
  ln "#define BOOST_METAPARSE_V1_I1982 BOOST_METAPARSE_V1_INDEX_STR2048";
  ln "#define BOOST_METAPARSE_V1_I1983 BOOST_METAPARSE_V1_INDEX_STR2048";
  ln "#define BOOST_METAPARSE_V1_I1984 BOOST_METAPARSE_V1_INDEX_STR2048";
  ln "#define BOOST_METAPARSE_V1_I1985 BOOST_METAPARSE_V1_INDEX_STR2048";
  ln "#define BOOST_METAPARSE_V1_I1986 BOOST_METAPARSE_V1_INDEX_STR2048";
  ln "#define BOOST_METAPARSE_V1_I1987 BOOST_METAPARSE_V1_INDEX_STR2048";
  ln "#define BOOST_METAPARSE_V1_I1988 BOOST_METAPARSE_V1_INDEX_STR2048";
  ln "#define BOOST_METAPARSE_V1_I1989 BOOST_METAPARSE_V1_INDEX_STR2048";
  ln "#define BOOST_METAPARSE_V1_I1990 BOOST_METAPARSE_V1_INDEX_STR2048";
  ln "#define BOOST_METAPARSE_V1_I1991 BOOST_METAPARSE_V1_INDEX_STR2048";
  ln "#define BOOST_METAPARSE_V1_I1992 BOOST_METAPARSE_V1_INDEX_STR2048";
  ln "#define BOOST_METAPARSE_V1_I1993 BOOST_METAPARSE_V1_INDEX_STR2048";
  ln "#define BOOST_METAPARSE_V1_I1994 BOOST_METAPARSE_V1_INDEX_STR2048";
  ln "#define BOOST_METAPARSE_V1_I1995 BOOST_METAPARSE_V1_INDEX_STR2048";
  ln "#define BOOST_METAPARSE_V1_I1996 BOOST_METAPARSE_V1_INDEX_STR2048";
  ln "#define BOOST_METAPARSE_V1_I1997 BOOST_METAPARSE_V1_INDEX_STR2048";
  ln "#define BOOST_METAPARSE_V1_I1998 BOOST_METAPARSE_V1_INDEX_STR2048";
  ln "#define BOOST_METAPARSE_V1_I1999 BOOST_METAPARSE_V1_INDEX_STR2048";
  ln "#define BOOST_METAPARSE_V1_I2000 BOOST_METAPARSE_V1_INDEX_STR2048";
  ln "#define BOOST_METAPARSE_V1_I2001 BOOST_METAPARSE_V1_INDEX_STR2048";
  ln "#define BOOST_METAPARSE_V1_I2002 BOOST_METAPARSE_V1_INDEX_STR2048";
  ln "#define BOOST_METAPARSE_V1_I2003 BOOST_METAPARSE_V1_INDEX_STR2048";
  ln "#define BOOST_METAPARSE_V1_I2004 BOOST_METAPARSE_V1_INDEX_STR2048";
  ln "#define BOOST_METAPARSE_V1_I2005 BOOST_METAPARSE_V1_INDEX_STR2048";
  ln "#define BOOST_METAPARSE_V1_I2006 BOOST_METAPARSE_V1_INDEX_STR2048";
  ln "#define BOOST_METAPARSE_V1_I2007 BOOST_METAPARSE_V1_INDEX_STR2048";
  ln "#define BOOST_METAPARSE_V1_I2008 BOOST_METAPARSE_V1_INDEX_STR2048";
  ln "#define BOOST_METAPARSE_V1_I2009 BOOST_METAPARSE_V1_INDEX_STR2048";
  ln "#define BOOST_METAPARSE_V1_I2010 BOOST_METAPARSE_V1_INDEX_STR2048";
  ln "#define BOOST_METAPARSE_V1_I2011 BOOST_METAPARSE_V1_INDEX_STR2048";
  ln "#define BOOST_METAPARSE_V1_I2012 BOOST_METAPARSE_V1_INDEX_STR2048";
  ln "#define BOOST_METAPARSE_V1_I2013 BOOST_METAPARSE_V1_INDEX_STR2048";
  ln "#define BOOST_METAPARSE_V1_I2014 BOOST_METAPARSE_V1_INDEX_STR2048";
  ln "#define BOOST_METAPARSE_V1_I2015 BOOST_METAPARSE_V1_INDEX_STR2048";
  ln "#define BOOST_METAPARSE_V1_I2016 BOOST_METAPARSE_V1_INDEX_STR2048";
  ln "#define BOOST_METAPARSE_V1_I2017 BOOST_METAPARSE_V1_INDEX_STR2048";
  ln "#define BOOST_METAPARSE_V1_I2018 BOOST_METAPARSE_V1_INDEX_STR2048";
  ln "#define BOOST_METAPARSE_V1_I2019 BOOST_METAPARSE_V1_INDEX_STR2048";
  ln "#define BOOST_METAPARSE_V1_I2020 BOOST_METAPARSE_V1_INDEX_STR2048";
  ln "#define BOOST_METAPARSE_V1_I2021 BOOST_METAPARSE_V1_INDEX_STR2048";
  ln "#define BOOST_METAPARSE_V1_I2022 BOOST_METAPARSE_V1_INDEX_STR2048";
  ln "#define BOOST_METAPARSE_V1_I2023 BOOST_METAPARSE_V1_INDEX_STR2048";
  ln "#define BOOST_METAPARSE_V1_I2024 BOOST_METAPARSE_V1_INDEX_STR2048";
  ln "#define BOOST_METAPARSE_V1_I2025 BOOST_METAPARSE_V1_INDEX_STR2048";
  ln "#define BOOST_METAPARSE_V1_I2026 BOOST_METAPARSE_V1_INDEX_STR2048";
  ln "#define BOOST_METAPARSE_V1_I2027 BOOST_METAPARSE_V1_INDEX_STR2048";
  ln "#define BOOST_METAPARSE_V1_I2028 BOOST_METAPARSE_V1_INDEX_STR2048";
  ln "#define BOOST_METAPARSE_V1_I2029 BOOST_METAPARSE_V1_INDEX_STR2048";
  ln "#define BOOST_METAPARSE_V1_I2030 BOOST_METAPARSE_V1_INDEX_STR2048";
  ln "#define BOOST_METAPARSE_V1_I2031 BOOST_METAPARSE_V1_INDEX_STR2048";
  ln "#define BOOST_METAPARSE_V1_I2032 BOOST_METAPARSE_V1_INDEX_STR2048";
  ln "#define BOOST_METAPARSE_V1_I2033 BOOST_METAPARSE_V1_INDEX_STR2048";
  ln "#define BOOST_METAPARSE_V1_I2034 BOOST_METAPARSE_V1_INDEX_STR2048";
  ln "#define BOOST_METAPARSE_V1_I2035 BOOST_METAPARSE_V1_INDEX_STR2048";
  ln "#define BOOST_METAPARSE_V1_I2036 BOOST_METAPARSE_V1_INDEX_STR2048";
  ln "#define BOOST_METAPARSE_V1_I2037 BOOST_METAPARSE_V1_INDEX_STR2048";
  ln "#define BOOST_METAPARSE_V1_I2038 BOOST_METAPARSE_V1_INDEX_STR2048";
  ln "#define BOOST_METAPARSE_V1_I2039 BOOST_METAPARSE_V1_INDEX_STR2048";
  ln "#define BOOST_METAPARSE_V1_I2040 BOOST_METAPARSE_V1_INDEX_STR2048";
  ln "#define BOOST_METAPARSE_V1_I2041 BOOST_METAPARSE_V1_INDEX_STR2048";
  ln "#define BOOST_METAPARSE_V1_I2042 BOOST_METAPARSE_V1_INDEX_STR2048";
  ln "#define BOOST_METAPARSE_V1_I2043 BOOST_METAPARSE_V1_INDEX_STR2048";
  ln "#define BOOST_METAPARSE_V1_I2044 BOOST_METAPARSE_V1_INDEX_STR2048";
  ln "#define BOOST_METAPARSE_V1_I2045 BOOST_METAPARSE_V1_INDEX_STR2048";
  ln "#define BOOST_METAPARSE_V1_I2046 BOOST_METAPARSE_V1_INDEX_STR2048";
  ln "#define BOOST_METAPARSE_V1_I2047 BOOST_METAPARSE_V1_INDEX_STR2048";
  ln "#define BOOST_METAPARSE_V1_I2048 BOOST_METAPARSE_V1_INDEX_STR2048";
  ln "";
  ln "#define BOOST_METAPARSE_V1_INDEX_STR128(s) BOOST_METAPARSE_V1_STRING_AT((s), 0),BOOST_METAPARSE_V1_STRING_AT((s), 1),BOOST_METAPARSE_V1_STRING_AT((s), 2),BOOST_METAPARSE_V1_STRING_AT((s), 3),BOOST_METAPARSE_V1_STRING_AT((s), 4),BOOST_METAPARSE_V1_STRING_AT((s), 5),BOOST_METAPARSE_V1_STRING_AT((s), 6),BOOST_METAPARSE_V1_STRING_AT((s), 7),BOOST_METAPARSE_V1_STRING_AT((s), 8),BOOST_METAPARSE_V1_STRING_AT((s), 9),BOOST_METAPARSE_V1_STRING_AT((s), 10),BOOST_METAPARSE_V1_STRING_AT((s), 11),BOOST_METAPARSE_V1_STRING_AT((s), 12),BOOST_METAPARSE_V1_STRING_AT((s), 13),BOOST_METAPARSE_V1_STRING_AT((s), 14),BOOST_METAPARSE_V1_STRING_AT((s), 15),BOOST_METAPARSE_V1_STRING_AT((s), 16),BOOST_METAPARSE_V1_STRING_AT((s), 17),BOOST_METAPARSE_V1_STRING_AT((s), 18),BOOST_METAPARSE_V1_STRING_AT((s), 19),BOOST_METAPARSE_V1_STRING_AT((s), 20),BOOST_METAPARSE_V1_STRING_AT((s), 21),BOOST_METAPARSE_V1_STRING_AT((s), 22),BOOST_METAPARSE_V1_STRING_AT((s), 23),BOOST_METAPARSE_V1_STRING_AT((s), 24),BOOST_METAPARSE_V1_STRING_AT((s), 25),BOOST_METAPARSE_V1_STRING_AT((s), 26),BOOST_METAPARSE_V1_STRING_AT((s), 27),BOOST_METAPARSE_V1_STRING_AT((s), 28),BOOST_METAPARSE_V1_STRING_AT((s), 29),BOOST_METAPARSE_V1_STRING_AT((s), 30),BOOST_METAPARSE_V1_STRING_AT((s), 31),BOOST_METAPARSE_V1_STRING_AT((s), 32),BOOST_METAPARSE_V1_STRING_AT((s), 33),BOOST_METAPARSE_V1_STRING_AT((s), 34),BOOST_METAPARSE_V1_STRING_AT((s), 35),BOOST_METAPARSE_V1_STRING_AT((s), 36),BOOST_METAPARSE_V1_STRING_AT((s), 37),BOOST_METAPARSE_V1_STRING_AT((s), 38),BOOST_METAPARSE_V1_STRING_AT((s), 39),BOOST_METAPARSE_V1_STRING_AT((s), 40),BOOST_METAPARSE_V1_STRING_AT((s), 41),BOOST_METAPARSE_V1_STRING_AT((s), 42),BOOST_METAPARSE_V1_STRING_AT((s), 43),BOOST_METAPARSE_V1_STRING_AT((s), 44),BOOST_METAPARSE_V1_STRING_AT((s), 45),BOOST_METAPARSE_V1_STRING_AT((s), 46),BOOST_METAPARSE_V1_STRING_AT((s), 47),BOOST_METAPARSE_V1_STRING_AT((s), 48),BOOST_METAPARSE_V1_STRING_AT((s), 49),BOOST_METAPARSE_V1_STRING_AT((s), 50),BOOST_METAPARSE_V1_STRING_AT((s), 51),BOOST_METAPARSE_V1_STRING_AT((s), 52),BOOST_METAPARSE_V1_STRING_AT((s), 53),BOOST_METAPARSE_V1_STRING_AT((s), 54),BOOST_METAPARSE_V1_STRING_AT((s), 55),BOOST_METAPARSE_V1_STRING_AT((s), 56),BOOST_METAPARSE_V1_STRING_AT((s), 57),BOOST_METAPARSE_V1_STRING_AT((s), 58),BOOST_METAPARSE_V1_STRING_AT((s), 59),BOOST_METAPARSE_V1_STRING_AT((s), 60),BOOST_METAPARSE_V1_STRING_AT((s), 61),BOOST_METAPARSE_V1_STRING_AT((s), 62),BOOST_METAPARSE_V1_STRING_AT((s), 63),BOOST_METAPARSE_V1_STRING_AT((s), 64),BOOST_METAPARSE_V1_STRING_AT((s), 65),BOOST_METAPARSE_V1_STRING_AT((s), 66),BOOST_METAPARSE_V1_STRING_AT((s), 67),BOOST_METAPARSE_V1_STRING_AT((s), 68),BOOST_METAPARSE_V1_STRING_AT((s), 69),BOOST_METAPARSE_V1_STRING_AT((s), 70),BOOST_METAPARSE_V1_STRING_AT((s), 71),BOOST_METAPARSE_V1_STRING_AT((s), 72),BOOST_METAPARSE_V1_STRING_AT((s), 73),BOOST_METAPARSE_V1_STRING_AT((s), 74),BOOST_METAPARSE_V1_STRING_AT((s), 75),BOOST_METAPARSE_V1_STRING_AT((s), 76),BOOST_METAPARSE_V1_STRING_AT((s), 77),BOOST_METAPARSE_V1_STRING_AT((s), 78),BOOST_METAPARSE_V1_STRING_AT((s), 79),BOOST_METAPARSE_V1_STRING_AT((s), 80),BOOST_METAPARSE_V1_STRING_AT((s), 81),BOOST_METAPARSE_V1_STRING_AT((s), 82),BOOST_METAPARSE_V1_STRING_AT((s), 83),BOOST_METAPARSE_V1_STRING_AT((s), 84),BOOST_METAPARSE_V1_STRING_AT((s), 85),BOOST_METAPARSE_V1_STRING_AT((s), 86),BOOST_METAPARSE_V1_STRING_AT((s), 87),BOOST_METAPARSE_V1_STRING_AT((s), 88),BOOST_METAPARSE_V1_STRING_AT((s), 89),BOOST_METAPARSE_V1_STRING_AT((s), 90),BOOST_METAPARSE_V1_STRING_AT((s), 91),BOOST_METAPARSE_V1_STRING_AT((s), 92),BOOST_METAPARSE_V1_STRING_AT((s), 93),BOOST_METAPARSE_V1_STRING_AT((s), 94),BOOST_METAPARSE_V1_STRING_AT((s), 95),BOOST_METAPARSE_V1_STRING_AT((s), 96),BOOST_METAPARSE_V1_STRING_AT((s), 97),BOOST_METAPARSE_V1_STRING_AT((s), 98),BOOST_METAPARSE_V1_STRING_AT((s), 99),BOOST_METAPARSE_V1_STRING_AT((s), 100),BOOST_METAPARSE_V1_STRING_AT((s), 101),BOOST_METAPARSE_V1_STRING_AT((s), 102),BOOST_METAPARSE_V1_STRING_AT((s), 103),BOOST_METAPARSE_V1_STRING_AT((s), 104),BOOST_METAPARSE_V1_STRING_AT((s), 105),BOOST_METAPARSE_V1_STRING_AT((s), 106),BOOST_METAPARSE_V1_STRING_AT((s), 107),BOOST_METAPARSE_V1_STRING_AT((s), 108),BOOST_METAPARSE_V1_STRING_AT((s), 109),BOOST_METAPARSE_V1_STRING_AT((s), 110),BOOST_METAPARSE_V1_STRING_AT((s), 111),BOOST_METAPARSE_V1_STRING_AT((s), 112),BOOST_METAPARSE_V1_STRING_AT((s), 113),BOOST_METAPARSE_V1_STRING_AT((s), 114),BOOST_METAPARSE_V1_STRING_AT((s), 115),BOOST_METAPARSE_V1_STRING_AT((s), 116),BOOST_METAPARSE_V1_STRING_AT((s), 117),BOOST_METAPARSE_V1_STRING_AT((s), 118),BOOST_METAPARSE_V1_STRING_AT((s), 119),BOOST_METAPARSE_V1_STRING_AT((s), 120),BOOST_METAPARSE_V1_STRING_AT((s), 121),BOOST_METAPARSE_V1_STRING_AT((s), 122),BOOST_METAPARSE_V1_STRING_AT((s), 123),BOOST_METAPARSE_V1_STRING_AT((s), 124),BOOST_METAPARSE_V1_STRING_AT((s), 125),BOOST_METAPARSE_V1_STRING_AT((s), 126),BOOST_METAPARSE_V1_STRING_AT((s), 127)";
  ln "#define BOOST_METAPARSE_V1_INDEX_STR256(s) BOOST_METAPARSE_V1_INDEX_STR128(s),BOOST_METAPARSE_V1_STRING_AT((s), 128),BOOST_METAPARSE_V1_STRING_AT((s), 129),BOOST_METAPARSE_V1_STRING_AT((s), 130),BOOST_METAPARSE_V1_STRING_AT((s), 131),BOOST_METAPARSE_V1_STRING_AT((s), 132),BOOST_METAPARSE_V1_STRING_AT((s), 133),BOOST_METAPARSE_V1_STRING_AT((s), 134),BOOST_METAPARSE_V1_STRING_AT((s), 135),BOOST_METAPARSE_V1_STRING_AT((s), 136),BOOST_METAPARSE_V1_STRING_AT((s), 137),BOOST_METAPARSE_V1_STRING_AT((s), 138),BOOST_METAPARSE_V1_STRING_AT((s), 139),BOOST_METAPARSE_V1_STRING_AT((s), 140),BOOST_METAPARSE_V1_STRING_AT((s), 141),BOOST_METAPARSE_V1_STRING_AT((s), 142),BOOST_METAPARSE_V1_STRING_AT((s), 143),BOOST_METAPARSE_V1_STRING_AT((s), 144),BOOST_METAPARSE_V1_STRING_AT((s), 145),BOOST_METAPARSE_V1_STRING_AT((s), 146),BOOST_METAPARSE_V1_STRING_AT((s), 147),BOOST_METAPARSE_V1_STRING_AT((s), 148),BOOST_METAPARSE_V1_STRING_AT((s), 149),BOOST_METAPARSE_V1_STRING_AT((s), 150),BOOST_METAPARSE_V1_STRING_AT((s), 151),BOOST_METAPARSE_V1_STRING_AT((s), 152),BOOST_METAPARSE_V1_STRING_AT((s), 153),BOOST_METAPARSE_V1_STRING_AT((s), 154),BOOST_METAPARSE_V1_STRING_AT((s), 155),BOOST_METAPARSE_V1_STRING_AT((s), 156),BOOST_METAPARSE_V1_STRING_AT((s), 157),BOOST_METAPARSE_V1_STRING_AT((s), 158),BOOST_METAPARSE_V1_STRING_AT((s), 159),BOOST_METAPARSE_V1_STRING_AT((s), 160),BOOST_METAPARSE_V1_STRING_AT((s), 161),BOOST_METAPARSE_V1_STRING_AT((s), 162),BOOST_METAPARSE_V1_STRING_AT((s), 163),BOOST_METAPARSE_V1_STRING_AT((s), 164),BOOST_METAPARSE_V1_STRING_AT((s), 165),BOOST_METAPARSE_V1_STRING_AT((s), 166),BOOST_METAPARSE_V1_STRING_AT((s), 167),BOOST_METAPARSE_V1_STRING_AT((s), 168),BOOST_METAPARSE_V1_STRING_AT((s), 169),BOOST_METAPARSE_V1_STRING_AT((s), 170),BOOST_METAPARSE_V1_STRING_AT((s), 171),BOOST_METAPARSE_V1_STRING_AT((s), 172),BOOST_METAPARSE_V1_STRING_AT((s), 173),BOOST_METAPARSE_V1_STRING_AT((s), 174),BOOST_METAPARSE_V1_STRING_AT((s), 175),BOOST_METAPARSE_V1_STRING_AT((s), 176),BOOST_METAPARSE_V1_STRING_AT((s), 177),BOOST_METAPARSE_V1_STRING_AT((s), 178),BOOST_METAPARSE_V1_STRING_AT((s), 179),BOOST_METAPARSE_V1_STRING_AT((s), 180),BOOST_METAPARSE_V1_STRING_AT((s), 181),BOOST_METAPARSE_V1_STRING_AT((s), 182),BOOST_METAPARSE_V1_STRING_AT((s), 183),BOOST_METAPARSE_V1_STRING_AT((s), 184),BOOST_METAPARSE_V1_STRING_AT((s), 185),BOOST_METAPARSE_V1_STRING_AT((s), 186),BOOST_METAPARSE_V1_STRING_AT((s), 187),BOOST_METAPARSE_V1_STRING_AT((s), 188),BOOST_METAPARSE_V1_STRING_AT((s), 189),BOOST_METAPARSE_V1_STRING_AT((s), 190),BOOST_METAPARSE_V1_STRING_AT((s), 191),BOOST_METAPARSE_V1_STRING_AT((s), 192),BOOST_METAPARSE_V1_STRING_AT((s), 193),BOOST_METAPARSE_V1_STRING_AT((s), 194),BOOST_METAPARSE_V1_STRING_AT((s), 195),BOOST_METAPARSE_V1_STRING_AT((s), 196),BOOST_METAPARSE_V1_STRING_AT((s), 197),BOOST_METAPARSE_V1_STRING_AT((s), 198),BOOST_METAPARSE_V1_STRING_AT((s), 199),BOOST_METAPARSE_V1_STRING_AT((s), 200),BOOST_METAPARSE_V1_STRING_AT((s), 201),BOOST_METAPARSE_V1_STRING_AT((s), 202),BOOST_METAPARSE_V1_STRING_AT((s), 203),BOOST_METAPARSE_V1_STRING_AT((s), 204),BOOST_METAPARSE_V1_STRING_AT((s), 205),BOOST_METAPARSE_V1_STRING_AT((s), 206),BOOST_METAPARSE_V1_STRING_AT((s), 207),BOOST_METAPARSE_V1_STRING_AT((s), 208),BOOST_METAPARSE_V1_STRING_AT((s), 209),BOOST_METAPARSE_V1_STRING_AT((s), 210),BOOST_METAPARSE_V1_STRING_AT((s), 211),BOOST_METAPARSE_V1_STRING_AT((s), 212),BOOST_METAPARSE_V1_STRING_AT((s), 213),BOOST_METAPARSE_V1_STRING_AT((s), 214),BOOST_METAPARSE_V1_STRING_AT((s), 215),BOOST_METAPARSE_V1_STRING_AT((s), 216),BOOST_METAPARSE_V1_STRING_AT((s), 217),BOOST_METAPARSE_V1_STRING_AT((s), 218),BOOST_METAPARSE_V1_STRING_AT((s), 219),BOOST_METAPARSE_V1_STRING_AT((s), 220),BOOST_METAPARSE_V1_STRING_AT((s), 221),BOOST_METAPARSE_V1_STRING_AT((s), 222),BOOST_METAPARSE_V1_STRING_AT((s), 223),BOOST_METAPARSE_V1_STRING_AT((s), 224),BOOST_METAPARSE_V1_STRING_AT((s), 225),BOOST_METAPARSE_V1_STRING_AT((s), 226),BOOST_METAPARSE_V1_STRING_AT((s), 227),BOOST_METAPARSE_V1_STRING_AT((s), 228),BOOST_METAPARSE_V1_STRING_AT((s), 229),BOOST_METAPARSE_V1_STRING_AT((s), 230),BOOST_METAPARSE_V1_STRING_AT((s), 231),BOOST_METAPARSE_V1_STRING_AT((s), 232),BOOST_METAPARSE_V1_STRING_AT((s), 233),BOOST_METAPARSE_V1_STRING_AT((s), 234),BOOST_METAPARSE_V1_STRING_AT((s), 235),BOOST_METAPARSE_V1_STRING_AT((s), 236),BOOST_METAPARSE_V1_STRING_AT((s), 237),BOOST_METAPARSE_V1_STRING_AT((s), 238),BOOST_METAPARSE_V1_STRING_AT((s), 239),BOOST_METAPARSE_V1_STRING_AT((s), 240),BOOST_METAPARSE_V1_STRING_AT((s), 241),BOOST_METAPARSE_V1_STRING_AT((s), 242),BOOST_METAPARSE_V1_STRING_AT((s), 243),BOOST_METAPARSE_V1_STRING_AT((s), 244),BOOST_METAPARSE_V1_STRING_AT((s), 245),BOOST_METAPARSE_V1_STRING_AT((s), 246),BOOST_METAPARSE_V1_STRING_AT((s), 247),BOOST_METAPARSE_V1_STRING_AT((s), 248),BOOST_METAPARSE_V1_STRING_AT((s), 249),BOOST_METAPARSE_V1_STRING_AT((s), 250),BOOST_METAPARSE_V1_STRING_AT((s), 251),BOOST_METAPARSE_V1_STRING_AT((s), 252),BOOST_METAPARSE_V1_STRING_AT((s), 253),BOOST_METAPARSE_V1_STRING_AT((s), 254),BOOST_METAPARSE_V1_STRING_AT((s), 255)";
  ln "#define BOOST_METAPARSE_V1_INDEX_STR384(s) BOOST_METAPARSE_V1_INDEX_STR256(s),BOOST_METAPARSE_V1_STRING_AT((s), 256),BOOST_METAPARSE_V1_STRING_AT((s), 257),BOOST_METAPARSE_V1_STRING_AT((s), 258),BOOST_METAPARSE_V1_STRING_AT((s), 259),BOOST_METAPARSE_V1_STRING_AT((s), 260),BOOST_METAPARSE_V1_STRING_AT((s), 261),BOOST_METAPARSE_V1_STRING_AT((s), 262),BOOST_METAPARSE_V1_STRING_AT((s), 263),BOOST_METAPARSE_V1_STRING_AT((s), 264),BOOST_METAPARSE_V1_STRING_AT((s), 265),BOOST_METAPARSE_V1_STRING_AT((s), 266),BOOST_METAPARSE_V1_STRING_AT((s), 267),BOOST_METAPARSE_V1_STRING_AT((s), 268),BOOST_METAPARSE_V1_STRING_AT((s), 269),BOOST_METAPARSE_V1_STRING_AT((s), 270),BOOST_METAPARSE_V1_STRING_AT((s), 271),BOOST_METAPARSE_V1_STRING_AT((s), 272),BOOST_METAPARSE_V1_STRING_AT((s), 273),BOOST_METAPARSE_V1_STRING_AT((s), 274),BOOST_METAPARSE_V1_STRING_AT((s), 275),BOOST_METAPARSE_V1_STRING_AT((s), 276),BOOST_METAPARSE_V1_STRING_AT((s), 277),BOOST_METAPARSE_V1_STRING_AT((s), 278),BOOST_METAPARSE_V1_STRING_AT((s), 279),BOOST_METAPARSE_V1_STRING_AT((s), 280),BOOST_METAPARSE_V1_STRING_AT((s), 281),BOOST_METAPARSE_V1_STRING_AT((s), 282),BOOST_METAPARSE_V1_STRING_AT((s), 283),BOOST_METAPARSE_V1_STRING_AT((s), 284),BOOST_METAPARSE_V1_STRING_AT((s), 285),BOOST_METAPARSE_V1_STRING_AT((s), 286),BOOST_METAPARSE_V1_STRING_AT((s), 287),BOOST_METAPARSE_V1_STRING_AT((s), 288),BOOST_METAPARSE_V1_STRING_AT((s), 289),BOOST_METAPARSE_V1_STRING_AT((s), 290),BOOST_METAPARSE_V1_STRING_AT((s), 291),BOOST_METAPARSE_V1_STRING_AT((s), 292),BOOST_METAPARSE_V1_STRING_AT((s), 293),BOOST_METAPARSE_V1_STRING_AT((s), 294),BOOST_METAPARSE_V1_STRING_AT((s), 295),BOOST_METAPARSE_V1_STRING_AT((s), 296),BOOST_METAPARSE_V1_STRING_AT((s), 297),BOOST_METAPARSE_V1_STRING_AT((s), 298),BOOST_METAPARSE_V1_STRING_AT((s), 299),BOOST_METAPARSE_V1_STRING_AT((s), 300),BOOST_METAPARSE_V1_STRING_AT((s), 301),BOOST_METAPARSE_V1_STRING_AT((s), 302),BOOST_METAPARSE_V1_STRING_AT((s), 303),BOOST_METAPARSE_V1_STRING_AT((s), 304),BOOST_METAPARSE_V1_STRING_AT((s), 305),BOOST_METAPARSE_V1_STRING_AT((s), 306),BOOST_METAPARSE_V1_STRING_AT((s), 307),BOOST_METAPARSE_V1_STRING_AT((s), 308),BOOST_METAPARSE_V1_STRING_AT((s), 309),BOOST_METAPARSE_V1_STRING_AT((s), 310),BOOST_METAPARSE_V1_STRING_AT((s), 311),BOOST_METAPARSE_V1_STRING_AT((s), 312),BOOST_METAPARSE_V1_STRING_AT((s), 313),BOOST_METAPARSE_V1_STRING_AT((s), 314),BOOST_METAPARSE_V1_STRING_AT((s), 315),BOOST_METAPARSE_V1_STRING_AT((s), 316),BOOST_METAPARSE_V1_STRING_AT((s), 317),BOOST_METAPARSE_V1_STRING_AT((s), 318),BOOST_METAPARSE_V1_STRING_AT((s), 319),BOOST_METAPARSE_V1_STRING_AT((s), 320),BOOST_METAPARSE_V1_STRING_AT((s), 321),BOOST_METAPARSE_V1_STRING_AT((s), 322),BOOST_METAPARSE_V1_STRING_AT((s), 323),BOOST_METAPARSE_V1_STRING_AT((s), 324),BOOST_METAPARSE_V1_STRING_AT((s), 325),BOOST_METAPARSE_V1_STRING_AT((s), 326),BOOST_METAPARSE_V1_STRING_AT((s), 327),BOOST_METAPARSE_V1_STRING_AT((s), 328),BOOST_METAPARSE_V1_STRING_AT((s), 329),BOOST_METAPARSE_V1_STRING_AT((s), 330),BOOST_METAPARSE_V1_STRING_AT((s), 331),BOOST_METAPARSE_V1_STRING_AT((s), 332),BOOST_METAPARSE_V1_STRING_AT((s), 333),BOOST_METAPARSE_V1_STRING_AT((s), 334),BOOST_METAPARSE_V1_STRING_AT((s), 335),BOOST_METAPARSE_V1_STRING_AT((s), 336),BOOST_METAPARSE_V1_STRING_AT((s), 337),BOOST_METAPARSE_V1_STRING_AT((s), 338),BOOST_METAPARSE_V1_STRING_AT((s), 339),BOOST_METAPARSE_V1_STRING_AT((s), 340),BOOST_METAPARSE_V1_STRING_AT((s), 341),BOOST_METAPARSE_V1_STRING_AT((s), 342),BOOST_METAPARSE_V1_STRING_AT((s), 343),BOOST_METAPARSE_V1_STRING_AT((s), 344),BOOST_METAPARSE_V1_STRING_AT((s), 345),BOOST_METAPARSE_V1_STRING_AT((s), 346),BOOST_METAPARSE_V1_STRING_AT((s), 347),BOOST_METAPARSE_V1_STRING_AT((s), 348),BOOST_METAPARSE_V1_STRING_AT((s), 349),BOOST_METAPARSE_V1_STRING_AT((s), 350),BOOST_METAPARSE_V1_STRING_AT((s), 351),BOOST_METAPARSE_V1_STRING_AT((s), 352),BOOST_METAPARSE_V1_STRING_AT((s), 353),BOOST_METAPARSE_V1_STRING_AT((s), 354),BOOST_METAPARSE_V1_STRING_AT((s), 355),BOOST_METAPARSE_V1_STRING_AT((s), 356),BOOST_METAPARSE_V1_STRING_AT((s), 357),BOOST_METAPARSE_V1_STRING_AT((s), 358),BOOST_METAPARSE_V1_STRING_AT((s), 359),BOOST_METAPARSE_V1_STRING_AT((s), 360),BOOST_METAPARSE_V1_STRING_AT((s), 361),BOOST_METAPARSE_V1_STRING_AT((s), 362),BOOST_METAPARSE_V1_STRING_AT((s), 363),BOOST_METAPARSE_V1_STRING_AT((s), 364),BOOST_METAPARSE_V1_STRING_AT((s), 365),BOOST_METAPARSE_V1_STRING_AT((s), 366),BOOST_METAPARSE_V1_STRING_AT((s), 367),BOOST_METAPARSE_V1_STRING_AT((s), 368),BOOST_METAPARSE_V1_STRING_AT((s), 369),BOOST_METAPARSE_V1_STRING_AT((s), 370),BOOST_METAPARSE_V1_STRING_AT((s), 371),BOOST_METAPARSE_V1_STRING_AT((s), 372),BOOST_METAPARSE_V1_STRING_AT((s), 373),BOOST_METAPARSE_V1_STRING_AT((s), 374),BOOST_METAPARSE_V1_STRING_AT((s), 375),BOOST_METAPARSE_V1_STRING_AT((s), 376),BOOST_METAPARSE_V1_STRING_AT((s), 377),BOOST_METAPARSE_V1_STRING_AT((s), 378),BOOST_METAPARSE_V1_STRING_AT((s), 379),BOOST_METAPARSE_V1_STRING_AT((s), 380),BOOST_METAPARSE_V1_STRING_AT((s), 381),BOOST_METAPARSE_V1_STRING_AT((s), 382),BOOST_METAPARSE_V1_STRING_AT((s), 383)";
  ln "#define BOOST_METAPARSE_V1_INDEX_STR512(s) BOOST_METAPARSE_V1_INDEX_STR384(s),BOOST_METAPARSE_V1_STRING_AT((s), 384),BOOST_METAPARSE_V1_STRING_AT((s), 385),BOOST_METAPARSE_V1_STRING_AT((s), 386),BOOST_METAPARSE_V1_STRING_AT((s), 387),BOOST_METAPARSE_V1_STRING_AT((s), 388),BOOST_METAPARSE_V1_STRING_AT((s), 389),BOOST_METAPARSE_V1_STRING_AT((s), 390),BOOST_METAPARSE_V1_STRING_AT((s), 391),BOOST_METAPARSE_V1_STRING_AT((s), 392),BOOST_METAPARSE_V1_STRING_AT((s), 393),BOOST_METAPARSE_V1_STRING_AT((s), 394),BOOST_METAPARSE_V1_STRING_AT((s), 395),BOOST_METAPARSE_V1_STRING_AT((s), 396),BOOST_METAPARSE_V1_STRING_AT((s), 397),BOOST_METAPARSE_V1_STRING_AT((s), 398),BOOST_METAPARSE_V1_STRING_AT((s), 399),BOOST_METAPARSE_V1_STRING_AT((s), 400),BOOST_METAPARSE_V1_STRING_AT((s), 401),BOOST_METAPARSE_V1_STRING_AT((s), 402),BOOST_METAPARSE_V1_STRING_AT((s), 403),BOOST_METAPARSE_V1_STRING_AT((s), 404),BOOST_METAPARSE_V1_STRING_AT((s), 405),BOOST_METAPARSE_V1_STRING_AT((s), 406),BOOST_METAPARSE_V1_STRING_AT((s), 407),BOOST_METAPARSE_V1_STRING_AT((s), 408),BOOST_METAPARSE_V1_STRING_AT((s), 409),BOOST_METAPARSE_V1_STRING_AT((s), 410),BOOST_METAPARSE_V1_STRING_AT((s), 411),BOOST_METAPARSE_V1_STRING_AT((s), 412),BOOST_METAPARSE_V1_STRING_AT((s), 413),BOOST_METAPARSE_V1_STRING_AT((s), 414),BOOST_METAPARSE_V1_STRING_AT((s), 415),BOOST_METAPARSE_V1_STRING_AT((s), 416),BOOST_METAPARSE_V1_STRING_AT((s), 417),BOOST_METAPARSE_V1_STRING_AT((s), 418),BOOST_METAPARSE_V1_STRING_AT((s), 419),BOOST_METAPARSE_V1_STRING_AT((s), 420),BOOST_METAPARSE_V1_STRING_AT((s), 421),BOOST_METAPARSE_V1_STRING_AT((s), 422),BOOST_METAPARSE_V1_STRING_AT((s), 423),BOOST_METAPARSE_V1_STRING_AT((s), 424),BOOST_METAPARSE_V1_STRING_AT((s), 425),BOOST_METAPARSE_V1_STRING_AT((s), 426),BOOST_METAPARSE_V1_STRING_AT((s), 427),BOOST_METAPARSE_V1_STRING_AT((s), 428),BOOST_METAPARSE_V1_STRING_AT((s), 429),BOOST_METAPARSE_V1_STRING_AT((s), 430),BOOST_METAPARSE_V1_STRING_AT((s), 431),BOOST_METAPARSE_V1_STRING_AT((s), 432),BOOST_METAPARSE_V1_STRING_AT((s), 433),BOOST_METAPARSE_V1_STRING_AT((s), 434),BOOST_METAPARSE_V1_STRING_AT((s), 435),BOOST_METAPARSE_V1_STRING_AT((s), 436),BOOST_METAPARSE_V1_STRING_AT((s), 437),BOOST_METAPARSE_V1_STRING_AT((s), 438),BOOST_METAPARSE_V1_STRING_AT((s), 439),BOOST_METAPARSE_V1_STRING_AT((s), 440),BOOST_METAPARSE_V1_STRING_AT((s), 441),BOOST_METAPARSE_V1_STRING_AT((s), 442),BOOST_METAPARSE_V1_STRING_AT((s), 443),BOOST_METAPARSE_V1_STRING_AT((s), 444),BOOST_METAPARSE_V1_STRING_AT((s), 445),BOOST_METAPARSE_V1_STRING_AT((s), 446),BOOST_METAPARSE_V1_STRING_AT((s), 447),BOOST_METAPARSE_V1_STRING_AT((s), 448),BOOST_METAPARSE_V1_STRING_AT((s), 449),BOOST_METAPARSE_V1_STRING_AT((s), 450),BOOST_METAPARSE_V1_STRING_AT((s), 451),BOOST_METAPARSE_V1_STRING_AT((s), 452),BOOST_METAPARSE_V1_STRING_AT((s), 453),BOOST_METAPARSE_V1_STRING_AT((s), 454),BOOST_METAPARSE_V1_STRING_AT((s), 455),BOOST_METAPARSE_V1_STRING_AT((s), 456),BOOST_METAPARSE_V1_STRING_AT((s), 457),BOOST_METAPARSE_V1_STRING_AT((s), 458),BOOST_METAPARSE_V1_STRING_AT((s), 459),BOOST_METAPARSE_V1_STRING_AT((s), 460),BOOST_METAPARSE_V1_STRING_AT((s), 461),BOOST_METAPARSE_V1_STRING_AT((s), 462),BOOST_METAPARSE_V1_STRING_AT((s), 463),BOOST_METAPARSE_V1_STRING_AT((s), 464),BOOST_METAPARSE_V1_STRING_AT((s), 465),BOOST_METAPARSE_V1_STRING_AT((s), 466),BOOST_METAPARSE_V1_STRING_AT((s), 467),BOOST_METAPARSE_V1_STRING_AT((s), 468),BOOST_METAPARSE_V1_STRING_AT((s), 469),BOOST_METAPARSE_V1_STRING_AT((s), 470),BOOST_METAPARSE_V1_STRING_AT((s), 471),BOOST_METAPARSE_V1_STRING_AT((s), 472),BOOST_METAPARSE_V1_STRING_AT((s), 473),BOOST_METAPARSE_V1_STRING_AT((s), 474),BOOST_METAPARSE_V1_STRING_AT((s), 475),BOOST_METAPARSE_V1_STRING_AT((s), 476),BOOST_METAPARSE_V1_STRING_AT((s), 477),BOOST_METAPARSE_V1_STRING_AT((s), 478),BOOST_METAPARSE_V1_STRING_AT((s), 479),BOOST_METAPARSE_V1_STRING_AT((s), 480),BOOST_METAPARSE_V1_STRING_AT((s), 481),BOOST_METAPARSE_V1_STRING_AT((s), 482),BOOST_METAPARSE_V1_STRING_AT((s), 483),BOOST_METAPARSE_V1_STRING_AT((s), 484),BOOST_METAPARSE_V1_STRING_AT((s), 485),BOOST_METAPARSE_V1_STRING_AT((s), 486),BOOST_METAPARSE_V1_STRING_AT((s), 487),BOOST_METAPARSE_V1_STRING_AT((s), 488),BOOST_METAPARSE_V1_STRING_AT((s), 489),BOOST_METAPARSE_V1_STRING_AT((s), 490),BOOST_METAPARSE_V1_STRING_AT((s), 491),BOOST_METAPARSE_V1_STRING_AT((s), 492),BOOST_METAPARSE_V1_STRING_AT((s), 493),BOOST_METAPARSE_V1_STRING_AT((s), 494),BOOST_METAPARSE_V1_STRING_AT((s), 495),BOOST_METAPARSE_V1_STRING_AT((s), 496),BOOST_METAPARSE_V1_STRING_AT((s), 497),BOOST_METAPARSE_V1_STRING_AT((s), 498),BOOST_METAPARSE_V1_STRING_AT((s), 499),BOOST_METAPARSE_V1_STRING_AT((s), 500),BOOST_METAPARSE_V1_STRING_AT((s), 501),BOOST_METAPARSE_V1_STRING_AT((s), 502),BOOST_METAPARSE_V1_STRING_AT((s), 503),BOOST_METAPARSE_V1_STRING_AT((s), 504),BOOST_METAPARSE_V1_STRING_AT((s), 505),BOOST_METAPARSE_V1_STRING_AT((s), 506),BOOST_METAPARSE_V1_STRING_AT((s), 507),BOOST_METAPARSE_V1_STRING_AT((s), 508),BOOST_METAPARSE_V1_STRING_AT((s), 509),BOOST_METAPARSE_V1_STRING_AT((s), 510),BOOST_METAPARSE_V1_STRING_AT((s), 511)";
  ln "#define BOOST_METAPARSE_V1_INDEX_STR640(s) BOOST_METAPARSE_V1_INDEX_STR512(s),BOOST_METAPARSE_V1_STRING_AT((s), 512),BOOST_METAPARSE_V1_STRING_AT((s), 513),BOOST_METAPARSE_V1_STRING_AT((s), 514),BOOST_METAPARSE_V1_STRING_AT((s), 515),BOOST_METAPARSE_V1_STRING_AT((s), 516),BOOST_METAPARSE_V1_STRING_AT((s), 517),BOOST_METAPARSE_V1_STRING_AT((s), 518),BOOST_METAPARSE_V1_STRING_AT((s), 519),BOOST_METAPARSE_V1_STRING_AT((s), 520),BOOST_METAPARSE_V1_STRING_AT((s), 521),BOOST_METAPARSE_V1_STRING_AT((s), 522),BOOST_METAPARSE_V1_STRING_AT((s), 523),BOOST_METAPARSE_V1_STRING_AT((s), 524),BOOST_METAPARSE_V1_STRING_AT((s), 525),BOOST_METAPARSE_V1_STRING_AT((s), 526),BOOST_METAPARSE_V1_STRING_AT((s), 527),BOOST_METAPARSE_V1_STRING_AT((s), 528),BOOST_METAPARSE_V1_STRING_AT((s), 529),BOOST_METAPARSE_V1_STRING_AT((s), 530),BOOST_METAPARSE_V1_STRING_AT((s), 531),BOOST_METAPARSE_V1_STRING_AT((s), 532),BOOST_METAPARSE_V1_STRING_AT((s), 533),BOOST_METAPARSE_V1_STRING_AT((s), 534),BOOST_METAPARSE_V1_STRING_AT((s), 535),BOOST_METAPARSE_V1_STRING_AT((s), 536),BOOST_METAPARSE_V1_STRING_AT((s), 537),BOOST_METAPARSE_V1_STRING_AT((s), 538),BOOST_METAPARSE_V1_STRING_AT((s), 539),BOOST_METAPARSE_V1_STRING_AT((s), 540),BOOST_METAPARSE_V1_STRING_AT((s), 541),BOOST_METAPARSE_V1_STRING_AT((s), 542),BOOST_METAPARSE_V1_STRING_AT((s), 543),BOOST_METAPARSE_V1_STRING_AT((s), 544),BOOST_METAPARSE_V1_STRING_AT((s), 545),BOOST_METAPARSE_V1_STRING_AT((s), 546),BOOST_METAPARSE_V1_STRING_AT((s), 547),BOOST_METAPARSE_V1_STRING_AT((s), 548),BOOST_METAPARSE_V1_STRING_AT((s), 549),BOOST_METAPARSE_V1_STRING_AT((s), 550),BOOST_METAPARSE_V1_STRING_AT((s), 551),BOOST_METAPARSE_V1_STRING_AT((s), 552),BOOST_METAPARSE_V1_STRING_AT((s), 553),BOOST_METAPARSE_V1_STRING_AT((s), 554),BOOST_METAPARSE_V1_STRING_AT((s), 555),BOOST_METAPARSE_V1_STRING_AT((s), 556),BOOST_METAPARSE_V1_STRING_AT((s), 557),BOOST_METAPARSE_V1_STRING_AT((s), 558),BOOST_METAPARSE_V1_STRING_AT((s), 559),BOOST_METAPARSE_V1_STRING_AT((s), 560),BOOST_METAPARSE_V1_STRING_AT((s), 561),BOOST_METAPARSE_V1_STRING_AT((s), 562),BOOST_METAPARSE_V1_STRING_AT((s), 563),BOOST_METAPARSE_V1_STRING_AT((s), 564),BOOST_METAPARSE_V1_STRING_AT((s), 565),BOOST_METAPARSE_V1_STRING_AT((s), 566),BOOST_METAPARSE_V1_STRING_AT((s), 567),BOOST_METAPARSE_V1_STRING_AT((s), 568),BOOST_METAPARSE_V1_STRING_AT((s), 569),BOOST_METAPARSE_V1_STRING_AT((s), 570),BOOST_METAPARSE_V1_STRING_AT((s), 571),BOOST_METAPARSE_V1_STRING_AT((s), 572),BOOST_METAPARSE_V1_STRING_AT((s), 573),BOOST_METAPARSE_V1_STRING_AT((s), 574),BOOST_METAPARSE_V1_STRING_AT((s), 575),BOOST_METAPARSE_V1_STRING_AT((s), 576),BOOST_METAPARSE_V1_STRING_AT((s), 577),BOOST_METAPARSE_V1_STRING_AT((s), 578),BOOST_METAPARSE_V1_STRING_AT((s), 579),BOOST_METAPARSE_V1_STRING_AT((s), 580),BOOST_METAPARSE_V1_STRING_AT((s), 581),BOOST_METAPARSE_V1_STRING_AT((s), 582),BOOST_METAPARSE_V1_STRING_AT((s), 583),BOOST_METAPARSE_V1_STRING_AT((s), 584),BOOST_METAPARSE_V1_STRING_AT((s), 585),BOOST_METAPARSE_V1_STRING_AT((s), 586),BOOST_METAPARSE_V1_STRING_AT((s), 587),BOOST_METAPARSE_V1_STRING_AT((s), 588),BOOST_METAPARSE_V1_STRING_AT((s), 589),BOOST_METAPARSE_V1_STRING_AT((s), 590),BOOST_METAPARSE_V1_STRING_AT((s), 591),BOOST_METAPARSE_V1_STRING_AT((s), 592),BOOST_METAPARSE_V1_STRING_AT((s), 593),BOOST_METAPARSE_V1_STRING_AT((s), 594),BOOST_METAPARSE_V1_STRING_AT((s), 595),BOOST_METAPARSE_V1_STRING_AT((s), 596),BOOST_METAPARSE_V1_STRING_AT((s), 597),BOOST_METAPARSE_V1_STRING_AT((s), 598),BOOST_METAPARSE_V1_STRING_AT((s), 599),BOOST_METAPARSE_V1_STRING_AT((s), 600),BOOST_METAPARSE_V1_STRING_AT((s), 601),BOOST_METAPARSE_V1_STRING_AT((s), 602),BOOST_METAPARSE_V1_STRING_AT((s), 603),BOOST_METAPARSE_V1_STRING_AT((s), 604),BOOST_METAPARSE_V1_STRING_AT((s), 605),BOOST_METAPARSE_V1_STRING_AT((s), 606),BOOST_METAPARSE_V1_STRING_AT((s), 607),BOOST_METAPARSE_V1_STRING_AT((s), 608),BOOST_METAPARSE_V1_STRING_AT((s), 609),BOOST_METAPARSE_V1_STRING_AT((s), 610),BOOST_METAPARSE_V1_STRING_AT((s), 611),BOOST_METAPARSE_V1_STRING_AT((s), 612),BOOST_METAPARSE_V1_STRING_AT((s), 613),BOOST_METAPARSE_V1_STRING_AT((s), 614),BOOST_METAPARSE_V1_STRING_AT((s), 615),BOOST_METAPARSE_V1_STRING_AT((s), 616),BOOST_METAPARSE_V1_STRING_AT((s), 617),BOOST_METAPARSE_V1_STRING_AT((s), 618),BOOST_METAPARSE_V1_STRING_AT((s), 619),BOOST_METAPARSE_V1_STRING_AT((s), 620),BOOST_METAPARSE_V1_STRING_AT((s), 621),BOOST_METAPARSE_V1_STRING_AT((s), 622),BOOST_METAPARSE_V1_STRING_AT((s), 623),BOOST_METAPARSE_V1_STRING_AT((s), 624),BOOST_METAPARSE_V1_STRING_AT((s), 625),BOOST_METAPARSE_V1_STRING_AT((s), 626),BOOST_METAPARSE_V1_STRING_AT((s), 627),BOOST_METAPARSE_V1_STRING_AT((s), 628),BOOST_METAPARSE_V1_STRING_AT((s), 629),BOOST_METAPARSE_V1_STRING_AT((s), 630),BOOST_METAPARSE_V1_STRING_AT((s), 631),BOOST_METAPARSE_V1_STRING_AT((s), 632),BOOST_METAPARSE_V1_STRING_AT((s), 633),BOOST_METAPARSE_V1_STRING_AT((s), 634),BOOST_METAPARSE_V1_STRING_AT((s), 635),BOOST_METAPARSE_V1_STRING_AT((s), 636),BOOST_METAPARSE_V1_STRING_AT((s), 637),BOOST_METAPARSE_V1_STRING_AT((s), 638),BOOST_METAPARSE_V1_STRING_AT((s), 639)";
  ln "#define BOOST_METAPARSE_V1_INDEX_STR768(s) BOOST_METAPARSE_V1_INDEX_STR640(s),BOOST_METAPARSE_V1_STRING_AT((s), 640),BOOST_METAPARSE_V1_STRING_AT((s), 641),BOOST_METAPARSE_V1_STRING_AT((s), 642),BOOST_METAPARSE_V1_STRING_AT((s), 643),BOOST_METAPARSE_V1_STRING_AT((s), 644),BOOST_METAPARSE_V1_STRING_AT((s), 645),BOOST_METAPARSE_V1_STRING_AT((s), 646),BOOST_METAPARSE_V1_STRING_AT((s), 647),BOOST_METAPARSE_V1_STRING_AT((s), 648),BOOST_METAPARSE_V1_STRING_AT((s), 649),BOOST_METAPARSE_V1_STRING_AT((s), 650),BOOST_METAPARSE_V1_STRING_AT((s), 651),BOOST_METAPARSE_V1_STRING_AT((s), 652),BOOST_METAPARSE_V1_STRING_AT((s), 653),BOOST_METAPARSE_V1_STRING_AT((s), 654),BOOST_METAPARSE_V1_STRING_AT((s), 655),BOOST_METAPARSE_V1_STRING_AT((s), 656),BOOST_METAPARSE_V1_STRING_AT((s), 657),BOOST_METAPARSE_V1_STRING_AT((s), 658),BOOST_METAPARSE_V1_STRING_AT((s), 659),BOOST_METAPARSE_V1_STRING_AT((s), 660),BOOST_METAPARSE_V1_STRING_AT((s), 661),BOOST_METAPARSE_V1_STRING_AT((s), 662),BOOST_METAPARSE_V1_STRING_AT((s), 663),BOOST_METAPARSE_V1_STRING_AT((s), 664),BOOST_METAPARSE_V1_STRING_AT((s), 665),BOOST_METAPARSE_V1_STRING_AT((s), 666),BOOST_METAPARSE_V1_STRING_AT((s), 667),BOOST_METAPARSE_V1_STRING_AT((s), 668),BOOST_METAPARSE_V1_STRING_AT((s), 669),BOOST_METAPARSE_V1_STRING_AT((s), 670),BOOST_METAPARSE_V1_STRING_AT((s), 671),BOOST_METAPARSE_V1_STRING_AT((s), 672),BOOST_METAPARSE_V1_STRING_AT((s), 673),BOOST_METAPARSE_V1_STRING_AT((s), 674),BOOST_METAPARSE_V1_STRING_AT((s), 675),BOOST_METAPARSE_V1_STRING_AT((s), 676),BOOST_METAPARSE_V1_STRING_AT((s), 677),BOOST_METAPARSE_V1_STRING_AT((s), 678),BOOST_METAPARSE_V1_STRING_AT((s), 679),BOOST_METAPARSE_V1_STRING_AT((s), 680),BOOST_METAPARSE_V1_STRING_AT((s), 681),BOOST_METAPARSE_V1_STRING_AT((s), 682),BOOST_METAPARSE_V1_STRING_AT((s), 683),BOOST_METAPARSE_V1_STRING_AT((s), 684),BOOST_METAPARSE_V1_STRING_AT((s), 685),BOOST_METAPARSE_V1_STRING_AT((s), 686),BOOST_METAPARSE_V1_STRING_AT((s), 687),BOOST_METAPARSE_V1_STRING_AT((s), 688),BOOST_METAPARSE_V1_STRING_AT((s), 689),BOOST_METAPARSE_V1_STRING_AT((s), 690),BOOST_METAPARSE_V1_STRING_AT((s), 691),BOOST_METAPARSE_V1_STRING_AT((s), 692),BOOST_METAPARSE_V1_STRING_AT((s), 693),BOOST_METAPARSE_V1_STRING_AT((s), 694),BOOST_METAPARSE_V1_STRING_AT((s), 695),BOOST_METAPARSE_V1_STRING_AT((s), 696),BOOST_METAPARSE_V1_STRING_AT((s), 697),BOOST_METAPARSE_V1_STRING_AT((s), 698),BOOST_METAPARSE_V1_STRING_AT((s), 699),BOOST_METAPARSE_V1_STRING_AT((s), 700),BOOST_METAPARSE_V1_STRING_AT((s), 701),BOOST_METAPARSE_V1_STRING_AT((s), 702),BOOST_METAPARSE_V1_STRING_AT((s), 703),BOOST_METAPARSE_V1_STRING_AT((s), 704),BOOST_METAPARSE_V1_STRING_AT((s), 705),BOOST_METAPARSE_V1_STRING_AT((s), 706),BOOST_METAPARSE_V1_STRING_AT((s), 707),BOOST_METAPARSE_V1_STRING_AT((s), 708),BOOST_METAPARSE_V1_STRING_AT((s), 709),BOOST_METAPARSE_V1_STRING_AT((s), 710),BOOST_METAPARSE_V1_STRING_AT((s), 711),BOOST_METAPARSE_V1_STRING_AT((s), 712),BOOST_METAPARSE_V1_STRING_AT((s), 713),BOOST_METAPARSE_V1_STRING_AT((s), 714),BOOST_METAPARSE_V1_STRING_AT((s), 715),BOOST_METAPARSE_V1_STRING_AT((s), 716),BOOST_METAPARSE_V1_STRING_AT((s), 717),BOOST_METAPARSE_V1_STRING_AT((s), 718),BOOST_METAPARSE_V1_STRING_AT((s), 719),BOOST_METAPARSE_V1_STRING_AT((s), 720),BOOST_METAPARSE_V1_STRING_AT((s), 721),BOOST_METAPARSE_V1_STRING_AT((s), 722),BOOST_METAPARSE_V1_STRING_AT((s), 723),BOOST_METAPARSE_V1_STRING_AT((s), 724),BOOST_METAPARSE_V1_STRING_AT((s), 725),BOOST_METAPARSE_V1_STRING_AT((s), 726),BOOST_METAPARSE_V1_STRING_AT((s), 727),BOOST_METAPARSE_V1_STRING_AT((s), 728),BOOST_METAPARSE_V1_STRING_AT((s), 729),BOOST_METAPARSE_V1_STRING_AT((s), 730),BOOST_METAPARSE_V1_STRING_AT((s), 731),BOOST_METAPARSE_V1_STRING_AT((s), 732),BOOST_METAPARSE_V1_STRING_AT((s), 733),BOOST_METAPARSE_V1_STRING_AT((s), 734),BOOST_METAPARSE_V1_STRING_AT((s), 735),BOOST_METAPARSE_V1_STRING_AT((s), 736),BOOST_METAPARSE_V1_STRING_AT((s), 737),BOOST_METAPARSE_V1_STRING_AT((s), 738),BOOST_METAPARSE_V1_STRING_AT((s), 739),BOOST_METAPARSE_V1_STRING_AT((s), 740),BOOST_METAPARSE_V1_STRING_AT((s), 741),BOOST_METAPARSE_V1_STRING_AT((s), 742),BOOST_METAPARSE_V1_STRING_AT((s), 743),BOOST_METAPARSE_V1_STRING_AT((s), 744),BOOST_METAPARSE_V1_STRING_AT((s), 745),BOOST_METAPARSE_V1_STRING_AT((s), 746),BOOST_METAPARSE_V1_STRING_AT((s), 747),BOOST_METAPARSE_V1_STRING_AT((s), 748),BOOST_METAPARSE_V1_STRING_AT((s), 749),BOOST_METAPARSE_V1_STRING_AT((s), 750),BOOST_METAPARSE_V1_STRING_AT((s), 751),BOOST_METAPARSE_V1_STRING_AT((s), 752),BOOST_METAPARSE_V1_STRING_AT((s), 753),BOOST_METAPARSE_V1_STRING_AT((s), 754),BOOST_METAPARSE_V1_STRING_AT((s), 755),BOOST_METAPARSE_V1_STRING_AT((s), 756),BOOST_METAPARSE_V1_STRING_AT((s), 757),BOOST_METAPARSE_V1_STRING_AT((s), 758),BOOST_METAPARSE_V1_STRING_AT((s), 759),BOOST_METAPARSE_V1_STRING_AT((s), 760),BOOST_METAPARSE_V1_STRING_AT((s), 761),BOOST_METAPARSE_V1_STRING_AT((s), 762),BOOST_METAPARSE_V1_STRING_AT((s), 763),BOOST_METAPARSE_V1_STRING_AT((s), 764),BOOST_METAPARSE_V1_STRING_AT((s), 765),BOOST_METAPARSE_V1_STRING_AT((s), 766),BOOST_METAPARSE_V1_STRING_AT((s), 767)";
  ln "#define BOOST_METAPARSE_V1_INDEX_STR896(s) BOOST_METAPARSE_V1_INDEX_STR768(s),BOOST_METAPARSE_V1_STRING_AT((s), 768),BOOST_METAPARSE_V1_STRING_AT((s), 769),BOOST_METAPARSE_V1_STRING_AT((s), 770),BOOST_METAPARSE_V1_STRING_AT((s), 771),BOOST_METAPARSE_V1_STRING_AT((s), 772),BOOST_METAPARSE_V1_STRING_AT((s), 773),BOOST_METAPARSE_V1_STRING_AT((s), 774),BOOST_METAPARSE_V1_STRING_AT((s), 775),BOOST_METAPARSE_V1_STRING_AT((s), 776),BOOST_METAPARSE_V1_STRING_AT((s), 777),BOOST_METAPARSE_V1_STRING_AT((s), 778),BOOST_METAPARSE_V1_STRING_AT((s), 779),BOOST_METAPARSE_V1_STRING_AT((s), 780),BOOST_METAPARSE_V1_STRING_AT((s), 781),BOOST_METAPARSE_V1_STRING_AT((s), 782),BOOST_METAPARSE_V1_STRING_AT((s), 783),BOOST_METAPARSE_V1_STRING_AT((s), 784),BOOST_METAPARSE_V1_STRING_AT((s), 785),BOOST_METAPARSE_V1_STRING_AT((s), 786),BOOST_METAPARSE_V1_STRING_AT((s), 787),BOOST_METAPARSE_V1_STRING_AT((s), 788),BOOST_METAPARSE_V1_STRING_AT((s), 789),BOOST_METAPARSE_V1_STRING_AT((s), 790),BOOST_METAPARSE_V1_STRING_AT((s), 791),BOOST_METAPARSE_V1_STRING_AT((s), 792),BOOST_METAPARSE_V1_STRING_AT((s), 793),BOOST_METAPARSE_V1_STRING_AT((s), 794),BOOST_METAPARSE_V1_STRING_AT((s), 795),BOOST_METAPARSE_V1_STRING_AT((s), 796),BOOST_METAPARSE_V1_STRING_AT((s), 797),BOOST_METAPARSE_V1_STRING_AT((s), 798),BOOST_METAPARSE_V1_STRING_AT((s), 799),BOOST_METAPARSE_V1_STRING_AT((s), 800),BOOST_METAPARSE_V1_STRING_AT((s), 801),BOOST_METAPARSE_V1_STRING_AT((s), 802),BOOST_METAPARSE_V1_STRING_AT((s), 803),BOOST_METAPARSE_V1_STRING_AT((s), 804),BOOST_METAPARSE_V1_STRING_AT((s), 805),BOOST_METAPARSE_V1_STRING_AT((s), 806),BOOST_METAPARSE_V1_STRING_AT((s), 807),BOOST_METAPARSE_V1_STRING_AT((s), 808),BOOST_METAPARSE_V1_STRING_AT((s), 809),BOOST_METAPARSE_V1_STRING_AT((s), 810),BOOST_METAPARSE_V1_STRING_AT((s), 811),BOOST_METAPARSE_V1_STRING_AT((s), 812),BOOST_METAPARSE_V1_STRING_AT((s), 813),BOOST_METAPARSE_V1_STRING_AT((s), 814),BOOST_METAPARSE_V1_STRING_AT((s), 815),BOOST_METAPARSE_V1_STRING_AT((s), 816),BOOST_METAPARSE_V1_STRING_AT((s), 817),BOOST_METAPARSE_V1_STRING_AT((s), 818),BOOST_METAPARSE_V1_STRING_AT((s), 819),BOOST_METAPARSE_V1_STRING_AT((s), 820),BOOST_METAPARSE_V1_STRING_AT((s), 821),BOOST_METAPARSE_V1_STRING_AT((s), 822),BOOST_METAPARSE_V1_STRING_AT((s), 823),BOOST_METAPARSE_V1_STRING_AT((s), 824),BOOST_METAPARSE_V1_STRING_AT((s), 825),BOOST_METAPARSE_V1_STRING_AT((s), 826),BOOST_METAPARSE_V1_STRING_AT((s), 827),BOOST_METAPARSE_V1_STRING_AT((s), 828),BOOST_METAPARSE_V1_STRING_AT((s), 829),BOOST_METAPARSE_V1_STRING_AT((s), 830),BOOST_METAPARSE_V1_STRING_AT((s), 831),BOOST_METAPARSE_V1_STRING_AT((s), 832),BOOST_METAPARSE_V1_STRING_AT((s), 833),BOOST_METAPARSE_V1_STRING_AT((s), 834),BOOST_METAPARSE_V1_STRING_AT((s), 835),BOOST_METAPARSE_V1_STRING_AT((s), 836),BOOST_METAPARSE_V1_STRING_AT((s), 837),BOOST_METAPARSE_V1_STRING_AT((s), 838),BOOST_METAPARSE_V1_STRING_AT((s), 839),BOOST_METAPARSE_V1_STRING_AT((s), 840),BOOST_METAPARSE_V1_STRING_AT((s), 841),BOOST_METAPARSE_V1_STRING_AT((s), 842),BOOST_METAPARSE_V1_STRING_AT((s), 843),BOOST_METAPARSE_V1_STRING_AT((s), 844),BOOST_METAPARSE_V1_STRING_AT((s), 845),BOOST_METAPARSE_V1_STRING_AT((s), 846),BOOST_METAPARSE_V1_STRING_AT((s), 847),BOOST_METAPARSE_V1_STRING_AT((s), 848),BOOST_METAPARSE_V1_STRING_AT((s), 849),BOOST_METAPARSE_V1_STRING_AT((s), 850),BOOST_METAPARSE_V1_STRING_AT((s), 851),BOOST_METAPARSE_V1_STRING_AT((s), 852),BOOST_METAPARSE_V1_STRING_AT((s), 853),BOOST_METAPARSE_V1_STRING_AT((s), 854),BOOST_METAPARSE_V1_STRING_AT((s), 855),BOOST_METAPARSE_V1_STRING_AT((s), 856),BOOST_METAPARSE_V1_STRING_AT((s), 857),BOOST_METAPARSE_V1_STRING_AT((s), 858),BOOST_METAPARSE_V1_STRING_AT((s), 859),BOOST_METAPARSE_V1_STRING_AT((s), 860),BOOST_METAPARSE_V1_STRING_AT((s), 861),BOOST_METAPARSE_V1_STRING_AT((s), 862),BOOST_METAPARSE_V1_STRING_AT((s), 863),BOOST_METAPARSE_V1_STRING_AT((s), 864),BOOST_METAPARSE_V1_STRING_AT((s), 865),BOOST_METAPARSE_V1_STRING_AT((s), 866),BOOST_METAPARSE_V1_STRING_AT((s), 867),BOOST_METAPARSE_V1_STRING_AT((s), 868),BOOST_METAPARSE_V1_STRING_AT((s), 869),BOOST_METAPARSE_V1_STRING_AT((s), 870),BOOST_METAPARSE_V1_STRING_AT((s), 871),BOOST_METAPARSE_V1_STRING_AT((s), 872),BOOST_METAPARSE_V1_STRING_AT((s), 873),BOOST_METAPARSE_V1_STRING_AT((s), 874),BOOST_METAPARSE_V1_STRING_AT((s), 875),BOOST_METAPARSE_V1_STRING_AT((s), 876),BOOST_METAPARSE_V1_STRING_AT((s), 877),BOOST_METAPARSE_V1_STRING_AT((s), 878),BOOST_METAPARSE_V1_STRING_AT((s), 879),BOOST_METAPARSE_V1_STRING_AT((s), 880),BOOST_METAPARSE_V1_STRING_AT((s), 881),BOOST_METAPARSE_V1_STRING_AT((s), 882),BOOST_METAPARSE_V1_STRING_AT((s), 883),BOOST_METAPARSE_V1_STRING_AT((s), 884),BOOST_METAPARSE_V1_STRING_AT((s), 885),BOOST_METAPARSE_V1_STRING_AT((s), 886),BOOST_METAPARSE_V1_STRING_AT((s), 887),BOOST_METAPARSE_V1_STRING_AT((s), 888),BOOST_METAPARSE_V1_STRING_AT((s), 889),BOOST_METAPARSE_V1_STRING_AT((s), 890),BOOST_METAPARSE_V1_STRING_AT((s), 891),BOOST_METAPARSE_V1_STRING_AT((s), 892),BOOST_METAPARSE_V1_STRING_AT((s), 893),BOOST_METAPARSE_V1_STRING_AT((s), 894),BOOST_METAPARSE_V1_STRING_AT((s), 895)";
  ln "#define BOOST_METAPARSE_V1_INDEX_STR1024(s) BOOST_METAPARSE_V1_INDEX_STR896(s),BOOST_METAPARSE_V1_STRING_AT((s), 896),BOOST_METAPARSE_V1_STRING_AT((s), 897),BOOST_METAPARSE_V1_STRING_AT((s), 898),BOOST_METAPARSE_V1_STRING_AT((s), 899),BOOST_METAPARSE_V1_STRING_AT((s), 900),BOOST_METAPARSE_V1_STRING_AT((s), 901),BOOST_METAPARSE_V1_STRING_AT((s), 902),BOOST_METAPARSE_V1_STRING_AT((s), 903),BOOST_METAPARSE_V1_STRING_AT((s), 904),BOOST_METAPARSE_V1_STRING_AT((s), 905),BOOST_METAPARSE_V1_STRING_AT((s), 906),BOOST_METAPARSE_V1_STRING_AT((s), 907),BOOST_METAPARSE_V1_STRING_AT((s), 908),BOOST_METAPARSE_V1_STRING_AT((s), 909),BOOST_METAPARSE_V1_STRING_AT((s), 910),BOOST_METAPARSE_V1_STRING_AT((s), 911),BOOST_METAPARSE_V1_STRING_AT((s), 912),BOOST_METAPARSE_V1_STRING_AT((s), 913),BOOST_METAPARSE_V1_STRING_AT((s), 914),BOOST_METAPARSE_V1_STRING_AT((s), 915),BOOST_METAPARSE_V1_STRING_AT((s), 916),BOOST_METAPARSE_V1_STRING_AT((s), 917),BOOST_METAPARSE_V1_STRING_AT((s), 918),BOOST_METAPARSE_V1_STRING_AT((s), 919),BOOST_METAPARSE_V1_STRING_AT((s), 920),BOOST_METAPARSE_V1_STRING_AT((s), 921),BOOST_METAPARSE_V1_STRING_AT((s), 922),BOOST_METAPARSE_V1_STRING_AT((s), 923),BOOST_METAPARSE_V1_STRING_AT((s), 924),BOOST_METAPARSE_V1_STRING_AT((s), 925),BOOST_METAPARSE_V1_STRING_AT((s), 926),BOOST_METAPARSE_V1_STRING_AT((s), 927),BOOST_METAPARSE_V1_STRING_AT((s), 928),BOOST_METAPARSE_V1_STRING_AT((s), 929),BOOST_METAPARSE_V1_STRING_AT((s), 930),BOOST_METAPARSE_V1_STRING_AT((s), 931),BOOST_METAPARSE_V1_STRING_AT((s), 932),BOOST_METAPARSE_V1_STRING_AT((s), 933),BOOST_METAPARSE_V1_STRING_AT((s), 934),BOOST_METAPARSE_V1_STRING_AT((s), 935),BOOST_METAPARSE_V1_STRING_AT((s), 936),BOOST_METAPARSE_V1_STRING_AT((s), 937),BOOST_METAPARSE_V1_STRING_AT((s), 938),BOOST_METAPARSE_V1_STRING_AT((s), 939),BOOST_METAPARSE_V1_STRING_AT((s), 940),BOOST_METAPARSE_V1_STRING_AT((s), 941),BOOST_METAPARSE_V1_STRING_AT((s), 942),BOOST_METAPARSE_V1_STRING_AT((s), 943),BOOST_METAPARSE_V1_STRING_AT((s), 944),BOOST_METAPARSE_V1_STRING_AT((s), 945),BOOST_METAPARSE_V1_STRING_AT((s), 946),BOOST_METAPARSE_V1_STRING_AT((s), 947),BOOST_METAPARSE_V1_STRING_AT((s), 948),BOOST_METAPARSE_V1_STRING_AT((s), 949),BOOST_METAPARSE_V1_STRING_AT((s), 950),BOOST_METAPARSE_V1_STRING_AT((s), 951),BOOST_METAPARSE_V1_STRING_AT((s), 952),BOOST_METAPARSE_V1_STRING_AT((s), 953),BOOST_METAPARSE_V1_STRING_AT((s), 954),BOOST_METAPARSE_V1_STRING_AT((s), 955),BOOST_METAPARSE_V1_STRING_AT((s), 956),BOOST_METAPARSE_V1_STRING_AT((s), 957),BOOST_METAPARSE_V1_STRING_AT((s), 958),BOOST_METAPARSE_V1_STRING_AT((s), 959),BOOST_METAPARSE_V1_STRING_AT((s), 960),BOOST_METAPARSE_V1_STRING_AT((s), 961),BOOST_METAPARSE_V1_STRING_AT((s), 962),BOOST_METAPARSE_V1_STRING_AT((s), 963),BOOST_METAPARSE_V1_STRING_AT((s), 964),BOOST_METAPARSE_V1_STRING_AT((s), 965),BOOST_METAPARSE_V1_STRING_AT((s), 966),BOOST_METAPARSE_V1_STRING_AT((s), 967),BOOST_METAPARSE_V1_STRING_AT((s), 968),BOOST_METAPARSE_V1_STRING_AT((s), 969),BOOST_METAPARSE_V1_STRING_AT((s), 970),BOOST_METAPARSE_V1_STRING_AT((s), 971),BOOST_METAPARSE_V1_STRING_AT((s), 972),BOOST_METAPARSE_V1_STRING_AT((s), 973),BOOST_METAPARSE_V1_STRING_AT((s), 974),BOOST_METAPARSE_V1_STRING_AT((s), 975),BOOST_METAPARSE_V1_STRING_AT((s), 976),BOOST_METAPARSE_V1_STRING_AT((s), 977),BOOST_METAPARSE_V1_STRING_AT((s), 978),BOOST_METAPARSE_V1_STRING_AT((s), 979),BOOST_METAPARSE_V1_STRING_AT((s), 980),BOOST_METAPARSE_V1_STRING_AT((s), 981),BOOST_METAPARSE_V1_STRING_AT((s), 982),BOOST_METAPARSE_V1_STRING_AT((s), 983),BOOST_METAPARSE_V1_STRING_AT((s), 984),BOOST_METAPARSE_V1_STRING_AT((s), 985),BOOST_METAPARSE_V1_STRING_AT((s), 986),BOOST_METAPARSE_V1_STRING_AT((s), 987),BOOST_METAPARSE_V1_STRING_AT((s), 988),BOOST_METAPARSE_V1_STRING_AT((s), 989),BOOST_METAPARSE_V1_STRING_AT((s), 990),BOOST_METAPARSE_V1_STRING_AT((s), 991),BOOST_METAPARSE_V1_STRING_AT((s), 992),BOOST_METAPARSE_V1_STRING_AT((s), 993),BOOST_METAPARSE_V1_STRING_AT((s), 994),BOOST_METAPARSE_V1_STRING_AT((s), 995),BOOST_METAPARSE_V1_STRING_AT((s), 996),BOOST_METAPARSE_V1_STRING_AT((s), 997),BOOST_METAPARSE_V1_STRING_AT((s), 998),BOOST_METAPARSE_V1_STRING_AT((s), 999),BOOST_METAPARSE_V1_STRING_AT((s), 1000),BOOST_METAPARSE_V1_STRING_AT((s), 1001),BOOST_METAPARSE_V1_STRING_AT((s), 1002),BOOST_METAPARSE_V1_STRING_AT((s), 1003),BOOST_METAPARSE_V1_STRING_AT((s), 1004),BOOST_METAPARSE_V1_STRING_AT((s), 1005),BOOST_METAPARSE_V1_STRING_AT((s), 1006),BOOST_METAPARSE_V1_STRING_AT((s), 1007),BOOST_METAPARSE_V1_STRING_AT((s), 1008),BOOST_METAPARSE_V1_STRING_AT((s), 1009),BOOST_METAPARSE_V1_STRING_AT((s), 1010),BOOST_METAPARSE_V1_STRING_AT((s), 1011),BOOST_METAPARSE_V1_STRING_AT((s), 1012),BOOST_METAPARSE_V1_STRING_AT((s), 1013),BOOST_METAPARSE_V1_STRING_AT((s), 1014),BOOST_METAPARSE_V1_STRING_AT((s), 1015),BOOST_METAPARSE_V1_STRING_AT((s), 1016),BOOST_METAPARSE_V1_STRING_AT((s), 1017),BOOST_METAPARSE_V1_STRING_AT((s), 1018),BOOST_METAPARSE_V1_STRING_AT((s), 1019),BOOST_METAPARSE_V1_STRING_AT((s), 1020),BOOST_METAPARSE_V1_STRING_AT((s), 1021),BOOST_METAPARSE_V1_STRING_AT((s), 1022),BOOST_METAPARSE_V1_STRING_AT((s), 1023)";
  ln "#define BOOST_METAPARSE_V1_INDEX_STR1152(s) BOOST_METAPARSE_V1_INDEX_STR1024(s),BOOST_METAPARSE_V1_STRING_AT((s), 1024),BOOST_METAPARSE_V1_STRING_AT((s), 1025),BOOST_METAPARSE_V1_STRING_AT((s), 1026),BOOST_METAPARSE_V1_STRING_AT((s), 1027),BOOST_METAPARSE_V1_STRING_AT((s), 1028),BOOST_METAPARSE_V1_STRING_AT((s), 1029),BOOST_METAPARSE_V1_STRING_AT((s), 1030),BOOST_METAPARSE_V1_STRING_AT((s), 1031),BOOST_METAPARSE_V1_STRING_AT((s), 1032),BOOST_METAPARSE_V1_STRING_AT((s), 1033),BOOST_METAPARSE_V1_STRING_AT((s), 1034),BOOST_METAPARSE_V1_STRING_AT((s), 1035),BOOST_METAPARSE_V1_STRING_AT((s), 1036),BOOST_METAPARSE_V1_STRING_AT((s), 1037),BOOST_METAPARSE_V1_STRING_AT((s), 1038),BOOST_METAPARSE_V1_STRING_AT((s), 1039),BOOST_METAPARSE_V1_STRING_AT((s), 1040),BOOST_METAPARSE_V1_STRING_AT((s), 1041),BOOST_METAPARSE_V1_STRING_AT((s), 1042),BOOST_METAPARSE_V1_STRING_AT((s), 1043),BOOST_METAPARSE_V1_STRING_AT((s), 1044),BOOST_METAPARSE_V1_STRING_AT((s), 1045),BOOST_METAPARSE_V1_STRING_AT((s), 1046),BOOST_METAPARSE_V1_STRING_AT((s), 1047),BOOST_METAPARSE_V1_STRING_AT((s), 1048),BOOST_METAPARSE_V1_STRING_AT((s), 1049),BOOST_METAPARSE_V1_STRING_AT((s), 1050),BOOST_METAPARSE_V1_STRING_AT((s), 1051),BOOST_METAPARSE_V1_STRING_AT((s), 1052),BOOST_METAPARSE_V1_STRING_AT((s), 1053),BOOST_METAPARSE_V1_STRING_AT((s), 1054),BOOST_METAPARSE_V1_STRING_AT((s), 1055),BOOST_METAPARSE_V1_STRING_AT((s), 1056),BOOST_METAPARSE_V1_STRING_AT((s), 1057),BOOST_METAPARSE_V1_STRING_AT((s), 1058),BOOST_METAPARSE_V1_STRING_AT((s), 1059),BOOST_METAPARSE_V1_STRING_AT((s), 1060),BOOST_METAPARSE_V1_STRING_AT((s), 1061),BOOST_METAPARSE_V1_STRING_AT((s), 1062),BOOST_METAPARSE_V1_STRING_AT((s), 1063),BOOST_METAPARSE_V1_STRING_AT((s), 1064),BOOST_METAPARSE_V1_STRING_AT((s), 1065),BOOST_METAPARSE_V1_STRING_AT((s), 1066),BOOST_METAPARSE_V1_STRING_AT((s), 1067),BOOST_METAPARSE_V1_STRING_AT((s), 1068),BOOST_METAPARSE_V1_STRING_AT((s), 1069),BOOST_METAPARSE_V1_STRING_AT((s), 1070),BOOST_METAPARSE_V1_STRING_AT((s), 1071),BOOST_METAPARSE_V1_STRING_AT((s), 1072),BOOST_METAPARSE_V1_STRING_AT((s), 1073),BOOST_METAPARSE_V1_STRING_AT((s), 1074),BOOST_METAPARSE_V1_STRING_AT((s), 1075),BOOST_METAPARSE_V1_STRING_AT((s), 1076),BOOST_METAPARSE_V1_STRING_AT((s), 1077),BOOST_METAPARSE_V1_STRING_AT((s), 1078),BOOST_METAPARSE_V1_STRING_AT((s), 1079),BOOST_METAPARSE_V1_STRING_AT((s), 1080),BOOST_METAPARSE_V1_STRING_AT((s), 1081),BOOST_METAPARSE_V1_STRING_AT((s), 1082),BOOST_METAPARSE_V1_STRING_AT((s), 1083),BOOST_METAPARSE_V1_STRING_AT((s), 1084),BOOST_METAPARSE_V1_STRING_AT((s), 1085),BOOST_METAPARSE_V1_STRING_AT((s), 1086),BOOST_METAPARSE_V1_STRING_AT((s), 1087),BOOST_METAPARSE_V1_STRING_AT((s), 1088),BOOST_METAPARSE_V1_STRING_AT((s), 1089),BOOST_METAPARSE_V1_STRING_AT((s), 1090),BOOST_METAPARSE_V1_STRING_AT((s), 1091),BOOST_METAPARSE_V1_STRING_AT((s), 1092),BOOST_METAPARSE_V1_STRING_AT((s), 1093),BOOST_METAPARSE_V1_STRING_AT((s), 1094),BOOST_METAPARSE_V1_STRING_AT((s), 1095),BOOST_METAPARSE_V1_STRING_AT((s), 1096),BOOST_METAPARSE_V1_STRING_AT((s), 1097),BOOST_METAPARSE_V1_STRING_AT((s), 1098),BOOST_METAPARSE_V1_STRING_AT((s), 1099),BOOST_METAPARSE_V1_STRING_AT((s), 1100),BOOST_METAPARSE_V1_STRING_AT((s), 1101),BOOST_METAPARSE_V1_STRING_AT((s), 1102),BOOST_METAPARSE_V1_STRING_AT((s), 1103),BOOST_METAPARSE_V1_STRING_AT((s), 1104),BOOST_METAPARSE_V1_STRING_AT((s), 1105),BOOST_METAPARSE_V1_STRING_AT((s), 1106),BOOST_METAPARSE_V1_STRING_AT((s), 1107),BOOST_METAPARSE_V1_STRING_AT((s), 1108),BOOST_METAPARSE_V1_STRING_AT((s), 1109),BOOST_METAPARSE_V1_STRING_AT((s), 1110),BOOST_METAPARSE_V1_STRING_AT((s), 1111),BOOST_METAPARSE_V1_STRING_AT((s), 1112),BOOST_METAPARSE_V1_STRING_AT((s), 1113),BOOST_METAPARSE_V1_STRING_AT((s), 1114),BOOST_METAPARSE_V1_STRING_AT((s), 1115),BOOST_METAPARSE_V1_STRING_AT((s), 1116),BOOST_METAPARSE_V1_STRING_AT((s), 1117),BOOST_METAPARSE_V1_STRING_AT((s), 1118),BOOST_METAPARSE_V1_STRING_AT((s), 1119),BOOST_METAPARSE_V1_STRING_AT((s), 1120),BOOST_METAPARSE_V1_STRING_AT((s), 1121),BOOST_METAPARSE_V1_STRING_AT((s), 1122),BOOST_METAPARSE_V1_STRING_AT((s), 1123),BOOST_METAPARSE_V1_STRING_AT((s), 1124),BOOST_METAPARSE_V1_STRING_AT((s), 1125),BOOST_METAPARSE_V1_STRING_AT((s), 1126),BOOST_METAPARSE_V1_STRING_AT((s), 1127),BOOST_METAPARSE_V1_STRING_AT((s), 1128),BOOST_METAPARSE_V1_STRING_AT((s), 1129),BOOST_METAPARSE_V1_STRING_AT((s), 1130),BOOST_METAPARSE_V1_STRING_AT((s), 1131),BOOST_METAPARSE_V1_STRING_AT((s), 1132),BOOST_METAPARSE_V1_STRING_AT((s), 1133),BOOST_METAPARSE_V1_STRING_AT((s), 1134),BOOST_METAPARSE_V1_STRING_AT((s), 1135),BOOST_METAPARSE_V1_STRING_AT((s), 1136),BOOST_METAPARSE_V1_STRING_AT((s), 1137),BOOST_METAPARSE_V1_STRING_AT((s), 1138),BOOST_METAPARSE_V1_STRING_AT((s), 1139),BOOST_METAPARSE_V1_STRING_AT((s), 1140),BOOST_METAPARSE_V1_STRING_AT((s), 1141),BOOST_METAPARSE_V1_STRING_AT((s), 1142),BOOST_METAPARSE_V1_STRING_AT((s), 1143),BOOST_METAPARSE_V1_STRING_AT((s), 1144),BOOST_METAPARSE_V1_STRING_AT((s), 1145),BOOST_METAPARSE_V1_STRING_AT((s), 1146),BOOST_METAPARSE_V1_STRING_AT((s), 1147),BOOST_METAPARSE_V1_STRING_AT((s), 1148),BOOST_METAPARSE_V1_STRING_AT((s), 1149),BOOST_METAPARSE_V1_STRING_AT((s), 1150),BOOST_METAPARSE_V1_STRING_AT((s), 1151)";
  ln "#define BOOST_METAPARSE_V1_INDEX_STR1280(s) BOOST_METAPARSE_V1_INDEX_STR1152(s),BOOST_METAPARSE_V1_STRING_AT((s), 1152),BOOST_METAPARSE_V1_STRING_AT((s), 1153),BOOST_METAPARSE_V1_STRING_AT((s), 1154),BOOST_METAPARSE_V1_STRING_AT((s), 1155),BOOST_METAPARSE_V1_STRING_AT((s), 1156),BOOST_METAPARSE_V1_STRING_AT((s), 1157),BOOST_METAPARSE_V1_STRING_AT((s), 1158),BOOST_METAPARSE_V1_STRING_AT((s), 1159),BOOST_METAPARSE_V1_STRING_AT((s), 1160),BOOST_METAPARSE_V1_STRING_AT((s), 1161),BOOST_METAPARSE_V1_STRING_AT((s), 1162),BOOST_METAPARSE_V1_STRING_AT((s), 1163),BOOST_METAPARSE_V1_STRING_AT((s), 1164),BOOST_METAPARSE_V1_STRING_AT((s), 1165),BOOST_METAPARSE_V1_STRING_AT((s), 1166),BOOST_METAPARSE_V1_STRING_AT((s), 1167),BOOST_METAPARSE_V1_STRING_AT((s), 1168),BOOST_METAPARSE_V1_STRING_AT((s), 1169),BOOST_METAPARSE_V1_STRING_AT((s), 1170),BOOST_METAPARSE_V1_STRING_AT((s), 1171),BOOST_METAPARSE_V1_STRING_AT((s), 1172),BOOST_METAPARSE_V1_STRING_AT((s), 1173),BOOST_METAPARSE_V1_STRING_AT((s), 1174),BOOST_METAPARSE_V1_STRING_AT((s), 1175),BOOST_METAPARSE_V1_STRING_AT((s), 1176),BOOST_METAPARSE_V1_STRING_AT((s), 1177),BOOST_METAPARSE_V1_STRING_AT((s), 1178),BOOST_METAPARSE_V1_STRING_AT((s), 1179),BOOST_METAPARSE_V1_STRING_AT((s), 1180),BOOST_METAPARSE_V1_STRING_AT((s), 1181),BOOST_METAPARSE_V1_STRING_AT((s), 1182),BOOST_METAPARSE_V1_STRING_AT((s), 1183),BOOST_METAPARSE_V1_STRING_AT((s), 1184),BOOST_METAPARSE_V1_STRING_AT((s), 1185),BOOST_METAPARSE_V1_STRING_AT((s), 1186),BOOST_METAPARSE_V1_STRING_AT((s), 1187),BOOST_METAPARSE_V1_STRING_AT((s), 1188),BOOST_METAPARSE_V1_STRING_AT((s), 1189),BOOST_METAPARSE_V1_STRING_AT((s), 1190),BOOST_METAPARSE_V1_STRING_AT((s), 1191),BOOST_METAPARSE_V1_STRING_AT((s), 1192),BOOST_METAPARSE_V1_STRING_AT((s), 1193),BOOST_METAPARSE_V1_STRING_AT((s), 1194),BOOST_METAPARSE_V1_STRING_AT((s), 1195),BOOST_METAPARSE_V1_STRING_AT((s), 1196),BOOST_METAPARSE_V1_STRING_AT((s), 1197),BOOST_METAPARSE_V1_STRING_AT((s), 1198),BOOST_METAPARSE_V1_STRING_AT((s), 1199),BOOST_METAPARSE_V1_STRING_AT((s), 1200),BOOST_METAPARSE_V1_STRING_AT((s), 1201),BOOST_METAPARSE_V1_STRING_AT((s), 1202),BOOST_METAPARSE_V1_STRING_AT((s), 1203),BOOST_METAPARSE_V1_STRING_AT((s), 1204),BOOST_METAPARSE_V1_STRING_AT((s), 1205),BOOST_METAPARSE_V1_STRING_AT((s), 1206),BOOST_METAPARSE_V1_STRING_AT((s), 1207),BOOST_METAPARSE_V1_STRING_AT((s), 1208),BOOST_METAPARSE_V1_STRING_AT((s), 1209),BOOST_METAPARSE_V1_STRING_AT((s), 1210),BOOST_METAPARSE_V1_STRING_AT((s), 1211),BOOST_METAPARSE_V1_STRING_AT((s), 1212),BOOST_METAPARSE_V1_STRING_AT((s), 1213),BOOST_METAPARSE_V1_STRING_AT((s), 1214),BOOST_METAPARSE_V1_STRING_AT((s), 1215),BOOST_METAPARSE_V1_STRING_AT((s), 1216),BOOST_METAPARSE_V1_STRING_AT((s), 1217),BOOST_METAPARSE_V1_STRING_AT((s), 1218),BOOST_METAPARSE_V1_STRING_AT((s), 1219),BOOST_METAPARSE_V1_STRING_AT((s), 1220),BOOST_METAPARSE_V1_STRING_AT((s), 1221),BOOST_METAPARSE_V1_STRING_AT((s), 1222),BOOST_METAPARSE_V1_STRING_AT((s), 1223),BOOST_METAPARSE_V1_STRING_AT((s), 1224),BOOST_METAPARSE_V1_STRING_AT((s), 1225),BOOST_METAPARSE_V1_STRING_AT((s), 1226),BOOST_METAPARSE_V1_STRING_AT((s), 1227),BOOST_METAPARSE_V1_STRING_AT((s), 1228),BOOST_METAPARSE_V1_STRING_AT((s), 1229),BOOST_METAPARSE_V1_STRING_AT((s), 1230),BOOST_METAPARSE_V1_STRING_AT((s), 1231),BOOST_METAPARSE_V1_STRING_AT((s), 1232),BOOST_METAPARSE_V1_STRING_AT((s), 1233),BOOST_METAPARSE_V1_STRING_AT((s), 1234),BOOST_METAPARSE_V1_STRING_AT((s), 1235),BOOST_METAPARSE_V1_STRING_AT((s), 1236),BOOST_METAPARSE_V1_STRING_AT((s), 1237),BOOST_METAPARSE_V1_STRING_AT((s), 1238),BOOST_METAPARSE_V1_STRING_AT((s), 1239),BOOST_METAPARSE_V1_STRING_AT((s), 1240),BOOST_METAPARSE_V1_STRING_AT((s), 1241),BOOST_METAPARSE_V1_STRING_AT((s), 1242),BOOST_METAPARSE_V1_STRING_AT((s), 1243),BOOST_METAPARSE_V1_STRING_AT((s), 1244),BOOST_METAPARSE_V1_STRING_AT((s), 1245),BOOST_METAPARSE_V1_STRING_AT((s), 1246),BOOST_METAPARSE_V1_STRING_AT((s), 1247),BOOST_METAPARSE_V1_STRING_AT((s), 1248),BOOST_METAPARSE_V1_STRING_AT((s), 1249),BOOST_METAPARSE_V1_STRING_AT((s), 1250),BOOST_METAPARSE_V1_STRING_AT((s), 1251),BOOST_METAPARSE_V1_STRING_AT((s), 1252),BOOST_METAPARSE_V1_STRING_AT((s), 1253),BOOST_METAPARSE_V1_STRING_AT((s), 1254),BOOST_METAPARSE_V1_STRING_AT((s), 1255),BOOST_METAPARSE_V1_STRING_AT((s), 1256),BOOST_METAPARSE_V1_STRING_AT((s), 1257),BOOST_METAPARSE_V1_STRING_AT((s), 1258),BOOST_METAPARSE_V1_STRING_AT((s), 1259),BOOST_METAPARSE_V1_STRING_AT((s), 1260),BOOST_METAPARSE_V1_STRING_AT((s), 1261),BOOST_METAPARSE_V1_STRING_AT((s), 1262),BOOST_METAPARSE_V1_STRING_AT((s), 1263),BOOST_METAPARSE_V1_STRING_AT((s), 1264),BOOST_METAPARSE_V1_STRING_AT((s), 1265),BOOST_METAPARSE_V1_STRING_AT((s), 1266),BOOST_METAPARSE_V1_STRING_AT((s), 1267),BOOST_METAPARSE_V1_STRING_AT((s), 1268),BOOST_METAPARSE_V1_STRING_AT((s), 1269),BOOST_METAPARSE_V1_STRING_AT((s), 1270),BOOST_METAPARSE_V1_STRING_AT((s), 1271),BOOST_METAPARSE_V1_STRING_AT((s), 1272),BOOST_METAPARSE_V1_STRING_AT((s), 1273),BOOST_METAPARSE_V1_STRING_AT((s), 1274),BOOST_METAPARSE_V1_STRING_AT((s), 1275),BOOST_METAPARSE_V1_STRING_AT((s), 1276),BOOST_METAPARSE_V1_STRING_AT((s), 1277),BOOST_METAPARSE_V1_STRING_AT((s), 1278),BOOST_METAPARSE_V1_STRING_AT((s), 1279)";
  ln "#define BOOST_METAPARSE_V1_INDEX_STR1408(s) BOOST_METAPARSE_V1_INDEX_STR1280(s),BOOST_METAPARSE_V1_STRING_AT((s), 1280),BOOST_METAPARSE_V1_STRING_AT((s), 1281),BOOST_METAPARSE_V1_STRING_AT((s), 1282),BOOST_METAPARSE_V1_STRING_AT((s), 1283),BOOST_METAPARSE_V1_STRING_AT((s), 1284),BOOST_METAPARSE_V1_STRING_AT((s), 1285),BOOST_METAPARSE_V1_STRING_AT((s), 1286),BOOST_METAPARSE_V1_STRING_AT((s), 1287),BOOST_METAPARSE_V1_STRING_AT((s), 1288),BOOST_METAPARSE_V1_STRING_AT((s), 1289),BOOST_METAPARSE_V1_STRING_AT((s), 1290),BOOST_METAPARSE_V1_STRING_AT((s), 1291),BOOST_METAPARSE_V1_STRING_AT((s), 1292),BOOST_METAPARSE_V1_STRING_AT((s), 1293),BOOST_METAPARSE_V1_STRING_AT((s), 1294),BOOST_METAPARSE_V1_STRING_AT((s), 1295),BOOST_METAPARSE_V1_STRING_AT((s), 1296),BOOST_METAPARSE_V1_STRING_AT((s), 1297),BOOST_METAPARSE_V1_STRING_AT((s), 1298),BOOST_METAPARSE_V1_STRING_AT((s), 1299),BOOST_METAPARSE_V1_STRING_AT((s), 1300),BOOST_METAPARSE_V1_STRING_AT((s), 1301),BOOST_METAPARSE_V1_STRING_AT((s), 1302),BOOST_METAPARSE_V1_STRING_AT((s), 1303),BOOST_METAPARSE_V1_STRING_AT((s), 1304),BOOST_METAPARSE_V1_STRING_AT((s), 1305),BOOST_METAPARSE_V1_STRING_AT((s), 1306),BOOST_METAPARSE_V1_STRING_AT((s), 1307),BOOST_METAPARSE_V1_STRING_AT((s), 1308),BOOST_METAPARSE_V1_STRING_AT((s), 1309),BOOST_METAPARSE_V1_STRING_AT((s), 1310),BOOST_METAPARSE_V1_STRING_AT((s), 1311),BOOST_METAPARSE_V1_STRING_AT((s), 1312),BOOST_METAPARSE_V1_STRING_AT((s), 1313),BOOST_METAPARSE_V1_STRING_AT((s), 1314),BOOST_METAPARSE_V1_STRING_AT((s), 1315),BOOST_METAPARSE_V1_STRING_AT((s), 1316),BOOST_METAPARSE_V1_STRING_AT((s), 1317),BOOST_METAPARSE_V1_STRING_AT((s), 1318),BOOST_METAPARSE_V1_STRING_AT((s), 1319),BOOST_METAPARSE_V1_STRING_AT((s), 1320),BOOST_METAPARSE_V1_STRING_AT((s), 1321),BOOST_METAPARSE_V1_STRING_AT((s), 1322),BOOST_METAPARSE_V1_STRING_AT((s), 1323),BOOST_METAPARSE_V1_STRING_AT((s), 1324),BOOST_METAPARSE_V1_STRING_AT((s), 1325),BOOST_METAPARSE_V1_STRING_AT((s), 1326),BOOST_METAPARSE_V1_STRING_AT((s), 1327),BOOST_METAPARSE_V1_STRING_AT((s), 1328),BOOST_METAPARSE_V1_STRING_AT((s), 1329),BOOST_METAPARSE_V1_STRING_AT((s), 1330),BOOST_METAPARSE_V1_STRING_AT((s), 1331),BOOST_METAPARSE_V1_STRING_AT((s), 1332),BOOST_METAPARSE_V1_STRING_AT((s), 1333),BOOST_METAPARSE_V1_STRING_AT((s), 1334),BOOST_METAPARSE_V1_STRING_AT((s), 1335),BOOST_METAPARSE_V1_STRING_AT((s), 1336),BOOST_METAPARSE_V1_STRING_AT((s), 1337),BOOST_METAPARSE_V1_STRING_AT((s), 1338),BOOST_METAPARSE_V1_STRING_AT((s), 1339),BOOST_METAPARSE_V1_STRING_AT((s), 1340),BOOST_METAPARSE_V1_STRING_AT((s), 1341),BOOST_METAPARSE_V1_STRING_AT((s), 1342),BOOST_METAPARSE_V1_STRING_AT((s), 1343),BOOST_METAPARSE_V1_STRING_AT((s), 1344),BOOST_METAPARSE_V1_STRING_AT((s), 1345),BOOST_METAPARSE_V1_STRING_AT((s), 1346),BOOST_METAPARSE_V1_STRING_AT((s), 1347),BOOST_METAPARSE_V1_STRING_AT((s), 1348),BOOST_METAPARSE_V1_STRING_AT((s), 1349),BOOST_METAPARSE_V1_STRING_AT((s), 1350),BOOST_METAPARSE_V1_STRING_AT((s), 1351),BOOST_METAPARSE_V1_STRING_AT((s), 1352),BOOST_METAPARSE_V1_STRING_AT((s), 1353),BOOST_METAPARSE_V1_STRING_AT((s), 1354),BOOST_METAPARSE_V1_STRING_AT((s), 1355),BOOST_METAPARSE_V1_STRING_AT((s), 1356),BOOST_METAPARSE_V1_STRING_AT((s), 1357),BOOST_METAPARSE_V1_STRING_AT((s), 1358),BOOST_METAPARSE_V1_STRING_AT((s), 1359),BOOST_METAPARSE_V1_STRING_AT((s), 1360),BOOST_METAPARSE_V1_STRING_AT((s), 1361),BOOST_METAPARSE_V1_STRING_AT((s), 1362),BOOST_METAPARSE_V1_STRING_AT((s), 1363),BOOST_METAPARSE_V1_STRING_AT((s), 1364),BOOST_METAPARSE_V1_STRING_AT((s), 1365),BOOST_METAPARSE_V1_STRING_AT((s), 1366),BOOST_METAPARSE_V1_STRING_AT((s), 1367),BOOST_METAPARSE_V1_STRING_AT((s), 1368),BOOST_METAPARSE_V1_STRING_AT((s), 1369),BOOST_METAPARSE_V1_STRING_AT((s), 1370),BOOST_METAPARSE_V1_STRING_AT((s), 1371),BOOST_METAPARSE_V1_STRING_AT((s), 1372),BOOST_METAPARSE_V1_STRING_AT((s), 1373),BOOST_METAPARSE_V1_STRING_AT((s), 1374),BOOST_METAPARSE_V1_STRING_AT((s), 1375),BOOST_METAPARSE_V1_STRING_AT((s), 1376),BOOST_METAPARSE_V1_STRING_AT((s), 1377),BOOST_METAPARSE_V1_STRING_AT((s), 1378),BOOST_METAPARSE_V1_STRING_AT((s), 1379),BOOST_METAPARSE_V1_STRING_AT((s), 1380),BOOST_METAPARSE_V1_STRING_AT((s), 1381),BOOST_METAPARSE_V1_STRING_AT((s), 1382),BOOST_METAPARSE_V1_STRING_AT((s), 1383),BOOST_METAPARSE_V1_STRING_AT((s), 1384),BOOST_METAPARSE_V1_STRING_AT((s), 1385),BOOST_METAPARSE_V1_STRING_AT((s), 1386),BOOST_METAPARSE_V1_STRING_AT((s), 1387),BOOST_METAPARSE_V1_STRING_AT((s), 1388),BOOST_METAPARSE_V1_STRING_AT((s), 1389),BOOST_METAPARSE_V1_STRING_AT((s), 1390),BOOST_METAPARSE_V1_STRING_AT((s), 1391),BOOST_METAPARSE_V1_STRING_AT((s), 1392),BOOST_METAPARSE_V1_STRING_AT((s), 1393),BOOST_METAPARSE_V1_STRING_AT((s), 1394),BOOST_METAPARSE_V1_STRING_AT((s), 1395),BOOST_METAPARSE_V1_STRING_AT((s), 1396),BOOST_METAPARSE_V1_STRING_AT((s), 1397),BOOST_METAPARSE_V1_STRING_AT((s), 1398),BOOST_METAPARSE_V1_STRING_AT((s), 1399),BOOST_METAPARSE_V1_STRING_AT((s), 1400),BOOST_METAPARSE_V1_STRING_AT((s), 1401),BOOST_METAPARSE_V1_STRING_AT((s), 1402),BOOST_METAPARSE_V1_STRING_AT((s), 1403),BOOST_METAPARSE_V1_STRING_AT((s), 1404),BOOST_METAPARSE_V1_STRING_AT((s), 1405),BOOST_METAPARSE_V1_STRING_AT((s), 1406),BOOST_METAPARSE_V1_STRING_AT((s), 1407)";
  ln "#define BOOST_METAPARSE_V1_INDEX_STR1536(s) BOOST_METAPARSE_V1_INDEX_STR1408(s),BOOST_METAPARSE_V1_STRING_AT((s), 1408),BOOST_METAPARSE_V1_STRING_AT((s), 1409),BOOST_METAPARSE_V1_STRING_AT((s), 1410),BOOST_METAPARSE_V1_STRING_AT((s), 1411),BOOST_METAPARSE_V1_STRING_AT((s), 1412),BOOST_METAPARSE_V1_STRING_AT((s), 1413),BOOST_METAPARSE_V1_STRING_AT((s), 1414),BOOST_METAPARSE_V1_STRING_AT((s), 1415),BOOST_METAPARSE_V1_STRING_AT((s), 1416),BOOST_METAPARSE_V1_STRING_AT((s), 1417),BOOST_METAPARSE_V1_STRING_AT((s), 1418),BOOST_METAPARSE_V1_STRING_AT((s), 1419),BOOST_METAPARSE_V1_STRING_AT((s), 1420),BOOST_METAPARSE_V1_STRING_AT((s), 1421),BOOST_METAPARSE_V1_STRING_AT((s), 1422),BOOST_METAPARSE_V1_STRING_AT((s), 1423),BOOST_METAPARSE_V1_STRING_AT((s), 1424),BOOST_METAPARSE_V1_STRING_AT((s), 1425),BOOST_METAPARSE_V1_STRING_AT((s), 1426),BOOST_METAPARSE_V1_STRING_AT((s), 1427),BOOST_METAPARSE_V1_STRING_AT((s), 1428),BOOST_METAPARSE_V1_STRING_AT((s), 1429),BOOST_METAPARSE_V1_STRING_AT((s), 1430),BOOST_METAPARSE_V1_STRING_AT((s), 1431),BOOST_METAPARSE_V1_STRING_AT((s), 1432),BOOST_METAPARSE_V1_STRING_AT((s), 1433),BOOST_METAPARSE_V1_STRING_AT((s), 1434),BOOST_METAPARSE_V1_STRING_AT((s), 1435),BOOST_METAPARSE_V1_STRING_AT((s), 1436),BOOST_METAPARSE_V1_STRING_AT((s), 1437),BOOST_METAPARSE_V1_STRING_AT((s), 1438),BOOST_METAPARSE_V1_STRING_AT((s), 1439),BOOST_METAPARSE_V1_STRING_AT((s), 1440),BOOST_METAPARSE_V1_STRING_AT((s), 1441),BOOST_METAPARSE_V1_STRING_AT((s), 1442),BOOST_METAPARSE_V1_STRING_AT((s), 1443),BOOST_METAPARSE_V1_STRING_AT((s), 1444),BOOST_METAPARSE_V1_STRING_AT((s), 1445),BOOST_METAPARSE_V1_STRING_AT((s), 1446),BOOST_METAPARSE_V1_STRING_AT((s), 1447),BOOST_METAPARSE_V1_STRING_AT((s), 1448),BOOST_METAPARSE_V1_STRING_AT((s), 1449),BOOST_METAPARSE_V1_STRING_AT((s), 1450),BOOST_METAPARSE_V1_STRING_AT((s), 1451),BOOST_METAPARSE_V1_STRING_AT((s), 1452),BOOST_METAPARSE_V1_STRING_AT((s), 1453),BOOST_METAPARSE_V1_STRING_AT((s), 1454),BOOST_METAPARSE_V1_STRING_AT((s), 1455),BOOST_METAPARSE_V1_STRING_AT((s), 1456),BOOST_METAPARSE_V1_STRING_AT((s), 1457),BOOST_METAPARSE_V1_STRING_AT((s), 1458),BOOST_METAPARSE_V1_STRING_AT((s), 1459),BOOST_METAPARSE_V1_STRING_AT((s), 1460),BOOST_METAPARSE_V1_STRING_AT((s), 1461),BOOST_METAPARSE_V1_STRING_AT((s), 1462),BOOST_METAPARSE_V1_STRING_AT((s), 1463),BOOST_METAPARSE_V1_STRING_AT((s), 1464),BOOST_METAPARSE_V1_STRING_AT((s), 1465),BOOST_METAPARSE_V1_STRING_AT((s), 1466),BOOST_METAPARSE_V1_STRING_AT((s), 1467),BOOST_METAPARSE_V1_STRING_AT((s), 1468),BOOST_METAPARSE_V1_STRING_AT((s), 1469),BOOST_METAPARSE_V1_STRING_AT((s), 1470),BOOST_METAPARSE_V1_STRING_AT((s), 1471),BOOST_METAPARSE_V1_STRING_AT((s), 1472),BOOST_METAPARSE_V1_STRING_AT((s), 1473),BOOST_METAPARSE_V1_STRING_AT((s), 1474),BOOST_METAPARSE_V1_STRING_AT((s), 1475),BOOST_METAPARSE_V1_STRING_AT((s), 1476),BOOST_METAPARSE_V1_STRING_AT((s), 1477),BOOST_METAPARSE_V1_STRING_AT((s), 1478),BOOST_METAPARSE_V1_STRING_AT((s), 1479),BOOST_METAPARSE_V1_STRING_AT((s), 1480),BOOST_METAPARSE_V1_STRING_AT((s), 1481),BOOST_METAPARSE_V1_STRING_AT((s), 1482),BOOST_METAPARSE_V1_STRING_AT((s), 1483),BOOST_METAPARSE_V1_STRING_AT((s), 1484),BOOST_METAPARSE_V1_STRING_AT((s), 1485),BOOST_METAPARSE_V1_STRING_AT((s), 1486),BOOST_METAPARSE_V1_STRING_AT((s), 1487),BOOST_METAPARSE_V1_STRING_AT((s), 1488),BOOST_METAPARSE_V1_STRING_AT((s), 1489),BOOST_METAPARSE_V1_STRING_AT((s), 1490),BOOST_METAPARSE_V1_STRING_AT((s), 1491),BOOST_METAPARSE_V1_STRING_AT((s), 1492),BOOST_METAPARSE_V1_STRING_AT((s), 1493),BOOST_METAPARSE_V1_STRING_AT((s), 1494),BOOST_METAPARSE_V1_STRING_AT((s), 1495),BOOST_METAPARSE_V1_STRING_AT((s), 1496),BOOST_METAPARSE_V1_STRING_AT((s), 1497),BOOST_METAPARSE_V1_STRING_AT((s), 1498),BOOST_METAPARSE_V1_STRING_AT((s), 1499),BOOST_METAPARSE_V1_STRING_AT((s), 1500),BOOST_METAPARSE_V1_STRING_AT((s), 1501),BOOST_METAPARSE_V1_STRING_AT((s), 1502),BOOST_METAPARSE_V1_STRING_AT((s), 1503),BOOST_METAPARSE_V1_STRING_AT((s), 1504),BOOST_METAPARSE_V1_STRING_AT((s), 1505),BOOST_METAPARSE_V1_STRING_AT((s), 1506),BOOST_METAPARSE_V1_STRING_AT((s), 1507),BOOST_METAPARSE_V1_STRING_AT((s), 1508),BOOST_METAPARSE_V1_STRING_AT((s), 1509),BOOST_METAPARSE_V1_STRING_AT((s), 1510),BOOST_METAPARSE_V1_STRING_AT((s), 1511),BOOST_METAPARSE_V1_STRING_AT((s), 1512),BOOST_METAPARSE_V1_STRING_AT((s), 1513),BOOST_METAPARSE_V1_STRING_AT((s), 1514),BOOST_METAPARSE_V1_STRING_AT((s), 1515),BOOST_METAPARSE_V1_STRING_AT((s), 1516),BOOST_METAPARSE_V1_STRING_AT((s), 1517),BOOST_METAPARSE_V1_STRING_AT((s), 1518),BOOST_METAPARSE_V1_STRING_AT((s), 1519),BOOST_METAPARSE_V1_STRING_AT((s), 1520),BOOST_METAPARSE_V1_STRING_AT((s), 1521),BOOST_METAPARSE_V1_STRING_AT((s), 1522),BOOST_METAPARSE_V1_STRING_AT((s), 1523),BOOST_METAPARSE_V1_STRING_AT((s), 1524),BOOST_METAPARSE_V1_STRING_AT((s), 1525),BOOST_METAPARSE_V1_STRING_AT((s), 1526),BOOST_METAPARSE_V1_STRING_AT((s), 1527),BOOST_METAPARSE_V1_STRING_AT((s), 1528),BOOST_METAPARSE_V1_STRING_AT((s), 1529),BOOST_METAPARSE_V1_STRING_AT((s), 1530),BOOST_METAPARSE_V1_STRING_AT((s), 1531),BOOST_METAPARSE_V1_STRING_AT((s), 1532),BOOST_METAPARSE_V1_STRING_AT((s), 1533),BOOST_METAPARSE_V1_STRING_AT((s), 1534),BOOST_METAPARSE_V1_STRING_AT((s), 1535)";
  ln "#define BOOST_METAPARSE_V1_INDEX_STR1664(s) BOOST_METAPARSE_V1_INDEX_STR1536(s),BOOST_METAPARSE_V1_STRING_AT((s), 1536),BOOST_METAPARSE_V1_STRING_AT((s), 1537),BOOST_METAPARSE_V1_STRING_AT((s), 1538),BOOST_METAPARSE_V1_STRING_AT((s), 1539),BOOST_METAPARSE_V1_STRING_AT((s), 1540),BOOST_METAPARSE_V1_STRING_AT((s), 1541),BOOST_METAPARSE_V1_STRING_AT((s), 1542),BOOST_METAPARSE_V1_STRING_AT((s), 1543),BOOST_METAPARSE_V1_STRING_AT((s), 1544),BOOST_METAPARSE_V1_STRING_AT((s), 1545),BOOST_METAPARSE_V1_STRING_AT((s), 1546),BOOST_METAPARSE_V1_STRING_AT((s), 1547),BOOST_METAPARSE_V1_STRING_AT((s), 1548),BOOST_METAPARSE_V1_STRING_AT((s), 1549),BOOST_METAPARSE_V1_STRING_AT((s), 1550),BOOST_METAPARSE_V1_STRING_AT((s), 1551),BOOST_METAPARSE_V1_STRING_AT((s), 1552),BOOST_METAPARSE_V1_STRING_AT((s), 1553),BOOST_METAPARSE_V1_STRING_AT((s), 1554),BOOST_METAPARSE_V1_STRING_AT((s), 1555),BOOST_METAPARSE_V1_STRING_AT((s), 1556),BOOST_METAPARSE_V1_STRING_AT((s), 1557),BOOST_METAPARSE_V1_STRING_AT((s), 1558),BOOST_METAPARSE_V1_STRING_AT((s), 1559),BOOST_METAPARSE_V1_STRING_AT((s), 1560),BOOST_METAPARSE_V1_STRING_AT((s), 1561),BOOST_METAPARSE_V1_STRING_AT((s), 1562),BOOST_METAPARSE_V1_STRING_AT((s), 1563),BOOST_METAPARSE_V1_STRING_AT((s), 1564),BOOST_METAPARSE_V1_STRING_AT((s), 1565),BOOST_METAPARSE_V1_STRING_AT((s), 1566),BOOST_METAPARSE_V1_STRING_AT((s), 1567),BOOST_METAPARSE_V1_STRING_AT((s), 1568),BOOST_METAPARSE_V1_STRING_AT((s), 1569),BOOST_METAPARSE_V1_STRING_AT((s), 1570),BOOST_METAPARSE_V1_STRING_AT((s), 1571),BOOST_METAPARSE_V1_STRING_AT((s), 1572),BOOST_METAPARSE_V1_STRING_AT((s), 1573),BOOST_METAPARSE_V1_STRING_AT((s), 1574),BOOST_METAPARSE_V1_STRING_AT((s), 1575),BOOST_METAPARSE_V1_STRING_AT((s), 1576),BOOST_METAPARSE_V1_STRING_AT((s), 1577),BOOST_METAPARSE_V1_STRING_AT((s), 1578),BOOST_METAPARSE_V1_STRING_AT((s), 1579),BOOST_METAPARSE_V1_STRING_AT((s), 1580),BOOST_METAPARSE_V1_STRING_AT((s), 1581),BOOST_METAPARSE_V1_STRING_AT((s), 1582),BOOST_METAPARSE_V1_STRING_AT((s), 1583),BOOST_METAPARSE_V1_STRING_AT((s), 1584),BOOST_METAPARSE_V1_STRING_AT((s), 1585),BOOST_METAPARSE_V1_STRING_AT((s), 1586),BOOST_METAPARSE_V1_STRING_AT((s), 1587),BOOST_METAPARSE_V1_STRING_AT((s), 1588),BOOST_METAPARSE_V1_STRING_AT((s), 1589),BOOST_METAPARSE_V1_STRING_AT((s), 1590),BOOST_METAPARSE_V1_STRING_AT((s), 1591),BOOST_METAPARSE_V1_STRING_AT((s), 1592),BOOST_METAPARSE_V1_STRING_AT((s), 1593),BOOST_METAPARSE_V1_STRING_AT((s), 1594),BOOST_METAPARSE_V1_STRING_AT((s), 1595),BOOST_METAPARSE_V1_STRING_AT((s), 1596),BOOST_METAPARSE_V1_STRING_AT((s), 1597),BOOST_METAPARSE_V1_STRING_AT((s), 1598),BOOST_METAPARSE_V1_STRING_AT((s), 1599),BOOST_METAPARSE_V1_STRING_AT((s), 1600),BOOST_METAPARSE_V1_STRING_AT((s), 1601),BOOST_METAPARSE_V1_STRING_AT((s), 1602),BOOST_METAPARSE_V1_STRING_AT((s), 1603),BOOST_METAPARSE_V1_STRING_AT((s), 1604),BOOST_METAPARSE_V1_STRING_AT((s), 1605),BOOST_METAPARSE_V1_STRING_AT((s), 1606),BOOST_METAPARSE_V1_STRING_AT((s), 1607),BOOST_METAPARSE_V1_STRING_AT((s), 1608),BOOST_METAPARSE_V1_STRING_AT((s), 1609),BOOST_METAPARSE_V1_STRING_AT((s), 1610),BOOST_METAPARSE_V1_STRING_AT((s), 1611),BOOST_METAPARSE_V1_STRING_AT((s), 1612),BOOST_METAPARSE_V1_STRING_AT((s), 1613),BOOST_METAPARSE_V1_STRING_AT((s), 1614),BOOST_METAPARSE_V1_STRING_AT((s), 1615),BOOST_METAPARSE_V1_STRING_AT((s), 1616),BOOST_METAPARSE_V1_STRING_AT((s), 1617),BOOST_METAPARSE_V1_STRING_AT((s), 1618),BOOST_METAPARSE_V1_STRING_AT((s), 1619),BOOST_METAPARSE_V1_STRING_AT((s), 1620),BOOST_METAPARSE_V1_STRING_AT((s), 1621),BOOST_METAPARSE_V1_STRING_AT((s), 1622),BOOST_METAPARSE_V1_STRING_AT((s), 1623),BOOST_METAPARSE_V1_STRING_AT((s), 1624),BOOST_METAPARSE_V1_STRING_AT((s), 1625),BOOST_METAPARSE_V1_STRING_AT((s), 1626),BOOST_METAPARSE_V1_STRING_AT((s), 1627),BOOST_METAPARSE_V1_STRING_AT((s), 1628),BOOST_METAPARSE_V1_STRING_AT((s), 1629),BOOST_METAPARSE_V1_STRING_AT((s), 1630),BOOST_METAPARSE_V1_STRING_AT((s), 1631),BOOST_METAPARSE_V1_STRING_AT((s), 1632),BOOST_METAPARSE_V1_STRING_AT((s), 1633),BOOST_METAPARSE_V1_STRING_AT((s), 1634),BOOST_METAPARSE_V1_STRING_AT((s), 1635),BOOST_METAPARSE_V1_STRING_AT((s), 1636),BOOST_METAPARSE_V1_STRING_AT((s), 1637),BOOST_METAPARSE_V1_STRING_AT((s), 1638),BOOST_METAPARSE_V1_STRING_AT((s), 1639),BOOST_METAPARSE_V1_STRING_AT((s), 1640),BOOST_METAPARSE_V1_STRING_AT((s), 1641),BOOST_METAPARSE_V1_STRING_AT((s), 1642),BOOST_METAPARSE_V1_STRING_AT((s), 1643),BOOST_METAPARSE_V1_STRING_AT((s), 1644),BOOST_METAPARSE_V1_STRING_AT((s), 1645),BOOST_METAPARSE_V1_STRING_AT((s), 1646),BOOST_METAPARSE_V1_STRING_AT((s), 1647),BOOST_METAPARSE_V1_STRING_AT((s), 1648),BOOST_METAPARSE_V1_STRING_AT((s), 1649),BOOST_METAPARSE_V1_STRING_AT((s), 1650),BOOST_METAPARSE_V1_STRING_AT((s), 1651),BOOST_METAPARSE_V1_STRING_AT((s), 1652),BOOST_METAPARSE_V1_STRING_AT((s), 1653),BOOST_METAPARSE_V1_STRING_AT((s), 1654),BOOST_METAPARSE_V1_STRING_AT((s), 1655),BOOST_METAPARSE_V1_STRING_AT((s), 1656),BOOST_METAPARSE_V1_STRING_AT((s), 1657),BOOST_METAPARSE_V1_STRING_AT((s), 1658),BOOST_METAPARSE_V1_STRING_AT((s), 1659),BOOST_METAPARSE_V1_STRING_AT((s), 1660),BOOST_METAPARSE_V1_STRING_AT((s), 1661),BOOST_METAPARSE_V1_STRING_AT((s), 1662),BOOST_METAPARSE_V1_STRING_AT((s), 1663)";
  ln "#define BOOST_METAPARSE_V1_INDEX_STR1792(s) BOOST_METAPARSE_V1_INDEX_STR1664(s),BOOST_METAPARSE_V1_STRING_AT((s), 1664),BOOST_METAPARSE_V1_STRING_AT((s), 1665),BOOST_METAPARSE_V1_STRING_AT((s), 1666),BOOST_METAPARSE_V1_STRING_AT((s), 1667),BOOST_METAPARSE_V1_STRING_AT((s), 1668),BOOST_METAPARSE_V1_STRING_AT((s), 1669),BOOST_METAPARSE_V1_STRING_AT((s), 1670),BOOST_METAPARSE_V1_STRING_AT((s), 1671),BOOST_METAPARSE_V1_STRING_AT((s), 1672),BOOST_METAPARSE_V1_STRING_AT((s), 1673),BOOST_METAPARSE_V1_STRING_AT((s), 1674),BOOST_METAPARSE_V1_STRING_AT((s), 1675),BOOST_METAPARSE_V1_STRING_AT((s), 1676),BOOST_METAPARSE_V1_STRING_AT((s), 1677),BOOST_METAPARSE_V1_STRING_AT((s), 1678),BOOST_METAPARSE_V1_STRING_AT((s), 1679),BOOST_METAPARSE_V1_STRING_AT((s), 1680),BOOST_METAPARSE_V1_STRING_AT((s), 1681),BOOST_METAPARSE_V1_STRING_AT((s), 1682),BOOST_METAPARSE_V1_STRING_AT((s), 1683),BOOST_METAPARSE_V1_STRING_AT((s), 1684),BOOST_METAPARSE_V1_STRING_AT((s), 1685),BOOST_METAPARSE_V1_STRING_AT((s), 1686),BOOST_METAPARSE_V1_STRING_AT((s), 1687),BOOST_METAPARSE_V1_STRING_AT((s), 1688),BOOST_METAPARSE_V1_STRING_AT((s), 1689),BOOST_METAPARSE_V1_STRING_AT((s), 1690),BOOST_METAPARSE_V1_STRING_AT((s), 1691),BOOST_METAPARSE_V1_STRING_AT((s), 1692),BOOST_METAPARSE_V1_STRING_AT((s), 1693),BOOST_METAPARSE_V1_STRING_AT((s), 1694),BOOST_METAPARSE_V1_STRING_AT((s), 1695),BOOST_METAPARSE_V1_STRING_AT((s), 1696),BOOST_METAPARSE_V1_STRING_AT((s), 1697),BOOST_METAPARSE_V1_STRING_AT((s), 1698),BOOST_METAPARSE_V1_STRING_AT((s), 1699),BOOST_METAPARSE_V1_STRING_AT((s), 1700),BOOST_METAPARSE_V1_STRING_AT((s), 1701),BOOST_METAPARSE_V1_STRING_AT((s), 1702),BOOST_METAPARSE_V1_STRING_AT((s), 1703),BOOST_METAPARSE_V1_STRING_AT((s), 1704),BOOST_METAPARSE_V1_STRING_AT((s), 1705),BOOST_METAPARSE_V1_STRING_AT((s), 1706),BOOST_METAPARSE_V1_STRING_AT((s), 1707),BOOST_METAPARSE_V1_STRING_AT((s), 1708),BOOST_METAPARSE_V1_STRING_AT((s), 1709),BOOST_METAPARSE_V1_STRING_AT((s), 1710),BOOST_METAPARSE_V1_STRING_AT((s), 1711),BOOST_METAPARSE_V1_STRING_AT((s), 1712),BOOST_METAPARSE_V1_STRING_AT((s), 1713),BOOST_METAPARSE_V1_STRING_AT((s), 1714),BOOST_METAPARSE_V1_STRING_AT((s), 1715),BOOST_METAPARSE_V1_STRING_AT((s), 1716),BOOST_METAPARSE_V1_STRING_AT((s), 1717),BOOST_METAPARSE_V1_STRING_AT((s), 1718),BOOST_METAPARSE_V1_STRING_AT((s), 1719),BOOST_METAPARSE_V1_STRING_AT((s), 1720),BOOST_METAPARSE_V1_STRING_AT((s), 1721),BOOST_METAPARSE_V1_STRING_AT((s), 1722),BOOST_METAPARSE_V1_STRING_AT((s), 1723),BOOST_METAPARSE_V1_STRING_AT((s), 1724),BOOST_METAPARSE_V1_STRING_AT((s), 1725),BOOST_METAPARSE_V1_STRING_AT((s), 1726),BOOST_METAPARSE_V1_STRING_AT((s), 1727),BOOST_METAPARSE_V1_STRING_AT((s), 1728),BOOST_METAPARSE_V1_STRING_AT((s), 1729),BOOST_METAPARSE_V1_STRING_AT((s), 1730),BOOST_METAPARSE_V1_STRING_AT((s), 1731),BOOST_METAPARSE_V1_STRING_AT((s), 1732),BOOST_METAPARSE_V1_STRING_AT((s), 1733),BOOST_METAPARSE_V1_STRING_AT((s), 1734),BOOST_METAPARSE_V1_STRING_AT((s), 1735),BOOST_METAPARSE_V1_STRING_AT((s), 1736),BOOST_METAPARSE_V1_STRING_AT((s), 1737),BOOST_METAPARSE_V1_STRING_AT((s), 1738),BOOST_METAPARSE_V1_STRING_AT((s), 1739),BOOST_METAPARSE_V1_STRING_AT((s), 1740),BOOST_METAPARSE_V1_STRING_AT((s), 1741),BOOST_METAPARSE_V1_STRING_AT((s), 1742),BOOST_METAPARSE_V1_STRING_AT((s), 1743),BOOST_METAPARSE_V1_STRING_AT((s), 1744),BOOST_METAPARSE_V1_STRING_AT((s), 1745),BOOST_METAPARSE_V1_STRING_AT((s), 1746),BOOST_METAPARSE_V1_STRING_AT((s), 1747),BOOST_METAPARSE_V1_STRING_AT((s), 1748),BOOST_METAPARSE_V1_STRING_AT((s), 1749),BOOST_METAPARSE_V1_STRING_AT((s), 1750),BOOST_METAPARSE_V1_STRING_AT((s), 1751),BOOST_METAPARSE_V1_STRING_AT((s), 1752),BOOST_METAPARSE_V1_STRING_AT((s), 1753),BOOST_METAPARSE_V1_STRING_AT((s), 1754),BOOST_METAPARSE_V1_STRING_AT((s), 1755),BOOST_METAPARSE_V1_STRING_AT((s), 1756),BOOST_METAPARSE_V1_STRING_AT((s), 1757),BOOST_METAPARSE_V1_STRING_AT((s), 1758),BOOST_METAPARSE_V1_STRING_AT((s), 1759),BOOST_METAPARSE_V1_STRING_AT((s), 1760),BOOST_METAPARSE_V1_STRING_AT((s), 1761),BOOST_METAPARSE_V1_STRING_AT((s), 1762),BOOST_METAPARSE_V1_STRING_AT((s), 1763),BOOST_METAPARSE_V1_STRING_AT((s), 1764),BOOST_METAPARSE_V1_STRING_AT((s), 1765),BOOST_METAPARSE_V1_STRING_AT((s), 1766),BOOST_METAPARSE_V1_STRING_AT((s), 1767),BOOST_METAPARSE_V1_STRING_AT((s), 1768),BOOST_METAPARSE_V1_STRING_AT((s), 1769),BOOST_METAPARSE_V1_STRING_AT((s), 1770),BOOST_METAPARSE_V1_STRING_AT((s), 1771),BOOST_METAPARSE_V1_STRING_AT((s), 1772),BOOST_METAPARSE_V1_STRING_AT((s), 1773),BOOST_METAPARSE_V1_STRING_AT((s), 1774),BOOST_METAPARSE_V1_STRING_AT((s), 1775),BOOST_METAPARSE_V1_STRING_AT((s), 1776),BOOST_METAPARSE_V1_STRING_AT((s), 1777),BOOST_METAPARSE_V1_STRING_AT((s), 1778),BOOST_METAPARSE_V1_STRING_AT((s), 1779),BOOST_METAPARSE_V1_STRING_AT((s), 1780),BOOST_METAPARSE_V1_STRING_AT((s), 1781),BOOST_METAPARSE_V1_STRING_AT((s), 1782),BOOST_METAPARSE_V1_STRING_AT((s), 1783),BOOST_METAPARSE_V1_STRING_AT((s), 1784),BOOST_METAPARSE_V1_STRING_AT((s), 1785),BOOST_METAPARSE_V1_STRING_AT((s), 1786),BOOST_METAPARSE_V1_STRING_AT((s), 1787),BOOST_METAPARSE_V1_STRING_AT((s), 1788),BOOST_METAPARSE_V1_STRING_AT((s), 1789),BOOST_METAPARSE_V1_STRING_AT((s), 1790),BOOST_METAPARSE_V1_STRING_AT((s), 1791)";
  ln "#define BOOST_METAPARSE_V1_INDEX_STR1920(s) BOOST_METAPARSE_V1_INDEX_STR1792(s),BOOST_METAPARSE_V1_STRING_AT((s), 1792),BOOST_METAPARSE_V1_STRING_AT((s), 1793),BOOST_METAPARSE_V1_STRING_AT((s), 1794),BOOST_METAPARSE_V1_STRING_AT((s), 1795),BOOST_METAPARSE_V1_STRING_AT((s), 1796),BOOST_METAPARSE_V1_STRING_AT((s), 1797),BOOST_METAPARSE_V1_STRING_AT((s), 1798),BOOST_METAPARSE_V1_STRING_AT((s), 1799),BOOST_METAPARSE_V1_STRING_AT((s), 1800),BOOST_METAPARSE_V1_STRING_AT((s), 1801),BOOST_METAPARSE_V1_STRING_AT((s), 1802),BOOST_METAPARSE_V1_STRING_AT((s), 1803),BOOST_METAPARSE_V1_STRING_AT((s), 1804),BOOST_METAPARSE_V1_STRING_AT((s), 1805),BOOST_METAPARSE_V1_STRING_AT((s), 1806),BOOST_METAPARSE_V1_STRING_AT((s), 1807),BOOST_METAPARSE_V1_STRING_AT((s), 1808),BOOST_METAPARSE_V1_STRING_AT((s), 1809),BOOST_METAPARSE_V1_STRING_AT((s), 1810),BOOST_METAPARSE_V1_STRING_AT((s), 1811),BOOST_METAPARSE_V1_STRING_AT((s), 1812),BOOST_METAPARSE_V1_STRING_AT((s), 1813),BOOST_METAPARSE_V1_STRING_AT((s), 1814),BOOST_METAPARSE_V1_STRING_AT((s), 1815),BOOST_METAPARSE_V1_STRING_AT((s), 1816),BOOST_METAPARSE_V1_STRING_AT((s), 1817),BOOST_METAPARSE_V1_STRING_AT((s), 1818),BOOST_METAPARSE_V1_STRING_AT((s), 1819),BOOST_METAPARSE_V1_STRING_AT((s), 1820),BOOST_METAPARSE_V1_STRING_AT((s), 1821),BOOST_METAPARSE_V1_STRING_AT((s), 1822),BOOST_METAPARSE_V1_STRING_AT((s), 1823),BOOST_METAPARSE_V1_STRING_AT((s), 1824),BOOST_METAPARSE_V1_STRING_AT((s), 1825),BOOST_METAPARSE_V1_STRING_AT((s), 1826),BOOST_METAPARSE_V1_STRING_AT((s), 1827),BOOST_METAPARSE_V1_STRING_AT((s), 1828),BOOST_METAPARSE_V1_STRING_AT((s), 1829),BOOST_METAPARSE_V1_STRING_AT((s), 1830),BOOST_METAPARSE_V1_STRING_AT((s), 1831),BOOST_METAPARSE_V1_STRING_AT((s), 1832),BOOST_METAPARSE_V1_STRING_AT((s), 1833),BOOST_METAPARSE_V1_STRING_AT((s), 1834),BOOST_METAPARSE_V1_STRING_AT((s), 1835),BOOST_METAPARSE_V1_STRING_AT((s), 1836),BOOST_METAPARSE_V1_STRING_AT((s), 1837),BOOST_METAPARSE_V1_STRING_AT((s), 1838),BOOST_METAPARSE_V1_STRING_AT((s), 1839),BOOST_METAPARSE_V1_STRING_AT((s), 1840),BOOST_METAPARSE_V1_STRING_AT((s), 1841),BOOST_METAPARSE_V1_STRING_AT((s), 1842),BOOST_METAPARSE_V1_STRING_AT((s), 1843),BOOST_METAPARSE_V1_STRING_AT((s), 1844),BOOST_METAPARSE_V1_STRING_AT((s), 1845),BOOST_METAPARSE_V1_STRING_AT((s), 1846),BOOST_METAPARSE_V1_STRING_AT((s), 1847),BOOST_METAPARSE_V1_STRING_AT((s), 1848),BOOST_METAPARSE_V1_STRING_AT((s), 1849),BOOST_METAPARSE_V1_STRING_AT((s), 1850),BOOST_METAPARSE_V1_STRING_AT((s), 1851),BOOST_METAPARSE_V1_STRING_AT((s), 1852),BOOST_METAPARSE_V1_STRING_AT((s), 1853),BOOST_METAPARSE_V1_STRING_AT((s), 1854),BOOST_METAPARSE_V1_STRING_AT((s), 1855),BOOST_METAPARSE_V1_STRING_AT((s), 1856),BOOST_METAPARSE_V1_STRING_AT((s), 1857),BOOST_METAPARSE_V1_STRING_AT((s), 1858),BOOST_METAPARSE_V1_STRING_AT((s), 1859),BOOST_METAPARSE_V1_STRING_AT((s), 1860),BOOST_METAPARSE_V1_STRING_AT((s), 1861),BOOST_METAPARSE_V1_STRING_AT((s), 1862),BOOST_METAPARSE_V1_STRING_AT((s), 1863),BOOST_METAPARSE_V1_STRING_AT((s), 1864),BOOST_METAPARSE_V1_STRING_AT((s), 1865),BOOST_METAPARSE_V1_STRING_AT((s), 1866),BOOST_METAPARSE_V1_STRING_AT((s), 1867),BOOST_METAPARSE_V1_STRING_AT((s), 1868),BOOST_METAPARSE_V1_STRING_AT((s), 1869),BOOST_METAPARSE_V1_STRING_AT((s), 1870),BOOST_METAPARSE_V1_STRING_AT((s), 1871),BOOST_METAPARSE_V1_STRING_AT((s), 1872),BOOST_METAPARSE_V1_STRING_AT((s), 1873),BOOST_METAPARSE_V1_STRING_AT((s), 1874),BOOST_METAPARSE_V1_STRING_AT((s), 1875),BOOST_METAPARSE_V1_STRING_AT((s), 1876),BOOST_METAPARSE_V1_STRING_AT((s), 1877),BOOST_METAPARSE_V1_STRING_AT((s), 1878),BOOST_METAPARSE_V1_STRING_AT((s), 1879),BOOST_METAPARSE_V1_STRING_AT((s), 1880),BOOST_METAPARSE_V1_STRING_AT((s), 1881),BOOST_METAPARSE_V1_STRING_AT((s), 1882),BOOST_METAPARSE_V1_STRING_AT((s), 1883),BOOST_METAPARSE_V1_STRING_AT((s), 1884),BOOST_METAPARSE_V1_STRING_AT((s), 1885),BOOST_METAPARSE_V1_STRING_AT((s), 1886),BOOST_METAPARSE_V1_STRING_AT((s), 1887),BOOST_METAPARSE_V1_STRING_AT((s), 1888),BOOST_METAPARSE_V1_STRING_AT((s), 1889),BOOST_METAPARSE_V1_STRING_AT((s), 1890),BOOST_METAPARSE_V1_STRING_AT((s), 1891),BOOST_METAPARSE_V1_STRING_AT((s), 1892),BOOST_METAPARSE_V1_STRING_AT((s), 1893),BOOST_METAPARSE_V1_STRING_AT((s), 1894),BOOST_METAPARSE_V1_STRING_AT((s), 1895),BOOST_METAPARSE_V1_STRING_AT((s), 1896),BOOST_METAPARSE_V1_STRING_AT((s), 1897),BOOST_METAPARSE_V1_STRING_AT((s), 1898),BOOST_METAPARSE_V1_STRING_AT((s), 1899),BOOST_METAPARSE_V1_STRING_AT((s), 1900),BOOST_METAPARSE_V1_STRING_AT((s), 1901),BOOST_METAPARSE_V1_STRING_AT((s), 1902),BOOST_METAPARSE_V1_STRING_AT((s), 1903),BOOST_METAPARSE_V1_STRING_AT((s), 1904),BOOST_METAPARSE_V1_STRING_AT((s), 1905),BOOST_METAPARSE_V1_STRING_AT((s), 1906),BOOST_METAPARSE_V1_STRING_AT((s), 1907),BOOST_METAPARSE_V1_STRING_AT((s), 1908),BOOST_METAPARSE_V1_STRING_AT((s), 1909),BOOST_METAPARSE_V1_STRING_AT((s), 1910),BOOST_METAPARSE_V1_STRING_AT((s), 1911),BOOST_METAPARSE_V1_STRING_AT((s), 1912),BOOST_METAPARSE_V1_STRING_AT((s), 1913),BOOST_METAPARSE_V1_STRING_AT((s), 1914),BOOST_METAPARSE_V1_STRING_AT((s), 1915),BOOST_METAPARSE_V1_STRING_AT((s), 1916),BOOST_METAPARSE_V1_STRING_AT((s), 1917),BOOST_METAPARSE_V1_STRING_AT((s), 1918),BOOST_METAPARSE_V1_STRING_AT((s), 1919)";
  ln "#define BOOST_METAPARSE_V1_INDEX_STR2048(s) BOOST_METAPARSE_V1_INDEX_STR1920(s),BOOST_METAPARSE_V1_STRING_AT((s), 1920),BOOST_METAPARSE_V1_STRING_AT((s), 1921),BOOST_METAPARSE_V1_STRING_AT((s), 1922),BOOST_METAPARSE_V1_STRING_AT((s), 1923),BOOST_METAPARSE_V1_STRING_AT((s), 1924),BOOST_METAPARSE_V1_STRING_AT((s), 1925),BOOST_METAPARSE_V1_STRING_AT((s), 1926),BOOST_METAPARSE_V1_STRING_AT((s), 1927),BOOST_METAPARSE_V1_STRING_AT((s), 1928),BOOST_METAPARSE_V1_STRING_AT((s), 1929),BOOST_METAPARSE_V1_STRING_AT((s), 1930),BOOST_METAPARSE_V1_STRING_AT((s), 1931),BOOST_METAPARSE_V1_STRING_AT((s), 1932),BOOST_METAPARSE_V1_STRING_AT((s), 1933),BOOST_METAPARSE_V1_STRING_AT((s), 1934),BOOST_METAPARSE_V1_STRING_AT((s), 1935),BOOST_METAPARSE_V1_STRING_AT((s), 1936),BOOST_METAPARSE_V1_STRING_AT((s), 1937),BOOST_METAPARSE_V1_STRING_AT((s), 1938),BOOST_METAPARSE_V1_STRING_AT((s), 1939),BOOST_METAPARSE_V1_STRING_AT((s), 1940),BOOST_METAPARSE_V1_STRING_AT((s), 1941),BOOST_METAPARSE_V1_STRING_AT((s), 1942),BOOST_METAPARSE_V1_STRING_AT((s), 1943),BOOST_METAPARSE_V1_STRING_AT((s), 1944),BOOST_METAPARSE_V1_STRING_AT((s), 1945),BOOST_METAPARSE_V1_STRING_AT((s), 1946),BOOST_METAPARSE_V1_STRING_AT((s), 1947),BOOST_METAPARSE_V1_STRING_AT((s), 1948),BOOST_METAPARSE_V1_STRING_AT((s), 1949),BOOST_METAPARSE_V1_STRING_AT((s), 1950),BOOST_METAPARSE_V1_STRING_AT((s), 1951),BOOST_METAPARSE_V1_STRING_AT((s), 1952),BOOST_METAPARSE_V1_STRING_AT((s), 1953),BOOST_METAPARSE_V1_STRING_AT((s), 1954),BOOST_METAPARSE_V1_STRING_AT((s), 1955),BOOST_METAPARSE_V1_STRING_AT((s), 1956),BOOST_METAPARSE_V1_STRING_AT((s), 1957),BOOST_METAPARSE_V1_STRING_AT((s), 1958),BOOST_METAPARSE_V1_STRING_AT((s), 1959),BOOST_METAPARSE_V1_STRING_AT((s), 1960),BOOST_METAPARSE_V1_STRING_AT((s), 1961),BOOST_METAPARSE_V1_STRING_AT((s), 1962),BOOST_METAPARSE_V1_STRING_AT((s), 1963),BOOST_METAPARSE_V1_STRING_AT((s), 1964),BOOST_METAPARSE_V1_STRING_AT((s), 1965),BOOST_METAPARSE_V1_STRING_AT((s), 1966),BOOST_METAPARSE_V1_STRING_AT((s), 1967),BOOST_METAPARSE_V1_STRING_AT((s), 1968),BOOST_METAPARSE_V1_STRING_AT((s), 1969),BOOST_METAPARSE_V1_STRING_AT((s), 1970),BOOST_METAPARSE_V1_STRING_AT((s), 1971),BOOST_METAPARSE_V1_STRING_AT((s), 1972),BOOST_METAPARSE_V1_STRING_AT((s), 1973),BOOST_METAPARSE_V1_STRING_AT((s), 1974),BOOST_METAPARSE_V1_STRING_AT((s), 1975),BOOST_METAPARSE_V1_STRING_AT((s), 1976),BOOST_METAPARSE_V1_STRING_AT((s), 1977),BOOST_METAPARSE_V1_STRING_AT((s), 1978),BOOST_METAPARSE_V1_STRING_AT((s), 1979),BOOST_METAPARSE_V1_STRING_AT((s), 1980),BOOST_METAPARSE_V1_STRING_AT((s), 1981),BOOST_METAPARSE_V1_STRING_AT((s), 1982),BOOST_METAPARSE_V1_STRING_AT((s), 1983),BOOST_METAPARSE_V1_STRING_AT((s), 1984),BOOST_METAPARSE_V1_STRING_AT((s), 1985),BOOST_METAPARSE_V1_STRING_AT((s), 1986),BOOST_METAPARSE_V1_STRING_AT((s), 1987),BOOST_METAPARSE_V1_STRING_AT((s), 1988),BOOST_METAPARSE_V1_STRING_AT((s), 1989),BOOST_METAPARSE_V1_STRING_AT((s), 1990),BOOST_METAPARSE_V1_STRING_AT((s), 1991),BOOST_METAPARSE_V1_STRING_AT((s), 1992),BOOST_METAPARSE_V1_STRING_AT((s), 1993),BOOST_METAPARSE_V1_STRING_AT((s), 1994),BOOST_METAPARSE_V1_STRING_AT((s), 1995),BOOST_METAPARSE_V1_STRING_AT((s), 1996),BOOST_METAPARSE_V1_STRING_AT((s), 1997),BOOST_METAPARSE_V1_STRING_AT((s), 1998),BOOST_METAPARSE_V1_STRING_AT((s), 1999),BOOST_METAPARSE_V1_STRING_AT((s), 2000),BOOST_METAPARSE_V1_STRING_AT((s), 2001),BOOST_METAPARSE_V1_STRING_AT((s), 2002),BOOST_METAPARSE_V1_STRING_AT((s), 2003),BOOST_METAPARSE_V1_STRING_AT((s), 2004),BOOST_METAPARSE_V1_STRING_AT((s), 2005),BOOST_METAPARSE_V1_STRING_AT((s), 2006),BOOST_METAPARSE_V1_STRING_AT((s), 2007),BOOST_METAPARSE_V1_STRING_AT((s), 2008),BOOST_METAPARSE_V1_STRING_AT((s), 2009),BOOST_METAPARSE_V1_STRING_AT((s), 2010),BOOST_METAPARSE_V1_STRING_AT((s), 2011),BOOST_METAPARSE_V1_STRING_AT((s), 2012),BOOST_METAPARSE_V1_STRING_AT((s), 2013),BOOST_METAPARSE_V1_STRING_AT((s), 2014),BOOST_METAPARSE_V1_STRING_AT((s), 2015),BOOST_METAPARSE_V1_STRING_AT((s), 2016),BOOST_METAPARSE_V1_STRING_AT((s), 2017),BOOST_METAPARSE_V1_STRING_AT((s), 2018),BOOST_METAPARSE_V1_STRING_AT((s), 2019),BOOST_METAPARSE_V1_STRING_AT((s), 2020),BOOST_METAPARSE_V1_STRING_AT((s), 2021),BOOST_METAPARSE_V1_STRING_AT((s), 2022),BOOST_METAPARSE_V1_STRING_AT((s), 2023),BOOST_METAPARSE_V1_STRING_AT((s), 2024),BOOST_METAPARSE_V1_STRING_AT((s), 2025),BOOST_METAPARSE_V1_STRING_AT((s), 2026),BOOST_METAPARSE_V1_STRING_AT((s), 2027),BOOST_METAPARSE_V1_STRING_AT((s), 2028),BOOST_METAPARSE_V1_STRING_AT((s), 2029),BOOST_METAPARSE_V1_STRING_AT((s), 2030),BOOST_METAPARSE_V1_STRING_AT((s), 2031),BOOST_METAPARSE_V1_STRING_AT((s), 2032),BOOST_METAPARSE_V1_STRING_AT((s), 2033),BOOST_METAPARSE_V1_STRING_AT((s), 2034),BOOST_METAPARSE_V1_STRING_AT((s), 2035),BOOST_METAPARSE_V1_STRING_AT((s), 2036),BOOST_METAPARSE_V1_STRING_AT((s), 2037),BOOST_METAPARSE_V1_STRING_AT((s), 2038),BOOST_METAPARSE_V1_STRING_AT((s), 2039),BOOST_METAPARSE_V1_STRING_AT((s), 2040),BOOST_METAPARSE_V1_STRING_AT((s), 2041),BOOST_METAPARSE_V1_STRING_AT((s), 2042),BOOST_METAPARSE_V1_STRING_AT((s), 2043),BOOST_METAPARSE_V1_STRING_AT((s), 2044),BOOST_METAPARSE_V1_STRING_AT((s), 2045),BOOST_METAPARSE_V1_STRING_AT((s), 2046),BOOST_METAPARSE_V1_STRING_AT((s), 2047)";
  ln "";
  ln "#endif"].

Example shipped_generated :
  match string_header 2048 128 with
  | Some t => str_eqb t (concat shipped)
  | None => false
  end = true.
Proof. vm_compute. reflexivity. Qed.
