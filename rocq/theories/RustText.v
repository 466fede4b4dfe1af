(** The text of the Rust files of /repo/src, byte for byte (generated by tools/gen_source.py; quotes doubled, long
    files in pieces). *)
From Coq Require Import Init.Byte List.

(** String literals as lists of bytes. *)
Inductive text := Text (l : list byte).
Definition text_bytes (t : text) : list byte := match t with Text l => l end.
Declare Scope text_scope.
Delimit Scope text_scope with text.
String Notation text Text text_bytes : text_scope.

(** src/utils.rs *)
Definition utils_rs_0 : text := "use core::{
	cmp::Ordering,
	hash::{Hash, Hasher},
};

pub fn into_smallcase(c: u8) -> u8 {
	if c.is_ascii_uppercase() { c + 0x20 } else { c }
}

pub fn case_insensitive_eq(a: &[u8], b: &[u8]) -> bool {
	if a.len() == b.len() {
		for i in 0..a.len() {
			if into_smallcase(a[i]) != into_smallcase(b[i]) {
				return false;
			}
		}

		true
	} else {
		false
	}
}

pub fn case_insensitive_hash<H: Hasher>(bytes: &[u8], hasher: &mut H) {
	for b in bytes {
		into_smallcase(*b).hash(hasher)
	}
}

pub fn case_insensitive_cmp(a: &[u8], b: &[u8]) -> Ordering {
	let mut i = 0;

	loop {
		if a.len() <= i {
			if b.len() <= i {
				return Ordering::Equal;
			}

			return Ordering::Greater;
		} else if b.len() <= i {
			return Ordering::Less;
		} else {
			match into_smallcase(a[i]).cmp(&into_smallcase(b[i])) {
				Ordering::Equal => i += 1,
				ord => return ord,
			}
		}
	}
}
"%text.
Definition utils_rs : list byte := text_bytes utils_rs_0.

(** src/grandfathered.rs *)
Definition grandfathered_rs_0 : text := "use core::fmt;

use crate::{Language, utils};

#[derive(Debug, thiserror::Error)]
#[error(""invalid grandfathered tag"")]
pub struct InvalidGrandfatheredTag<T>(pub T);

/// Grandfathered tags.
///
/// Prior to [RFC 4646](https://tools.ietf.org/html/rfc4646),
/// whole language tags were registered according to
/// the rules in [RFC 1766](https://tools.ietf.org/html/rfc1766)
/// and/or [RFC 3066](https://tools.ietf.org/html/rfc3066).
/// All of these registered tags remain valid as language tags.
/// Many of these registered tags were made redundant by the advent of
/// either [RFC 4646](https://tools.ietf.org/html/rfc4646) or
/// [RFC 5646](https://tools.ietf.org/html/rfc5646).
/// The remainder of the previously registered tags are ""grandfathered"",
/// and are all veriants of this enum type.
#[derive(Clone, Copy, PartialEq, Eq, PartialOrd, Ord, Hash)]
pub enum GrandfatheredLangTag {
	// irregular
	EnGbOed,
	IAmi,
	IBnn,
	IDefault,
	IEnochian,
	IHak,
	IKlingon,
	ILux,
	IMingo,
	INavajo,
	IPwn,
	ITao,
	ITay,
	ITsu,
	SgnBeFr,
	SgnBeNl,
	SgnChDe,
	// regular
	ArtLojban,
	CelGaulish,
	NoBok,
	NoNyn,
	ZhGuoyu,
	ZhHakka,
	ZhMin,
	ZhMinNan,
	ZhXiang,
}

use GrandfatheredLangTag::*;

/// List of all grandfathered tags.
pub static GRANDFATHERED: [GrandfatheredLangTag; 26] = [
	EnGbOed, IAmi, IBnn, IDefault, IEnochian, IHak, IKlingon, ILux, IMingo, INavajo, IPwn, ITao,
	ITay, ITsu, SgnBeFr, SgnBeNl, SgnChDe, ArtLojban, CelGaulish, NoBok, NoNyn, ZhGuoyu, ZhHakka,
	ZhMin, ZhMinNan, ZhXiang,
];

impl GrandfatheredLangTag {
	/// Try to parse a grandfathered tag.
	#[inline]
	pub fn new<T: AsRef<[u8]>>(t: T) -> Result<GrandfatheredLangTag, T> {
		match Self::try_from(t.as_ref()) {
			Ok(tag) => Ok(tag),
			Err(_) => Err(t),
		}
	}

	/// Get the language of the grandfathered tag if it is regular.
	#[inline]
	pub fn language(&self) -> Option<&'static Language> {
		unsafe {
			match self {
				ArtLojban => Some(Language::new_unchecked(""art"")),
				CelGaulish => Some(Language::new_unchecked(""cel"")),
				NoBok => Some(Language::new_unchecked(""no"")),
				NoNyn => Some(Language::new_unchecked(""no"")),
				ZhGuoyu => Some(Language::new_unchecked(""zh"")),
				ZhHakka => Some(Language::new_unchecked(""zh"")),
				ZhMin => Some(Language::new_unchecked(""zh"")),
				ZhMinNan => Some(Language::new_unchecked(""zh"")),
				ZhXiang => Some(Language::new_unchecked(""zh"")),
				_ => None,
			}
		}
	}

	/// Returns the bytes representation of the tag.
	#[inline]
	pub fn as_bytes(&self) -> &[u8] {
		use GrandfatheredLangTag::*;
		match self {
			EnGbOed => b""en-GB-oed"",
			IAmi => b""i-ami"",
			IBnn => b""i-bnn"",
			IDefault => b""i-default"",
			IEnochian => b""i-enochian"",
			IHak => b""i-hak"",
			IKlingon => b""i-klingon"",
			ILux => b""i-lux"",
			IMingo => b""i-mingo"",
			INavajo => b""i-navajo"",
			IPwn => b""i-pwn"",
			ITao => b""i-tao"",
			ITay => b""i-tay"",
			ITsu => b""i-tsu"",
			SgnBeFr => b""sgn-BE-FR"",
			SgnBeNl => b""sgn-BE-NL"",
			SgnChDe => b""sgn-CH-DE"",

			ArtLojban => b""art-lojban"",
			CelGaulish => b""cel-gaulish"",
			NoBok => b""no-bok"",
			NoNyn => b""no-nyn"",
			ZhGuoyu => b""zh-guoyu"",
			ZhHakka => b""zh-hakka"",
			ZhMin => b""zh-min"",
			ZhMinNan => b""zh-min-nan"",
			ZhXiang => b""zh-xiang"",
		}
	}

	/// Returns the string representation of the tag.
	#[inline]
	pub fn as_str(&self) -> &str {
		unsafe { core::str::from_utf8_unchecked(self.as_bytes()) }
	}
}

impl<'a> TryFrom<&'a [u8]> for GrandfatheredLangTag {
	type Error = InvalidGrandfatheredTag<&'a [u8]>;

	#[inline]
	fn try_from(bytes: &'a [u8]) -> Result<GrandfatheredLangTag, Self::Error> {
		for tag in &GRANDFATHERED {
			if utils::case_insensitive_eq(tag.as_bytes(), bytes) {
				return Ok(*tag);
			}
		}

		Err(InvalidGrandfatheredTag(bytes))
	}
}

impl fmt::Display for GrandfatheredLangTag {
	fn fmt(&self, f: &mut fmt::Formatter<'_>) -> fmt::Result {
		self.as_str().fmt(f)
	}
}
"%text.
Definition grandfathered_rs : list byte := text_bytes grandfathered_rs_0.

(** src/lib.rs *)
Definition lib_rs_0 : text := "//! This crate provides an implementation of *language tags* defined by
//! [RFC5646] ([BCP47]).
//!
//! [RFC5646]: <https://tools.ietf.org/html/rfc5646>
//! [BCP47]: <https://tools.ietf.org/html/bcp47>
//!
//! ## Usage
//!
//! You can easily parse new language from any string:
//! ```rust
//! use langtag::LangTag;
//!
//! fn main() -> Result<(), langtag::InvalidLangTag<&'static str>> {
//!   let tag = LangTag::new(""fr-FR"")?;
//!   assert_eq!(tag.language().unwrap().primary(), ""fr"");
//!   assert!(tag == ""Fr-fr""); // comparison is case-insensitive.
//!   Ok(())
//! }
//! ```
//!
//! Note that [`LangTag::new`] does *not* copy the data it is given,
//! but only borrows it. The [`LangTagBuf`] type allows you to own the language
//! tag. Once parsed, you can explore every component of the language tag using
//! the provided functions.
//!
//! You can use this library with `no_std` by disabling the `std` feature,
//! though it will also disable all the `*Buf` types.
//!
//! [`LangTag::new`]: crate::LangTag::new
//! [`LangTagBuf`]: crate::LangTagBuf
#![cfg_attr(not(feature = ""std""), no_std)]

use core::hash::Hash;
use static_automata::grammar;

mod grandfathered;
mod normal;
mod private_use;
mod utils;

pub use grandfathered::*;
pub use normal::*;
pub use private_use::*;

#[allow(clippy::manual_range_patterns)]
#[grammar(
	file = ""grammar.abnf"",
	export(
		""Language-Tag"",
		""privateuse"",
		""privateuse-subtag"",
		""langtag"",
		""language"",
		""primary"",
		""extlang"",
		""extlang-tag"",
		""script"",
		""region"",
		""variant"",
		""variants"",
		""extension"",
		""extension-subtag"",
		""extensions""
	)
)]
pub(crate) mod grammar {}

/// Any language tag (normal, private use or grandfathered).
#[derive(static_automata::Validate, str_newtype::StrNewType)]
#[automaton(crate::grammar::LanguageTag)]
#[newtype(
	no_deref,
	ord([u8], &[u8], str, &str)
)]
#[cfg_attr(
	feature = ""std"",
	newtype(ord(Vec<u8>, String), owned(LangTagBuf, derive(PartialEq, Eq, PartialOrd, Ord, Hash)))
)]
#[cfg_attr(feature = ""serde"", newtype(serde))]
pub struct LangTag(str);

impl LangTag {
	/// Returns the language subtags, if any.
	///
	/// Only normal language tags and regular grandfathered tags have language
	/// subtags.
	pub fn language(&self) -> Option<&Language> {
		match NormalLangTag::new(&self.0) {
			Ok(t) => Some(t.language()),
			Err(_) => match GrandfatheredLangTag::new(&self.0) {
				Ok(t) => t.language(),
				Err(_) => None,
			},
		}
	}

	/// Returns the script subtag, if any.
	pub fn script(&self) -> Option<&Script> {
		self.as_normal().and_then(NormalLangTag::script)
	}

	/// Returns the region subtag, if any.
	pub fn region(&self) -> Option<&Region> {
		self.as_normal().and_then(NormalLangTag::region)
	}

	/// Returns the variant subtags, if any.
	pub fn variants(&self) -> &Variants {
		self.as_normal()
			.map(NormalLangTag::variants)
			.unwrap_or(Variants::EMPTY)
	}

	/// Returns the extension subtags, if any.
	pub fn extensions(&self) -> &Extensions {
		self.as_normal()
			.map(NormalLangTag::extensions)
			.unwrap_or(Extensions::EMPTY)
	}

	/// Returns the private use subtag, if any.
	pub fn private_use(&self) -> Option<&PrivateUse> {
		self.as_normal().and_then(NormalLangTag::private_use)
	}

	/// Returns an iterator over the private use subtag subtags.
	pub fn private_use_subtags(&self) -> PrivateUseIter<'_> {
		self.private_use()
			.map(PrivateUse::iter)
			.unwrap_or(PrivateUseIter::empty())
	}

	/// Returns wether or not this language tag is a normal language tag.
	pub fn is_normal(&self) -> bool {
		self.as_normal().is_some()
	}

	/// Returns wether or not this language tag is a private use tag.
	pub fn is_private_use(&self) -> bool {
		self.as_private_use().is_some()
	}

	/// Returns wether or not this language tag is a grandfathered tag.
	pub fn is_grandfathered(&self) -> bool {
		self.as_grandfathered().is_some()
	}

	/// Returns this language tag as a normal tag, if it is one.
	pub fn as_normal(&self) -> Option<&NormalLangTag> {
		NormalLangTag::new(&self.0).ok()
	}

	/// Returns this language tag as a private use tag, if it is one.
	pub fn as_private_use(&self) -> Option<&PrivateUseLangTag> {
		PrivateUseLangTag::new(&self.0).ok()
	}

	/// Returns this language tag as a grandfathered tag, if it is one.
	pub fn as_grandfathered(&self) -> Option<GrandfatheredLangTag> {
		GrandfatheredLangTag::new(&self.0).ok()
	}

	/// Returns the kind of the tag (normal, private use or grandfathered).
	pub fn kind(&self) -> Kind {
		self.as_typed().kind()
	}

	/// Find out what kind of language tag `self` is.
	pub fn as_typed(&self) -> TypedLangTag<'_> {
		match NormalLangTag::new(&self.0) {
			Ok(t) => TypedLangTag::Normal(t),
			Err(_) => match PrivateUseLangTag::new(&self.0) {
				Ok(t) => TypedLangTag::PrivateUse(t),
				Err(_) => TypedLangTag::Grandfathered(GrandfatheredLangTag::new(&self.0).unwrap()),
			},
		}
	}
}

impl PartialEq for LangTag {
	fn eq(&self, other: &Self) -> bool {
		utils::case_insensitive_eq(self.as_bytes(), other.as_bytes())
	}
}

impl Eq for LangTag {}

impl PartialOrd for LangTag {
	fn partial_cmp(&self, other: &Self) -> Option<core::cmp::Ordering> {
		Some(self.cmp(other))
	}
}

impl Ord for LangTag {
	fn cmp(&self, other: &Self) -> core::cmp::Ordering {
		utils::case_insensitive_cmp(self.as_bytes(), other.as_bytes())
	}
}

impl Hash for LangTag {
	fn hash<H: core::hash::Hasher>(&self, state: &mut H) {
		utils::case_insensitive_hash(self.as_bytes(), state)
	}
}

/// Parses an [`LangTag`] at compile time.
#[macro_export]
macro_rules! langtag {
	($value:literal) => {
		match $crate::LangTag::from_str($value) {
			Ok(value) => value,
			Err(_) => panic!(""invalid language tag""),
		}
	};
}

/// Language tag with type information (normal, private use or grandfathered).
pub enum TypedLangTag<'a> {
	Normal(&'a NormalLangTag),
	PrivateUse(&'a PrivateUseLangTag),
	Grandfathered(GrandfatheredLangTag),
}

impl<'a> TypedLangTag<'a> {
	/// Returns the language subtags, if any.
	///
	/// Only normal language tags and regular grandfathered tags have language
	/// subtags.
	pub fn language(&self) -> Option<&Language> {
		match self {
			Self::Normal(n) => Some(n.language()),
			Self::PrivateUse(_) => None,
			Self::Grandfathered(g) => g.language(),
		}
	}

	/// Returns this tag's kind (normal, private use or grandfathered).
	pub fn kind(&self) -> Kind {
		match self {
			Self::Normal(_) => Kind::Normal,
			Self::PrivateUse(_) => Kind::PrivateUse,
			Self::Grandfathered(_) => Kind::Grandfathered,
		}
	}

	/// Returns wether or not this language tag is a normal language tag.
	pub fn is_normal(&self) -> bool {
		matches!(self, Self::Normal(_))
	}

	/// Returns wether or not this language tag is a private use tag.
	pub fn is_private_use(&self) -> bool {
		matches!(self, Self::PrivateUse(_))
	}

	/// Returns wether or not this language tag is a grandfathered tag.
	pub fn is_grandfathered(&self) -> bool {
		matches!(self, Self::Grandfathered(_))
	}

	/// Returns this language tag as a normal tag, if it is one.
	pub fn as_normal(&self) -> Option<&'a NormalLangTag> {
		match self {
			Self::Normal(n) => Some(*n),
			_ => None,
		}
	}

	/// Returns this language tag as a private use tag, if it is one.
	pub fn as_private_use(&self) -> Option<&'a PrivateUseLangTag> {
		match self {
			Self::PrivateUse(p) => Some(*p),
			_ => None,
		}
	}

	/// Returns this language tag as a grandfathered tag, if it is one.
	pub fn as_grandfathered(&self) -> Option<GrandfatheredLangTag> {
		match self {
			Self::Grandfathered(g) => Some(*g),
			_ => None,
		}
	}
}

/// Language tag kind (normal, private use or grandfathered).
#[derive(Debug, Clone, Copy, PartialEq, Eq, PartialOrd, Ord, Hash)]
pub enum Kind {
	Normal,
	PrivateUse,
	Grandfathered,
}

impl Kind {
	/// Returns wether or not this is the normal language tag kind.
	pub fn is_normal(&self) -> bool {
		matches!(self, Self::Normal)
	}

	/// Returns wether or not this is the private use tag kind.
	pub fn is_private_use(&self) -> bool {
"%text.
Definition lib_rs_1 : text := "		matches!(self, Self::PrivateUse)
	}

	/// Returns wether or not this is the grandfathered tag kind.
	pub fn is_grandfathered(&self) -> bool {
		matches!(self, Self::Grandfathered)
	}
}
"%text.
Definition lib_rs : list byte := text_bytes lib_rs_0 ++ text_bytes lib_rs_1.

(** src/normal/mod.rs *)
Definition normal_mod_rs_0 : text := "use core::{hash::Hash, ops::Range};

use crate::utils;

mod extension;
mod language;
mod private_use;
mod region;
mod script;
mod variant;

pub use extension::*;
pub use language::*;
pub use private_use::*;
pub use region::*;
pub use script::*;
pub use variant::*;

/// Normal language tag.
#[derive(static_automata::Validate, str_newtype::StrNewType)]
#[automaton(crate::grammar::Langtag)]
#[newtype(
	no_deref,
	ord([u8], &[u8], str, &str)
)]
#[cfg_attr(
	feature = ""std"",
	newtype(ord(Vec<u8>, String), owned(NormalLangTagBuf, derive(PartialEq, Eq, PartialOrd, Ord, Hash)))
)]
#[cfg_attr(feature = ""serde"", newtype(serde))]
pub struct NormalLangTag(str);

impl NormalLangTag {
	fn language_end(&self) -> usize {
		find_list_end(&self.0, 0, |i, segment| {
			i == 0 || ExtendedLangTag::new(segment).is_ok()
		})
	}

	/// Returns the language subtags.
	pub fn language(&self) -> &Language {
		unsafe { Language::new_unchecked(&self.0[..self.language_end()]) }
	}

	fn script_range(&self) -> Result<Range<usize>, usize> {
		let language_end = self.language_end();
		let offset = language_end + 1;
		let end = find_list_end(&self.0, offset, |i, segment| {
			i == offset && Script::new(segment).is_ok()
		});
		if end != offset {
			Ok(offset..end)
		} else {
			Err(language_end)
		}
	}

	/// Returns the script subtag, if any.
	pub fn script(&self) -> Option<&Script> {
		self.script_range()
			.ok()
			.map(|range| unsafe { Script::new_unchecked(&self.0[range]) })
	}

	fn region_range(&self) -> Result<Range<usize>, usize> {
		let script_end = match self.script_range() {
			Ok(range) => range.end,
			Err(i) => i,
		};

		let offset = script_end + 1;
		let end = find_list_end(&self.0, offset, |i, segment| {
			i == offset && Region::new(segment).is_ok()
		});
		if end != offset {
			Ok(offset..end)
		} else {
			Err(script_end)
		}
	}

	/// Returns the region subtag, if any.
	pub fn region(&self) -> Option<&Region> {
		self.region_range()
			.ok()
			.map(|range| unsafe { Region::new_unchecked(&self.0[range]) })
	}

	fn variants_range(&self) -> Range<usize> {
		let region_end = match self.region_range() {
			Ok(range) => range.end,
			Err(i) => i,
		};

		let offset = region_end + 1;
		let end = find_list_end(&self.0, offset, |_, segment| Variant::new(segment).is_ok());
		if end == offset {
			region_end..region_end
		} else {
			offset..end
		}
	}

	/// Returns the variant subtags.
	pub fn variants(&self) -> &Variants {
		unsafe { Variants::new_unchecked(&self.0[self.variants_range()]) }
	}

	fn extensions_range(&self) -> Range<usize> {
		let variants_end = self.variants_range().end;

		let offset = variants_end + 1;
		let end = find_list_end(&self.0, offset, |_, segment| {
			Singleton::from_string(segment).is_ok() || ExtensionSubtag::new(segment).is_ok()
		});

		if end == offset {
			variants_end..variants_end
		} else {
			offset..end
		}
	}

	/// Returns the extension subtags.
	pub fn extensions(&self) -> &Extensions {
		unsafe { Extensions::new_unchecked(&self.0[self.extensions_range()]) }
	}

	fn private_use_offset(&self) -> Option<usize> {
		let variants_end = self.variants_range().end;

		if variants_end < self.0.len() {
			Some(variants_end + 1)
		} else {
			None
		}
	}

	/// Returns the private use subtags.
	pub fn private_use(&self) -> Option<&PrivateUse> {
		self.private_use_offset()
			.map(|i| unsafe { PrivateUse::new_unchecked(&self.0[i..]) })
	}

	pub fn private_use_subtags(&self) -> PrivateUseIter<'_> {
		match self.private_use() {
			Some(p) => p.iter(),
			None => PrivateUseIter::empty(),
		}
	}
}

impl PartialEq for NormalLangTag {
	fn eq(&self, other: &Self) -> bool {
		utils::case_insensitive_eq(self.as_bytes(), other.as_bytes())
	}
}

impl Eq for NormalLangTag {}

impl PartialOrd for NormalLangTag {
	fn partial_cmp(&self, other: &Self) -> Option<core::cmp::Ordering> {
		Some(self.cmp(other))
	}
}

impl Ord for NormalLangTag {
	fn cmp(&self, other: &Self) -> core::cmp::Ordering {
		utils::case_insensitive_cmp(self.as_bytes(), other.as_bytes())
	}
}

impl Hash for NormalLangTag {
	fn hash<H: core::hash::Hasher>(&self, state: &mut H) {
		utils::case_insensitive_hash(self.as_bytes(), state)
	}
}

/// Find the end of a subtag list using the `f` function to determine which
/// subtag is part of the list.
fn find_list_end(string: &str, mut offset: usize, mut f: impl FnMut(usize, &str) -> bool) -> usize {
	let bytes = string.as_bytes();
	let mut i = offset;
	let mut end = i;
	while i < bytes.len() {
		if bytes[i] == b'-' {
			let subtag = &string[offset..i];
			if f(offset, subtag) {
				end = i;
				offset = i + 1;
			} else {
				return end;
			}
		}

		i += 1
	}

	let subtag = &string[offset..];
	if f(offset, subtag) { string.len() } else { end }
}

fn find_segment_end(string: &str, offset: usize) -> usize {
	let bytes = string.as_bytes();
	let mut i = offset;
	while i < bytes.len() {
		if bytes[i] == b'-' {
			return i;
		}

		i += 1
	}

	i
}

fn find_segment_start(string: &str, end: usize) -> usize {
	if end > 0 {
		let bytes = string.as_bytes();
		let mut i = end - 1;
		loop {
			if bytes[i] == b'-' {
				break i + 1;
			}

			if i > 0 {
				i -= 1
			} else {
				break 0;
			}
		}
	} else {
		0
	}
}
"%text.
Definition normal_mod_rs : list byte := text_bytes normal_mod_rs_0.

(** src/normal/extension.rs *)
Definition normal_extension_rs_0 : text := "use core::{fmt, hash::Hash};

use crate::utils;

#[derive(Debug, thiserror::Error)]
#[error(""invalid extension identifier"")]
pub struct InvalidSingleton<T>(pub T);

/// Extension identifier.
#[derive(Copy, Clone, PartialEq, Eq, Hash, PartialOrd, Ord)]
pub struct Singleton(u8);

impl Singleton {
	pub fn new(c: u8) -> Result<Self, InvalidSingleton<u8>> {
		if c != b'x' && c != b'X' && c.is_ascii_alphanumeric() {
			Ok(Self(c))
		} else {
			Err(InvalidSingleton(c))
		}
	}

	pub fn from_string(str: &str) -> Result<Self, InvalidSingleton<&str>> {
		if str.len() == 1 {
			str.chars()
				.next()
				.unwrap()
				.try_into()
				.map_err(|_| InvalidSingleton(str))
		} else {
			Err(InvalidSingleton(str))
		}
	}

	/// Convert into the underlying byte.
	#[inline]
	pub fn unwrap(self) -> u8 {
		self.0
	}
}

#[cfg(feature = ""std"")]
impl core::str::FromStr for Singleton {
	type Err = InvalidSingleton<String>;

	fn from_str(str: &str) -> Result<Self, InvalidSingleton<String>> {
		Self::from_string(str).map_err(|_| InvalidSingleton(str.to_owned()))
	}
}

impl TryFrom<u8> for Singleton {
	type Error = InvalidSingleton<u8>;

	#[inline]
	fn try_from(b: u8) -> Result<Singleton, InvalidSingleton<u8>> {
		Self::new(b)
	}
}

impl TryFrom<char> for Singleton {
	type Error = InvalidSingleton<char>;

	#[inline]
	fn try_from(c: char) -> Result<Singleton, InvalidSingleton<char>> {
		let codepoint = c as u32;

		if codepoint < u8::MAX as u32 {
			Self::new(codepoint as u8).map_err(|_| InvalidSingleton(c))
		} else {
			Err(InvalidSingleton(c))
		}
	}
}

impl PartialEq<u8> for Singleton {
	fn eq(&self, b: &u8) -> bool {
		self.0 == *b
	}
}

impl PartialEq<char> for Singleton {
	fn eq(&self, b: &char) -> bool {
		self.0 as u32 == *b as u32
	}
}

impl fmt::Display for Singleton {
	fn fmt(&self, f: &mut fmt::Formatter) -> fmt::Result {
		(self.0 as char).fmt(f)
	}
}

impl fmt::Debug for Singleton {
	fn fmt(&self, f: &mut fmt::Formatter) -> fmt::Result {
		(self.0 as char).fmt(f)
	}
}

/// Single extension and its subtags.
///
/// Extensions provide a mechanism for extending language tags for use in
/// various applications. They are intended to identify information that
/// is commonly used in association with languages or language tags but
/// that is not part of language identification.
///
/// An extension is composed of a singleton (a single character)
/// followed by associated subtags.
/// For instance `a-subtag1-subtag2`.
/// Each subtag of the extension is represented by the [`ExtensionSubtag`] type.
#[derive(static_automata::Validate, str_newtype::StrNewType)]
#[automaton(crate::grammar::Extension)]
#[newtype(
	no_deref,
	ord([u8], &[u8], str, &str)
)]
#[cfg_attr(
	feature = ""std"",
	newtype(ord(Vec<u8>, String), owned(ExtensionBuf, derive(PartialEq, Eq, PartialOrd, Ord, Hash)))
)]
#[cfg_attr(feature = ""serde"", newtype(serde))]
pub struct Extension(str);

impl Extension {
	pub fn singleton(&self) -> Singleton {
		Singleton(self.0.as_bytes()[0])
	}

	pub fn iter(&self) -> ExtensionIter<'_> {
		ExtensionIter::new(&self.0)
	}
}

impl PartialEq for Extension {
	fn eq(&self, other: &Self) -> bool {
		utils::case_insensitive_eq(self.as_bytes(), other.as_bytes())
	}
}

impl Eq for Extension {}

impl PartialOrd for Extension {
	fn partial_cmp(&self, other: &Self) -> Option<core::cmp::Ordering> {
		Some(self.cmp(other))
	}
}

impl Ord for Extension {
	fn cmp(&self, other: &Self) -> core::cmp::Ordering {
		utils::case_insensitive_cmp(self.as_bytes(), other.as_bytes())
	}
}

impl Hash for Extension {
	fn hash<H: core::hash::Hasher>(&self, state: &mut H) {
		utils::case_insensitive_hash(self.as_bytes(), state)
	}
}

#[derive(Default)]
pub struct ExtensionIter<'a> {
	data: &'a str,
	offset: usize,
}

impl<'a> ExtensionIter<'a> {
	fn new(data: &'a str) -> Self {
		Self {
			data,
			offset: 2, // start after the singleton
		}
	}

	pub fn empty() -> Self {
		Self::default()
	}
}

impl<'a> Iterator for ExtensionIter<'a> {
	type Item = &'a ExtensionSubtag;

	fn next(&mut self) -> Option<Self::Item> {
		if self.offset < self.data.len() {
			let end = super::find_segment_end(self.data, self.offset);
			let item = unsafe { ExtensionSubtag::new_unchecked(&self.data[self.offset..end]) };
			self.offset = end + 1;
			Some(item)
		} else {
			None
		}
	}
}

/// List of extensions.
///
/// A list of language tag extension, separated by a `-` character.
/// Individual extensions are represented by the [`Extension`] type,
/// while extension subtags are represented by the [`ExtensionSubtag`]
/// type.
#[derive(static_automata::Validate, str_newtype::StrNewType)]
#[automaton(crate::grammar::Extensions)]
#[newtype(
	no_deref,
	ord([u8], &[u8], str, &str)
)]
#[cfg_attr(
	feature = ""std"",
	newtype(ord(Vec<u8>, String), owned(ExtensionsBuf, derive(PartialEq, Eq, PartialOrd, Ord, Hash)))
)]
#[cfg_attr(feature = ""serde"", newtype(serde))]
pub struct Extensions(str);

impl Extensions {
	pub const EMPTY: &Self = unsafe { Self::new_unchecked("""") };

	pub fn get(&self, singleton: Singleton) -> Option<&Extension> {
		let bytes = self.0.as_bytes();
		let mut i = 0;
		let mut starting = true;
		while i + 1 < self.0.len() {
			if starting {
				if bytes[i] == singleton.0 && bytes[i + 1] == b'-' {
					let end = super::find_list_end(&self.0, i + 2, |_, segment| segment.len() > 1);

					return Some(unsafe { Extension::new_unchecked(&self.0[i..end]) });
				}

				starting = false
			} else if bytes[i] == b'-' {
				starting = true
			}

			i += 1
		}

		None
	}

	pub fn iter(&self) -> ExtensionsIter<'_> {
		ExtensionsIter::new(&self.0)
	}

	pub fn iter_extension(&self, singleton: Singleton) -> ExtensionIter<'_> {
		self.get(singleton).map(Extension::iter).unwrap_or_default()
	}
}

impl PartialEq for Extensions {
	fn eq(&self, other: &Self) -> bool {
		utils::case_insensitive_eq(self.as_bytes(), other.as_bytes())
	}
}

impl Eq for Extensions {}

impl PartialOrd for Extensions {
	fn partial_cmp(&self, other: &Self) -> Option<core::cmp::Ordering> {
		Some(self.cmp(other))
	}
}

impl Ord for Extensions {
	fn cmp(&self, other: &Self) -> core::cmp::Ordering {
		utils::case_insensitive_cmp(self.as_bytes(), other.as_bytes())
	}
}

impl Hash for Extensions {
	fn hash<H: core::hash::Hasher>(&self, state: &mut H) {
		utils::case_insensitive_hash(self.as_bytes(), state)
	}
}

pub struct ExtensionsIter<'a> {
	data: &'a str,
	offset: usize,
}

impl<'a> ExtensionsIter<'a> {
	fn new(data: &'a str) -> Self {
		Self { data, offset: 0 }
	}
}

impl<'a> Iterator for ExtensionsIter<'a> {
	type Item = &'a Extension;

	fn next(&mut self) -> Option<Self::Item> {
		if self.offset < self.data.len() {
			let offset = self.offset + 2; // skip singleton;
			let end = super::find_list_end(self.data, offset, |_, segment| {
				ExtensionSubtag::new(segment).is_ok()
			});

			let item = unsafe { Extension::new_unchecked(&self.data[self.offset..end]) };

			self.offset = end + 1;
			Some(item)
		} else {
			None
		}
	}
}

/// Single extension subtag.
///
/// Extension subtag found in a language tag extension.
#[derive(static_automata::Validate, str_newtype::StrNewType)]
#[automaton(crate::grammar::ExtensionSubtag)]
#[newtype(
	no_deref,
	ord([u8], &[u8], str, &str)
)]
#[cfg_attr(
	feature = ""std"",
	newtype(ord(Vec<u8>, String), owned(ExtensionSubtagBuf, derive(PartialEq, Eq, PartialOrd, Ord, Hash)))
)]
#[cfg_attr(feature = ""serde"", newtype(serde))]
pub struct ExtensionSubtag(str);

impl PartialEq for ExtensionSubtag {
	fn eq(&self, other: &Self) -> bool {
		utils::case_insensitive_eq(self.as_bytes(), other.as_bytes())
	}
}

impl Eq for ExtensionSubtag {}

impl PartialOrd for ExtensionSubtag {
	fn partial_cmp(&self, other: &Self) -> Option<core::cmp::Ordering> {
		Some(self.cmp(other))
	}
}

impl Ord for ExtensionSubtag {
	fn cmp(&self, other: &Self) -> core::cmp::Ordering {
		utils::case_insensitive_cmp(self.as_bytes(), other.as_bytes())
	}
}

impl Hash for ExtensionSubtag {
	fn hash<H: core::hash::Hasher>(&self, state: &mut H) {
"%text.
Definition normal_extension_rs_1 : text := "		utils::case_insensitive_hash(self.as_bytes(), state)
	}
}
"%text.
Definition normal_extension_rs : list byte := text_bytes normal_extension_rs_0 ++ text_bytes normal_extension_rs_1.

(** src/normal/variant.rs *)
Definition normal_variant_rs_0 : text := "use core::hash::Hash;

use crate::utils;

/// Single variant subtag.
///
/// Variant subtags are used to indicate additional, well-recognized
/// variations that define a language or its dialects that are not
/// covered by other available subtags.
#[derive(static_automata::Validate, str_newtype::StrNewType)]
#[automaton(crate::grammar::Variant)]
#[newtype(
	no_deref,
	ord([u8], &[u8], str, &str)
)]
#[cfg_attr(
	feature = ""std"",
	newtype(ord(Vec<u8>, String), owned(VariantBuf, derive(PartialEq, Eq, PartialOrd, Ord, Hash)))
)]
#[cfg_attr(feature = ""serde"", newtype(serde))]
pub struct Variant(str);

impl PartialEq for Variant {
	fn eq(&self, other: &Self) -> bool {
		utils::case_insensitive_eq(self.as_bytes(), other.as_bytes())
	}
}

impl Eq for Variant {}

impl PartialOrd for Variant {
	fn partial_cmp(&self, other: &Self) -> Option<core::cmp::Ordering> {
		Some(self.cmp(other))
	}
}

impl Ord for Variant {
	fn cmp(&self, other: &Self) -> core::cmp::Ordering {
		utils::case_insensitive_cmp(self.as_bytes(), other.as_bytes())
	}
}

impl Hash for Variant {
	fn hash<H: core::hash::Hasher>(&self, state: &mut H) {
		utils::case_insensitive_hash(self.as_bytes(), state)
	}
}

/// List of variant subtags.
///
/// Represents a list of variant subtags separated by a `-` character
/// as found in a language tag.
#[derive(static_automata::Validate, str_newtype::StrNewType)]
#[automaton(crate::grammar::Variants)]
#[newtype(
	no_deref,
	ord([u8], &[u8], str, &str)
)]
#[cfg_attr(
	feature = ""std"",
	newtype(ord(Vec<u8>, String), owned(VariantsBuf, derive(PartialEq, Eq, PartialOrd, Ord, Hash)))
)]
#[cfg_attr(feature = ""serde"", newtype(serde))]
pub struct Variants(str);

impl Variants {
	pub const EMPTY: &Self = unsafe { Self::new_unchecked("""") };

	pub fn iter(&self) -> VariantsIter<'_> {
		VariantsIter::new(&self.0)
	}

	pub fn first(&self) -> Option<&Variant> {
		self.iter().next()
	}

	pub fn last(&self) -> Option<&Variant> {
		self.iter().next_back()
	}
}

impl PartialEq for Variants {
	fn eq(&self, other: &Self) -> bool {
		utils::case_insensitive_eq(self.as_bytes(), other.as_bytes())
	}
}

impl Eq for Variants {}

impl PartialOrd for Variants {
	fn partial_cmp(&self, other: &Self) -> Option<core::cmp::Ordering> {
		Some(self.cmp(other))
	}
}

impl Ord for Variants {
	fn cmp(&self, other: &Self) -> core::cmp::Ordering {
		utils::case_insensitive_cmp(self.as_bytes(), other.as_bytes())
	}
}

impl Hash for Variants {
	fn hash<H: core::hash::Hasher>(&self, state: &mut H) {
		utils::case_insensitive_hash(self.as_bytes(), state)
	}
}

#[derive(Default)]
pub struct VariantsIter<'a> {
	data: &'a str,
	offset: usize,
	end: usize,
}

impl<'a> VariantsIter<'a> {
	fn new(data: &'a str) -> Self {
		Self {
			data,
			offset: 0,
			end: data.len(),
		}
	}

	pub fn empty() -> Self {
		Self::default()
	}
}

impl<'a> Iterator for VariantsIter<'a> {
	type Item = &'a Variant;

	fn next(&mut self) -> Option<Self::Item> {
		if self.offset < self.end {
			let end = super::find_segment_end(self.data, self.offset);
			let item = unsafe { Variant::new_unchecked(&self.data[self.offset..end]) };
			self.offset = end + 1;
			Some(item)
		} else {
			None
		}
	}
}

impl<'a> DoubleEndedIterator for VariantsIter<'a> {
	fn next_back(&mut self) -> Option<Self::Item> {
		if self.end > self.offset {
			let start = super::find_segment_start(self.data, self.end);
			let item = unsafe { Variant::new_unchecked(&self.data[start..self.end]) };

			self.end = if start > 0 { start - 1 } else { 0 };

			Some(item)
		} else {
			None
		}
	}
}
"%text.
Definition normal_variant_rs : list byte := text_bytes normal_variant_rs_0.

(** src/normal/private_use.rs *)
Definition normal_private_use_rs_0 : text := "use core::hash::Hash;

use crate::utils;

/// Private use.
#[derive(static_automata::Validate, str_newtype::StrNewType)]
#[automaton(crate::grammar::Privateuse)]
#[newtype(
	no_deref,
	ord([u8], &[u8], str, &str)
)]
#[cfg_attr(
	feature = ""std"",
	newtype(ord(Vec<u8>, String), owned(PrivateUseBuf, derive(PartialEq, Eq, PartialOrd, Ord, Hash)))
)]
#[cfg_attr(feature = ""serde"", newtype(serde))]
pub struct PrivateUse(str);

impl PrivateUse {
	pub fn iter(&self) -> PrivateUseIter<'_> {
		PrivateUseIter::new(&self.0)
	}
}

impl PartialEq for PrivateUse {
	fn eq(&self, other: &Self) -> bool {
		utils::case_insensitive_eq(self.as_bytes(), other.as_bytes())
	}
}

impl Eq for PrivateUse {}

impl PartialOrd for PrivateUse {
	fn partial_cmp(&self, other: &Self) -> Option<core::cmp::Ordering> {
		Some(self.cmp(other))
	}
}

impl Ord for PrivateUse {
	fn cmp(&self, other: &Self) -> core::cmp::Ordering {
		utils::case_insensitive_cmp(self.as_bytes(), other.as_bytes())
	}
}

impl Hash for PrivateUse {
	fn hash<H: core::hash::Hasher>(&self, state: &mut H) {
		utils::case_insensitive_hash(self.as_bytes(), state)
	}
}

#[derive(Default)]
pub struct PrivateUseIter<'a> {
	data: &'a str,
	offset: usize,
}

impl<'a> PrivateUseIter<'a> {
	fn new(data: &'a str) -> Self {
		Self {
			data,
			offset: 2, // start after the singleton
		}
	}

	pub fn empty() -> Self {
		Self::default()
	}
}

impl<'a> Iterator for PrivateUseIter<'a> {
	type Item = &'a PrivateUseSubtag;

	fn next(&mut self) -> Option<Self::Item> {
		if self.offset < self.data.len() {
			let end = super::find_segment_end(self.data, self.offset);
			let item = unsafe { &PrivateUseSubtag::new_unchecked(&self.data[self.offset..end]) };
			self.offset = end + 1;
			Some(item)
		} else {
			None
		}
	}
}

/// Private use subtag.
#[derive(static_automata::Validate, str_newtype::StrNewType)]
#[automaton(crate::grammar::PrivateuseSubtag)]
#[newtype(
	no_deref,
	ord([u8], &[u8], str, &str)
)]
#[cfg_attr(
	feature = ""std"",
	newtype(ord(Vec<u8>, String), owned(PrivateUseSubtagBuf, derive(PartialEq, Eq, PartialOrd, Ord, Hash)))
)]
#[cfg_attr(feature = ""serde"", newtype(serde))]
pub struct PrivateUseSubtag(str);

impl PartialEq for PrivateUseSubtag {
	fn eq(&self, other: &Self) -> bool {
		utils::case_insensitive_eq(self.as_bytes(), other.as_bytes())
	}
}

impl Eq for PrivateUseSubtag {}

impl PartialOrd for PrivateUseSubtag {
	fn partial_cmp(&self, other: &Self) -> Option<core::cmp::Ordering> {
		Some(self.cmp(other))
	}
}

impl Ord for PrivateUseSubtag {
	fn cmp(&self, other: &Self) -> core::cmp::Ordering {
		utils::case_insensitive_cmp(self.as_bytes(), other.as_bytes())
	}
}

impl Hash for PrivateUseSubtag {
	fn hash<H: core::hash::Hasher>(&self, state: &mut H) {
		utils::case_insensitive_hash(self.as_bytes(), state)
	}
}
"%text.
Definition normal_private_use_rs : list byte := text_bytes normal_private_use_rs_0.

(** src/normal/script.rs *)
Definition normal_script_rs_0 : text := "use core::hash::Hash;

use crate::utils;

/// Script subtag.
///
/// Script subtags are used to indicate the script or writing system
/// variations that distinguish the written forms of a language or its
/// dialects.
#[derive(static_automata::Validate, str_newtype::StrNewType)]
#[automaton(crate::grammar::Script)]
#[newtype(
	no_deref,
	ord([u8], &[u8], str, &str)
)]
#[cfg_attr(
	feature = ""std"",
	newtype(ord(Vec<u8>, String), owned(ScriptBuf, derive(PartialEq, Eq, PartialOrd, Ord, Hash)))
)]
#[cfg_attr(feature = ""serde"", newtype(serde))]
pub struct Script(str);

impl PartialEq for Script {
	fn eq(&self, other: &Self) -> bool {
		utils::case_insensitive_eq(self.as_bytes(), other.as_bytes())
	}
}

impl Eq for Script {}

impl PartialOrd for Script {
	fn partial_cmp(&self, other: &Self) -> Option<core::cmp::Ordering> {
		Some(self.cmp(other))
	}
}

impl Ord for Script {
	fn cmp(&self, other: &Self) -> core::cmp::Ordering {
		utils::case_insensitive_cmp(self.as_bytes(), other.as_bytes())
	}
}

impl Hash for Script {
	fn hash<H: core::hash::Hasher>(&self, state: &mut H) {
		utils::case_insensitive_hash(self.as_bytes(), state)
	}
}
"%text.
Definition normal_script_rs : list byte := text_bytes normal_script_rs_0.

(** src/normal/region.rs *)
Definition normal_region_rs_0 : text := "use core::hash::Hash;

use crate::utils;

/// Region subtag.
///
/// Region subtags are used to indicate linguistic variations associated
/// with or appropriate to a specific country, territory, or region.
/// Typically, a region subtag is used to indicate variations such as
/// regional dialects or usage, or region-specific spelling conventions.
/// It can also be used to indicate that content is expressed in a way
/// that is appropriate for use throughout a region, for instance,
/// Spanish content tailored to be useful throughout Latin America.
#[derive(static_automata::Validate, str_newtype::StrNewType)]
#[automaton(crate::grammar::Region)]
#[newtype(
	no_deref,
	ord([u8], &[u8], str, &str)
)]
#[cfg_attr(
	feature = ""std"",
	newtype(ord(Vec<u8>, String), owned(RegionBuf, derive(PartialEq, Eq, PartialOrd, Ord, Hash)))
)]
#[cfg_attr(feature = ""serde"", newtype(serde))]
pub struct Region(str);

impl PartialEq for Region {
	fn eq(&self, other: &Self) -> bool {
		utils::case_insensitive_eq(self.as_bytes(), other.as_bytes())
	}
}

impl Eq for Region {}

impl PartialOrd for Region {
	fn partial_cmp(&self, other: &Self) -> Option<core::cmp::Ordering> {
		Some(self.cmp(other))
	}
}

impl Ord for Region {
	fn cmp(&self, other: &Self) -> core::cmp::Ordering {
		utils::case_insensitive_cmp(self.as_bytes(), other.as_bytes())
	}
}

impl Hash for Region {
	fn hash<H: core::hash::Hasher>(&self, state: &mut H) {
		utils::case_insensitive_hash(self.as_bytes(), state)
	}
}
"%text.
Definition normal_region_rs : list byte := text_bytes normal_region_rs_0.

(** src/normal/language/mod.rs *)
Definition normal_language_mod_rs_0 : text := "use core::hash::Hash;

use crate::utils;

mod extlang;
mod primary;

pub use extlang::*;
pub use primary::*;

/// Primary and extended language subtags.
///
/// This type represents the primary language subtag (first subtag in a
/// language tag) and the extended language subtags associated with it.
#[derive(static_automata::Validate, str_newtype::StrNewType)]
#[automaton(crate::grammar::Language)]
#[newtype(
	no_deref,
	ord([u8], &[u8], str, &str)
)]
#[cfg_attr(
	feature = ""std"",
	newtype(ord(Vec<u8>, String), owned(LanguageBuf, derive(PartialEq, Eq, PartialOrd, Ord, Hash)))
)]
#[cfg_attr(feature = ""serde"", newtype(serde))]
pub struct Language(str);

impl Language {
	/// Return the primary language subtag.
	///
	/// The primary language subtag is the first subtag in a language tag.
	#[inline]
	pub fn primary(&self) -> &PrimaryLanguage {
		let primary = match self.0.split_once('-') {
			Some((primary, _)) => primary,
			None => &self.0,
		};

		unsafe { PrimaryLanguage::new_unchecked(primary) }
	}

	/// Return the extended language subtags.
	///
	/// Extended language subtags are used to identify certain specially
	/// selected languages that, for various historical and compatibility
	/// reasons, are closely identified with or tagged using an existing
	/// primary language subtag.
	///
	/// Extended language subtags are only present when the primary
	/// language subtag length is 2 or 3.
	#[inline]
	pub fn extension(&self) -> Option<&LanguageExtension> {
		self.0
			.split_once('-')
			.map(|(_, ext)| unsafe { LanguageExtension::new_unchecked(ext) })
	}

	/// Return an iterator to the extended language subtags.
	#[inline]
	pub fn extension_subtags(&self) -> LanguageExtensionIter<'_> {
		self.extension()
			.map(LanguageExtension::iter)
			.unwrap_or_default()
	}
}

impl PartialEq for Language {
	fn eq(&self, other: &Self) -> bool {
		utils::case_insensitive_eq(self.as_bytes(), other.as_bytes())
	}
}

impl Eq for Language {}

impl PartialOrd for Language {
	fn partial_cmp(&self, other: &Self) -> Option<core::cmp::Ordering> {
		Some(self.cmp(other))
	}
}

impl Ord for Language {
	fn cmp(&self, other: &Self) -> core::cmp::Ordering {
		utils::case_insensitive_cmp(self.as_bytes(), other.as_bytes())
	}
}

impl Hash for Language {
	fn hash<H: core::hash::Hasher>(&self, state: &mut H) {
		utils::case_insensitive_hash(self.as_bytes(), state)
	}
}
"%text.
Definition normal_language_mod_rs : list byte := text_bytes normal_language_mod_rs_0.

(** src/normal/language/extlang.rs *)
Definition normal_language_extlang_rs_0 : text := "use core::hash::Hash;

use crate::utils;

/// List of extended language subtags.
///
/// This type represents a list of extended language subtags,
/// separated by a `-` character.
///
/// Extended language subtags are used to identify certain specially
/// selected languages that, for various historical and compatibility
/// reasons, are closely identified with or tagged using an existing
/// primary language subtag.
/// The type [`ExtendedLangTag`] represents a single extended
/// language subtag.
#[derive(static_automata::Validate, str_newtype::StrNewType)]
#[automaton(crate::grammar::Extlang)]
#[newtype(
	no_deref,
	ord([u8], &[u8], str, &str)
)]
#[cfg_attr(
	feature = ""std"",
	newtype(ord(Vec<u8>, String), owned(LanguageExtensionBuf, derive(PartialEq, Eq, PartialOrd, Ord, Hash)))
)]
#[cfg_attr(feature = ""serde"", newtype(serde))]
pub struct LanguageExtension(str);

impl LanguageExtension {
	pub fn iter(&self) -> LanguageExtensionIter<'_> {
		LanguageExtensionIter::new(&self.0)
	}
}

impl PartialEq for LanguageExtension {
	fn eq(&self, other: &Self) -> bool {
		utils::case_insensitive_eq(self.as_bytes(), other.as_bytes())
	}
}

impl Eq for LanguageExtension {}

impl PartialOrd for LanguageExtension {
	fn partial_cmp(&self, other: &Self) -> Option<core::cmp::Ordering> {
		Some(self.cmp(other))
	}
}

impl Ord for LanguageExtension {
	fn cmp(&self, other: &Self) -> core::cmp::Ordering {
		utils::case_insensitive_cmp(self.as_bytes(), other.as_bytes())
	}
}

impl Hash for LanguageExtension {
	fn hash<H: core::hash::Hasher>(&self, state: &mut H) {
		utils::case_insensitive_hash(self.as_bytes(), state)
	}
}

#[derive(Default)]
pub struct LanguageExtensionIter<'a> {
	data: &'a str,
	offset: usize,
}

impl<'a> LanguageExtensionIter<'a> {
	fn new(data: &'a str) -> Self {
		Self { data, offset: 0 }
	}

	pub fn empty() -> Self {
		Self::default()
	}
}

impl<'a> Iterator for LanguageExtensionIter<'a> {
	type Item = &'a ExtendedLangTag;

	fn next(&mut self) -> Option<Self::Item> {
		if self.offset < self.data.len() {
			let end = super::super::find_segment_end(self.data, self.offset);
			let item = unsafe { ExtendedLangTag::new_unchecked(&self.data[self.offset..end]) };
			self.offset = end + 1;
			Some(item)
		} else {
			None
		}
	}
}

/// Single extended language subtag.
///
/// Extended language subtags are used to identify certain specially
/// selected languages that, for various historical and compatibility
/// reasons, are closely identified with or tagged using an existing
/// primary language subtag.
///
/// The type [`LanguageExtension`] represents a list of
/// extended language.
#[derive(static_automata::Validate, str_newtype::StrNewType)]
#[automaton(crate::grammar::ExtlangTag)]
#[newtype(
	no_deref,
	ord([u8], &[u8], str, &str)
)]
#[cfg_attr(
	feature = ""std"",
	newtype(ord(Vec<u8>, String), owned(ExtendedLangTagBuf, derive(PartialEq, Eq, PartialOrd, Ord, Hash)))
)]
#[cfg_attr(feature = ""serde"", newtype(serde))]
pub struct ExtendedLangTag(str);

impl PartialEq for ExtendedLangTag {
	fn eq(&self, other: &Self) -> bool {
		utils::case_insensitive_eq(self.as_bytes(), other.as_bytes())
	}
}

impl Eq for ExtendedLangTag {}

impl PartialOrd for ExtendedLangTag {
	fn partial_cmp(&self, other: &Self) -> Option<core::cmp::Ordering> {
		Some(self.cmp(other))
	}
}

impl Ord for ExtendedLangTag {
	fn cmp(&self, other: &Self) -> core::cmp::Ordering {
		utils::case_insensitive_cmp(self.as_bytes(), other.as_bytes())
	}
}

impl Hash for ExtendedLangTag {
	fn hash<H: core::hash::Hasher>(&self, state: &mut H) {
		utils::case_insensitive_hash(self.as_bytes(), state)
	}
}
"%text.
Definition normal_language_extlang_rs : list byte := text_bytes normal_language_extlang_rs_0.

(** src/normal/language/primary.rs *)
Definition normal_language_primary_rs_0 : text := "use core::hash::Hash;

use crate::utils;

/// Primary language subtag.
///
/// The primary language subtag is the first subtag in a language tag.
#[derive(static_automata::Validate, str_newtype::StrNewType)]
#[automaton(crate::grammar::Primary)]
#[newtype(
	no_deref,
	ord([u8], &[u8], str, &str)
)]
#[cfg_attr(
	feature = ""std"",
	newtype(ord(Vec<u8>, String), owned(PrimaryLanguageBuf, derive(PartialEq, Eq, PartialOrd, Ord, Hash)))
)]
#[cfg_attr(feature = ""serde"", newtype(serde))]
pub struct PrimaryLanguage(str);

impl PartialEq for PrimaryLanguage {
	fn eq(&self, other: &Self) -> bool {
		utils::case_insensitive_eq(self.as_bytes(), other.as_bytes())
	}
}

impl Eq for PrimaryLanguage {}

impl PartialOrd for PrimaryLanguage {
	fn partial_cmp(&self, other: &Self) -> Option<core::cmp::Ordering> {
		Some(self.cmp(other))
	}
}

impl Ord for PrimaryLanguage {
	fn cmp(&self, other: &Self) -> core::cmp::Ordering {
		utils::case_insensitive_cmp(self.as_bytes(), other.as_bytes())
	}
}

impl Hash for PrimaryLanguage {
	fn hash<H: core::hash::Hasher>(&self, state: &mut H) {
		utils::case_insensitive_hash(self.as_bytes(), state)
	}
}
"%text.
Definition normal_language_primary_rs : list byte := text_bytes normal_language_primary_rs_0.

(** src/private_use.rs *)
Definition private_use_rs_0 : text := "/// Private use language tag.
pub type PrivateUseLangTag = crate::normal::PrivateUse;

/// Owned private use language tag.
#[cfg(feature = ""std"")]
pub type PrivateUseLangTagBuf = crate::normal::PrivateUseBuf;
"%text.
Definition private_use_rs : list byte := text_bytes private_use_rs_0.

(** src/grammar.rs *)
Definition grammar_rs_0 : text := "/// This file is auto-generated by `static-automata`. Do not edit.
pub struct LanguageTag {
	state: u32,
}
impl LanguageTag {
	pub const fn new() -> Self {
		Self { state: 0u32 }
	}
	pub const fn push(&mut self, token: char) -> bool {
		self.state = match self.state {
			0u32 => match token {
				'A' | 'a' => 1u32,
				'B'
				| 'D'
				| 'F'..='H'
				| 'J'..='M'
				| 'O'..='R'
				| 'T'..='W'
				| 'Y'
				| 'b'
				| 'd'
				| 'f'..='h'
				| 'j'..='m'
				| 'o'..='r'
				| 't'..='w'
				| 'y' => 2u32,
				'C' | 'c' => 3u32,
				'E' | 'e' => 4u32,
				'I' | 'i' => 5u32,
				'N' | 'n' => 6u32,
				'S' | 's' => 7u32,
				'X' | 'x' => 8u32,
				'Z' | 'z' => 9u32,
				_ => return false,
			},
			1u32 => match token {
				'A'..='Q' | 'S'..='Z' | 'a'..='q' | 's'..='z' => 10u32,
				'R' | 'r' => 11u32,
				_ => return false,
			},
			2u32 => match token {
				'A'..='Z' | 'a'..='z' => 10u32,
				_ => return false,
			},
			3u32 => match token {
				'A'..='D' | 'F'..='Z' | 'a'..='d' | 'f'..='z' => 10u32,
				'E' | 'e' => 12u32,
				_ => return false,
			},
			4u32 => match token {
				'A'..='M' | 'O'..='Z' | 'a'..='m' | 'o'..='z' => 10u32,
				'N' | 'n' => 13u32,
				_ => return false,
			},
			5u32 => match token {
				'-' => 14u32,
				'A'..='Z' | 'a'..='z' => 10u32,
				_ => return false,
			},
			6u32 => match token {
				'A'..='N' | 'P'..='Z' | 'a'..='n' | 'p'..='z' => 10u32,
				'O' | 'o' => 15u32,
				_ => return false,
			},
			7u32 => match token {
				'A'..='F' | 'H'..='Z' | 'a'..='f' | 'h'..='z' => 10u32,
				'G' | 'g' => 16u32,
				_ => return false,
			},
			8u32 => match token {
				'-' => 17u32,
				'A'..='Z' | 'a'..='z' => 10u32,
				_ => return false,
			},
			9u32 => match token {
				'A'..='G' | 'I'..='Z' | 'a'..='g' | 'i'..='z' => 10u32,
				'H' | 'h' => 18u32,
				_ => return false,
			},
			10u32 => match token {
				'-' => 19u32,
				'A'..='Z' | 'a'..='z' => 20u32,
				_ => return false,
			},
			11u32 => match token {
				'-' => 19u32,
				'A'..='S' | 'U'..='Z' | 'a'..='s' | 'u'..='z' => 20u32,
				'T' | 't' => 176u32,
				_ => return false,
			},
			12u32 => match token {
				'-' => 19u32,
				'A'..='K' | 'M'..='Z' | 'a'..='k' | 'm'..='z' => 20u32,
				'L' | 'l' => 168u32,
				_ => return false,
			},
			13u32 => match token {
				'-' => 161u32,
				'A'..='Z' | 'a'..='z' => 20u32,
				_ => return false,
			},
			14u32 => match token {
				'A' | 'a' => 123u32,
				'B' | 'b' => 124u32,
				'D' | 'd' => 125u32,
				'E' | 'e' => 126u32,
				'H' | 'h' => 127u32,
				'K' | 'k' => 128u32,
				'L' | 'l' => 129u32,
				'M' | 'm' => 130u32,
				'N' | 'n' => 131u32,
				'P' | 'p' => 132u32,
				'T' | 't' => 133u32,
				_ => return false,
			},
			15u32 => match token {
				'-' => 118u32,
				'A'..='Z' | 'a'..='z' => 20u32,
				_ => return false,
			},
			16u32 => match token {
				'-' => 19u32,
				'A'..='M' | 'O'..='Z' | 'a'..='m' | 'o'..='z' => 20u32,
				'N' | 'n' => 106u32,
				_ => return false,
			},
			17u32 => match token {
				'0'..='9' | 'A'..='Z' | 'a'..='z' => 64u32,
				_ => return false,
			},
			18u32 => match token {
				'-' => 21u32,
				'A'..='Z' | 'a'..='z' => 20u32,
				_ => return false,
			},
			19u32 => match token {
				'0'..='9' => 22u32,
				'A'..='W' | 'Y'..='Z' | 'a'..='w' | 'y'..='z' => 23u32,
				'X' | 'x' => 24u32,
				_ => return false,
			},
			20u32 => match token {
				'-' => 19u32,
				'A'..='Z' | 'a'..='z' => 25u32,
				_ => return false,
			},
			21u32 => match token {
				'0'..='9' => 22u32,
				'A'..='F'
				| 'I'..='L'
				| 'N'..='W'
				| 'Y'..='Z'
				| 'a'..='f'
				| 'i'..='l'
				| 'n'..='w'
				| 'y'..='z' => 23u32,
				'G' | 'g' => 88u32,
				'H' | 'h' => 89u32,
				'M' | 'm' => 90u32,
				'X' | 'x' => 91u32,
				_ => return false,
			},
			22u32 => match token {
				'-' => 33u32,
				'0'..='9' => 34u32,
				'A'..='Z' | 'a'..='z' => 35u32,
				_ => return false,
			},
			23u32 => match token {
				'-' => 33u32,
				'0'..='9' => 36u32,
				'A'..='Z' | 'a'..='z' => 76u32,
				_ => return false,
			},
			24u32 => match token {
				'-' => 17u32,
				'0'..='9' => 36u32,
				'A'..='Z' | 'a'..='z' => 76u32,
				_ => return false,
			},
			25u32 => match token {
				'-' => 26u32,
				'A'..='Z' | 'a'..='z' => 27u32,
				_ => return false,
			},
			26u32 => match token {
				'0'..='9' => 22u32,
				'A'..='W' | 'Y'..='Z' | 'a'..='w' | 'y'..='z' => 28u32,
				'X' | 'x' => 29u32,
				_ => return false,
			},
			27u32 => match token {
				'-' => 26u32,
				'A'..='Z' | 'a'..='z' => 30u32,
				_ => return false,
			},
			28u32 => match token {
				'-' => 33u32,
				'0'..='9' => 36u32,
				'A'..='Z' | 'a'..='z' => 37u32,
				_ => return false,
			},
			29u32 => match token {
				'-' => 17u32,
				'0'..='9' => 36u32,
				'A'..='Z' | 'a'..='z' => 37u32,
				_ => return false,
			},
			30u32 => match token {
				'-' => 26u32,
				'A'..='Z' | 'a'..='z' => 31u32,
				_ => return false,
			},
			31u32 => match token {
				'-' => 26u32,
				'A'..='Z' | 'a'..='z' => 32u32,
				_ => return false,
			},
			32u32 => match token {
				'-' => 26u32,
				_ => return false,
			},
			33u32 => match token {
				'0'..='9' | 'A'..='Z' | 'a'..='z' => 38u32,
				_ => return false,
			},
			34u32 => match token {
				'0'..='9' => 75u32,
				'A'..='Z' | 'a'..='z' => 72u32,
				_ => return false,
			},
			35u32 => match token {
				'0'..='9' | 'A'..='Z' | 'a'..='z' => 72u32,
				_ => return false,
			},
			36u32 => match token {
				'0'..='9' | 'A'..='Z' | 'a'..='z' => 39u32,
				_ => return false,
			},
			37u32 => match token {
				'-' => 40u32,
				'0'..='9' => 39u32,
				'A'..='Z' | 'a'..='z' => 41u32,
				_ => return false,
			},
			38u32 => match token {
				'0'..='9' | 'A'..='Z' | 'a'..='z' => 54u32,
				_ => return false,
			},
			39u32 => match token {
				'0'..='9' | 'A'..='Z' | 'a'..='z' => 45u32,
				_ => return false,
			},
			40u32 => match token {
				'0'..='9' => 42u32,
				'A'..='W' | 'Y'..='Z' | 'a'..='w' | 'y'..='z' => 43u32,
				'X' | 'x' => 44u32,
				_ => return false,
			},
			41u32 => match token {
				'0'..='9' => 45u32,
				'A'..='Z' | 'a'..='z' => 46u32,
				_ => return false,
			},
			42u32 => match token {
				'-' => 33u32,
				'0'..='9' | 'A'..='Z' | 'a'..='z' => 35u32,
				_ => return false,
			},
			43u32 => match token {
				'-' => 33u32,
				'0'..='9' | 'A'..='Z' | 'a'..='z' => 36u32,
				_ => return false,
			},
			44u32 => match token {
				'-' => 17u32,
				'0'..='9' | 'A'..='Z' | 'a'..='z' => 36u32,
				_ => return false,
			},
			45u32 => match token {
				'0'..='9' | 'A'..='Z' | 'a'..='z' => 47u32,
				_ => return false,
			},
			46u32 => match token {
				'-' => 48u32,
				'0'..='9' | 'A'..='Z' | 'a'..='z' => 47u32,
				_ => return false,
			},
			47u32 => match token {
				'-' => 40u32,
				'0'..='9' | 'A'..='Z' | 'a'..='z' => 51u32,
				_ => return false,
			},
			48u32 => match token {
				'0'..='9' => 22u32,
				'A'..='W' | 'Y'..='Z' | 'a'..='w' | 'y'..='z' => 49u32,
				'X' | 'x' => 50u32,
				_ => return false,
			},
			49u32 => match token {
				'-' => 33u32,
				'0'..='9' => 36u32,
				'A'..='Z' | 'a'..='z' => 74u32,
				_ => return false,
			},
			50u32 => match token {
				'-' => 17u32,
				'0'..='9' => 36u32,
				'A'..='Z' | 'a'..='z' => 74u32,
				_ => return false,
			},
			51u32 => match token {
				'-' => 40u32,
				'0'..='9' | 'A'..='Z' | 'a'..='z' => 52u32,
				_ => return false,
			},
			52u32 => match token {
				'-' => 40u32,
				'0'..='9' | 'A'..='Z' | 'a'..='z' => 53u32,
				_ => return false,
			},
			53u32 => match token {
				'-' => 40u32,
				_ => return false,
			},
			54u32 => match token {
				'-' => 55u32,
				'0'..='9' | 'A'..='Z' | 'a'..='z' => 56u32,
				_ => return false,
			},
			55u32 => match token {
				'0'..='9' | 'A'..='W' | 'Y'..='Z' | 'a'..='w' | 'y'..='z' => 57u32,
				'X' | 'x' => 58u32,
				_ => return false,
			},
			56u32 => match token {
				'-' => 55u32,
				'0'..='9' | 'A'..='Z' | 'a'..='z' => 59u32,
				_ => return false,
			},
"%text.
Definition grammar_rs_1 : text := "			57u32 => match token {
				'-' => 33u32,
				'0'..='9' | 'A'..='Z' | 'a'..='z' => 54u32,
				_ => return false,
			},
			58u32 => match token {
				'-' => 17u32,
				'0'..='9' | 'A'..='Z' | 'a'..='z' => 54u32,
				_ => return false,
			},
			59u32 => match token {
				'-' => 55u32,
				'0'..='9' | 'A'..='Z' | 'a'..='z' => 60u32,
				_ => return false,
			},
			60u32 => match token {
				'-' => 55u32,
				'0'..='9' | 'A'..='Z' | 'a'..='z' => 61u32,
				_ => return false,
			},
			61u32 => match token {
				'-' => 55u32,
				'0'..='9' | 'A'..='Z' | 'a'..='z' => 62u32,
				_ => return false,
			},
			62u32 => match token {
				'-' => 55u32,
				'0'..='9' | 'A'..='Z' | 'a'..='z' => 63u32,
				_ => return false,
			},
			63u32 => match token {
				'-' => 55u32,
				_ => return false,
			},
			64u32 => match token {
				'-' => 17u32,
				'0'..='9' | 'A'..='Z' | 'a'..='z' => 65u32,
				_ => return false,
			},
			65u32 => match token {
				'-' => 17u32,
				'0'..='9' | 'A'..='Z' | 'a'..='z' => 66u32,
				_ => return false,
			},
			66u32 => match token {
				'-' => 17u32,
				'0'..='9' | 'A'..='Z' | 'a'..='z' => 67u32,
				_ => return false,
			},
			67u32 => match token {
				'-' => 17u32,
				'0'..='9' | 'A'..='Z' | 'a'..='z' => 68u32,
				_ => return false,
			},
			68u32 => match token {
				'-' => 17u32,
				'0'..='9' | 'A'..='Z' | 'a'..='z' => 69u32,
				_ => return false,
			},
			69u32 => match token {
				'-' => 17u32,
				'0'..='9' | 'A'..='Z' | 'a'..='z' => 70u32,
				_ => return false,
			},
			70u32 => match token {
				'-' => 17u32,
				'0'..='9' | 'A'..='Z' | 'a'..='z' => 71u32,
				_ => return false,
			},
			71u32 => match token {
				'-' => 17u32,
				_ => return false,
			},
			72u32 => match token {
				'0'..='9' | 'A'..='Z' | 'a'..='z' => 73u32,
				_ => return false,
			},
			73u32 => match token {
				'-' => 40u32,
				'0'..='9' | 'A'..='Z' | 'a'..='z' => 47u32,
				_ => return false,
			},
			74u32 => match token {
				'-' => 40u32,
				'0'..='9' | 'A'..='Z' | 'a'..='z' => 39u32,
				_ => return false,
			},
			75u32 => match token {
				'-' => 40u32,
				'0'..='9' | 'A'..='Z' | 'a'..='z' => 73u32,
				_ => return false,
			},
			76u32 => match token {
				'-' => 40u32,
				'0'..='9' => 39u32,
				'A'..='Z' | 'a'..='z' => 77u32,
				_ => return false,
			},
			77u32 => match token {
				'-' => 78u32,
				'0'..='9' => 45u32,
				'A'..='Z' | 'a'..='z' => 46u32,
				_ => return false,
			},
			78u32 => match token {
				'0'..='9' => 22u32,
				'A'..='W' | 'Y'..='Z' | 'a'..='w' | 'y'..='z' => 79u32,
				'X' | 'x' => 80u32,
				_ => return false,
			},
			79u32 => match token {
				'-' => 33u32,
				'0'..='9' => 36u32,
				'A'..='Z' | 'a'..='z' => 81u32,
				_ => return false,
			},
			80u32 => match token {
				'-' => 17u32,
				'0'..='9' => 36u32,
				'A'..='Z' | 'a'..='z' => 81u32,
				_ => return false,
			},
			81u32 => match token {
				'-' => 40u32,
				'0'..='9' => 39u32,
				'A'..='Z' | 'a'..='z' => 82u32,
				_ => return false,
			},
			82u32 => match token {
				'-' => 83u32,
				'0'..='9' => 45u32,
				'A'..='Z' | 'a'..='z' => 46u32,
				_ => return false,
			},
			83u32 => match token {
				'0'..='9' => 22u32,
				'A'..='W' | 'Y'..='Z' | 'a'..='w' | 'y'..='z' => 84u32,
				'X' | 'x' => 85u32,
				_ => return false,
			},
			84u32 => match token {
				'-' => 33u32,
				'0'..='9' => 36u32,
				'A'..='Z' | 'a'..='z' => 86u32,
				_ => return false,
			},
			85u32 => match token {
				'-' => 17u32,
				'0'..='9' => 36u32,
				'A'..='Z' | 'a'..='z' => 86u32,
				_ => return false,
			},
			86u32 => match token {
				'-' => 40u32,
				'0'..='9' => 39u32,
				'A'..='Z' | 'a'..='z' => 87u32,
				_ => return false,
			},
			87u32 => match token {
				'-' => 26u32,
				'0'..='9' => 45u32,
				'A'..='Z' | 'a'..='z' => 46u32,
				_ => return false,
			},
			88u32 => match token {
				'-' => 33u32,
				'0'..='9' => 36u32,
				'A'..='T' | 'V'..='Z' | 'a'..='t' | 'v'..='z' => 76u32,
				'U' | 'u' => 92u32,
				_ => return false,
			},
			89u32 => match token {
				'-' => 33u32,
				'0'..='9' => 36u32,
				'A' | 'a' => 93u32,
				'B'..='Z' | 'b'..='z' => 76u32,
				_ => return false,
			},
			90u32 => match token {
				'-' => 33u32,
				'0'..='9' => 36u32,
				'A'..='H' | 'J'..='Z' | 'a'..='h' | 'j'..='z' => 76u32,
				'I' | 'i' => 94u32,
				_ => return false,
			},
			91u32 => match token {
				'-' => 17u32,
				'0'..='9' => 36u32,
				'A'..='H' | 'J'..='Z' | 'a'..='h' | 'j'..='z' => 76u32,
				'I' | 'i' => 95u32,
				_ => return false,
			},
			92u32 => match token {
				'-' => 40u32,
				'0'..='9' => 39u32,
				'A'..='N' | 'P'..='Z' | 'a'..='n' | 'p'..='z' => 77u32,
				'O' | 'o' => 104u32,
				_ => return false,
			},
			93u32 => match token {
				'-' => 40u32,
				'0'..='9' => 39u32,
				'A'..='J' | 'L'..='Z' | 'a'..='j' | 'l'..='z' => 77u32,
				'K' | 'k' => 102u32,
				_ => return false,
			},
			94u32 => match token {
				'-' => 40u32,
				'0'..='9' => 39u32,
				'A'..='M' | 'O'..='Z' | 'a'..='m' | 'o'..='z' => 77u32,
				'N' | 'n' => 98u32,
				_ => return false,
			},
			95u32 => match token {
				'-' => 40u32,
				'0'..='9' => 39u32,
				'A' | 'a' => 96u32,
				'B'..='Z' | 'b'..='z' => 77u32,
				_ => return false,
			},
			96u32 => match token {
				'-' => 78u32,
				'0'..='9' => 45u32,
				'A'..='M' | 'O'..='Z' | 'a'..='m' | 'o'..='z' => 46u32,
				'N' | 'n' => 97u32,
				_ => return false,
			},
			97u32 => match token {
				'-' => 48u32,
				'0'..='9' | 'A'..='Z' | 'a'..='z' => 47u32,
				_ => return false,
			},
			98u32 => match token {
				'-' => 99u32,
				'0'..='9' => 45u32,
				'A'..='Z' | 'a'..='z' => 46u32,
				_ => return false,
			},
			99u32 => match token {
				'0'..='9' => 22u32,
				'A'..='M' | 'O'..='W' | 'Y'..='Z' | 'a'..='m' | 'o'..='w' | 'y'..='z' => 79u32,
				'N' | 'n' => 100u32,
				'X' | 'x' => 80u32,
				_ => return false,
			},
			100u32 => match token {
				'-' => 33u32,
				'0'..='9' => 36u32,
				'A' | 'a' => 101u32,
				'B'..='Z' | 'b'..='z' => 81u32,
				_ => return false,
			},
			101u32 => match token {
				'-' => 40u32,
				'0'..='9' => 39u32,
				'A'..='Z' | 'a'..='z' => 82u32,
				_ => return false,
			},
			102u32 => match token {
				'-' => 78u32,
				'0'..='9' => 45u32,
				'A'..='J' | 'L'..='Z' | 'a'..='j' | 'l'..='z' => 46u32,
				'K' | 'k' => 103u32,
				_ => return false,
			},
			103u32 => match token {
				'-' => 48u32,
				'0'..='9' | 'A'..='Z' | 'a'..='z' => 47u32,
				_ => return false,
			},
			104u32 => match token {
				'-' => 78u32,
				'0'..='9' => 45u32,
				'A'..='X' | 'Z' | 'a'..='x' | 'z' => 46u32,
				'Y' | 'y' => 105u32,
				_ => return false,
			},
			105u32 => match token {
				'-' => 48u32,
				'0'..='9' | 'A'..='Z' | 'a'..='z' => 47u32,
				_ => return false,
			},
			106u32 => match token {
				'-' => 107u32,
				'A'..='Z' | 'a'..='z' => 25u32,
				_ => return false,
			},
			107u32 => match token {
				'0'..='9' => 22u32,
				'A' | 'D'..='W' | 'Y'..='Z' | 'a' | 'd'..='w' | 'y'..='z' => 23u32,
				'B' | 'b' => 108u32,
				'C' | 'c' => 109u32,
				'X' | 'x' => 24u32,
				_ => return false,
			},
			108u32 => match token {
				'-' => 33u32,
				'0'..='9' => 36u32,
				'A'..='D' | 'F'..='Z' | 'a'..='d' | 'f'..='z' => 76u32,
				'E' | 'e' => 110u32,
				_ => return false,
			},
			109u32 => match token {
				'-' => 33u32,
				'0'..='9' => 36u32,
				'A'..='G' | 'I'..='Z' | 'a'..='g' | 'i'..='z' => 76u32,
				'H' | 'h' => 111u32,
				_ => return false,
			},
			110u32 => match token {
				'-' => 115u32,
				'0'..='9' => 39u32,
				'A'..='Z' | 'a'..='z' => 77u32,
				_ => return false,
			},
			111u32 => match token {
				'-' => 112u32,
				'0'..='9' => 39u32,
				'A'..='Z' | 'a'..='z' => 77u32,
				_ => return false,
			},
			112u32 => match token {
				'0'..='9' => 42u32,
				'A'..='C' | 'E'..='W' | 'Y'..='Z' | 'a'..='c' | 'e'..='w' | 'y'..='z' => 43u32,
				'D' | 'd' => 113u32,
				'X' | 'x' => 44u32,
				_ => return false,
			},
			113u32 => match token {
"%text.
Definition grammar_rs_2 : text := "				'-' => 33u32,
				'0'..='9' | 'A'..='D' | 'F'..='Z' | 'a'..='d' | 'f'..='z' => 36u32,
				'E' | 'e' => 114u32,
				_ => return false,
			},
			114u32 => match token {
				'0'..='9' | 'A'..='Z' | 'a'..='z' => 39u32,
				_ => return false,
			},
			115u32 => match token {
				'0'..='9' => 42u32,
				'A'..='E'
				| 'G'..='M'
				| 'O'..='W'
				| 'Y'..='Z'
				| 'a'..='e'
				| 'g'..='m'
				| 'o'..='w'
				| 'y'..='z' => 43u32,
				'F' | 'f' => 116u32,
				'N' | 'n' => 117u32,
				'X' | 'x' => 44u32,
				_ => return false,
			},
			116u32 => match token {
				'-' => 33u32,
				'0'..='9' | 'A'..='Q' | 'S'..='Z' | 'a'..='q' | 's'..='z' => 36u32,
				'R' | 'r' => 114u32,
				_ => return false,
			},
			117u32 => match token {
				'-' => 33u32,
				'0'..='9' | 'A'..='K' | 'M'..='Z' | 'a'..='k' | 'm'..='z' => 36u32,
				'L' | 'l' => 114u32,
				_ => return false,
			},
			118u32 => match token {
				'0'..='9' => 22u32,
				'A'
				| 'C'..='M'
				| 'O'..='W'
				| 'Y'..='Z'
				| 'a'
				| 'c'..='m'
				| 'o'..='w'
				| 'y'..='z' => 23u32,
				'B' | 'b' => 119u32,
				'N' | 'n' => 120u32,
				'X' | 'x' => 24u32,
				_ => return false,
			},
			119u32 => match token {
				'-' => 33u32,
				'0'..='9' => 36u32,
				'A'..='N' | 'P'..='Z' | 'a'..='n' | 'p'..='z' => 76u32,
				'O' | 'o' => 121u32,
				_ => return false,
			},
			120u32 => match token {
				'-' => 33u32,
				'0'..='9' => 36u32,
				'A'..='X' | 'Z' | 'a'..='x' | 'z' => 76u32,
				'Y' | 'y' => 122u32,
				_ => return false,
			},
			121u32 => match token {
				'-' => 40u32,
				'0'..='9' => 39u32,
				'A'..='Z' | 'a'..='z' => 77u32,
				_ => return false,
			},
			122u32 => match token {
				'-' => 40u32,
				'0'..='9' => 39u32,
				'A'..='Z' | 'a'..='z' => 77u32,
				_ => return false,
			},
			123u32 => match token {
				'M' | 'm' => 134u32,
				_ => return false,
			},
			124u32 => match token {
				'N' | 'n' => 135u32,
				_ => return false,
			},
			125u32 => match token {
				'E' | 'e' => 136u32,
				_ => return false,
			},
			126u32 => match token {
				'N' | 'n' => 137u32,
				_ => return false,
			},
			127u32 => match token {
				'A' | 'a' => 138u32,
				_ => return false,
			},
			128u32 => match token {
				'L' | 'l' => 139u32,
				_ => return false,
			},
			129u32 => match token {
				'U' | 'u' => 140u32,
				_ => return false,
			},
			130u32 => match token {
				'I' | 'i' => 141u32,
				_ => return false,
			},
			131u32 => match token {
				'A' | 'a' => 142u32,
				_ => return false,
			},
			132u32 => match token {
				'W' | 'w' => 135u32,
				_ => return false,
			},
			133u32 => match token {
				'A' | 'a' => 143u32,
				'S' | 's' => 144u32,
				_ => return false,
			},
			134u32 => match token {
				'I' | 'i' => 145u32,
				_ => return false,
			},
			135u32 => match token {
				'N' | 'n' => 145u32,
				_ => return false,
			},
			136u32 => match token {
				'F' | 'f' => 157u32,
				_ => return false,
			},
			137u32 => match token {
				'O' | 'o' => 153u32,
				_ => return false,
			},
			138u32 => match token {
				'K' | 'k' => 145u32,
				_ => return false,
			},
			139u32 => match token {
				'I' | 'i' => 150u32,
				_ => return false,
			},
			140u32 => match token {
				'X' | 'x' => 145u32,
				_ => return false,
			},
			141u32 => match token {
				'N' | 'n' => 149u32,
				_ => return false,
			},
			142u32 => match token {
				'V' | 'v' => 146u32,
				_ => return false,
			},
			143u32 => match token {
				'O' | 'Y' | 'o' | 'y' => 145u32,
				_ => return false,
			},
			144u32 => match token {
				'U' | 'u' => 145u32,
				_ => return false,
			},
			146u32 => match token {
				'A' | 'a' => 147u32,
				_ => return false,
			},
			147u32 => match token {
				'J' | 'j' => 148u32,
				_ => return false,
			},
			148u32 => match token {
				'O' | 'o' => 145u32,
				_ => return false,
			},
			149u32 => match token {
				'G' | 'g' => 148u32,
				_ => return false,
			},
			150u32 => match token {
				'N' | 'n' => 151u32,
				_ => return false,
			},
			151u32 => match token {
				'G' | 'g' => 152u32,
				_ => return false,
			},
			152u32 => match token {
				'O' | 'o' => 135u32,
				_ => return false,
			},
			153u32 => match token {
				'C' | 'c' => 154u32,
				_ => return false,
			},
			154u32 => match token {
				'H' | 'h' => 155u32,
				_ => return false,
			},
			155u32 => match token {
				'I' | 'i' => 156u32,
				_ => return false,
			},
			156u32 => match token {
				'A' | 'a' => 135u32,
				_ => return false,
			},
			157u32 => match token {
				'A' | 'a' => 158u32,
				_ => return false,
			},
			158u32 => match token {
				'U' | 'u' => 159u32,
				_ => return false,
			},
			159u32 => match token {
				'L' | 'l' => 160u32,
				_ => return false,
			},
			160u32 => match token {
				'T' | 't' => 145u32,
				_ => return false,
			},
			161u32 => match token {
				'0'..='9' => 22u32,
				'A'..='F' | 'H'..='W' | 'Y'..='Z' | 'a'..='f' | 'h'..='w' | 'y'..='z' => 23u32,
				'G' | 'g' => 162u32,
				'X' | 'x' => 24u32,
				_ => return false,
			},
			162u32 => match token {
				'-' => 33u32,
				'0'..='9' => 36u32,
				'A' | 'C'..='Z' | 'a' | 'c'..='z' => 76u32,
				'B' | 'b' => 163u32,
				_ => return false,
			},
			163u32 => match token {
				'-' => 164u32,
				'0'..='9' => 39u32,
				'A'..='Z' | 'a'..='z' => 77u32,
				_ => return false,
			},
			164u32 => match token {
				'0'..='9' => 42u32,
				'A'..='N' | 'P'..='W' | 'Y'..='Z' | 'a'..='n' | 'p'..='w' | 'y'..='z' => 43u32,
				'O' | 'o' => 165u32,
				'X' | 'x' => 44u32,
				_ => return false,
			},
			165u32 => match token {
				'-' => 33u32,
				'0'..='9' | 'A'..='D' | 'F'..='Z' | 'a'..='d' | 'f'..='z' => 36u32,
				'E' | 'e' => 166u32,
				_ => return false,
			},
			166u32 => match token {
				'0'..='9' | 'A'..='C' | 'E'..='Z' | 'a'..='c' | 'e'..='z' => 39u32,
				'D' | 'd' => 167u32,
				_ => return false,
			},
			167u32 => match token {
				'0'..='9' | 'A'..='Z' | 'a'..='z' => 45u32,
				_ => return false,
			},
			168u32 => match token {
				'-' => 169u32,
				'A'..='Z' | 'a'..='z' => 25u32,
				_ => return false,
			},
			169u32 => match token {
				'0'..='9' => 22u32,
				'A'..='F' | 'H'..='W' | 'Y'..='Z' | 'a'..='f' | 'h'..='w' | 'y'..='z' => 23u32,
				'G' | 'g' => 170u32,
				'X' | 'x' => 24u32,
				_ => return false,
			},
			170u32 => match token {
				'-' => 33u32,
				'0'..='9' => 36u32,
				'A' | 'a' => 171u32,
				'B'..='Z' | 'b'..='z' => 76u32,
				_ => return false,
			},
			171u32 => match token {
				'-' => 40u32,
				'0'..='9' => 39u32,
				'A'..='T' | 'V'..='Z' | 'a'..='t' | 'v'..='z' => 77u32,
				'U' | 'u' => 172u32,
				_ => return false,
			},
			172u32 => match token {
				'-' => 78u32,
				'0'..='9' => 45u32,
				'A'..='K' | 'M'..='Z' | 'a'..='k' | 'm'..='z' => 46u32,
				'L' | 'l' => 173u32,
				_ => return false,
			},
			173u32 => match token {
				'-' => 48u32,
				'0'..='9' | 'A'..='H' | 'J'..='Z' | 'a'..='h' | 'j'..='z' => 47u32,
				'I' | 'i' => 174u32,
				_ => return false,
			},
			174u32 => match token {
				'-' => 40u32,
				'0'..='9' | 'A'..='R' | 'T'..='Z' | 'a'..='r' | 't'..='z' => 51u32,
				'S' | 's' => 175u32,
				_ => return false,
			},
			175u32 => match token {
				'-' => 40u32,
				'0'..='9' | 'A'..='Z' | 'a'..='z' => 52u32,
				_ => return false,
			},
			176u32 => match token {
				'-' => 177u32,
				'A'..='Z' | 'a'..='z' => 25u32,
				_ => return false,
			},
			177u32 => match token {
				'0'..='9' => 22u32,
				'A'..='K' | 'M'..='W' | 'Y'..='Z' | 'a'..='k' | 'm'..='w' | 'y'..='z' => 23u32,
				'L' | 'l' => 178u32,
				'X' | 'x' => 24u32,
				_ => return false,
			},
			178u32 => match token {
				'-' => 33u32,
				'0'..='9' => 36u32,
				'A'..='N' | 'P'..='Z' | 'a'..='n' | 'p'..='z' => 76u32,
				'O' | 'o' => 179u32,
				_ => return false,
			},
			179u32 => match token {
				'-' => 40u32,
				'0'..='9' => 39u32,
				'A'..='I' | 'K'..='Z' | 'a'..='i' | 'k'..='z' => 77u32,
				'J' | 'j' => 180u32,
				_ => return false,
			},
"%text.
Definition grammar_rs_3 : text := "			180u32 => match token {
				'-' => 78u32,
				'0'..='9' => 45u32,
				'A' | 'C'..='Z' | 'a' | 'c'..='z' => 46u32,
				'B' | 'b' => 181u32,
				_ => return false,
			},
			181u32 => match token {
				'-' => 48u32,
				'0'..='9' | 'B'..='Z' | 'b'..='z' => 47u32,
				'A' | 'a' => 182u32,
				_ => return false,
			},
			182u32 => match token {
				'-' => 40u32,
				'0'..='9' | 'A'..='Z' | 'a'..='z' => 51u32,
				_ => return false,
			},
			_ => return false,
		};
		true
	}
	pub const fn is_accepting(&self) -> bool {
		matches!(
			self.state,
			10u32
				| 11u32 | 12u32
				| 13u32 | 15u32
				| 16u32 | 18u32
				| 20u32 | 25u32
				| 27u32 | 30u32
				| 31u32 | 32u32
				| 37u32 | 46u32
				| 47u32 | 51u32
				| 52u32 | 53u32
				| 54u32 | 56u32
				| 59u32 | 60u32
				| 61u32 | 62u32
				| 63u32 | 64u32
				| 65u32 | 66u32
				| 67u32 | 68u32
				| 69u32 | 70u32
				| 71u32 | 73u32
				| 74u32 | 75u32
				| 76u32 | 77u32
				| 81u32 | 82u32
				| 86u32 | 87u32
				| 92u32 | 93u32
				| 94u32 | 95u32
				| 96u32 | 97u32
				| 98u32 | 101u32
				| 102u32 | 103u32
				| 104u32 | 105u32
				| 106u32 | 110u32
				| 111u32 | 114u32
				| 121u32 | 122u32
				| 145u32 | 163u32
				| 167u32 | 168u32
				| 171u32 | 172u32
				| 173u32 | 174u32
				| 175u32 | 176u32
				| 179u32 | 180u32
				| 181u32 | 182u32
		)
	}
	pub const fn validate_str(s: &str) -> bool {
		Self::validate_bytes(s.as_bytes())
	}
	pub const fn validate_bytes(bytes: &[u8]) -> bool {
		let mut i = 0;
		let mut automaton = Self::new();
		while i < bytes.len() {
			match ::static_automata::decode_utf8_char(bytes, i) {
				Ok((c, len)) => {
					if !automaton.push(c) {
						return false;
					}
					i += len;
				}
				Err(_) => return false,
			}
		}
		automaton.is_accepting()
	}
}
pub struct Privateuse {
	state: u32,
}
impl Privateuse {
	pub const fn new() -> Self {
		Self { state: 0u32 }
	}
	pub const fn push(&mut self, token: char) -> bool {
		self.state = match self.state {
			0u32 => match token {
				'X' | 'x' => 1u32,
				_ => return false,
			},
			1u32 => match token {
				'-' => 2u32,
				_ => return false,
			},
			2u32 => match token {
				'0'..='9' | 'A'..='Z' | 'a'..='z' => 3u32,
				_ => return false,
			},
			3u32 => match token {
				'-' => 2u32,
				'0'..='9' | 'A'..='Z' | 'a'..='z' => 4u32,
				_ => return false,
			},
			4u32 => match token {
				'-' => 2u32,
				'0'..='9' | 'A'..='Z' | 'a'..='z' => 5u32,
				_ => return false,
			},
			5u32 => match token {
				'-' => 2u32,
				'0'..='9' | 'A'..='Z' | 'a'..='z' => 6u32,
				_ => return false,
			},
			6u32 => match token {
				'-' => 2u32,
				'0'..='9' | 'A'..='Z' | 'a'..='z' => 7u32,
				_ => return false,
			},
			7u32 => match token {
				'-' => 2u32,
				'0'..='9' | 'A'..='Z' | 'a'..='z' => 8u32,
				_ => return false,
			},
			8u32 => match token {
				'-' => 2u32,
				'0'..='9' | 'A'..='Z' | 'a'..='z' => 9u32,
				_ => return false,
			},
			9u32 => match token {
				'-' => 2u32,
				'0'..='9' | 'A'..='Z' | 'a'..='z' => 10u32,
				_ => return false,
			},
			10u32 => match token {
				'-' => 2u32,
				_ => return false,
			},
			_ => return false,
		};
		true
	}
	pub const fn is_accepting(&self) -> bool {
		matches!(
			self.state,
			3u32 | 4u32 | 5u32 | 6u32 | 7u32 | 8u32 | 9u32 | 10u32
		)
	}
	pub const fn validate_str(s: &str) -> bool {
		Self::validate_bytes(s.as_bytes())
	}
	pub const fn validate_bytes(bytes: &[u8]) -> bool {
		let mut i = 0;
		let mut automaton = Self::new();
		while i < bytes.len() {
			match ::static_automata::decode_utf8_char(bytes, i) {
				Ok((c, len)) => {
					if !automaton.push(c) {
						return false;
					}
					i += len;
				}
				Err(_) => return false,
			}
		}
		automaton.is_accepting()
	}
}
pub struct PrivateuseSubtag {
	state: u32,
}
impl PrivateuseSubtag {
	pub const fn new() -> Self {
		Self { state: 0u32 }
	}
	pub const fn push(&mut self, token: char) -> bool {
		self.state = match self.state {
			0u32 => match token {
				'0'..='9' | 'A'..='Z' | 'a'..='z' => 1u32,
				_ => return false,
			},
			1u32 => match token {
				'0'..='9' | 'A'..='Z' | 'a'..='z' => 2u32,
				_ => return false,
			},
			2u32 => match token {
				'0'..='9' | 'A'..='Z' | 'a'..='z' => 3u32,
				_ => return false,
			},
			3u32 => match token {
				'0'..='9' | 'A'..='Z' | 'a'..='z' => 4u32,
				_ => return false,
			},
			4u32 => match token {
				'0'..='9' | 'A'..='Z' | 'a'..='z' => 5u32,
				_ => return false,
			},
			5u32 => match token {
				'0'..='9' | 'A'..='Z' | 'a'..='z' => 6u32,
				_ => return false,
			},
			6u32 => match token {
				'0'..='9' | 'A'..='Z' | 'a'..='z' => 7u32,
				_ => return false,
			},
			7u32 => match token {
				'0'..='9' | 'A'..='Z' | 'a'..='z' => 8u32,
				_ => return false,
			},
			_ => return false,
		};
		true
	}
	pub const fn is_accepting(&self) -> bool {
		matches!(
			self.state,
			1u32 | 2u32 | 3u32 | 4u32 | 5u32 | 6u32 | 7u32 | 8u32
		)
	}
	pub const fn validate_str(s: &str) -> bool {
		Self::validate_bytes(s.as_bytes())
	}
	pub const fn validate_bytes(bytes: &[u8]) -> bool {
		let mut i = 0;
		let mut automaton = Self::new();
		while i < bytes.len() {
			match ::static_automata::decode_utf8_char(bytes, i) {
				Ok((c, len)) => {
					if !automaton.push(c) {
						return false;
					}
					i += len;
				}
				Err(_) => return false,
			}
		}
		automaton.is_accepting()
	}
}
pub struct Langtag {
	state: u32,
}
impl Langtag {
	pub const fn new() -> Self {
		Self { state: 0u32 }
	}
	pub const fn push(&mut self, token: char) -> bool {
		self.state = match self.state {
			0u32 => match token {
				'A'..='Z' | 'a'..='z' => 1u32,
				_ => return false,
			},
			1u32 => match token {
				'A'..='Z' | 'a'..='z' => 2u32,
				_ => return false,
			},
			2u32 => match token {
				'-' => 3u32,
				'A'..='Z' | 'a'..='z' => 4u32,
				_ => return false,
			},
			3u32 => match token {
				'0'..='9' => 5u32,
				'A'..='W' | 'Y'..='Z' | 'a'..='w' | 'y'..='z' => 6u32,
				'X' | 'x' => 7u32,
				_ => return false,
			},
			4u32 => match token {
				'-' => 3u32,
				'A'..='Z' | 'a'..='z' => 8u32,
				_ => return false,
			},
			5u32 => match token {
				'-' => 16u32,
				'0'..='9' => 17u32,
				'A'..='Z' | 'a'..='z' => 18u32,
				_ => return false,
			},
			6u32 => match token {
				'-' => 16u32,
				'0'..='9' => 19u32,
				'A'..='Z' | 'a'..='z' => 60u32,
				_ => return false,
			},
			7u32 => match token {
				'-' => 21u32,
				'0'..='9' => 19u32,
				'A'..='Z' | 'a'..='z' => 60u32,
				_ => return false,
			},
			8u32 => match token {
				'-' => 9u32,
				'A'..='Z' | 'a'..='z' => 10u32,
				_ => return false,
			},
			9u32 => match token {
				'0'..='9' => 5u32,
				'A'..='W' | 'Y'..='Z' | 'a'..='w' | 'y'..='z' => 11u32,
				'X' | 'x' => 12u32,
				_ => return false,
			},
			10u32 => match token {
				'-' => 9u32,
				'A'..='Z' | 'a'..='z' => 13u32,
				_ => return false,
			},
			11u32 => match token {
				'-' => 16u32,
				'0'..='9' => 19u32,
				'A'..='Z' | 'a'..='z' => 20u32,
				_ => return false,
			},
			12u32 => match token {
				'-' => 21u32,
				'0'..='9' => 19u32,
				'A'..='Z' | 'a'..='z' => 20u32,
				_ => return false,
			},
			13u32 => match token {
				'-' => 9u32,
				'A'..='Z' | 'a'..='z' => 14u32,
				_ => return false,
			},
			14u32 => match token {
				'-' => 9u32,
				'A'..='Z' | 'a'..='z' => 15u32,
				_ => return false,
			},
			15u32 => match token {
				'-' => 9u32,
				_ => return false,
			},
			16u32 => match token {
				'0'..='9' | 'A'..='Z' | 'a'..='z' => 22u32,
				_ => return false,
			},
			17u32 => match token {
				'0'..='9' => 59u32,
				'A'..='Z' | 'a'..='z' => 56u32,
				_ => return false,
			},
			18u32 => match token {
				'0'..='9' | 'A'..='Z' | 'a'..='z' => 56u32,
				_ => return false,
			},
			19u32 => match token {
				'0'..='9' | 'A'..='Z' | 'a'..='z' => 23u32,
				_ => return false,
			},
			20u32 => match token {
				'-' => 24u32,
				'0'..='9' => 23u32,
				'A'..='Z' | 'a'..='z' => 25u32,
				_ => return false,
			},
"%text.
Definition grammar_rs_4 : text := "			21u32 => match token {
				'0'..='9' | 'A'..='Z' | 'a'..='z' => 48u32,
				_ => return false,
			},
			22u32 => match token {
				'0'..='9' | 'A'..='Z' | 'a'..='z' => 38u32,
				_ => return false,
			},
			23u32 => match token {
				'0'..='9' | 'A'..='Z' | 'a'..='z' => 29u32,
				_ => return false,
			},
			24u32 => match token {
				'0'..='9' => 26u32,
				'A'..='W' | 'Y'..='Z' | 'a'..='w' | 'y'..='z' => 27u32,
				'X' | 'x' => 28u32,
				_ => return false,
			},
			25u32 => match token {
				'0'..='9' => 29u32,
				'A'..='Z' | 'a'..='z' => 30u32,
				_ => return false,
			},
			26u32 => match token {
				'-' => 16u32,
				'0'..='9' | 'A'..='Z' | 'a'..='z' => 18u32,
				_ => return false,
			},
			27u32 => match token {
				'-' => 16u32,
				'0'..='9' | 'A'..='Z' | 'a'..='z' => 19u32,
				_ => return false,
			},
			28u32 => match token {
				'-' => 21u32,
				'0'..='9' | 'A'..='Z' | 'a'..='z' => 19u32,
				_ => return false,
			},
			29u32 => match token {
				'0'..='9' | 'A'..='Z' | 'a'..='z' => 31u32,
				_ => return false,
			},
			30u32 => match token {
				'-' => 32u32,
				'0'..='9' | 'A'..='Z' | 'a'..='z' => 31u32,
				_ => return false,
			},
			31u32 => match token {
				'-' => 24u32,
				'0'..='9' | 'A'..='Z' | 'a'..='z' => 35u32,
				_ => return false,
			},
			32u32 => match token {
				'0'..='9' => 5u32,
				'A'..='W' | 'Y'..='Z' | 'a'..='w' | 'y'..='z' => 33u32,
				'X' | 'x' => 34u32,
				_ => return false,
			},
			33u32 => match token {
				'-' => 16u32,
				'0'..='9' => 19u32,
				'A'..='Z' | 'a'..='z' => 58u32,
				_ => return false,
			},
			34u32 => match token {
				'-' => 21u32,
				'0'..='9' => 19u32,
				'A'..='Z' | 'a'..='z' => 58u32,
				_ => return false,
			},
			35u32 => match token {
				'-' => 24u32,
				'0'..='9' | 'A'..='Z' | 'a'..='z' => 36u32,
				_ => return false,
			},
			36u32 => match token {
				'-' => 24u32,
				'0'..='9' | 'A'..='Z' | 'a'..='z' => 37u32,
				_ => return false,
			},
			37u32 => match token {
				'-' => 24u32,
				_ => return false,
			},
			38u32 => match token {
				'-' => 39u32,
				'0'..='9' | 'A'..='Z' | 'a'..='z' => 40u32,
				_ => return false,
			},
			39u32 => match token {
				'0'..='9' | 'A'..='W' | 'Y'..='Z' | 'a'..='w' | 'y'..='z' => 41u32,
				'X' | 'x' => 42u32,
				_ => return false,
			},
			40u32 => match token {
				'-' => 39u32,
				'0'..='9' | 'A'..='Z' | 'a'..='z' => 43u32,
				_ => return false,
			},
			41u32 => match token {
				'-' => 16u32,
				'0'..='9' | 'A'..='Z' | 'a'..='z' => 38u32,
				_ => return false,
			},
			42u32 => match token {
				'-' => 21u32,
				'0'..='9' | 'A'..='Z' | 'a'..='z' => 38u32,
				_ => return false,
			},
			43u32 => match token {
				'-' => 39u32,
				'0'..='9' | 'A'..='Z' | 'a'..='z' => 44u32,
				_ => return false,
			},
			44u32 => match token {
				'-' => 39u32,
				'0'..='9' | 'A'..='Z' | 'a'..='z' => 45u32,
				_ => return false,
			},
			45u32 => match token {
				'-' => 39u32,
				'0'..='9' | 'A'..='Z' | 'a'..='z' => 46u32,
				_ => return false,
			},
			46u32 => match token {
				'-' => 39u32,
				'0'..='9' | 'A'..='Z' | 'a'..='z' => 47u32,
				_ => return false,
			},
			47u32 => match token {
				'-' => 39u32,
				_ => return false,
			},
			48u32 => match token {
				'-' => 21u32,
				'0'..='9' | 'A'..='Z' | 'a'..='z' => 49u32,
				_ => return false,
			},
			49u32 => match token {
				'-' => 21u32,
				'0'..='9' | 'A'..='Z' | 'a'..='z' => 50u32,
				_ => return false,
			},
			50u32 => match token {
				'-' => 21u32,
				'0'..='9' | 'A'..='Z' | 'a'..='z' => 51u32,
				_ => return false,
			},
			51u32 => match token {
				'-' => 21u32,
				'0'..='9' | 'A'..='Z' | 'a'..='z' => 52u32,
				_ => return false,
			},
			52u32 => match token {
				'-' => 21u32,
				'0'..='9' | 'A'..='Z' | 'a'..='z' => 53u32,
				_ => return false,
			},
			53u32 => match token {
				'-' => 21u32,
				'0'..='9' | 'A'..='Z' | 'a'..='z' => 54u32,
				_ => return false,
			},
			54u32 => match token {
				'-' => 21u32,
				'0'..='9' | 'A'..='Z' | 'a'..='z' => 55u32,
				_ => return false,
			},
			55u32 => match token {
				'-' => 21u32,
				_ => return false,
			},
			56u32 => match token {
				'0'..='9' | 'A'..='Z' | 'a'..='z' => 57u32,
				_ => return false,
			},
			57u32 => match token {
				'-' => 24u32,
				'0'..='9' | 'A'..='Z' | 'a'..='z' => 31u32,
				_ => return false,
			},
			58u32 => match token {
				'-' => 24u32,
				'0'..='9' | 'A'..='Z' | 'a'..='z' => 23u32,
				_ => return false,
			},
			59u32 => match token {
				'-' => 24u32,
				'0'..='9' | 'A'..='Z' | 'a'..='z' => 57u32,
				_ => return false,
			},
			60u32 => match token {
				'-' => 24u32,
				'0'..='9' => 23u32,
				'A'..='Z' | 'a'..='z' => 61u32,
				_ => return false,
			},
			61u32 => match token {
				'-' => 62u32,
				'0'..='9' => 29u32,
				'A'..='Z' | 'a'..='z' => 30u32,
				_ => return false,
			},
			62u32 => match token {
				'0'..='9' => 5u32,
				'A'..='W' | 'Y'..='Z' | 'a'..='w' | 'y'..='z' => 63u32,
				'X' | 'x' => 64u32,
				_ => return false,
			},
			63u32 => match token {
				'-' => 16u32,
				'0'..='9' => 19u32,
				'A'..='Z' | 'a'..='z' => 65u32,
				_ => return false,
			},
			64u32 => match token {
				'-' => 21u32,
				'0'..='9' => 19u32,
				'A'..='Z' | 'a'..='z' => 65u32,
				_ => return false,
			},
			65u32 => match token {
				'-' => 24u32,
				'0'..='9' => 23u32,
				'A'..='Z' | 'a'..='z' => 66u32,
				_ => return false,
			},
			66u32 => match token {
				'-' => 67u32,
				'0'..='9' => 29u32,
				'A'..='Z' | 'a'..='z' => 30u32,
				_ => return false,
			},
			67u32 => match token {
				'0'..='9' => 5u32,
				'A'..='W' | 'Y'..='Z' | 'a'..='w' | 'y'..='z' => 68u32,
				'X' | 'x' => 69u32,
				_ => return false,
			},
			68u32 => match token {
				'-' => 16u32,
				'0'..='9' => 19u32,
				'A'..='Z' | 'a'..='z' => 70u32,
				_ => return false,
			},
			69u32 => match token {
				'-' => 21u32,
				'0'..='9' => 19u32,
				'A'..='Z' | 'a'..='z' => 70u32,
				_ => return false,
			},
			70u32 => match token {
				'-' => 24u32,
				'0'..='9' => 23u32,
				'A'..='Z' | 'a'..='z' => 71u32,
				_ => return false,
			},
			71u32 => match token {
				'-' => 9u32,
				'0'..='9' => 29u32,
				'A'..='Z' | 'a'..='z' => 30u32,
				_ => return false,
			},
			_ => return false,
		};
		true
	}
	pub const fn is_accepting(&self) -> bool {
		matches!(
			self.state,
			2u32 | 4u32
				| 8u32 | 10u32
				| 13u32 | 14u32
				| 15u32 | 20u32
				| 30u32 | 31u32
				| 35u32 | 36u32
				| 37u32 | 38u32
				| 40u32 | 43u32
				| 44u32 | 45u32
				| 46u32 | 47u32
				| 48u32 | 49u32
				| 50u32 | 51u32
				| 52u32 | 53u32
				| 54u32 | 55u32
				| 57u32 | 58u32
				| 59u32 | 60u32
				| 61u32 | 65u32
				| 66u32 | 70u32
				| 71u32
		)
	}
	pub const fn validate_str(s: &str) -> bool {
		Self::validate_bytes(s.as_bytes())
	}
	pub const fn validate_bytes(bytes: &[u8]) -> bool {
		let mut i = 0;
		let mut automaton = Self::new();
		while i < bytes.len() {
			match ::static_automata::decode_utf8_char(bytes, i) {
				Ok((c, len)) => {
					if !automaton.push(c) {
						return false;
					}
					i += len;
				}
				Err(_) => return false,
			}
		}
		automaton.is_accepting()
	}
}
pub struct Language {
	state: u32,
}
impl Language {
	pub const fn new() -> Self {
		Self { state: 0u32 }
	}
	pub const fn push(&mut self, token: char) -> bool {
		self.state = match self.state {
			0u32 => match token {
				'A'..='Z' | 'a'..='z' => 1u32,
				_ => return false,
			},
			1u32 => match token {
				'A'..='Z' | 'a'..='z' => 2u32,
				_ => return false,
			},
			2u32 => match token {
				'-' => 3u32,
				'A'..='Z' | 'a'..='z' => 4u32,
				_ => return false,
			},
			3u32 => match token {
				'A'..='Z' | 'a'..='z' => 5u32,
				_ => return false,
			},
			4u32 => match token {
				'-' => 3u32,
				'A'..='Z' | 'a'..='z' => 6u32,
				_ => return false,
			},
			5u32 => match token {
				'A'..='Z' | 'a'..='z' => 11u32,
				_ => return false,
			},
			6u32 => match token {
"%text.
Definition grammar_rs_5 : text := "				'A'..='Z' | 'a'..='z' => 7u32,
				_ => return false,
			},
			7u32 => match token {
				'A'..='Z' | 'a'..='z' => 8u32,
				_ => return false,
			},
			8u32 => match token {
				'A'..='Z' | 'a'..='z' => 9u32,
				_ => return false,
			},
			9u32 => match token {
				'A'..='Z' | 'a'..='z' => 10u32,
				_ => return false,
			},
			11u32 => match token {
				'A'..='Z' | 'a'..='z' => 12u32,
				_ => return false,
			},
			12u32 => match token {
				'-' => 13u32,
				_ => return false,
			},
			13u32 => match token {
				'A'..='Z' | 'a'..='z' => 14u32,
				_ => return false,
			},
			14u32 => match token {
				'A'..='Z' | 'a'..='z' => 15u32,
				_ => return false,
			},
			15u32 => match token {
				'A'..='Z' | 'a'..='z' => 16u32,
				_ => return false,
			},
			16u32 => match token {
				'-' => 17u32,
				_ => return false,
			},
			17u32 => match token {
				'A'..='Z' | 'a'..='z' => 18u32,
				_ => return false,
			},
			18u32 => match token {
				'A'..='Z' | 'a'..='z' => 19u32,
				_ => return false,
			},
			19u32 => match token {
				'A'..='Z' | 'a'..='z' => 10u32,
				_ => return false,
			},
			_ => return false,
		};
		true
	}
	pub const fn is_accepting(&self) -> bool {
		matches!(
			self.state,
			2u32 | 4u32 | 6u32 | 7u32 | 8u32 | 9u32 | 10u32 | 12u32 | 16u32
		)
	}
	pub const fn validate_str(s: &str) -> bool {
		Self::validate_bytes(s.as_bytes())
	}
	pub const fn validate_bytes(bytes: &[u8]) -> bool {
		let mut i = 0;
		let mut automaton = Self::new();
		while i < bytes.len() {
			match ::static_automata::decode_utf8_char(bytes, i) {
				Ok((c, len)) => {
					if !automaton.push(c) {
						return false;
					}
					i += len;
				}
				Err(_) => return false,
			}
		}
		automaton.is_accepting()
	}
}
pub struct Primary {
	state: u32,
}
impl Primary {
	pub const fn new() -> Self {
		Self { state: 0u32 }
	}
	pub const fn push(&mut self, token: char) -> bool {
		self.state = match self.state {
			0u32 => match token {
				'A'..='Z' | 'a'..='z' => 1u32,
				_ => return false,
			},
			1u32 => match token {
				'A'..='Z' | 'a'..='z' => 2u32,
				_ => return false,
			},
			2u32 => match token {
				'A'..='Z' | 'a'..='z' => 3u32,
				_ => return false,
			},
			_ => return false,
		};
		true
	}
	pub const fn is_accepting(&self) -> bool {
		matches!(self.state, 2u32 | 3u32)
	}
	pub const fn validate_str(s: &str) -> bool {
		Self::validate_bytes(s.as_bytes())
	}
	pub const fn validate_bytes(bytes: &[u8]) -> bool {
		let mut i = 0;
		let mut automaton = Self::new();
		while i < bytes.len() {
			match ::static_automata::decode_utf8_char(bytes, i) {
				Ok((c, len)) => {
					if !automaton.push(c) {
						return false;
					}
					i += len;
				}
				Err(_) => return false,
			}
		}
		automaton.is_accepting()
	}
}
pub struct Extlang {
	state: u32,
}
impl Extlang {
	pub const fn new() -> Self {
		Self { state: 0u32 }
	}
	pub const fn push(&mut self, token: char) -> bool {
		self.state = match self.state {
			0u32 => match token {
				'A'..='Z' | 'a'..='z' => 1u32,
				_ => return false,
			},
			1u32 => match token {
				'A'..='Z' | 'a'..='z' => 2u32,
				_ => return false,
			},
			2u32 => match token {
				'A'..='Z' | 'a'..='z' => 3u32,
				_ => return false,
			},
			3u32 => match token {
				'-' => 4u32,
				_ => return false,
			},
			4u32 => match token {
				'A'..='Z' | 'a'..='z' => 5u32,
				_ => return false,
			},
			5u32 => match token {
				'A'..='Z' | 'a'..='z' => 6u32,
				_ => return false,
			},
			6u32 => match token {
				'A'..='Z' | 'a'..='z' => 7u32,
				_ => return false,
			},
			7u32 => match token {
				'-' => 8u32,
				_ => return false,
			},
			8u32 => match token {
				'A'..='Z' | 'a'..='z' => 9u32,
				_ => return false,
			},
			9u32 => match token {
				'A'..='Z' | 'a'..='z' => 10u32,
				_ => return false,
			},
			10u32 => match token {
				'A'..='Z' | 'a'..='z' => 11u32,
				_ => return false,
			},
			_ => return false,
		};
		true
	}
	pub const fn is_accepting(&self) -> bool {
		matches!(self.state, 3u32 | 7u32 | 11u32)
	}
	pub const fn validate_str(s: &str) -> bool {
		Self::validate_bytes(s.as_bytes())
	}
	pub const fn validate_bytes(bytes: &[u8]) -> bool {
		let mut i = 0;
		let mut automaton = Self::new();
		while i < bytes.len() {
			match ::static_automata::decode_utf8_char(bytes, i) {
				Ok((c, len)) => {
					if !automaton.push(c) {
						return false;
					}
					i += len;
				}
				Err(_) => return false,
			}
		}
		automaton.is_accepting()
	}
}
pub struct ExtlangTag {
	state: u32,
}
impl ExtlangTag {
	pub const fn new() -> Self {
		Self { state: 0u32 }
	}
	pub const fn push(&mut self, token: char) -> bool {
		self.state = match self.state {
			0u32 => match token {
				'A'..='Z' | 'a'..='z' => 1u32,
				_ => return false,
			},
			1u32 => match token {
				'A'..='Z' | 'a'..='z' => 2u32,
				_ => return false,
			},
			2u32 => match token {
				'A'..='Z' | 'a'..='z' => 3u32,
				_ => return false,
			},
			_ => return false,
		};
		true
	}
	pub const fn is_accepting(&self) -> bool {
		matches!(self.state, 3u32)
	}
	pub const fn validate_str(s: &str) -> bool {
		Self::validate_bytes(s.as_bytes())
	}
	pub const fn validate_bytes(bytes: &[u8]) -> bool {
		let mut i = 0;
		let mut automaton = Self::new();
		while i < bytes.len() {
			match ::static_automata::decode_utf8_char(bytes, i) {
				Ok((c, len)) => {
					if !automaton.push(c) {
						return false;
					}
					i += len;
				}
				Err(_) => return false,
			}
		}
		automaton.is_accepting()
	}
}
pub struct Script {
	state: u32,
}
impl Script {
	pub const fn new() -> Self {
		Self { state: 0u32 }
	}
	pub const fn push(&mut self, token: char) -> bool {
		self.state = match self.state {
			0u32 => match token {
				'A'..='Z' | 'a'..='z' => 1u32,
				_ => return false,
			},
			1u32 => match token {
				'A'..='Z' | 'a'..='z' => 2u32,
				_ => return false,
			},
			2u32 => match token {
				'A'..='Z' | 'a'..='z' => 3u32,
				_ => return false,
			},
			3u32 => match token {
				'A'..='Z' | 'a'..='z' => 4u32,
				_ => return false,
			},
			_ => return false,
		};
		true
	}
	pub const fn is_accepting(&self) -> bool {
		matches!(self.state, 4u32)
	}
	pub const fn validate_str(s: &str) -> bool {
		Self::validate_bytes(s.as_bytes())
	}
	pub const fn validate_bytes(bytes: &[u8]) -> bool {
		let mut i = 0;
		let mut automaton = Self::new();
		while i < bytes.len() {
			match ::static_automata::decode_utf8_char(bytes, i) {
				Ok((c, len)) => {
					if !automaton.push(c) {
						return false;
					}
					i += len;
				}
				Err(_) => return false,
			}
		}
		automaton.is_accepting()
	}
}
pub struct Region {
	state: u32,
}
impl Region {
	pub const fn new() -> Self {
		Self { state: 0u32 }
	}
	pub const fn push(&mut self, token: char) -> bool {
		self.state = match self.state {
			0u32 => match token {
				'0'..='9' => 1u32,
				'A'..='Z' | 'a'..='z' => 2u32,
				_ => return false,
			},
			1u32 => match token {
				'0'..='9' => 3u32,
				_ => return false,
			},
			2u32 => match token {
				'A'..='Z' | 'a'..='z' => 4u32,
				_ => return false,
			},
			3u32 => match token {
				'0'..='9' => 4u32,
				_ => return false,
			},
			_ => return false,
		};
		true
	}
	pub const fn is_accepting(&self) -> bool {
		matches!(self.state, 4u32)
	}
	pub const fn validate_str(s: &str) -> bool {
		Self::validate_bytes(s.as_bytes())
	}
	pub const fn validate_bytes(bytes: &[u8]) -> bool {
		let mut i = 0;
		let mut automaton = Self::new();
		while i < bytes.len() {
			match ::static_automata::decode_utf8_char(bytes, i) {
				Ok((c, len)) => {
					if !automaton.push(c) {
						return false;
					}
					i += len;
				}
				Err(_) => return false,
			}
		}
		automaton.is_accepting()
	}
}
pub struct Variant {
	state: u32,
}
impl Variant {
	pub const fn new() -> Self {
		Self { state: 0u32 }
	}
	pub const fn push(&mut self, token: char) -> bool {
		self.state = match self.state {
			0u32 => match token {
				'0'..='9' => 1u32,
				'A'..='Z' | 'a'..='z' => 2u32,
				_ => return false,
"%text.
Definition grammar_rs_6 : text := "			},
			1u32 => match token {
				'0'..='9' | 'A'..='Z' | 'a'..='z' => 3u32,
				_ => return false,
			},
			2u32 => match token {
				'0'..='9' | 'A'..='Z' | 'a'..='z' => 4u32,
				_ => return false,
			},
			3u32 => match token {
				'0'..='9' | 'A'..='Z' | 'a'..='z' => 11u32,
				_ => return false,
			},
			4u32 => match token {
				'0'..='9' | 'A'..='Z' | 'a'..='z' => 5u32,
				_ => return false,
			},
			5u32 => match token {
				'0'..='9' | 'A'..='Z' | 'a'..='z' => 6u32,
				_ => return false,
			},
			6u32 => match token {
				'0'..='9' | 'A'..='Z' | 'a'..='z' => 7u32,
				_ => return false,
			},
			7u32 => match token {
				'0'..='9' | 'A'..='Z' | 'a'..='z' => 8u32,
				_ => return false,
			},
			8u32 => match token {
				'0'..='9' | 'A'..='Z' | 'a'..='z' => 9u32,
				_ => return false,
			},
			9u32 => match token {
				'0'..='9' | 'A'..='Z' | 'a'..='z' => 10u32,
				_ => return false,
			},
			11u32 => match token {
				'0'..='9' | 'A'..='Z' | 'a'..='z' => 12u32,
				_ => return false,
			},
			12u32 => match token {
				'0'..='9' | 'A'..='Z' | 'a'..='z' => 7u32,
				_ => return false,
			},
			_ => return false,
		};
		true
	}
	pub const fn is_accepting(&self) -> bool {
		matches!(self.state, 7u32 | 8u32 | 9u32 | 10u32 | 12u32)
	}
	pub const fn validate_str(s: &str) -> bool {
		Self::validate_bytes(s.as_bytes())
	}
	pub const fn validate_bytes(bytes: &[u8]) -> bool {
		let mut i = 0;
		let mut automaton = Self::new();
		while i < bytes.len() {
			match ::static_automata::decode_utf8_char(bytes, i) {
				Ok((c, len)) => {
					if !automaton.push(c) {
						return false;
					}
					i += len;
				}
				Err(_) => return false,
			}
		}
		automaton.is_accepting()
	}
}
pub struct Variants {
	state: u32,
}
impl Variants {
	pub const fn new() -> Self {
		Self { state: 0u32 }
	}
	pub const fn push(&mut self, token: char) -> bool {
		self.state = match self.state {
			0u32 => match token {
				'0'..='9' => 1u32,
				'A'..='Z' | 'a'..='z' => 2u32,
				_ => return false,
			},
			1u32 => match token {
				'0'..='9' | 'A'..='Z' | 'a'..='z' => 3u32,
				_ => return false,
			},
			2u32 => match token {
				'0'..='9' | 'A'..='Z' | 'a'..='z' => 4u32,
				_ => return false,
			},
			3u32 => match token {
				'0'..='9' | 'A'..='Z' | 'a'..='z' => 12u32,
				_ => return false,
			},
			4u32 => match token {
				'0'..='9' | 'A'..='Z' | 'a'..='z' => 5u32,
				_ => return false,
			},
			5u32 => match token {
				'0'..='9' | 'A'..='Z' | 'a'..='z' => 6u32,
				_ => return false,
			},
			6u32 => match token {
				'0'..='9' | 'A'..='Z' | 'a'..='z' => 7u32,
				_ => return false,
			},
			7u32 => match token {
				'-' => 8u32,
				'0'..='9' | 'A'..='Z' | 'a'..='z' => 9u32,
				_ => return false,
			},
			8u32 => match token {
				'0'..='9' => 1u32,
				'A'..='Z' | 'a'..='z' => 2u32,
				_ => return false,
			},
			9u32 => match token {
				'-' => 8u32,
				'0'..='9' | 'A'..='Z' | 'a'..='z' => 10u32,
				_ => return false,
			},
			10u32 => match token {
				'-' => 8u32,
				'0'..='9' | 'A'..='Z' | 'a'..='z' => 11u32,
				_ => return false,
			},
			11u32 => match token {
				'-' => 8u32,
				_ => return false,
			},
			12u32 => match token {
				'0'..='9' | 'A'..='Z' | 'a'..='z' => 13u32,
				_ => return false,
			},
			13u32 => match token {
				'-' => 8u32,
				'0'..='9' | 'A'..='Z' | 'a'..='z' => 7u32,
				_ => return false,
			},
			_ => return false,
		};
		true
	}
	pub const fn is_accepting(&self) -> bool {
		matches!(self.state, 0u32 | 7u32 | 9u32 | 10u32 | 11u32 | 13u32)
	}
	pub const fn validate_str(s: &str) -> bool {
		Self::validate_bytes(s.as_bytes())
	}
	pub const fn validate_bytes(bytes: &[u8]) -> bool {
		let mut i = 0;
		let mut automaton = Self::new();
		while i < bytes.len() {
			match ::static_automata::decode_utf8_char(bytes, i) {
				Ok((c, len)) => {
					if !automaton.push(c) {
						return false;
					}
					i += len;
				}
				Err(_) => return false,
			}
		}
		automaton.is_accepting()
	}
}
pub struct Extension {
	state: u32,
}
impl Extension {
	pub const fn new() -> Self {
		Self { state: 0u32 }
	}
	pub const fn push(&mut self, token: char) -> bool {
		self.state = match self.state {
			0u32 => match token {
				'0'..='9' | 'A'..='W' | 'Y'..='Z' | 'a'..='w' | 'y'..='z' => 1u32,
				_ => return false,
			},
			1u32 => match token {
				'-' => 2u32,
				_ => return false,
			},
			2u32 => match token {
				'0'..='9' | 'A'..='Z' | 'a'..='z' => 3u32,
				_ => return false,
			},
			3u32 => match token {
				'0'..='9' | 'A'..='Z' | 'a'..='z' => 4u32,
				_ => return false,
			},
			4u32 => match token {
				'-' => 2u32,
				'0'..='9' | 'A'..='Z' | 'a'..='z' => 5u32,
				_ => return false,
			},
			5u32 => match token {
				'-' => 2u32,
				'0'..='9' | 'A'..='Z' | 'a'..='z' => 6u32,
				_ => return false,
			},
			6u32 => match token {
				'-' => 2u32,
				'0'..='9' | 'A'..='Z' | 'a'..='z' => 7u32,
				_ => return false,
			},
			7u32 => match token {
				'-' => 2u32,
				'0'..='9' | 'A'..='Z' | 'a'..='z' => 8u32,
				_ => return false,
			},
			8u32 => match token {
				'-' => 2u32,
				'0'..='9' | 'A'..='Z' | 'a'..='z' => 9u32,
				_ => return false,
			},
			9u32 => match token {
				'-' => 2u32,
				'0'..='9' | 'A'..='Z' | 'a'..='z' => 10u32,
				_ => return false,
			},
			10u32 => match token {
				'-' => 2u32,
				_ => return false,
			},
			_ => return false,
		};
		true
	}
	pub const fn is_accepting(&self) -> bool {
		matches!(self.state, 4u32 | 5u32 | 6u32 | 7u32 | 8u32 | 9u32 | 10u32)
	}
	pub const fn validate_str(s: &str) -> bool {
		Self::validate_bytes(s.as_bytes())
	}
	pub const fn validate_bytes(bytes: &[u8]) -> bool {
		let mut i = 0;
		let mut automaton = Self::new();
		while i < bytes.len() {
			match ::static_automata::decode_utf8_char(bytes, i) {
				Ok((c, len)) => {
					if !automaton.push(c) {
						return false;
					}
					i += len;
				}
				Err(_) => return false,
			}
		}
		automaton.is_accepting()
	}
}
pub struct ExtensionSubtag {
	state: u32,
}
impl ExtensionSubtag {
	pub const fn new() -> Self {
		Self { state: 0u32 }
	}
	pub const fn push(&mut self, token: char) -> bool {
		self.state = match self.state {
			0u32 => match token {
				'0'..='9' | 'A'..='Z' | 'a'..='z' => 1u32,
				_ => return false,
			},
			1u32 => match token {
				'0'..='9' | 'A'..='Z' | 'a'..='z' => 2u32,
				_ => return false,
			},
			2u32 => match token {
				'0'..='9' | 'A'..='Z' | 'a'..='z' => 3u32,
				_ => return false,
			},
			3u32 => match token {
				'0'..='9' | 'A'..='Z' | 'a'..='z' => 4u32,
				_ => return false,
			},
			4u32 => match token {
				'0'..='9' | 'A'..='Z' | 'a'..='z' => 5u32,
				_ => return false,
			},
			5u32 => match token {
				'0'..='9' | 'A'..='Z' | 'a'..='z' => 6u32,
				_ => return false,
			},
			6u32 => match token {
				'0'..='9' | 'A'..='Z' | 'a'..='z' => 7u32,
				_ => return false,
			},
			7u32 => match token {
				'0'..='9' | 'A'..='Z' | 'a'..='z' => 8u32,
				_ => return false,
			},
			_ => return false,
		};
		true
	}
	pub const fn is_accepting(&self) -> bool {
		matches!(self.state, 2u32 | 3u32 | 4u32 | 5u32 | 6u32 | 7u32 | 8u32)
	}
	pub const fn validate_str(s: &str) -> bool {
		Self::validate_bytes(s.as_bytes())
	}
	pub const fn validate_bytes(bytes: &[u8]) -> bool {
		let mut i = 0;
		let mut automaton = Self::new();
		while i < bytes.len() {
			match ::static_automata::decode_utf8_char(bytes, i) {
				Ok((c, len)) => {
					if !automaton.push(c) {
						return false;
					}
					i += len;
				}
				Err(_) => return false,
			}
		}
		automaton.is_accepting()
	}
}
pub struct Extensions {
	state: u32,
}
impl Extensions {
	pub const fn new() -> Self {
		Self { state: 0u32 }
	}
	pub const fn push(&mut self, token: char) -> bool {
		self.state = match self.state {
			0u32 => match token {
				'0'..='9' | 'A'..='W' | 'Y'..='Z' | 'a'..='w' | 'y'..='z' => 1u32,
				_ => return false,
			},
			1u32 => match token {
				'-' => 2u32,
				_ => return false,
			},
			2u32 => match token {
"%text.
Definition grammar_rs_7 : text := "				'0'..='9' | 'A'..='Z' | 'a'..='z' => 3u32,
				_ => return false,
			},
			3u32 => match token {
				'0'..='9' | 'A'..='Z' | 'a'..='z' => 4u32,
				_ => return false,
			},
			4u32 => match token {
				'-' => 5u32,
				'0'..='9' | 'A'..='Z' | 'a'..='z' => 6u32,
				_ => return false,
			},
			5u32 => match token {
				'0'..='9' | 'A'..='W' | 'Y'..='Z' | 'a'..='w' | 'y'..='z' => 7u32,
				'X' | 'x' => 3u32,
				_ => return false,
			},
			6u32 => match token {
				'-' => 5u32,
				'0'..='9' | 'A'..='Z' | 'a'..='z' => 8u32,
				_ => return false,
			},
			7u32 => match token {
				'-' => 2u32,
				'0'..='9' | 'A'..='Z' | 'a'..='z' => 4u32,
				_ => return false,
			},
			8u32 => match token {
				'-' => 5u32,
				'0'..='9' | 'A'..='Z' | 'a'..='z' => 9u32,
				_ => return false,
			},
			9u32 => match token {
				'-' => 5u32,
				'0'..='9' | 'A'..='Z' | 'a'..='z' => 10u32,
				_ => return false,
			},
			10u32 => match token {
				'-' => 5u32,
				'0'..='9' | 'A'..='Z' | 'a'..='z' => 11u32,
				_ => return false,
			},
			11u32 => match token {
				'-' => 5u32,
				'0'..='9' | 'A'..='Z' | 'a'..='z' => 12u32,
				_ => return false,
			},
			12u32 => match token {
				'-' => 5u32,
				_ => return false,
			},
			_ => return false,
		};
		true
	}
	pub const fn is_accepting(&self) -> bool {
		matches!(
			self.state,
			0u32 | 4u32 | 6u32 | 8u32 | 9u32 | 10u32 | 11u32 | 12u32
		)
	}
	pub const fn validate_str(s: &str) -> bool {
		Self::validate_bytes(s.as_bytes())
	}
	pub const fn validate_bytes(bytes: &[u8]) -> bool {
		let mut i = 0;
		let mut automaton = Self::new();
		while i < bytes.len() {
			match ::static_automata::decode_utf8_char(bytes, i) {
				Ok((c, len)) => {
					if !automaton.push(c) {
						return false;
					}
					i += len;
				}
				Err(_) => return false,
			}
		}
		automaton.is_accepting()
	}
}
"%text.
Definition grammar_rs : list byte := text_bytes grammar_rs_0 ++ text_bytes grammar_rs_1 ++ text_bytes grammar_rs_2 ++ text_bytes grammar_rs_3 ++ text_bytes grammar_rs_4 ++ text_bytes grammar_rs_5 ++ text_bytes grammar_rs_6 ++ text_bytes grammar_rs_7.
