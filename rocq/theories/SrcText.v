(** * Text of src/float.rs and src/float/*.rs

    Written by tools/gen_src.py, which copies the files and leaves out comment
    lines, blank lines and the test modules; quotes are doubled, as Coq asks. *)

From Coq Require Import String List.
Import ListNotations.
Open Scope string_scope.

(** src/float.rs *)
Definition src_float : string := "pub(crate) mod abs;
pub(crate) mod acos;
pub(crate) mod asin;
pub(crate) mod atan;
pub(crate) mod atan2;
pub(crate) mod ceil;
pub(crate) mod copysign;
pub(crate) mod cos;
pub(crate) mod cosh;
pub(crate) mod div_euclid;
pub(crate) mod exp;
pub(crate) mod floor;
pub(crate) mod fract;
pub(crate) mod hypot;
pub(crate) mod inv;
pub(crate) mod invsqrt;
pub(crate) mod ln;
pub(crate) mod log;
pub(crate) mod log10;
pub(crate) mod log2;
pub(crate) mod mul_add;
pub(crate) mod powf;
pub(crate) mod powi;
pub(crate) mod recip;
pub(crate) mod rem_euclid;
pub(crate) mod round;
pub(crate) mod signum;
pub(crate) mod sin;
pub(crate) mod sin_cos;
pub(crate) mod sqrt;
pub(crate) mod tan;
pub(crate) mod trunc;
use core::{
    cmp::Ordering,
    fmt::{self, Display, LowerExp, UpperExp},
    iter::{Product, Sum},
    num::ParseFloatError,
    ops::{Add, AddAssign, Div, DivAssign, Mul, MulAssign, Neg, Rem, RemAssign, Sub, SubAssign},
    str::FromStr,
};
#[cfg(feature = ""num-traits"")]
use num_traits::{Inv, Num, One, Zero};
pub(crate) const SIGN_MASK: u32 = 0b1000_0000_0000_0000_0000_0000_0000_0000;
pub(crate) const EXPONENT_MASK: u32 = 0b0111_1111_1000_0000_0000_0000_0000_0000;
pub(crate) const MANTISSA_MASK: u32 = 0b0000_0000_0111_1111_1111_1111_1111_1111;
pub(crate) const EXPONENT_BIAS: u32 = 127;
pub(crate) const MANTISSA_BITS: u32 = 23;
#[derive(Copy, Clone, Debug, Default, PartialEq, PartialOrd)]
pub struct F32(pub f32);
impl F32 {
    pub const ZERO: Self = Self(0.0);
    pub const ONE: Self = Self(1.0);
    pub const RADIX: u32 = f32::RADIX;
    pub const MANTISSA_DIGITS: u32 = f32::MANTISSA_DIGITS;
    pub const DIGITS: u32 = f32::DIGITS;
    pub const EPSILON: Self = Self(f32::EPSILON);
    pub const MIN: Self = Self(f32::MIN);
    pub const MIN_POSITIVE: Self = Self(f32::MIN_POSITIVE);
    pub const MAX: Self = Self(f32::MAX);
    pub const MIN_EXP: i32 = f32::MIN_EXP;
    pub const MAX_EXP: i32 = f32::MAX_EXP;
    pub const MIN_10_EXP: i32 = f32::MIN_10_EXP;
    pub const MAX_10_EXP: i32 = f32::MAX_10_EXP;
    pub const NAN: Self = Self(f32::NAN);
    pub const INFINITY: Self = Self(f32::INFINITY);
    pub const NEG_INFINITY: Self = Self(f32::NEG_INFINITY);
    #[inline]
    pub fn is_nan(self) -> bool {
        self.0.is_nan()
    }
    #[inline]
    pub fn is_infinite(self) -> bool {
        self.0.is_infinite()
    }
    #[inline]
    pub fn is_finite(self) -> bool {
        self.0.is_finite()
    }
    #[inline]
    pub fn is_sign_positive(self) -> bool {
        self.0.is_sign_positive()
    }
    #[inline]
    pub fn is_sign_negative(self) -> bool {
        self.0.is_sign_negative()
    }
    #[inline]
    pub fn to_bits(self) -> u32 {
        self.0.to_bits()
    }
    #[inline]
    pub fn from_bits(v: u32) -> Self {
        Self(f32::from_bits(v))
    }
    pub(crate) fn extract_exponent_bits(self) -> u32 {
        (self.to_bits() & EXPONENT_MASK)
            .overflowing_shr(MANTISSA_BITS)
            .0
    }
    pub(crate) fn extract_exponent_value(self) -> i32 {
        (self.extract_exponent_bits() as i32) - EXPONENT_BIAS as i32
    }
    pub(crate) fn without_sign(self) -> Self {
        Self::from_bits(self.to_bits() & !SIGN_MASK)
    }
    pub(crate) fn set_exponent(self, exponent: i32) -> Self {
        debug_assert!(exponent <= 127 && exponent >= -128);
        let without_exponent: u32 = self.to_bits() & !EXPONENT_MASK;
        let only_exponent: u32 = ((exponent + EXPONENT_BIAS as i32) as u32)
            .overflowing_shl(MANTISSA_BITS)
            .0;
        Self::from_bits(without_exponent | only_exponent)
    }
    pub(crate) fn is_integer(&self) -> bool {
        let exponent = self.extract_exponent_value();
        let self_bits = self.to_bits();
        let exponent_clamped = i32::max(exponent, 0) as u32;
        let fractional_part = (self_bits).overflowing_shl(exponent_clamped).0 & MANTISSA_MASK;
        fractional_part == 0
    }
    fn is_even(&self) -> bool {
        if self.extract_exponent_value() >= 31 {
            true
        } else {
            (self.0 as i32) % 2 == 0
        }
    }
}
impl Add for F32 {
    type Output = F32;
    #[inline]
    fn add(self, rhs: F32) -> F32 {
        F32(self.0 + rhs.0)
    }
}
impl Add<f32> for F32 {
    type Output = F32;
    #[inline]
    fn add(self, rhs: f32) -> F32 {
        F32(self.0 + rhs)
    }
}
impl Add<F32> for f32 {
    type Output = F32;
    #[inline]
    fn add(self, rhs: F32) -> F32 {
        F32(self + rhs.0)
    }
}
impl AddAssign for F32 {
    #[inline]
    fn add_assign(&mut self, rhs: F32) {
        self.0 += rhs.0;
    }
}
impl AddAssign<f32> for F32 {
    #[inline]
    fn add_assign(&mut self, rhs: f32) {
        self.0 += rhs;
    }
}
impl AddAssign<F32> for f32 {
    #[inline]
    fn add_assign(&mut self, rhs: F32) {
        *self += rhs.0;
    }
}
impl Display for F32 {
    #[inline]
    fn fmt(&self, fmt: &mut fmt::Formatter<'_>) -> fmt::Result {
        write!(fmt, ""{}"", self.0)
    }
}
impl Div for F32 {
    type Output = F32;
    #[inline]
    fn div(self, rhs: F32) -> F32 {
        F32(self.0 / rhs.0)
    }
}
impl Div<f32> for F32 {
    type Output = F32;
    #[inline]
    fn div(self, rhs: f32) -> F32 {
        F32(self.0 / rhs)
    }
}
impl Div<F32> for f32 {
    type Output = F32;
    #[inline]
    fn div(self, rhs: F32) -> F32 {
        F32(self / rhs.0)
    }
}
impl DivAssign for F32 {
    #[inline]
    fn div_assign(&mut self, rhs: F32) {
        self.0 /= rhs.0;
    }
}
impl DivAssign<f32> for F32 {
    #[inline]
    fn div_assign(&mut self, rhs: f32) {
        self.0 /= rhs;
    }
}
impl DivAssign<F32> for f32 {
    #[inline]
    fn div_assign(&mut self, rhs: F32) {
        *self /= rhs.0;
    }
}
impl From<f32> for F32 {
    #[inline]
    fn from(n: f32) -> F32 {
        F32(n)
    }
}
impl From<F32> for f32 {
    #[inline]
    fn from(n: F32) -> f32 {
        n.0
    }
}
impl From<i8> for F32 {
    #[inline]
    fn from(n: i8) -> F32 {
        F32(n.into())
    }
}
impl From<i16> for F32 {
    #[inline]
    fn from(n: i16) -> F32 {
        F32(n.into())
    }
}
impl From<u8> for F32 {
    #[inline]
    fn from(n: u8) -> F32 {
        F32(n.into())
    }
}
impl From<u16> for F32 {
    #[inline]
    fn from(n: u16) -> F32 {
        F32(n.into())
    }
}
impl FromStr for F32 {
    type Err = ParseFloatError;
    #[inline]
    fn from_str(src: &str) -> Result<F32, ParseFloatError> {
        f32::from_str(src).map(F32)
    }
}
impl LowerExp for F32 {
    #[inline]
    fn fmt(&self, f: &mut fmt::Formatter<'_>) -> fmt::Result {
        write!(f, ""{:e}"", self.0)
    }
}
impl Mul for F32 {
    type Output = F32;
    #[inline]
    fn mul(self, rhs: F32) -> F32 {
        F32(self.0 * rhs.0)
    }
}
impl Mul<f32> for F32 {
    type Output = F32;
    #[inline]
    fn mul(self, rhs: f32) -> F32 {
        F32(self.0 * rhs)
    }
}
impl Mul<F32> for f32 {
    type Output = F32;
    #[inline]
    fn mul(self, rhs: F32) -> F32 {
        F32(self * rhs.0)
    }
}
impl MulAssign for F32 {
    #[inline]
    fn mul_assign(&mut self, rhs: F32) {
        self.0 *= rhs.0;
    }
}
impl MulAssign<f32> for F32 {
    #[inline]
    fn mul_assign(&mut self, rhs: f32) {
        self.0 *= rhs;
    }
}
impl MulAssign<F32> for f32 {
    #[inline]
    fn mul_assign(&mut self, rhs: F32) {
        *self *= rhs.0;
    }
}
impl Neg for F32 {
    type Output = F32;
    #[inline]
    fn neg(self) -> F32 {
        F32(-self.0)
    }
}
impl PartialEq<f32> for F32 {
    fn eq(&self, other: &f32) -> bool {
        self.0.eq(other)
    }
}
impl PartialEq<F32> for f32 {
    fn eq(&self, other: &F32) -> bool {
        self.eq(&other.0)
    }
}
impl PartialOrd<f32> for F32 {
    fn partial_cmp(&self, other: &f32) -> Option<Ordering> {
        self.0.partial_cmp(other)
    }
}
impl PartialOrd<F32> for f32 {
    fn partial_cmp(&self, other: &F32) -> Option<Ordering> {
        self.partial_cmp(&other.0)
    }
}
impl Product for F32 {
    #[inline]
    fn product<I>(iter: I) -> Self
    where
        I: Iterator<Item = F32>,
    {
        F32(f32::product(iter.map(f32::from)))
    }
}
impl Rem for F32 {
    type Output = F32;
    #[inline]
    fn rem(self, rhs: F32) -> F32 {
        F32(self.0 % rhs.0)
    }
}
impl Rem<f32> for F32 {
    type Output = F32;
    #[inline]
    fn rem(self, rhs: f32) -> F32 {
        F32(self.0 % rhs)
    }
}
impl Rem<F32> for f32 {
    type Output = F32;
    #[inline]
    fn rem(self, rhs: F32) -> F32 {
        F32(self % rhs.0)
    }
}
impl RemAssign for F32 {
    #[inline]
    fn rem_assign(&mut self, rhs: F32) {
        self.0 %= rhs.0;
    }
}
impl RemAssign<f32> for F32 {
    #[inline]
    fn rem_assign(&mut self, rhs: f32) {
        self.0 %= rhs;
    }
}
impl Sub for F32 {
    type Output = F32;
    #[inline]
    fn sub(self, rhs: F32) -> F32 {
        F32(self.0 - rhs.0)
    }
}
impl Sub<f32> for F32 {
    type Output = F32;
    #[inline]
    fn sub(self, rhs: f32) -> F32 {
        F32(self.0 - rhs)
    }
}
impl Sub<F32> for f32 {
    type Output = F32;
    #[inline]
    fn sub(self, rhs: F32) -> F32 {
        F32(self - rhs.0)
    }
}
impl SubAssign for F32 {
    #[inline]
    fn sub_assign(&mut self, rhs: F32) {
        self.0 -= rhs.0;
    }
}
impl SubAssign<f32> for F32 {
    #[inline]
    fn sub_assign(&mut self, rhs: f32) {
        self.0 -= rhs;
    }
}
impl SubAssign<F32> for f32 {
    #[inline]
    fn sub_assign(&mut self, rhs: F32) {
        *self -= rhs.0;
    }
}
impl Sum for F32 {
    #[inline]
    fn sum<I>(iter: I) -> Self
    where
        I: Iterator<Item = F32>,
    {
        F32(f32::sum(iter.map(f32::from)))
    }
}
impl UpperExp for F32 {
    #[inline]
    fn fmt(&self, f: &mut fmt::Formatter<'_>) -> fmt::Result {
        write!(f, ""{:E}"", self.0)
    }
}
#[cfg(feature = ""num-traits"")]
#[cfg_attr(docsrs, doc(cfg(feature = ""num-traits"")))]
impl Zero for F32 {
    fn zero() -> Self {
        Self::ZERO
    }
    fn is_zero(&self) -> bool {
        Self::ZERO == *self
    }
}
#[cfg(feature = ""num-traits"")]
#[cfg_attr(docsrs, doc(cfg(feature = ""num-traits"")))]
impl One for F32 {
    fn one() -> Self {
        Self::ONE
    }
    fn is_one(&self) -> bool {
        Self::ONE == *self
    }
}
#[cfg(feature = ""num-traits"")]
#[cfg_attr(docsrs, doc(cfg(feature = ""num-traits"")))]
impl Num for F32 {
    type FromStrRadixErr = num_traits::ParseFloatError;
    fn from_str_radix(str: &str, radix: u32) -> Result<Self, Self::FromStrRadixErr> {
        f32::from_str_radix(str, radix).map(Self)
    }
}
#[cfg(feature = ""num-traits"")]
#[cfg_attr(docsrs, doc(cfg(feature = ""num-traits"")))]
impl Inv for F32 {
    type Output = Self;
    fn inv(self) -> Self {
        self.inv()
    }
}
#[cfg(feature = ""defmt"")]
#[cfg_attr(docsrs, doc(cfg(feature = ""defmt"")))]
impl defmt::Format for F32 {
    fn format(&self, fmt: defmt::Formatter<'_>) {
        defmt::write!(fmt, ""{}"", self.0)
    }
}
".

(** src/float/abs.rs *)
Definition src_float_abs : string := "use super::{F32, SIGN_MASK};
impl F32 {
    pub fn abs(self) -> Self {
        Self::from_bits(self.to_bits() & !SIGN_MASK)
    }
}
".

(** src/float/acos.rs *)
Definition src_float_acos : string := "use super::F32;
use core::f32::consts::PI;
impl F32 {
    pub(crate) fn acos(self) -> Self {
        if self > 0.0 {
            ((Self::ONE - self * self).sqrt() / self).atan()
        } else if self == 0.0 {
            Self(PI / 2.0)
        } else {
            ((Self::ONE - self * self).sqrt() / self).atan() + PI
        }
    }
}
".

(** src/float/asin.rs *)
Definition src_float_asin : string := "use super::F32;
impl F32 {
    pub fn asin(self) -> Self {
        (self * (Self::ONE - self * self).invsqrt()).atan()
    }
}
".

(** src/float/atan.rs *)
Definition src_float_atan : string := "use super::F32;
use core::f32::consts::FRAC_PI_2;
impl F32 {
    pub fn atan(self) -> Self {
        FRAC_PI_2 * self.atan_norm()
    }
    pub fn atan_norm(self) -> Self {
        const SIGN_MASK: u32 = 0x8000_0000;
        const B: f32 = 0.596_227;
        let ux_s = SIGN_MASK & self.to_bits();
        let bx_a = (B * self).abs();
        let n = bx_a + self * self;
        let atan_1q = n / (1.0 + bx_a + n);
        Self::from_bits(ux_s | atan_1q.to_bits())
    }
}
".

(** src/float/atan2.rs *)
Definition src_float_atan2 : string := "use super::F32;
use core::f32::consts::PI;
impl F32 {
    pub fn atan2(self, rhs: Self) -> Self {
        let n = self.atan2_norm(rhs);
        PI / 2.0 * if n > 2.0 { n - 4.0 } else { n }
    }
    pub(crate) fn atan2_norm(self, rhs: Self) -> Self {
        const SIGN_MASK: u32 = 0x8000_0000;
        const B: f32 = 0.596_227;
        let y = self;
        let x = rhs;
        let ux_s = SIGN_MASK & x.to_bits();
        let uy_s = SIGN_MASK & y.to_bits();
        let q = ((!ux_s & uy_s) >> 29 | ux_s >> 30) as f32;
        let bxy_a = (B * x * y).abs();
        let n = bxy_a + y * y;
        let atan_1q = n / (x * x + bxy_a + n);
        let uatan_2q = (ux_s ^ uy_s) | atan_1q.to_bits();
        Self(q) + Self::from_bits(uatan_2q)
    }
}
".

(** src/float/ceil.rs *)
Definition src_float_ceil : string := "use super::F32;
impl F32 {
    pub fn ceil(self) -> Self {
        -(-self).floor()
    }
}
".

(** src/float/copysign.rs *)
Definition src_float_copysign : string := "use super::{F32, SIGN_MASK};
impl F32 {
    pub fn copysign(self, sign: Self) -> Self {
        let source_bits = sign.to_bits();
        let source_sign = source_bits & SIGN_MASK;
        let signless_destination_bits = self.to_bits() & !SIGN_MASK;
        Self::from_bits(signless_destination_bits | source_sign)
    }
}
".

(** src/float/cos.rs *)
Definition src_float_cos : string := "use super::F32;
use core::f32::consts::FRAC_1_PI;
impl F32 {
    pub fn cos(self) -> Self {
        let mut x = self;
        x *= FRAC_1_PI / 2.0;
        x -= 0.25 + (x + 0.25).floor().0;
        x *= 16.0 * (x.abs() - 0.5);
        x += 0.225 * x * (x.abs() - 1.0);
        x
    }
}
".

(** src/float/cosh.rs *)
Definition src_float_cosh : string := "use super::F32;
impl F32 {
    pub fn cosh(self) -> Self {
        let exp_x = self.exp();
        let exp_neg_x = (-self).exp();
        (exp_x + exp_neg_x) / 2.0
    }
}
".

(** src/float/div_euclid.rs *)
Definition src_float_div_euclid : string := "use super::F32;
impl F32 {
    pub fn div_euclid(self, rhs: Self) -> Self {
        let q = (self / rhs).trunc();
        if self % rhs >= Self::ZERO {
            q
        } else if rhs > Self::ZERO {
            q - Self::ONE
        } else {
            q + Self::ONE
        }
    }
}
".

(** src/float/exp.rs *)
Definition src_float_exp : string := "use super::{EXPONENT_BIAS, F32};
use core::f32::consts;
impl F32 {
    #[inline]
    pub fn exp(self) -> Self {
        self.exp_ln2_approx(4)
    }
    pub(crate) fn exp_ln2_approx(self, partial_iter: u32) -> Self {
        if self == Self::ZERO {
            return Self::ONE;
        }
        if (self - Self::ONE).abs() < f32::EPSILON {
            return consts::E.into();
        }
        if (self - (-Self::ONE)).abs() < f32::EPSILON {
            return Self::ONE / consts::E;
        }
        let x_ln2recip = self * consts::LOG2_E;
        let x_fract = x_ln2recip.fract();
        let x_trunc = x_ln2recip.trunc();
        let x_fract = x_fract * consts::LN_2;
        let fract_exp = x_fract.exp_smallx(partial_iter);
        let fract_exponent: i32 = fract_exp
            .extract_exponent_value()
            .saturating_add(x_trunc.0 as i32);
        if fract_exponent < -(EXPONENT_BIAS as i32) {
            return Self::ZERO;
        }
        if fract_exponent > ((EXPONENT_BIAS + 1) as i32) {
            return Self::INFINITY;
        }
        fract_exp.set_exponent(fract_exponent)
    }
    #[inline]
    pub(crate) fn exp_smallx(self, iter: u32) -> Self {
        let mut total = 1.0;
        for i in (1..=iter).rev() {
            total = 1.0 + ((self.0 / (i as f32)) * total);
        }
        Self(total)
    }
}
".

(** src/float/floor.rs *)
Definition src_float_floor : string := "use super::F32;
impl F32 {
    pub fn floor(self) -> Self {
        let mut res = (self.0 as i32) as f32;
        if self.0 < res {
            res -= 1.0;
        }
        Self(res)
    }
}
".

(** src/float/fract.rs *)
Definition src_float_fract : string := "use super::F32;
use super::{EXPONENT_BIAS, MANTISSA_BITS, MANTISSA_MASK};
impl F32 {
    pub fn fract(self) -> Self {
        let x_bits = self.to_bits();
        let exponent = self.extract_exponent_value();
        if exponent < 0 {
            return self;
        }
        let fractional_part = x_bits.overflowing_shl(exponent as u32).0 & MANTISSA_MASK;
        if fractional_part == 0 {
            return Self(0.0).copysign(self);
        }
        let exponent_shift: u32 = (fractional_part.leading_zeros() - (32 - MANTISSA_BITS)) + 1;
        let fractional_normalized: u32 =
            fractional_part.overflowing_shl(exponent_shift).0 & MANTISSA_MASK;
        let new_exponent_bits = (EXPONENT_BIAS - (exponent_shift))
            .overflowing_shl(MANTISSA_BITS)
            .0;
        Self::from_bits(fractional_normalized | new_exponent_bits).copysign(self)
    }
}
".

(** src/float/hypot.rs *)
Definition src_float_hypot : string := "use super::F32;
impl F32 {
    pub fn hypot(self, rhs: Self) -> Self {
        (self * self + rhs * rhs).sqrt()
    }
}
".

(** src/float/inv.rs *)
Definition src_float_inv : string := "use super::F32;
impl F32 {
    #[doc(alias = ""recip"")]
    pub fn inv(self) -> Self {
        match 0x7f00_0000_u32.checked_sub(self.0.to_bits()) {
            Some(result) => Self(f32::from_bits(result)),
            None => {
                if self.0.is_infinite() {
                    if self.0.is_sign_positive() {
                        Self(0.0)
                    } else {
                        Self(-0.0)
                    }
                } else if self.0.is_nan() {
                    Self(f32::NAN)
                } else {
                    Self(0.0)
                }
            }
        }
    }
}
".

(** src/float/invsqrt.rs *)
Definition src_float_invsqrt : string := "use super::F32;
impl F32 {
    pub fn invsqrt(self) -> Self {
        Self::from_bits(0x5f37_5a86 - (self.to_bits() >> 1))
    }
}
".

(** src/float/ln.rs *)
Definition src_float_ln : string := "use super::{EXPONENT_MASK, F32};
use core::f32::consts::LN_2;
impl F32 {
    #[allow(clippy::excessive_precision)]
    pub fn ln(self) -> Self {
        if (self - Self::ONE).abs() < f32::EPSILON {
            return Self::ZERO;
        }
        let x_less_than_1 = self < 1.0;
        let x_working = if x_less_than_1 { self.inv() } else { self };
        let base2_exponent = x_working.extract_exponent_value() as u32;
        let divisor = f32::from_bits(x_working.to_bits() & EXPONENT_MASK);
        let x_working = x_working / divisor;
        let ln_1to2_polynomial = -1.741_793_9
            + (2.821_202_6
                + (-1.469_956_8 + (0.447_179_55 - 0.056_570_851 * x_working) * x_working)
                    * x_working)
                * x_working;
        let result = (base2_exponent as f32) * LN_2 + ln_1to2_polynomial;
        if x_less_than_1 {
            -result
        } else {
            result
        }
    }
}
".

(** src/float/log.rs *)
Definition src_float_log : string := "use super::F32;
impl F32 {
    pub fn log(self, base: Self) -> Self {
        (Self::ONE / base.ln()) * self.ln()
    }
}
".

(** src/float/log10.rs *)
Definition src_float_log10 : string := "use super::F32;
use core::f32::consts::LOG10_E;
impl F32 {
    pub fn log10(self) -> Self {
        self.ln() * LOG10_E
    }
}
".

(** src/float/log2.rs *)
Definition src_float_log2 : string := "use super::F32;
use core::f32::consts::LOG2_E;
impl F32 {
    pub fn log2(self) -> Self {
        self.ln() * LOG2_E
    }
}
".

(** src/float/mul_add.rs *)
Definition src_float_mul_add : string := "use super::F32;
impl F32 {
    pub fn mul_add(self, a: Self, b: Self) -> Self {
        self * a + b
    }
}
".

(** src/float/powf.rs *)
Definition src_float_powf : string := "use super::F32;
impl F32 {
    pub fn powf(self, n: Self) -> Self {
        if self >= Self::ZERO {
            (n * self.ln()).exp()
        } else if !n.is_integer() {
            Self::NAN
        } else if n.is_even() {
            (n * self.without_sign().ln()).exp()
        } else {
            -(n * self.without_sign().ln()).exp()
        }
    }
}
".

(** src/float/powi.rs *)
Definition src_float_powi : string := "use super::{F32, MANTISSA_BITS};
impl F32 {
    pub fn powi(self, n: i32) -> Self {
        let mut base = self;
        let mut abs_n = i32::abs(n);
        let mut result = 1.0;
        if n < 0 {
            base = 1.0 / self;
        }
        if n == 0 {
            return Self::ONE;
        }
        if self == Self::ZERO && n > 0 {
            return self;
        }
        if !(0.5..2.0).contains(&self.abs().0) {
            let approx_final_exponent = self.extract_exponent_value() * n;
            let max_representable_exponent = 127;
            let min_representable_exponent = -126 - (MANTISSA_BITS as i32);
            if approx_final_exponent > max_representable_exponent
                || (self == Self::ZERO && approx_final_exponent < 0)
            {
                if self.is_sign_positive() || n & 1 == 0 {
                    return Self::INFINITY;
                } else {
                    return Self::NEG_INFINITY;
                }
            } else if approx_final_exponent < min_representable_exponent {
                return Self::ZERO;
            }
        }
        loop {
            if (abs_n & 1) == 1 {
                result *= base;
            }
            abs_n >>= 1;
            if abs_n == 0 {
                return Self(result);
            }
            base *= base;
        }
    }
}
".

(** src/float/recip.rs *)
Definition src_float_recip : string := "use super::F32;
impl F32 {
    pub fn recip(self) -> Self {
        let mut x = self;
        let sx = if x < 0.0 { F32(-1.0) } else { F32(1.0) };
        x *= sx;
        let mut v = F32(f32::from_bits(0x7EF1_27EAu32.wrapping_sub(x.to_bits())));
        let w = x * v;
        v.0 *=
            8.0 + w * (-28.0 + w * (56.0 + w * (-70.0 + w * (56.0 + w * (-28.0 + w * (8.0 - w))))));
        v.0 * sx
    }
}
".

(** src/float/rem_euclid.rs *)
Definition src_float_rem_euclid : string := "use super::F32;
impl F32 {
    pub fn rem_euclid(self, rhs: Self) -> Self {
        let r = self % rhs;
        if r >= Self::ZERO {
            r
        } else {
            r + rhs.abs()
        }
    }
}
".

(** src/float/round.rs *)
Definition src_float_round : string := "use super::F32;
impl F32 {
    pub fn round(self) -> Self {
        Self(((self.0 + Self(0.5).copysign(self).0) as i32) as f32)
    }
}
".

(** src/float/signum.rs *)
Definition src_float_signum : string := "use super::F32;
impl F32 {
    pub fn signum(self) -> Self {
        if self.is_nan() {
            Self::NAN
        } else {
            F32(1.0).copysign(self)
        }
    }
}
".

(** src/float/sin.rs *)
Definition src_float_sin : string := "use super::F32;
use core::f32::consts::PI;
impl F32 {
    pub fn sin(self) -> Self {
        (self - PI / 2.0).cos()
    }
}
".

(** src/float/sin_cos.rs *)
Definition src_float_sin_cos : string := "use super::F32;
impl F32 {
    pub fn sin_cos(self) -> (Self, Self) {
        (self.sin(), self.cos())
    }
}
".

(** src/float/sqrt.rs *)
Definition src_float_sqrt : string := "use super::F32;
impl F32 {
    pub fn sqrt(self) -> Self {
        if self >= Self::ZERO {
            Self::from_bits((self.to_bits() + 0x3f80_0000) >> 1)
        } else {
            Self::NAN
        }
    }
}
".

(** src/float/tan.rs *)
Definition src_float_tan : string := "use super::F32;
impl F32 {
    pub fn tan(self) -> Self {
        self.sin() / self.cos()
    }
}
".

(** src/float/trunc.rs *)
Definition src_float_trunc : string := "use super::{F32, MANTISSA_MASK};
impl F32 {
    pub fn trunc(self) -> Self {
        let x_bits = self.to_bits();
        let exponent = self.extract_exponent_value();
        if exponent < 0 {
            return F32::ZERO.copysign(self);
        }
        let exponent_clamped = i32::max(exponent, 0) as u32;
        let fractional_part = x_bits.overflowing_shl(exponent_clamped).0 & MANTISSA_MASK;
        if fractional_part == 0_u32 {
            return self;
        }
        let fractional_mask = fractional_part.overflowing_shr(exponent_clamped).0;
        Self::from_bits(x_bits & !fractional_mask)
    }
}
".

Definition sources : list string :=
  [ src_float;
    src_float_abs;
    src_float_acos;
    src_float_asin;
    src_float_atan;
    src_float_atan2;
    src_float_ceil;
    src_float_copysign;
    src_float_cos;
    src_float_cosh;
    src_float_div_euclid;
    src_float_exp;
    src_float_floor;
    src_float_fract;
    src_float_hypot;
    src_float_inv;
    src_float_invsqrt;
    src_float_ln;
    src_float_log;
    src_float_log10;
    src_float_log2;
    src_float_mul_add;
    src_float_powf;
    src_float_powi;
    src_float_recip;
    src_float_rem_euclid;
    src_float_round;
    src_float_signum;
    src_float_sin;
    src_float_sin_cos;
    src_float_sqrt;
    src_float_tan;
    src_float_trunc ].
