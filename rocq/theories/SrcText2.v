(** * Text of the files other than src/float.rs and src/float/*.rs

    Written by tools/gen_src.py, which copies the files and leaves out comment
    lines, blank lines and the test modules; quotes are doubled, as Coq asks. *)

From Coq Require Import String List.
Import ListNotations.
Open Scope string_scope.

(** src/f32ext.rs *)
Definition src_f32ext : string := "use crate::float::F32;
pub trait F32Ext: Sized {
    fn abs(self) -> f32;
    fn acos(self) -> f32;
    fn asin(self) -> f32;
    fn atan(self) -> f32;
    fn atan_norm(self) -> f32;
    fn atan2(self, other: f32) -> f32;
    fn atan2_norm(self, other: f32) -> f32;
    fn ceil(self) -> f32;
    fn copysign(self, sign: f32) -> f32;
    fn cos(self) -> f32;
    fn div_euclid(self, other: f32) -> f32;
    fn exp(self) -> f32;
    fn floor(self) -> f32;
    fn fract(self) -> f32;
    fn hypot(self, other: f32) -> f32;
    fn inv(self) -> f32;
    fn invsqrt(self) -> f32;
    fn ln(self) -> f32;
    fn log(self, base: f32) -> f32;
    fn log2(self) -> f32;
    fn log10(self) -> f32;
    fn mul_add(self, a: f32, b: f32) -> f32;
    fn powf(self, n: f32) -> f32;
    fn powi(self, n: i32) -> f32;
    fn recip(self) -> f32;
    fn rem_euclid(self, other: f32) -> f32;
    fn round(self) -> f32;
    fn signum(self) -> f32;
    fn sin(self) -> f32;
    fn sin_cos(self) -> (f32, f32);
    fn sqrt(self) -> f32;
    fn tan(self) -> f32;
    fn trunc(self) -> f32;
}
impl F32Ext for f32 {
    #[inline]
    fn abs(self) -> f32 {
        F32(self).abs().0
    }
    #[inline]
    fn acos(self) -> f32 {
        F32(self).acos().0
    }
    #[inline]
    fn asin(self) -> f32 {
        F32(self).asin().0
    }
    #[inline]
    fn atan(self) -> f32 {
        F32(self).atan().0
    }
    #[inline]
    fn atan_norm(self) -> f32 {
        F32(self).atan_norm().0
    }
    #[inline]
    fn atan2(self, other: f32) -> f32 {
        F32(self).atan2(F32(other)).0
    }
    #[inline]
    fn atan2_norm(self, other: f32) -> f32 {
        F32(self).atan2_norm(F32(other)).0
    }
    #[inline]
    fn ceil(self) -> f32 {
        F32(self).ceil().0
    }
    #[inline]
    fn copysign(self, sign: f32) -> f32 {
        F32(self).copysign(F32(sign)).0
    }
    #[inline]
    fn cos(self) -> f32 {
        F32(self).cos().0
    }
    #[inline]
    fn div_euclid(self, other: f32) -> f32 {
        F32(self).div_euclid(F32(other)).0
    }
    #[inline]
    fn exp(self) -> f32 {
        F32(self).exp().0
    }
    #[inline]
    fn floor(self) -> f32 {
        F32(self).floor().0
    }
    #[inline]
    fn fract(self) -> f32 {
        F32(self).fract().0
    }
    #[inline]
    fn hypot(self, other: f32) -> f32 {
        F32(self).hypot(other.into()).0
    }
    #[inline]
    fn inv(self) -> f32 {
        F32(self).inv().0
    }
    #[inline]
    fn invsqrt(self) -> f32 {
        F32(self).invsqrt().0
    }
    #[inline]
    fn ln(self) -> f32 {
        F32(self).ln().0
    }
    #[inline]
    fn log(self, base: f32) -> f32 {
        F32(self).log(F32(base)).0
    }
    #[inline]
    fn log2(self) -> f32 {
        F32(self).log2().0
    }
    #[inline]
    fn log10(self) -> f32 {
        F32(self).log10().0
    }
    #[inline]
    fn mul_add(self, a: f32, b: f32) -> f32 {
        F32(self).mul_add(F32(a), F32(b)).0
    }
    #[inline]
    fn powf(self, n: f32) -> f32 {
        F32(self).powf(F32(n)).0
    }
    #[inline]
    fn powi(self, n: i32) -> f32 {
        F32(self).powi(n).0
    }
    #[inline]
    fn recip(self) -> f32 {
        F32(self).recip().0
    }
    #[inline]
    fn rem_euclid(self, other: f32) -> f32 {
        F32(self).rem_euclid(F32(other)).0
    }
    #[inline]
    fn round(self) -> f32 {
        F32(self).round().0
    }
    #[inline]
    fn signum(self) -> f32 {
        F32(self).signum().0
    }
    #[inline]
    fn sin(self) -> f32 {
        F32(self).sin().0
    }
    #[inline]
    fn sin_cos(self) -> (f32, f32) {
        (F32(self).sin().0, F32(self).cos().0)
    }
    #[inline]
    fn sqrt(self) -> f32 {
        F32(self).sqrt().0
    }
    #[inline]
    fn tan(self) -> f32 {
        F32(self).tan().0
    }
    #[inline]
    fn trunc(self) -> f32 {
        F32(self).trunc().0
    }
}
".

(** src/lib.rs *)
Definition src_lib : string := "#![no_std]
#![cfg_attr(docsrs, feature(doc_cfg))]
#![doc(
    html_logo_url = ""https://raw.githubusercontent.com/tarcieri/micromath/main/img/micromath-sq.png"",
    html_root_url = ""https://docs.rs/micromath/2.0.0""
)]
#![forbid(unsafe_code)]
#![warn(
    missing_docs,
    rust_2018_idioms,
    trivial_casts,
    trivial_numeric_casts,
    unused_qualifications
)]
#[cfg(feature = ""statistics"")]
#[cfg_attr(docsrs, doc(cfg(feature = ""statistics"")))]
pub mod statistics;
#[cfg(feature = ""vector"")]
#[cfg_attr(docsrs, doc(cfg(feature = ""vector"")))]
pub mod vector;
mod f32ext;
mod float;
#[cfg(feature = ""quaternion"")]
mod quaternion;
pub use crate::{f32ext::F32Ext, float::F32};
#[cfg(feature = ""quaternion"")]
pub use crate::quaternion::Quaternion;
#[cfg(feature = ""num-traits"")]
#[cfg_attr(docsrs, doc(cfg(feature = ""num-traits"")))]
pub use num_traits;
".

(** src/quaternion.rs *)
Definition src_quaternion : string := "use crate::F32;
use core::ops::{Add, AddAssign, Mul, MulAssign, Sub, SubAssign};
#[cfg(feature = ""vector"")]
use crate::vector::{Component, F32x3, Vector3d};
#[cfg_attr(docsrs, doc(cfg(feature = ""quaternion"")))]
#[derive(Clone, Copy, Debug, PartialEq)]
pub struct Quaternion(f32, f32, f32, f32);
impl Quaternion {
    pub const IDENTITY: Self = Self(1.0, 0.0, 0.0, 0.0);
    pub const fn new(a: f32, b: f32, c: f32, d: f32) -> Self {
        Self(a, b, c, d)
    }
    #[cfg(feature = ""vector"")]
    pub fn from_two_vectors<C>(u: Vector3d<C>, v: Vector3d<C>) -> Self
    where
        C: Component + Into<f32>,
    {
        let n_uv = F32(u.dot(u).into() * v.dot(v).into()).sqrt();
        let mut realpart = n_uv + u.dot(v).into();
        let w = if realpart < 1e-6 * n_uv {
            realpart = F32(0.);
            if F32(u.x.into()).abs() > F32(u.z.into()).abs() {
                Vector3d {
                    x: -u.y.into(),
                    y: u.x.into(),
                    z: 0.,
                }
            } else {
                Vector3d {
                    x: 0.,
                    y: -u.z.into(),
                    z: u.y.into(),
                }
            }
        } else {
            F32x3 {
                x: u.x.into(),
                y: u.y.into(),
                z: u.z.into(),
            } * F32x3 {
                x: v.x.into(),
                y: v.y.into(),
                z: v.z.into(),
            }
        };
        let q = Quaternion(realpart.0, w.x, w.y, w.z);
        let n = F32(q.norm()).invsqrt();
        q * n.0
    }
    pub fn conj(self) -> Self {
        Quaternion(self.0, -self.1, -self.2, -self.3)
    }
    pub fn dot(self, rhs: Self) -> f32 {
        self.0 * rhs.0 + self.1 * rhs.1 + self.2 * rhs.2 + self.3 * rhs.3
    }
    pub fn inv(self) -> Self {
        let norm = self.norm();
        assert_ne!(norm, 0.0, ""quaternion norm is zero"");
        self.conj() * F32(norm).inv().0
    }
    pub fn magnitude(self) -> f32 {
        F32(self.norm()).sqrt().0
    }
    pub fn norm(self) -> f32 {
        self.0 * self.0 + self.1 * self.1 + self.2 * self.2 + self.3 * self.3
    }
    #[cfg_attr(docsrs, doc(cfg(feature = ""vector"")))]
    pub fn axis_angle<C>(v: Vector3d<C>, theta: C) -> Self
    where
        C: Component + Into<f32>,
    {
        let half_theta = F32(theta.into() * 0.5);
        let v = F32x3 {
            x: v.x.into(),
            y: v.y.into(),
            z: v.z.into(),
        } * half_theta.sin().0;
        Self(half_theta.cos().0, v.x, v.y, v.z)
    }
    #[cfg_attr(docsrs, doc(cfg(feature = ""vector"")))]
    pub fn rotate<C>(self, v: Vector3d<C>) -> F32x3
    where
        C: Component + Into<f32>,
    {
        let Quaternion(qw, qx, qy, qz) = self;
        let qwsq = qw * qw;
        let qxsq = qx * qx;
        let qysq = qy * qy;
        let qzsq = qz * qz;
        let x = (qwsq + qxsq - qysq - qzsq) * v.x.into()
            + (2. * (qx * qy - qw * qz)) * v.y.into()
            + (2. * (qx * qz + qw * qy)) * v.z.into();
        let y = (2. * (qx * qy + qw * qz)) * v.x.into()
            + (qwsq - qxsq + qysq - qzsq) * v.y.into()
            + (2. * (qy * qz - qw * qx)) * v.z.into();
        let z = (2. * (qx * qz - qw * qy)) * v.x.into()
            + (2. * (qy * qz + qw * qx)) * v.y.into()
            + (qwsq - qxsq - qysq + qzsq) * v.z.into();
        F32x3 { x, y, z }
    }
    pub fn scale<S>(self, scalar: S) -> Self
    where
        S: Into<f32>,
    {
        let k = scalar.into();
        Self(self.0 * k, self.1 * k, self.2 * k, self.3 * k)
    }
    pub fn normalize(self) -> Self {
        let norm = self.norm();
        assert_ne!(norm, 0.0, ""quaternion norm is zero"");
        let n = F32(norm).invsqrt();
        self.scale(n)
    }
    pub fn to_euler(&self) -> (f32, f32, f32) {
        let r = F32(2. * (self.0 * self.1 + self.2 * self.3))
            .atan2(F32(1. - 2. * (self.1 * self.1 + self.2 * self.2)));
        let p = F32(2. * (self.0 * self.2 - self.1 * self.3)).asin();
        let y = F32(2. * (self.0 * self.3 + self.1 * self.2))
            .atan2(F32(1. - 2. * (self.2 * self.2 + self.3 * self.3)));
        (r.0, p.0, y.0)
    }
    pub fn to_array(&self) -> [f32; 4] {
        [self.0, self.1, self.2, self.3]
    }
    pub fn w(&self) -> f32 {
        self.0
    }
    pub fn x(&self) -> f32 {
        self.1
    }
    pub fn y(&self) -> f32 {
        self.2
    }
    pub fn z(&self) -> f32 {
        self.3
    }
}
impl Add for Quaternion {
    type Output = Self;
    fn add(self, rhs: Self) -> Self {
        Self(
            self.0 + rhs.0,
            self.1 + rhs.1,
            self.2 + rhs.2,
            self.3 + rhs.3,
        )
    }
}
impl AddAssign for Quaternion {
    fn add_assign(&mut self, rhs: Self) {
        *self = *self + rhs;
    }
}
impl Default for Quaternion {
    fn default() -> Self {
        Self::IDENTITY
    }
}
impl From<(f32, f32, f32, f32)> for Quaternion {
    fn from(q: (f32, f32, f32, f32)) -> Quaternion {
        Self::new(q.0, q.1, q.2, q.3)
    }
}
impl From<Quaternion> for (f32, f32, f32, f32) {
    fn from(q: Quaternion) -> (f32, f32, f32, f32) {
        (q.0, q.1, q.2, q.3)
    }
}
impl From<[f32; 4]> for Quaternion {
    fn from(q: [f32; 4]) -> Quaternion {
        Self::new(q[0], q[1], q[2], q[3])
    }
}
impl From<Quaternion> for [f32; 4] {
    fn from(q: Quaternion) -> [f32; 4] {
        q.to_array()
    }
}
impl Mul for Quaternion {
    type Output = Self;
    fn mul(self, other: Self) -> Self {
        Self(
            self.0 * other.0 - self.1 * other.1 - self.2 * other.2 - self.3 * other.3,
            self.0 * other.1 + self.1 * other.0 + self.2 * other.3 - self.3 * other.2,
            self.0 * other.2 - self.1 * other.3 + self.2 * other.0 + self.3 * other.1,
            self.0 * other.3 + self.1 * other.2 - self.2 * other.1 + self.3 * other.0,
        )
    }
}
impl Mul<f32> for Quaternion {
    type Output = Self;
    fn mul(self, k: f32) -> Self {
        self.scale(k)
    }
}
impl Mul<Quaternion> for f32 {
    type Output = Quaternion;
    fn mul(self, q: Quaternion) -> Quaternion {
        q.scale(self)
    }
}
impl MulAssign<f32> for Quaternion {
    fn mul_assign(&mut self, k: f32) {
        *self = *self * k;
    }
}
impl Sub for Quaternion {
    type Output = Self;
    fn sub(self, rhs: Self) -> Self {
        Self(
            self.0 - rhs.0,
            self.1 - rhs.1,
            self.2 - rhs.2,
            self.3 - rhs.3,
        )
    }
}
impl SubAssign for Quaternion {
    fn sub_assign(&mut self, rhs: Self) {
        *self = *self - rhs;
    }
}
#[cfg(feature = ""vector"")]
#[cfg_attr(docsrs, doc(cfg(feature = ""vector"")))]
impl<C> From<Vector3d<C>> for Quaternion
where
    C: Component + Into<f32>,
{
    fn from(v: Vector3d<C>) -> Quaternion {
        Self(0.0, v.x.into(), v.y.into(), v.z.into())
    }
}
#[cfg(feature = ""vector"")]
#[cfg_attr(docsrs, doc(cfg(feature = ""vector"")))]
impl<C> Mul<Vector3d<C>> for Quaternion
where
    C: Component + Into<f32>,
{
    type Output = F32x3;
    fn mul(self, v: Vector3d<C>) -> F32x3 {
        self.rotate(v)
    }
}
#[cfg(feature = ""defmt"")]
#[cfg_attr(docsrs, doc(cfg(feature = ""defmt"")))]
impl defmt::Format for Quaternion {
    fn format(&self, fmt: defmt::Formatter<'_>) {
        defmt::write!(fmt, ""({}, {}, {}, {})"", self.0, self.1, self.2, self.3)
    }
}
".

(** src/statistics.rs *)
Definition src_statistics : string := "mod mean;
mod stddev;
pub mod trim;
mod variance;
pub use self::{mean::Mean, stddev::StdDev, trim::Trim, variance::Variance};
".

(** src/statistics/mean.rs *)
Definition src_statistics_mean : string := "pub trait Mean {
    type Result;
    fn mean(self) -> Self::Result;
}
impl<I> Mean for I
where
    I: Iterator<Item = f32>,
{
    type Result = f32;
    fn mean(self) -> f32 {
        let mut num_items = 0;
        let mut sum = 0.0;
        for item in self {
            num_items += 1;
            sum += item;
        }
        sum / (num_items as f32)
    }
}
".

(** src/statistics/stddev.rs *)
Definition src_statistics_stddev : string := "use super::variance::Variance;
#[allow(unused_imports)]
use crate::F32Ext;
pub trait StdDev {
    type Result;
    fn stddev(self) -> Self::Result;
}
impl<T> StdDev for &[T]
where
    T: Copy + Into<f32>,
{
    type Result = f32;
    fn stddev(self) -> f32 {
        self.variance().sqrt()
    }
}
".

(** src/statistics/trim.rs *)
Definition src_statistics_trim : string := "use super::mean::Mean;
#[allow(unused_imports)]
use crate::F32Ext;
use core::{iter, slice};
pub const DEFAULT_THRESHOLD: f32 = 2.0;
pub trait Trim {
    type Result: Copy + Into<f32>;
    fn trim(&self) -> Iter<'_, Self::Result> {
        self.trim_at(DEFAULT_THRESHOLD)
    }
    fn trim_at(&self, threshold: f32) -> Iter<'_, Self::Result>;
}
impl<N> Trim for &[N]
where
    N: Copy,
    f32: From<N>,
{
    type Result = N;
    fn trim_at(&self, threshold: f32) -> Iter<'_, Self::Result> {
        Iter::new(self, threshold)
    }
}
pub struct Iter<'a, N: Copy> {
    input: iter::Cloned<slice::Iter<'a, N>>,
    mean: f32,
    stddev: f32,
    threshold: f32,
}
impl<'a, N> Iter<'a, N>
where
    N: Copy,
    f32: From<N>,
{
    pub fn new(input: &'a [N], threshold: f32) -> Self {
        let len = input.len() as f32;
        let input = input.iter().cloned();
        let input_f32 = input.clone().map(f32::from);
        let mean = input_f32.clone().mean();
        let sum = input_f32.fold(0.0, |sum, n| {
            let n = n - mean;
            sum + n * n
        });
        let variance = sum / (len - 1.0);
        let stddev = variance.sqrt();
        Self {
            input,
            mean,
            stddev,
            threshold,
        }
    }
}
impl<'a, N> Iterator for Iter<'a, N>
where
    N: Copy,
    f32: From<N>,
{
    type Item = N;
    fn next(&mut self) -> Option<N> {
        while let Some(n) = self.input.next() {
            let distance = (f32::from(n) - self.mean).abs();
            if (distance / self.stddev) < self.threshold {
                return Some(n);
            }
        }
        None
    }
}
".

(** src/statistics/variance.rs *)
Definition src_statistics_variance : string := "use super::mean::Mean;
pub trait Variance {
    type Result;
    fn variance(self) -> Self::Result;
}
impl<T> Variance for &[T]
where
    T: Copy + Into<f32>,
{
    type Result = f32;
    fn variance(self) -> f32 {
        let mean = self.iter().map(|n| (*n).into()).mean();
        let mut sum = 0.0;
        for item in self {
            let n = (*item).into() - mean;
            sum += n * n;
        }
        sum / (self.len() as f32 - 1.0)
    }
}
".

(** src/vector.rs *)
Definition src_vector : string := "mod commutative;
mod component;
mod iter;
mod vector2d;
mod vector3d;
pub use self::{
    component::Component,
    iter::Iter,
    vector2d::{F32x2, I16x2, I32x2, I8x2, U16x2, U32x2, U8x2, Vector2d},
    vector3d::{F32x3, I16x3, I32x3, I8x3, U16x3, U32x3, U8x3, Vector3d},
};
use core::{fmt::Debug, iter::FromIterator};
#[allow(unused_imports)]
use crate::F32Ext;
pub trait Vector<C>: Copy + Debug + Default + FromIterator<C> + Send + Sync
where
    C: Component,
{
    const AXES: usize;
    fn get(self, index: usize) -> Option<C>;
    fn dot(self, rhs: Self) -> C;
    fn from_slice(slice: &[C]) -> Self {
        Self::from_iter(slice.iter().cloned())
    }
    fn iter(&self) -> Iter<'_, Self, C> {
        Iter::new(self)
    }
    fn distance(self, rhs: Self) -> f32
    where
        C: Into<f32>,
    {
        let differences = self
            .iter()
            .zip(rhs.iter())
            .map(|(a, b)| a.into() - b.into());
        differences.map(|n| n * n).sum::<f32>().sqrt()
    }
    fn magnitude_sq(self) -> C
    where
        C: core::iter::Sum,
    {
        self.iter().map(|n| n * n).sum()
    }
    fn magnitude(self) -> f32
    where
        C: Into<f32>,
    {
        self.iter()
            .map(|n| {
                let n = n.into();
                n * n
            })
            .sum::<f32>()
            .sqrt()
    }
    fn normalized(mut self) -> Self
    where
        Self: FromIterator<C>,
        C: Into<f32> + From<f32>,
    {
        let norm = self.magnitude();
        self.map(|n| C::from(n.into() / norm))
    }
    fn map<F>(&mut self, map: F) -> Self
    where
        F: FnMut(C) -> C,
    {
        Self::from_iter(self.iter().map(map))
    }
}
".

(** src/vector/commutative.rs *)
Definition src_vector_commutative : string := "macro_rules! impl_commutative {
    ($vector:ident, $component:ident) => {
        impl Mul<$vector<$component>> for $component {
            type Output = $vector<$component>;
            fn mul(self, rhs: $vector<$component>) -> Self::Output {
                rhs.mul(self)
            }
        }
    };
}
pub(crate) use impl_commutative;
".

(** src/vector/component.rs *)
Definition src_vector_component : string := "use crate::F32;
use core::{
    fmt::Debug,
    ops::{Add, Div, Mul, Sub},
};
pub trait Component:
    Copy
    + Debug
    + Default
    + PartialEq
    + PartialOrd
    + Send
    + Sized
    + Sync
    + Add<Output = Self>
    + Sub<Output = Self>
    + Mul<Output = Self>
    + Div<Output = Self>
{
}
impl Component for i8 {}
impl Component for i16 {}
impl Component for i32 {}
impl Component for u8 {}
impl Component for u16 {}
impl Component for u32 {}
impl Component for f32 {}
impl Component for F32 {}
".

(** src/vector/iter.rs *)
Definition src_vector_iter : string := "use super::{Component, Vector};
use core::marker::PhantomData;
#[derive(Clone, Debug)]
pub struct Iter<'a, V, C>
where
    V: Vector<C>,
    C: Component,
{
    vector: &'a V,
    position: usize,
    component: PhantomData<C>,
}
impl<'a, V, C> Iter<'a, V, C>
where
    V: Vector<C>,
    C: Component,
{
    pub(super) fn new(vector: &'a V) -> Self {
        Self {
            vector,
            position: 0,
            component: PhantomData,
        }
    }
}
impl<'a, V, C> Iterator for Iter<'a, V, C>
where
    V: Vector<C>,
    C: Component,
{
    type Item = C;
    fn next(&mut self) -> Option<C> {
        let item = self.vector.get(self.position);
        if item.is_some() {
            self.position += 1;
        }
        item
    }
}
".

(** src/vector/vector2d.rs *)
Definition src_vector_vector2d : string := "use super::{Component, Vector, Vector3d};
use crate::vector::commutative::impl_commutative;
use crate::F32;
use core::ops::{Div, DivAssign};
use core::{
    iter::{FromIterator, Sum},
    ops::{Add, AddAssign, Index, Mul, MulAssign, Sub, SubAssign},
};
pub type I8x2 = Vector2d<i8>;
pub type I16x2 = Vector2d<i16>;
pub type I32x2 = Vector2d<i32>;
pub type U8x2 = Vector2d<u8>;
pub type U16x2 = Vector2d<u16>;
pub type U32x2 = Vector2d<u32>;
pub type F32x2 = Vector2d<f32>;
impl_commutative!(Vector2d, i8);
impl_commutative!(Vector2d, i16);
impl_commutative!(Vector2d, i32);
impl_commutative!(Vector2d, u8);
impl_commutative!(Vector2d, u16);
impl_commutative!(Vector2d, u32);
impl_commutative!(Vector2d, f32);
impl_commutative!(Vector2d, F32);
#[derive(Copy, Clone, Debug, Default, PartialEq)]
pub struct Vector2d<C: Component> {
    pub x: C,
    pub y: C,
}
impl<C> Vector2d<C>
where
    C: Component,
{
    pub fn to_array(&self) -> [C; 2] {
        [self.x, self.y]
    }
    pub fn dot(self, rhs: Self) -> C {
        (self.x * rhs.x) + (self.y * rhs.y)
    }
    pub fn perpendicular_dot(self, rhs: Self) -> C {
        (self.x * rhs.y) - (self.y * rhs.x)
    }
    pub fn cross(&self, rhs: Self) -> Vector3d<C> {
        Vector3d::from(*self) * Vector3d::from(rhs)
    }
}
impl<C> FromIterator<C> for Vector2d<C>
where
    C: Component,
{
    fn from_iter<T>(into_iter: T) -> Self
    where
        T: IntoIterator<Item = C>,
    {
        let mut iter = into_iter.into_iter();
        let x = iter.next().expect(""no x-axis component in slice"");
        let y = iter.next().expect(""no y-axis component in slice"");
        assert!(
            iter.next().is_none(),
            ""too many items for 2-dimensional vector""
        );
        Self { x, y }
    }
}
impl<C> Vector<C> for Vector2d<C>
where
    C: Component,
{
    const AXES: usize = 2;
    fn get(self, index: usize) -> Option<C> {
        match index {
            0 => Some(self.x),
            1 => Some(self.y),
            _ => None,
        }
    }
    fn dot(self, rhs: Self) -> C {
        self.dot(rhs)
    }
}
impl<C> From<(C, C)> for Vector2d<C>
where
    C: Component,
{
    fn from(vector: (C, C)) -> Self {
        Self {
            x: vector.0,
            y: vector.1,
        }
    }
}
impl<C> From<Vector2d<C>> for (C, C)
where
    C: Component,
{
    fn from(vector: Vector2d<C>) -> (C, C) {
        (vector.x, vector.y)
    }
}
impl<C> From<[C; 2]> for Vector2d<C>
where
    C: Component,
{
    fn from(vector: [C; 2]) -> Self {
        Self {
            x: vector[0],
            y: vector[1],
        }
    }
}
impl<C> From<Vector2d<C>> for [C; 2]
where
    C: Component,
{
    fn from(vector: Vector2d<C>) -> [C; 2] {
        vector.to_array()
    }
}
impl<C> Index<usize> for Vector2d<C>
where
    C: Component,
{
    type Output = C;
    fn index(&self, i: usize) -> &C {
        match i {
            0 => &self.x,
            1 => &self.y,
            _ => panic!(""index out of range""),
        }
    }
}
impl<C> Add for Vector2d<C>
where
    C: Component,
{
    type Output = Self;
    fn add(self, rhs: Self) -> Self {
        Self {
            x: self.x + rhs.x,
            y: self.y + rhs.y,
        }
    }
}
impl<C> AddAssign for Vector2d<C>
where
    C: Component,
{
    fn add_assign(&mut self, other: Self) {
        *self = *self + other;
    }
}
impl<C> Sub for Vector2d<C>
where
    C: Component,
{
    type Output = Self;
    fn sub(self, rhs: Self) -> Self {
        Self {
            x: self.x - rhs.x,
            y: self.y - rhs.y,
        }
    }
}
impl<C> SubAssign for Vector2d<C>
where
    C: Component,
{
    fn sub_assign(&mut self, other: Self) {
        *self = *self - other;
    }
}
impl<C> Mul<C> for Vector2d<C>
where
    C: Component,
{
    type Output = Self;
    fn mul(self, rhs: C) -> Self {
        Self {
            x: self.x * rhs,
            y: self.y * rhs,
        }
    }
}
impl<C> Mul<Vector2d<C>> for Vector2d<C>
where
    C: Component,
{
    type Output = Vector3d<C>;
    fn mul(self, rhs: Vector2d<C>) -> Vector3d<C> {
        self.cross(rhs)
    }
}
impl<C> MulAssign<C> for Vector2d<C>
where
    C: Component,
{
    fn mul_assign(&mut self, rhs: C) {
        *self = *self * rhs;
    }
}
impl<C> Div<C> for Vector2d<C>
where
    C: Component,
{
    type Output = Self;
    fn div(self, rhs: C) -> Self {
        Self {
            x: self.x / rhs,
            y: self.y / rhs,
        }
    }
}
impl<C> DivAssign<C> for Vector2d<C>
where
    C: Component,
{
    fn div_assign(&mut self, rhs: C) {
        self.x = self.x / rhs;
        self.y = self.y / rhs;
    }
}
impl<C> Sum<Vector2d<C>> for Vector2d<C>
where
    C: Component,
{
    fn sum<I: Iterator<Item = Vector2d<C>>>(iter: I) -> Self {
        iter.fold(Vector2d::default(), |prev, current| prev + current)
    }
}
impl<'a, C> Sum<&'a Vector2d<C>> for Vector2d<C>
where
    C: Component + 'a,
{
    fn sum<I: Iterator<Item = &'a Vector2d<C>>>(iter: I) -> Self {
        iter.copied().sum()
    }
}
impl From<I8x2> for F32x2 {
    fn from(vector: I8x2) -> F32x2 {
        Self {
            x: vector.x.into(),
            y: vector.y.into(),
        }
    }
}
impl From<I16x2> for F32x2 {
    fn from(vector: I16x2) -> F32x2 {
        Self {
            x: vector.x.into(),
            y: vector.y.into(),
        }
    }
}
impl From<U8x2> for F32x2 {
    fn from(vector: U8x2) -> F32x2 {
        Self {
            x: vector.x.into(),
            y: vector.y.into(),
        }
    }
}
impl From<U16x2> for F32x2 {
    fn from(vector: U16x2) -> F32x2 {
        Self {
            x: vector.x.into(),
            y: vector.y.into(),
        }
    }
}
#[cfg(feature = ""defmt"")]
#[cfg_attr(docsrs, doc(cfg(feature = ""defmt"")))]
impl<C> defmt::Format for Vector2d<C>
where
    C: Component + defmt::Format,
{
    fn format(&self, fmt: defmt::Formatter<'_>) {
        defmt::write!(fmt, ""({}, {})"", self.x, self.y)
    }
}
".

(** src/vector/vector3d.rs *)
Definition src_vector_vector3d : string := "use super::{commutative::impl_commutative, Component, Vector, Vector2d};
use crate::F32;
use core::ops::{Div, DivAssign};
use core::{
    iter::{FromIterator, Sum},
    ops::{Add, AddAssign, Index, Mul, MulAssign, Sub, SubAssign},
};
pub type I8x3 = Vector3d<i8>;
pub type I16x3 = Vector3d<i16>;
pub type I32x3 = Vector3d<i32>;
pub type U8x3 = Vector3d<u8>;
pub type U16x3 = Vector3d<u16>;
pub type U32x3 = Vector3d<u32>;
pub type F32x3 = Vector3d<f32>;
impl_commutative!(Vector3d, i8);
impl_commutative!(Vector3d, i16);
impl_commutative!(Vector3d, i32);
impl_commutative!(Vector3d, u8);
impl_commutative!(Vector3d, u16);
impl_commutative!(Vector3d, u32);
impl_commutative!(Vector3d, f32);
impl_commutative!(Vector3d, F32);
#[derive(Copy, Clone, Debug, Default, PartialEq)]
pub struct Vector3d<C: Component> {
    pub x: C,
    pub y: C,
    pub z: C,
}
impl<C> Vector3d<C>
where
    C: Component,
{
    pub fn to_array(&self) -> [C; 3] {
        [self.x, self.y, self.z]
    }
    pub fn dot(self, rhs: Self) -> C {
        (self.x * rhs.x) + (self.y * rhs.y) + (self.z * rhs.z)
    }
    pub fn cross(&self, rhs: Self) -> Vector3d<C> {
        Self {
            x: (self.y * rhs.z) - (self.z * rhs.y),
            y: (self.z * rhs.x) - (self.x * rhs.z),
            z: (self.x * rhs.y) - (self.y * rhs.x),
        }
    }
}
impl<C> FromIterator<C> for Vector3d<C>
where
    C: Component,
{
    fn from_iter<T>(into_iter: T) -> Self
    where
        T: IntoIterator<Item = C>,
    {
        let mut iter = into_iter.into_iter();
        let x = iter.next().expect(""no x-axis component in slice"");
        let y = iter.next().expect(""no y-axis component in slice"");
        let z = iter.next().expect(""no z-axis component in slice"");
        assert!(
            iter.next().is_none(),
            ""too many items for 3-dimensional vector""
        );
        Self { x, y, z }
    }
}
impl<C> Vector<C> for Vector3d<C>
where
    C: Component,
{
    const AXES: usize = 3;
    fn get(self, index: usize) -> Option<C> {
        match index {
            0 => Some(self.x),
            1 => Some(self.y),
            2 => Some(self.z),
            _ => None,
        }
    }
    fn dot(self, rhs: Self) -> C {
        (self.x * rhs.x) + (self.y * rhs.y) + (self.z * rhs.z)
    }
}
impl<C> From<Vector2d<C>> for Vector3d<C>
where
    C: Component,
{
    fn from(vector: Vector2d<C>) -> Self {
        let zero = C::default();
        Self {
            x: vector.x,
            y: vector.y,
            z: zero,
        }
    }
}
impl<C> From<(C, C, C)> for Vector3d<C>
where
    C: Component,
{
    fn from(vector: (C, C, C)) -> Self {
        Self {
            x: vector.0,
            y: vector.1,
            z: vector.2,
        }
    }
}
impl<C> From<Vector3d<C>> for (C, C, C)
where
    C: Component,
{
    fn from(vector: Vector3d<C>) -> (C, C, C) {
        (vector.x, vector.y, vector.z)
    }
}
impl<C> From<[C; 3]> for Vector3d<C>
where
    C: Component,
{
    fn from(vector: [C; 3]) -> Self {
        Self {
            x: vector[0],
            y: vector[1],
            z: vector[2],
        }
    }
}
impl<C> From<Vector3d<C>> for [C; 3]
where
    C: Component,
{
    fn from(vector: Vector3d<C>) -> [C; 3] {
        vector.to_array()
    }
}
impl<C> Index<usize> for Vector3d<C>
where
    C: Component,
{
    type Output = C;
    fn index(&self, i: usize) -> &C {
        match i {
            0 => &self.x,
            1 => &self.y,
            2 => &self.z,
            _ => panic!(""index out of range""),
        }
    }
}
impl<C> Add for Vector3d<C>
where
    C: Component,
{
    type Output = Self;
    fn add(self, rhs: Self) -> Self {
        Self {
            x: self.x + rhs.x,
            y: self.y + rhs.y,
            z: self.z + rhs.z,
        }
    }
}
impl<C> AddAssign for Vector3d<C>
where
    C: Component,
{
    fn add_assign(&mut self, other: Self) {
        *self = *self + other;
    }
}
impl<C> Sub for Vector3d<C>
where
    C: Component,
{
    type Output = Self;
    fn sub(self, rhs: Self) -> Self {
        Self {
            x: self.x - rhs.x,
            y: self.y - rhs.y,
            z: self.z - rhs.z,
        }
    }
}
impl<C> SubAssign for Vector3d<C>
where
    C: Component,
{
    fn sub_assign(&mut self, other: Self) {
        *self = *self - other;
    }
}
impl<C> Mul for Vector3d<C>
where
    C: Component,
{
    type Output = Self;
    fn mul(self, rhs: Self) -> Self {
        self.cross(rhs)
    }
}
impl<C> Mul<C> for Vector3d<C>
where
    C: Component,
{
    type Output = Self;
    fn mul(self, rhs: C) -> Self {
        Self {
            x: self.x * rhs,
            y: self.y * rhs,
            z: self.z * rhs,
        }
    }
}
impl<C> MulAssign<C> for Vector3d<C>
where
    C: Component,
{
    fn mul_assign(&mut self, rhs: C) {
        *self = *self * rhs;
    }
}
impl<C> Div<C> for Vector3d<C>
where
    C: Component,
{
    type Output = Self;
    fn div(self, rhs: C) -> Self {
        Self {
            x: self.x / rhs,
            y: self.y / rhs,
            z: self.z / rhs,
        }
    }
}
impl<C> DivAssign<C> for Vector3d<C>
where
    C: Component,
{
    fn div_assign(&mut self, rhs: C) {
        self.x = self.x / rhs;
        self.y = self.y / rhs;
        self.z = self.z / rhs;
    }
}
impl<C> Sum<Vector3d<C>> for Vector3d<C>
where
    C: Component,
{
    fn sum<I: Iterator<Item = Vector3d<C>>>(iter: I) -> Self {
        iter.fold(Vector3d::default(), |prev, current| prev + current)
    }
}
impl<'a, C> Sum<&'a Vector3d<C>> for Vector3d<C>
where
    C: Component + 'a,
{
    fn sum<I: Iterator<Item = &'a Vector3d<C>>>(iter: I) -> Self {
        iter.copied().sum()
    }
}
impl From<I8x3> for F32x3 {
    fn from(vector: I8x3) -> F32x3 {
        Self {
            x: vector.x.into(),
            y: vector.y.into(),
            z: vector.z.into(),
        }
    }
}
impl From<I16x3> for F32x3 {
    fn from(vector: I16x3) -> F32x3 {
        Self {
            x: vector.x.into(),
            y: vector.y.into(),
            z: vector.z.into(),
        }
    }
}
impl From<U8x3> for F32x3 {
    fn from(vector: U8x3) -> F32x3 {
        Self {
            x: vector.x.into(),
            y: vector.y.into(),
            z: vector.z.into(),
        }
    }
}
impl From<U16x3> for F32x3 {
    fn from(vector: U16x3) -> F32x3 {
        Self {
            x: vector.x.into(),
            y: vector.y.into(),
            z: vector.z.into(),
        }
    }
}
impl From<Vector3d<F32>> for F32x3 {
    fn from(vector: Vector3d<F32>) -> F32x3 {
        Self {
            x: vector.x.into(),
            y: vector.y.into(),
            z: vector.z.into(),
        }
    }
}
#[cfg(feature = ""defmt"")]
#[cfg_attr(docsrs, doc(cfg(feature = ""defmt"")))]
impl<C> defmt::Format for Vector3d<C>
where
    C: Component + defmt::Format,
{
    fn format(&self, fmt: defmt::Formatter<'_>) {
        defmt::write!(fmt, ""({}, {}, {})"", self.x, self.y, self.z)
    }
}
".

Definition sources2 : list string :=
  [ src_f32ext;
    src_lib;
    src_quaternion;
    src_statistics;
    src_statistics_mean;
    src_statistics_stddev;
    src_statistics_trim;
    src_statistics_variance;
    src_vector;
    src_vector_commutative;
    src_vector_component;
    src_vector_iter;
    src_vector_vector2d;
    src_vector_vector3d ].
